(** C75: RtuServer.stop() returns even when nothing is ever received. *)
From Coq Require Import List Bool Arith Lia.
Import ListNotations.
From Verif Require Import RtuStopModel.

(** How many steps the server's thread made; how many of its reads found bytes. *)
Definition server_steps (l : list ractor) : nat :=
  length (filter (fun a => match a with ByServer _ => true | _ => false end) l).
Definition receptions (l : list ractor) : nat :=
  length (filter (fun a => match a with ByServer Bytes => true | _ => false end) l).
(** Opening the port has always worked. *)
Definition opens_work (l : list ractor) : Prop := ~ In (ByServer OpenFails) l.

(** ** Invariant *)
Definition past_cancel (u : upc) : bool := match u with UStop4 | UStop5 | UJoin | UDone => true | _ => false end.
Definition before_stop (u : upc) : bool := match u with UStart1 | UStart2 | UStart3 | UBetween | UStop1 => true | _ => false end.
Record inv (s : rsys) : Prop := {
  i_forever : p_forever (r_port s) = true -> match r_thread s with RFirst | RClose1 | ROpen1 | RTimeout => True | _ => False end;
  i_block : before_stop (r_user s) = false -> r_block s = false;
  i_open : match r_thread s with RNew | RInit | ROpen1 | ROpen2 | RDead => True | _ => p_open (r_port s) = true end;
  i_cancel : past_cancel (r_user s) = true ->
     match r_thread s with RForever | RFirst => p_cancelled (r_port s) = true | _ => True end;
  i_go : match r_user s with UJoin => r_go s = false | _ => True end;
  i_done : match r_user s with UDone => r_thread s = RDead | _ => True end;
  i_new : match r_user s with UStart1 | UStart2 | UStart3 => r_thread s = RNew | _ => r_thread s <> RNew end
}.
Ltac crush :=
  repeat match goal with
  | H : inv _ |- _ => destruct H
  | |- inv _ => split
  end; cbn in *; intros; try congruence; try discriminate; try tauto; auto.
Lemma inv_start : forall o c, inv (rtu_before o c).
Proof. intros; split; cbn; intros; congruence || exact I || auto. Qed.
Lemma inv_step : forall s a, a <> ByServer OpenFails -> inv s -> inv (ract s a).
Proof.
  intros [[o fv ca] b g t u] a Ha H. destruct a as [|f]; cbn [ract].
  - destruct u; cbn [user_step r_user]; destruct t, o, fv, ca; crush.
  - assert (Hf : f <> OpenFails) by congruence. clear Ha.
    destruct t, f, o, fv, ca, b, g, u; try (exfalso; clear - Hf; congruence); crush; specialize (i_block0 eq_refl); discriminate.
Qed.
Lemma inv_reach : forall l s, opens_work l -> inv s -> inv (racts l s).
Proof.
  induction l as [|a l IH]; intros s Hl H; [exact H|]. cbn. apply IH.
  - intro K. apply Hl. right; exact K.
  - apply inv_step; [|exact H]. intro K. apply Hl. left; exact K.
Qed.

(** ** Once stop() waits for the thread *)
Definition rank (t : rpc) : nat :=
  match t with
  | RDead => 0 | RExit => 1 | RTest => 2 | RHandle => 3 | RInit => 3 | ROpen2 => 4 | RClose2 => 5 | RRest => 6 | RTimeout => 7
  | ROpen1 => 8 | RClose1 => 9 | RFirst => 10 | RForever => 11 | RBlock => 12 | RNew => 0
  end.
Record joining (s : rsys) : Prop := {
  j_user : match r_user s with UJoin => True | UDone => r_thread s = RDead | _ => False end;
  j_go : r_user s = UJoin -> r_go s = false;
  j_block : r_block s = false;
  j_first : match r_thread s with RForever | RFirst => p_cancelled (r_port s) = true | RRest | RBlock => p_forever (r_port s) = false | RNew => False | _ => True end
}.
Ltac crushj :=
  repeat match goal with
  | H : joining _ |- _ => destruct H
  | |- joining _ => split
  end; cbn in *; intros; try congruence; try discriminate; try tauto; auto.
Lemma inv_joining : forall s, inv s -> r_user s = UJoin \/ r_user s = UDone -> joining s.
Proof.
  intros [[o fv ca] b g t u] H Hu. cbn in Hu. destruct Hu as [-> | ->]; destruct H; cbn in *; split; cbn; auto.
  - destruct t, fv; cbn in *; auto; try (exfalso; exact (i_forever0 eq_refl)); try (destruct (i_new0 eq_refl)).
  - discriminate.
  - subst t. exact I.
Qed.
Lemma joining_step : forall s a, joining s -> joining (ract s a).
Proof.
  intros [[o fv ca] b g t u] a H. destruct a as [|f]; cbn [ract].
  - destruct u; try (destruct H; cbn in *; tauto); destruct t; crushj.
  - destruct u; try (destruct H; cbn in *; tauto).
    + assert (g = false) by (destruct H; cbn in *; auto). assert (b = false) by (destruct H; cbn in *; auto). subst g b.
      destruct t, f, o, fv, ca; crushj.
    + destruct t; crushj.
Qed.
Lemma rank_step : forall s f, joining s -> r_thread s <> RDead ->
  rank (r_thread (thread_step s f)) + 1 <= rank (r_thread s) + (match f with Bytes => 1 | _ => 0 end).
Proof.
  intros [[o fv ca] b g t u] f H Ht.
  destruct u; try (destruct H; cbn in *; tauto).
  assert (g = false) by (destruct H; cbn in *; auto). assert (b = false) by (destruct H; cbn in *; auto). subst g b.
  destruct H as [_ _ _ H]; cbn in H, Ht.
  destruct t; try congruence; try tauto; destruct f, o, fv, ca; cbn in *; try discriminate; lia.
Qed.
Lemma dead_stays : forall l s, r_thread s = RDead -> joining s -> r_thread (racts l s) = RDead.
Proof.
  induction l as [|a l IH]; intros s H J; [exact H|]. cbn. apply IH; [|apply joining_step; exact J].
  destruct s as [p b g t u]; cbn in H; subst t. destruct a; [|reflexivity].
  destruct J as [J _ _ _]. cbn in J. destruct u; cbn in *; tauto || reflexivity.
Qed.
Lemma thread_kept : forall s, joining s -> r_thread (user_step s) = r_thread s.
Proof. intros [p b g t u] [J _ _ _]. cbn in J. destruct u; cbn in *; try tauto; destruct t; reflexivity. Qed.
Lemma runs_out : forall l s, joining s -> rank (r_thread s) + receptions l <= server_steps l -> r_thread (racts l s) = RDead.
Proof.
  induction l as [|a l IH]; intros s J H.
  - cbn in *. destruct J as [_ _ _ J]. destruct (r_thread s); cbn in H; try lia; tauto || reflexivity.
  - assert (D : r_thread s = RDead \/ r_thread s <> RDead) by (destruct (r_thread s); auto; right; discriminate).
    destruct D as [D|D]; [apply dead_stays; assumption|].
    cbn [racts fold_left]. apply IH; [apply joining_step; exact J|].
    destruct a as [|f]; cbn [ract].
    + rewrite thread_kept by exact J. exact H.
    + generalize (rank_step s f J D). unfold server_steps, receptions in *. cbn [filter] in H. cbn [length] in H.
      destruct f; cbn [length] in H; lia.
Qed.
Definition caller_steps (l : list ractor) : nat := length (filter (fun a => match a with ByCaller => true | _ => false end) l).
(** how far the caller has come *)
Definition progress (u : upc) : nat :=
  match u with UStart1 => 0 | UStart2 => 1 | UStart3 => 2 | UBetween => 3 | UStop1 => 4 | UStop2 => 5 | UStop3 => 6 | UStop4 => 7
  | UStop5 => 8 | UJoin => 9 | UDone => 10 end.
Lemma caller_progress : forall l s, Nat.min 9 (progress (r_user s) + caller_steps l) <= progress (r_user (racts l s)).
Proof.
  induction l as [|a l IH]; intro s; [unfold caller_steps, racts; cbn [filter length fold_left]; lia|].
  cbn [racts fold_left]. specialize (IH (ract s a)).
  assert (K : Nat.min 9 (progress (r_user s) + (match a with ByCaller => 1 | _ => 0 end)) <= progress (r_user (ract s a))).
  { destruct s as [p b g t u]. destruct a as [|f].
    - destruct u; cbn; try lia; [destruct (p_open p)|destruct t|destruct t]; cbn; lia.
    - assert (E : r_user (ract {| r_port := p; r_block := b; r_go := g; r_thread := t; r_user := u |} (ByServer f)) = u).
      { destruct t; cbn; try reflexivity; repeat (match goal with |- context [match ?x with _ => _ end] => destruct x eqn:? end; cbn; try reflexivity). }
      rewrite E. cbn [r_user]. lia. }
  unfold caller_steps in *. cbn [filter]. destruct a as [|f]; cbn [length]; unfold racts in *; lia.
Qed.

(** ** C75 *)

(** Whatever was received, whatever failed to be read, in whichever order caller and thread moved: when stop() has been called and the
    line has fallen silent (at most [receptions after] further reads find something) stop() returns, and the thread has ended.
    As long as reopening the port after a failed read always worked (otherwise: C75_refuted). *)
Theorem C75_stop_returns_partial : forall opened cancelled before after,
  opens_work before ->
  9 <= caller_steps before ->
  12 + receptions after <= server_steps after ->
  let s := ract (racts (before ++ after) (rtu_before opened cancelled)) ByCaller in
  r_user s = UDone /\ r_thread s = RDead.
Proof.
  intros o c l1 l2 Hw Hc Hs. unfold racts. rewrite fold_left_app. change (fold_left ract l2 (fold_left ract l1 (rtu_before o c))) with (racts l2 (racts l1 (rtu_before o c))).
  set (m := racts l1 (rtu_before o c)).
  assert (Hi : inv m) by (apply inv_reach; [exact Hw|apply inv_start]).
  assert (Hu : r_user m = UJoin \/ r_user m = UDone).
  { generalize (caller_progress l1 (rtu_before o c)). fold m. cbn [r_user rtu_before progress]. intro K.
    rewrite Nat.add_0_l, Nat.min_l in K by exact Hc. destruct (r_user m); cbn in K; auto; exfalso; lia. }
  assert (J : joining m) by (apply inv_joining; assumption).
  assert (D : r_thread (racts l2 m) = RDead).
  { apply runs_out; [exact J|]. assert (rank (r_thread m) <= 12) by (destruct (r_thread m); cbn; lia). lia. }
  assert (J2 : joining (racts l2 m)).
  { clear -J. revert J. generalize m. induction l2 as [|a l IH]; intros x J; [exact J|]. cbn. apply IH, joining_step, J. }
  cbn zeta. cbn [ract]. split.
  - destruct (racts l2 m) as [p b g t u]. destruct J2 as [J2 _ _ _]. cbn in *. subst t. destruct u; cbn in *; tauto || reflexivity.
  - rewrite thread_kept; assumption.
Qed.
(** a request is received and answered, then the line is silent for ever, the thread is in a read without timeout: stop() *)
Definition busy_server : list ractor :=
  [ByCaller; ByCaller; ByCaller] ++ map ByServer [Nothing; Nothing; Nothing; Nothing; Bytes; Nothing; Bytes; Nothing; Nothing; Nothing; Nothing; Nothing].
Example C75_nonvacuous :
  let s := racts busy_server (rtu_before false false) in
  r_thread s = RFirst /\ p_forever (r_port s) = true /\ r_user s = UBetween /\
  (forall n, racts (repeat (ByServer Nothing) n) s = s) /\
  let s2 := racts (busy_server ++ repeat ByCaller 6) (rtu_before false false) in
  r_user s2 = UJoin /\ r_thread s2 = RFirst /\
  r_user (ract (racts ((busy_server ++ repeat ByCaller 6) ++ repeat (ByServer Nothing) 12) (rtu_before false false)) ByCaller) = UDone.
Proof.
  cbn zeta. repeat split. intro n. induction n as [|n IH]; [reflexivity|]. cbn [repeat racts fold_left]. exact IH.
Qed.

(** Refuted: when reopening the port failed once (and works again later) the port has been left without timeout, and stop() may wait
    for ever. *)
Definition reopen_failed : list ractor :=
  [ByCaller; ByCaller; ByCaller] ++
  map ByServer [Nothing; Nothing; Nothing; Nothing; ReadFails; Nothing; OpenFails; Nothing] ++   (* 272 raises: 273 is skipped *)
  [ByCaller; ByCaller] ++                                                                     (* stop(): no blocking read any more *)
  map ByServer [Nothing; Nothing; Nothing; Nothing; Nothing] ++                                (* the port is open again *)
  [ByCaller; ByCaller] ++ map ByServer [Nothing; Nothing; Nothing; Nothing; Nothing; Nothing] ++ (* cancel_read() ends one read(128) *)
  [ByCaller; ByCaller].
Theorem C75_refuted : exists before, 9 <= caller_steps before /\
  forall after, (forall f, In (ByServer f) after -> f = Nothing) ->
    r_user (racts (before ++ after) (rtu_before true false)) = UJoin.
Proof.
  exists reopen_failed. split; [vm_compute; lia|].
  intros after H. unfold racts. rewrite fold_left_app.
  set (s := fold_left ract reopen_failed (rtu_before true false)).
  assert (E : forall a, (forall f, a = ByServer f -> f = Nothing) -> ract s a = s).
  { intros a Ha. destruct a as [|f]; [vm_compute; reflexivity|]. rewrite (Ha f eq_refl). vm_compute. reflexivity. }
  assert (F : forall l, (forall f, In (ByServer f) l -> f = Nothing) -> fold_left ract l s = s).
  { induction l as [|a l IH]; intro Hl; [reflexivity|]. cbn [fold_left]. rewrite E.
    - apply IH. intros f Hf. apply Hl. right; exact Hf.
    - intros f ->. apply Hl. left; reflexivity. }
  rewrite F by exact H. vm_compute. reflexivity.
Qed.

(** stop() does not interrupt a request that is being received: it waits until the line falls silent. *)
Theorem C75_babble : exists before, 9 <= caller_steps before /\ opens_work before /\
  forall n, r_user (racts (before ++ repeat (ByServer Bytes) n) (rtu_before true false)) = UJoin /\
            r_thread (racts (before ++ repeat (ByServer Bytes) n) (rtu_before true false)) = RRest.
Proof.
  exists (repeat ByCaller 3 ++ map ByServer [Nothing; Nothing; Nothing; Nothing; Bytes; Nothing] ++ repeat ByCaller 6 ++ [ByServer Bytes]).
  split; [vm_compute; lia|]. split; [intro K; cbn in K; repeat (destruct K as [K|K]; [discriminate K|]); exact K|].
  intro n. unfold racts. rewrite fold_left_app.
  match goal with |- context [fold_left ract (repeat (ByServer Bytes) n) ?x] => set (s := x) end.
  assert (F : fold_left ract (repeat (ByServer Bytes) n) s = s).
  { induction n as [|n IH]; [reflexivity|]. cbn [repeat fold_left]. replace (ract s (ByServer Bytes)) with s by (vm_compute; reflexivity). exact IH. }
  rewrite F. vm_compute. split; reflexivity.
Qed.

Print Assumptions C75_stop_returns_partial.
Print Assumptions C75_refuted.
Print Assumptions C75_babble.
