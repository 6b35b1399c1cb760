(** Property C82: the timeout a user sets is the one the link uses.  Vocabulary: TimeoutModel.v. *)
From Coq Require Import QArith Lqa Lia.
From Verif Require Import Base BaseFacts UtilsModel TimeoutModel.
Open Scope Q_scope.

(** ** TcpMaster *)
(** Spec: the timeout given last, and calls that only set positive ones. *)
Definition last_timeout (first : Q) (calls : list tcall) : Q :=
  fold_left (fun t c => match c with TSetTimeout (Some q) => q | _ => t end) calls first.
Definition positive (c : tcall) : Prop := match c with TSetTimeout (Some q) => 0 < q | TSetTimeout None => False | _ => True end.

Definition sound (q : Q) (m : tmaster) : Prop :=
  tm_timeout m = Some q /\ forall w, tm_sock m = Some w -> w = Shut \/ w = AtMost q.
Lemma set_positive m q : 0 < q ->
  sound q (fst (tset_timeout m (Some q))) /\
  (tm_sock m <> Some Shut -> snd (tset_timeout m (Some q)) = Ok tt /\ (tm_sock m <> None -> tm_sock (fst (tset_timeout m (Some q))) = Some (AtMost q))).
Proof.
  intros H. unfold tset_timeout. cbn. destruct (tm_sock m) as [w|] eqn:S; [|cbn; repeat split; cbn; auto; congruence].
  destruct w; try (destruct (Qlt_le_dec 0 q) as [L|L]; [|exfalso; lra]); cbn; repeat split; cbn; auto; try congruence;
    intros ? E; rewrite ?S in E; injection E as <-; auto.
Qed.
Lemma do_open_sound o m q : 0 < q -> tm_timeout m = Some q ->
  sound q (fst (tdo_open o m)) /\ (snd (tdo_open o m) = Ok tt -> tm_sock (fst (tdo_open o m)) = Some (AtMost q)).
Proof.
  intros H T. destruct o; cbn [tdo_open].
  - rewrite T. destruct (set_positive (with_sock m (Some Blocking)) q H) as [A B]. destruct (tset_timeout _ _) as [m' r]. cbn in *.
    destruct B as [-> B]; [discriminate|]. split; [exact A|]. intros _. apply B. discriminate.
  - cbn. split; [|discriminate]. split; [exact T|]. intros w E. cbn in E. destruct (tm_sock m); [injection E as <-; auto|discriminate].
  - rewrite T. destruct (set_positive (with_sock m (Some Blocking)) q H) as [A B]. destruct (tset_timeout _ _) as [m' r]. cbn in *.
    destruct B as [-> B]; [discriminate|]. split; [exact A|]. discriminate.
Qed.
Lemma open_sound o m q : 0 < q -> sound q m -> sound q (fst (topen o m)).
Proof.
  intros H S. unfold topen. destruct (tm_opened m); [exact S|]. destruct (do_open_sound o m q H (proj1 S)) as [A _].
  destruct (tdo_open o m) as [m' [?|?]]; exact A.
Qed.
Lemma execute_sound o1 lost o2 m q : 0 < q -> sound q m ->
  sound q (fst (texecute o1 lost o2 m)) /\ (snd (texecute o1 lost o2 m) = Ok tt -> tm_sock (fst (texecute o1 lost o2 m)) = Some (AtMost q)).
Proof.
  intros H S. unfold texecute. pose proof (open_sound o1 m q H S) as O. destruct (topen o1 m) as [m' [?|?]]; cbn in O; [|cbn; split; [exact O|discriminate]].
  pose proof (do_open_sound o2 m' q H (proj1 O)) as D.
  destruct lost; [exact D|]. destruct (tm_sock m') as [w|] eqn:W; [|exact D]. destruct (proj2 O w W) as [-> | ->]; [exact D|]. cbn. auto.
Qed.
Lemma step_sound c m q : 0 < q -> sound q m -> positive c -> sound (last_timeout q [c]) (fst (tcall_step m c)).
Proof.
  intros H S P. destruct c as [[t|]|o| |o1 l o2]; cbn [last_timeout fold_left tcall_step].
  - now apply set_positive.
  - destruct P.
  - now apply open_sound.
  - unfold tclose. destruct (tm_opened m); [|exact S]. destruct (tm_sock m) eqn:W; [|exact S]. split; [exact (proj1 S)|discriminate].
  - now apply execute_sound.
Qed.
Lemma last_positive calls q : 0 < q -> Forall positive calls -> 0 < last_timeout q calls.
Proof.
  intros H F. revert q H. induction F as [|c l P F IH]; intros q H; [exact H|]. cbn. apply IH. destruct c as [[t|]| | |]; cbn in *; auto.
Qed.
Lemma calls_sound calls q m : 0 < q -> sound q m -> Forall positive calls -> sound (last_timeout q calls) (tcalls calls m).
Proof.
  intros H S F. revert q m H S. induction F as [|c l P F IH]; intros q m H S; [exact S|]. cbn. apply (IH (last_timeout q [c])).
  - apply last_positive; auto.
  - now apply step_sound.
Qed.
(** After any history of calls with positive timeouts, whatever the network did: get_timeout() is the last timeout set; the socket in use
    waits for that long, no longer and no shorter, also after reconnections; set_timeout returns (unless the socket is one that could not
    be replaced) and takes effect at once; a call that reaches its exchange has such a socket. *)
Theorem C82_tcp : forall first calls, 0 < first -> Forall positive calls ->
  let m := tcalls calls (new_tmaster (Some first)) in
  let t := last_timeout first calls in
  tm_timeout m = Some t /\
  (forall w, tm_sock m = Some w -> w = Shut \/ w = AtMost t) /\
  (forall q, 0 < q -> tm_sock m <> Some Shut -> snd (tset_timeout m (Some q)) = Ok tt) /\
  (forall q, 0 < q -> tm_sock m = Some (AtMost t) -> tm_sock (fst (tset_timeout m (Some q))) = Some (AtMost q)) /\
  (forall o1 lost o2, snd (texecute o1 lost o2 m) = Ok tt -> tm_sock (fst (texecute o1 lost o2 m)) = Some (AtMost t)).
Proof.
  intros first calls H F m t. assert (S : sound t m) by (apply calls_sound; auto; split; [reflexivity|discriminate]).
  assert (P : 0 < t) by now apply last_positive.
  split; [exact (proj1 S)|]. split; [exact (proj2 S)|]. repeat split.
  - intros q Q W. now apply (set_positive m q Q).
  - intros q Q W. apply (set_positive m q Q); rewrite W; discriminate.
  - intros o1 lost o2. now apply execute_sound.
Qed.
Example C82_tcp_ex :
  let calls := [TExecuteCall TConnects false TConnects; TSetTimeout (Some (1 # 2)); TExecuteCall TConnects true TRefused; TExecuteCall TConnects false TConnects; TCloseCall; TOpenCall TConnects] in
  Forall positive calls /\ tm_sock (tcalls calls (new_tmaster (Some 5))) = Some (AtMost (1 # 2)).
Proof. split; [repeat constructor|reflexivity]. Qed.
(** set_timeout(0) makes the socket not wait at all. *)
Theorem C82_zero : forall m w, tm_sock m = Some w -> w <> Shut ->
  tset_timeout m (Some 0) = ({| tm_timeout := Some 0; tm_opened := tm_opened m; tm_sock := Some NonBlocking |}, Ok tt).
Proof. intros m w W N. unfold tset_timeout. cbn [tm_sock]. rewrite W.
  destruct (Qlt_le_dec 0 0) as [L|_]; [exfalso; lra|]. destruct (Qeq_dec 0 0) as [_|X]; [|elim X; reflexivity]. destruct w; reflexivity || congruence.
Qed.
(** open() leaves the master open (opening again does nothing), and so does a call; close() leaves no socket, and the next call opens one. *)
Theorem C82_open_close : forall o m,
  (snd (topen o m) = Ok tt -> tm_opened (fst (topen o m)) = true /\ forall o', topen o' (fst (topen o m)) = (fst (topen o m), Ok tt)) /\
  (forall lost o2, snd (texecute o lost o2 m) = Ok tt -> tm_opened (fst (texecute o lost o2 m)) = true) /\
  (forall w, tm_opened m = true -> tm_sock m = Some w -> tclose m = ({| tm_timeout := tm_timeout m; tm_opened := false; tm_sock := None |}, Ok tt)).
Proof.
  intros o m. assert (K : forall o m, snd (topen o m) = Ok tt -> tm_opened (fst (topen o m)) = true).
  { clear. intros o m. unfold topen. destruct (tm_opened m) eqn:E; [now intros _|]. destruct (tdo_open o m) as [m' [[]|e]]; [reflexivity|discriminate]. }
  assert (D : forall o m, tm_opened (fst (tdo_open o m)) = tm_opened m).
  { clear. intros o m. destruct o; cbn [tdo_open]; [|reflexivity|];
      unfold tset_timeout; cbn [with_sock tm_sock tm_opened]; destruct (tm_timeout m) as [q|]; try reflexivity;
      destruct (Qlt_le_dec 0 q); try reflexivity; destruct (Qeq_dec q 0); reflexivity. }
  split; [|split].
  - intros H. pose proof (K o m H) as T. split; [exact T|]. intros o'. unfold topen at 1. rewrite T. reflexivity.
  - intros lost o2. unfold texecute. pose proof (K o m) as K1. destruct (topen o m) as [m' [[]|e]]; [|discriminate]. specialize (K1 eq_refl). cbn [fst] in K1.
    destruct lost; [intros _; now rewrite D|]. destruct (tm_sock m') as [[| | |]|]; intros _; try (now rewrite D); exact K1.
  - intros w O W. unfold tclose. now rewrite O, W.
Qed.
(** A timeout of None, which elsewhere in Python means to wait for ever, makes the master unusable: whatever is called (but a set_timeout
    with a number), open() and execute() always raise. *)
Theorem C82_none_refuted : forall calls, Forall (fun c => forall q, c <> TSetTimeout (Some q)) calls ->
  let m := tcalls calls (new_tmaster None) in
  (forall o, exists e, snd (topen o m) = Err e) /\ (forall o1 lost o2, exists e, snd (texecute o1 lost o2 m) = Err e).
Proof.
  intros calls F.
  assert (D : forall o m, tm_timeout m = None -> tm_opened m = false ->
            (exists e, snd (tdo_open o m) = Err e) /\ tm_timeout (fst (tdo_open o m)) = None /\ tm_opened (fst (tdo_open o m)) = false).
  { intros o m T O. destruct o; cbn; rewrite ?T; cbn; eauto. }
  assert (Op : forall o m, tm_timeout m = None -> tm_opened m = false ->
            (exists e, snd (topen o m) = Err e) /\ tm_timeout (fst (topen o m)) = None /\ tm_opened (fst (topen o m)) = false).
  { intros o m T O. unfold topen. rewrite O. destruct (D o m T O) as ((e & E) & A & B). destruct (tdo_open o m) as [m' r]. cbn in *. subst r. cbn. eauto. }
  assert (G : forall l m, Forall (fun c => forall q, c <> TSetTimeout (Some q)) l -> tm_timeout m = None -> tm_opened m = false ->
            tm_timeout (tcalls l m) = None /\ tm_opened (tcalls l m) = false).
  { clear F. induction l as [|c l IH]; intros m F T O; [auto|]. inversion F as [|? ? C F']; subst. cbn. apply IH; [exact F'|..].
    - destruct c as [[q|]|o| |o1 lo o2]; cbn.
      + now elim (C q).
      + unfold tset_timeout. cbn. destruct (tm_sock m); reflexivity.
      + apply Op; auto.
      + unfold tclose. now rewrite O.
      + unfold texecute. destruct (Op o1 m T O) as ((e & E) & A & B). destruct (topen o1 m) as [m' r]. cbn in *. subst r. exact A.
    - destruct c as [[q|]|o| |o1 lo o2]; cbn.
      + now elim (C q).
      + unfold tset_timeout. cbn. destruct (tm_sock m); exact O.
      + apply Op; auto.
      + unfold tclose. now rewrite O.
      + unfold texecute. destruct (Op o1 m T O) as ((e & E) & A & B). destruct (topen o1 m) as [m' r]. cbn in *. subst r. exact B. }
  intros m. destruct (G calls (new_tmaster None) F eq_refl eq_refl) as [T O]. split.
  - intros o. apply Op; auto.
  - intros o1 lost o2. unfold texecute. destruct (Op o1 m T O) as ((e & E) & _). destruct (topen o1 m) as [m' r]. cbn in *. subst r. cbn. eauto.
Qed.
(** A set_timeout that raises is not without effect: get_timeout() reports the refused value, the socket does not wait any more, and
    no later reconnection succeeds. *)
Theorem C82_refused_refuted : exists m q, tm_opened m = true /\ tm_sock m = Some (AtMost 5) /\
  snd (tset_timeout m (Some q)) = Err PyValueError /\
  let m' := fst (tset_timeout m (Some q)) in
  tm_timeout m' = Some q /\ tm_sock m' = Some NonBlocking /\ forall o, exists e, snd (tdo_open o m') = Err e.
Proof.
  exists {| tm_timeout := Some 5; tm_opened := true; tm_sock := Some (AtMost 5) |}, (-1 # 1). repeat split. intros o.
  destruct o; cbn; eauto.
Qed.

(** ** Serial *)
(** Spec: the silences of the Modbus specification for serial lines: 3.5 and 1.5 characters of 11 bits up to 19200 Bd, 1.75 ms and 0.75 ms
    above. *)
Definition silence (chars : Q) (baudrate : Z) : Q :=
  if (baudrate <=? 19200)%Z then chars * 11 / inject_Z baudrate else chars * (1 # 2000).
(** A master and a server made with the default settings wait for these silences, whatever timeout the port had before. *)
Theorem C82_serial_defaults : forall before baudrate, (0 < baudrate)%Z ->
  (exists m f c, new_rmaster before baudrate (3 # 2) (7 # 2) None = Some m /\
     rm_timeout m = Some f /\ rm_serial m = Some f /\ f == silence (7 # 2) baudrate /\ rm_inter_byte m = c /\ c == silence (3 # 2) baudrate /\
     0 < c /\ c < f /\ rm_sw m = false) /\
  (exists s f c, new_rserver baudrate (3 # 2) (7 # 2) = Some s /\
     rs_timeout s = Some f /\ rs_serial s = Some f /\ f == silence (7 # 2) baudrate /\ rs_inter_byte s = c /\ c == silence (3 # 2) baudrate).
Proof.
  intros before b H.
  assert (K : exists t, calculate_rtu_inter_char b = Some t /\ 0 < t /\ forall k, k * t == silence k b).
  { unfold calculate_rtu_inter_char, silence. destruct (b <=? 19200)%Z.
    - replace (b =? 0)%Z with false by (symmetry; apply Z.eqb_neq; lia). eexists. split; [reflexivity|].
      assert (P : 0 < inject_Z b) by (change 0 with (inject_Z 0); rewrite <- Zlt_Qlt; exact H). split.
      + change (0 < 11 / inject_Z b). apply Qlt_shift_div_l; [exact P|lra].
      + intros k. change (inject_Z 11) with 11. field. lra.
    - eexists. split; [reflexivity|]. split; [reflexivity|]. intros k. reflexivity. }
  destruct K as (t & E & P & S). unfold new_rmaster, new_rserver. rewrite E. split.
  - do 3 eexists. split; [reflexivity|]. cbn. repeat split; auto; try lra.
  - do 3 eexists. split; [reflexivity|]. cbn. repeat split; auto.
Qed.
(** A character time given to the constructor is used instead; 0 counts as not given. *)
Theorem C82_t0 : forall before baudrate k1 k2 t0, 
  (~ t0 == 0 -> exists m, new_rmaster before baudrate k1 k2 (Some t0) = Some m /\ rm_timeout m = Some (k2 * t0) /\ rm_serial m = Some (k2 * t0) /\ rm_inter_byte m = k1 * t0) /\
  (t0 == 0 -> new_rmaster before baudrate k1 k2 (Some t0) = new_rmaster before baudrate k1 k2 None).
Proof.
  intros before b k1 k2 t0. unfold new_rmaster. split; intros H; destruct (Qeq_dec t0 0); try contradiction; [|reflexivity].
  eexists. split; [reflexivity|]. auto.
Qed.
(** After any sequence of set_timeout: port and get_timeout() agree on the last value; whether time is measured in software is what the last
    call said: a call without the argument switches it off. *)
Theorem C82_serial_set : forall m calls t sw,
  let m' := fold_left (fun m c => rset_timeout m (fst c) (snd c)) (calls ++ [(t, sw)]) m in
  rm_timeout m' = t /\ rm_serial m' = t /\ rm_sw m' = sw /\ rm_inter_byte m' = rm_inter_byte m.
Proof.
  intros m calls t sw m'. unfold m'. rewrite fold_left_app. cbn. repeat split.
  clear. revert m. induction calls as [|c l IH]; intros m; [reflexivity|]. cbn [fold_left]. rewrite IH. reflexivity.
Qed.

(** A call on an open master whose connection is lost connects again, once: it goes on exactly if that works. *)
Theorem C82_reconnect : forall first calls o1 o2, 0 < first -> Forall positive calls -> let m := tcalls calls (new_tmaster (Some first)) in
  tm_opened m = true -> (snd (tcall_step m (TExecuteCall o1 true o2)) = Ok tt <-> o2 = TConnects).
Proof.
  intros first calls o1 o2 H F m O. destruct (C82_tcp first calls H F) as (T & _). fold m in T. pose proof (last_positive calls first H F) as P. set (t := last_timeout first calls) in *. clearbody t m.
  unfold tcall_step, texecute, topen. rewrite O. unfold tdo_open. destruct o2; cbn [snd].
  - unfold tset_timeout. cbn [with_sock tm_sock tm_opened tm_timeout]. rewrite T. destruct (Qlt_le_dec 0 t); [|exfalso; lra]. split; reflexivity.
  - split; discriminate.
  - unfold tset_timeout. cbn [with_sock tm_sock tm_opened tm_timeout]. rewrite T. destruct (Qlt_le_dec 0 t); [|exfalso; lra]. split; discriminate.
Qed.
Example C82_reconnect_ex : tm_opened (tcalls [TOpenCall TConnects] (new_tmaster (Some 5))) = true.
Proof. reflexivity. Qed.
Print Assumptions C82_tcp.
Print Assumptions C82_open_close.
Print Assumptions C82_zero.
Print Assumptions C82_none_refuted.
Print Assumptions C82_refused_refuted.
Print Assumptions C82_serial_defaults.
Print Assumptions C82_t0.
Print Assumptions C82_serial_set.
Print Assumptions C82_reconnect.
