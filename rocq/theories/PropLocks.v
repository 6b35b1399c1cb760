(** Property C55: deadlocks.  Vocabulary: LockModel.v. *)
From Coq Require Import Lia.
From Verif Require Import Base BaseFacts LockModel.

(** The order in which the library takes its locks. *)
Definition rank (l : lock) : nat :=
  match l with LExecute => 0 | LData _ => 1 | LHooks => 2 | LDatabank _ => 3 | LTransaction => 3 end.
(** Holding [held], the actions only acquire locks that come after all held ones, or locks already held;
    locks are released in reverse order, all of them in the end. *)
Fixpoint ordered (held : list lock) (todo : list action) : Prop :=
  match todo with
  | [] => held = []
  | Acquire l :: rest => (In l held \/ forall x, In x held -> (rank x < rank l)%nat) /\ ordered (l :: held) rest
  | Release l :: rest => exists h, held = l :: h /\ ordered h rest
  end.

Lemma lock_eqb_eq a b : lock_eqb a b = true <-> a = b.
Proof.
  destruct a, b; cbn; split; intros H; try congruence; try discriminate.
  - apply Z.eqb_eq in H. congruence.
  - injection H as ->. apply Z.eqb_refl.
  - apply Z.eqb_eq in H. congruence.
  - injection H as ->. apply Z.eqb_refl.
Qed.
Lemma holds_in l t : holds_lock l t = true <-> In l (lk_held t).
Proof.
  unfold holds_lock. rewrite existsb_exists. split.
  - intros (x & H & E). apply lock_eqb_eq in E. now subst.
  - intros H. exists l. split; [exact H|now apply lock_eqb_eq].
Qed.
Lemma taken_spec l i ts : taken_by_other l i ts = true <-> exists j t, j <> i /\ nth_error ts j = Some t /\ In l (lk_held t).
Proof.
  revert i. induction ts as [|t ts IH]; intros i.
  - split; intros H; [destruct i; discriminate H|]. destruct H as (j & t & _ & H & _). destruct j; discriminate H.
  - destruct i as [|i]; cbn [taken_by_other].
    + rewrite existsb_exists. split.
      * intros (x & Hx & E). apply In_nth_error in Hx as [j Hj]. exists (S j), x. cbn. repeat split; auto. now apply holds_in.
      * intros ([|j] & x & Hn & Hj & E); [congruence|]. exists x. split; [eapply nth_error_In; exact Hj|now apply holds_in].
    + rewrite orb_true_iff, IH, holds_in. split.
      * intros [H|(j & x & Hn & Hj & E)]; [exists O, t; cbn; auto|exists (S j), x; cbn; auto].
      * intros ([|j] & x & Hn & Hj & E); cbn in Hj; [injection Hj as <-; now left|right; exists j, x; auto].
Qed.

Definition good (ts : list locker) : Prop :=
  (forall i t, nth_error ts i = Some t -> ordered (lk_held t) (lk_todo t)) /\
  (forall i j t u l, nth_error ts i = Some t -> nth_error ts j = Some u -> In l (lk_held t) -> In l (lk_held u) -> i = j).

Lemma nth_upd {A} (l : list A) i v x j y :
  nth_error l i = Some x -> nth_error (list_upd l i v) j = Some y -> (j = i /\ y = v) \/ (j <> i /\ nth_error l j = Some y).
Proof.
  intros N H. destruct (Nat.eq_dec j i) as [->|D].
  - left. rewrite list_upd_same in H by (apply nth_error_Some; congruence). now inversion H.
  - right. rewrite list_upd_other in H by auto. auto.
Qed.
Lemma good_move ts i : good ts -> good (lock_move ts i).
Proof.
  intros [G1 G2]. unfold lock_move. destruct (nth_error ts i) as [t|] eqn:N; [|split; assumption].
  pose proof (G1 _ _ N) as O. destruct (lk_todo t) as [|[l|l] rest] eqn:T; [split; assumption| |].
  - destruct (taken_by_other l i ts) eqn:Tk; [split; assumption|].
    assert (NT : forall j u, j <> i -> nth_error ts j = Some u -> ~ In l (lk_held u)).
    { intros j u D Nj Hin. assert (X : taken_by_other l i ts = true) by (apply taken_spec; eauto). congruence. }
    cbn in O. destruct O as [_ O]. split.
    + intros j u Nj. destruct (nth_upd _ _ _ _ _ _ N Nj) as [[-> ->]|[D Nj']]; [exact O|eauto].
    + intros j1 j2 t1 t2 x N1 N2 H1 H2.
      destruct (nth_upd _ _ _ _ _ _ N N1) as [[-> ->]|[D1 N1']]; destruct (nth_upd _ _ _ _ _ _ N N2) as [[-> ->]|[D2 N2']]; auto.
      * cbn in H1. destruct H1 as [<-|H1]; [exfalso; eapply NT; eauto|eapply G2; eauto].
      * cbn in H2. destruct H2 as [<-|H2]; [exfalso; eapply NT; eauto|eapply G2; eauto].
      * eapply G2; eauto.
  - cbn in O. destruct O as (h & E & O). rewrite E. cbn. replace (lock_eqb l l) with true by (symmetry; now apply lock_eqb_eq). split.
    + intros j u Nj. destruct (nth_upd _ _ _ _ _ _ N Nj) as [[-> ->]|[D Nj']]; [exact O|eauto].
    + intros j1 j2 t1 t2 x N1 N2 H1 H2.
      destruct (nth_upd _ _ _ _ _ _ N N1) as [[-> ->]|[D1 N1']]; destruct (nth_upd _ _ _ _ _ _ N N2) as [[-> ->]|[D2 N2']]; auto.
      * eapply (G2 i j2); eauto. rewrite E. now right.
      * eapply (G2 j1 i); eauto. rewrite E. now right.
      * eapply G2; eauto.
Qed.

(** In a good state with unfinished threads somebody can move. *)
Fixpoint work (ts : list locker) : nat := match ts with [] => O | t :: r => (length (lk_todo t) + work r)%nat end.
Lemma work_upd ts i t u : nth_error ts i = Some t -> (length (lk_todo u) < length (lk_todo t))%nat -> (work (list_upd ts i u) < work ts)%nat.
Proof.
  revert i. induction ts as [|x ts IH]; intros [|i] N L; try discriminate; cbn in *.
  - injection N as ->. lia.
  - specialize (IH i N L). lia.
Qed.
Lemma work_zero ts : work ts = 0%nat -> all_through ts.
Proof.
  induction ts as [|t r IH]; intros H u Hu; [destruct Hu|]. cbn in H. destruct Hu as [<-|Hu].
  - destruct (lk_todo t); [reflexivity|cbn in H; lia].
  - apply IH; [lia|exact Hu].
Qed.
Lemma somebody_moves ts : good ts -> (work ts <> 0)%nat -> exists i, (work (lock_move ts i) < work ts)%nat.
Proof.
  intros [G1 G2] W.
  (* blocked i l: thread i waits for l *)
  assert (Cases : (exists i, (work (lock_move ts i) < work ts)%nat) \/
    (forall i t, nth_error ts i = Some t -> lk_todo t <> [] -> exists l rest, lk_todo t = Acquire l :: rest /\ taken_by_other l i ts = true)).
  { assert (K : forall n, (exists i, (work (lock_move ts i) < work ts)%nat) \/
      (forall i t, (i < n)%nat -> nth_error ts i = Some t -> lk_todo t <> [] -> exists l rest, lk_todo t = Acquire l :: rest /\ taken_by_other l i ts = true)).
    { induction n as [|n [IH|IH]]; [right; intros; lia|now left|].
      destruct (nth_error ts n) as [t|] eqn:N.
      2: { right. intros i t L Ni. destruct (Nat.eq_dec i n) as [->|D]; [congruence|]. apply IH; [lia|assumption]. }
      destruct (lk_todo t) as [|[l|l] rest] eqn:T.
      - right. intros i u L Ni. destruct (Nat.eq_dec i n) as [->|D]; [intros X; congruence|]. apply IH; [lia|assumption].
      - destruct (taken_by_other l n ts) eqn:Tk.
        + right. intros i u L Ni X. destruct (Nat.eq_dec i n) as [->|D]; [|apply IH; [lia|assumption..]].
          rewrite N in Ni. injection Ni as <-. eauto.
        + left. exists n. unfold lock_move. rewrite N, T, Tk. eapply work_upd; [exact N|]. rewrite T. cbn. lia.
      - left. exists n. unfold lock_move. rewrite N, T. eapply work_upd; [exact N|]. rewrite T. cbn. lia. }
    destruct (K (length ts)) as [H|H]; [now left|right]. intros i t N. apply H; [|exact N]. apply nth_error_Some. congruence. }
  destruct Cases as [H|B]; [exact H|exfalso].
  (* some thread is unfinished, hence blocked; follow the waiting to ever higher ranks *)
  assert (Up : forall n i t l rest, nth_error ts i = Some t -> lk_todo t = Acquire l :: rest -> (3 - rank l < n)%nat -> False).
  { induction n as [|n IH]; intros i t l rest N T L; [lia|].
    destruct (B i t N) as (l' & rest' & T' & Tk); [congruence|]. rewrite T in T'. injection T' as <- <-.
    apply taken_spec in Tk as (j & u & D & Nj & Hin).
    assert (Tu : lk_todo u <> []). { intros E. pose proof (G1 _ _ Nj) as O. rewrite E in O. cbn in O. rewrite O in Hin. destruct Hin. }
    destruct (B j u Nj Tu) as (l2 & r2 & T2 & Tk2). pose proof (G1 _ _ Nj) as O. rewrite T2 in O. cbn in O. destruct O as [[O|O] _].
    - (* it would already hold what another thread holds *)
      apply taken_spec in Tk2 as (j2 & u2 & D2 & Nj2 & Hin2). apply D2. eapply G2; eauto.
    - specialize (O l Hin). eapply (IH j u l2 r2); eauto. assert (rank l2 <= 3)%nat by (destruct l2; cbn; lia). lia. }
  assert (Ex : exists i t, nth_error ts i = Some t /\ lk_todo t <> []).
  { clear -W. induction ts as [|t r IH]; [cbn in W; congruence|]. destruct (lk_todo t) eqn:T.
    - destruct IH as (i & u & N & H); [cbn in W; rewrite T in W; exact W|]. exists (S i), u. auto.
    - exists O, t. split; [reflexivity|congruence]. }
  destruct Ex as (i & t & N & T). destruct (B i t N T) as (l & rest & T' & _). eapply (Up (4 - rank l)%nat); eauto. destruct l; cbn; lia.
Qed.

(* ------------------------------------------------------------------ C55 *)
(** Threads that take the library's locks in order never block each other for good: whatever has
    happened, everybody can get through. *)
Theorem C55_in_order : forall programs schedule,
  (forall p, In p programs -> ordered [] p) ->
  exists more, all_through (lock_moves (schedule ++ more) (lock_start programs)).
Proof.
  intros programs schedule H.
  assert (G : good (lock_moves schedule (lock_start programs))).
  { assert (G0 : good (lock_start programs)).
    { split.
      - intros i t N. unfold lock_start in N. rewrite nth_error_map in N. destruct (nth_error programs i) eqn:E; [|discriminate]. injection N as <-.
        apply H. eapply nth_error_In. exact E.
      - intros i j t u l N _ Hin. unfold lock_start in N. rewrite nth_error_map in N. destruct (nth_error programs i); [|discriminate]. injection N as <-. destruct Hin. }
    revert G0. generalize (lock_start programs). induction schedule as [|i s IH]; intros ts G0; [exact G0|]. cbn. apply IH. now apply good_move. }
  unfold lock_moves in *. setoid_rewrite fold_left_app. revert G. generalize (fold_left lock_move schedule (lock_start programs)). clear.
  intros ts. remember (work ts) as n eqn:E. revert ts E. induction n as [n IH] using lt_wf_ind. intros ts -> G.
  destruct (Nat.eq_dec (work ts) 0) as [Z|NZ]; [exists []; cbn; now apply work_zero|].
  destruct (somebody_moves ts G NZ) as [i L]. destruct (IH _ L _ eq_refl (good_move ts i G)) as [more A].
  exists (i :: more). exact A.
Qed.

(** What a thread of an application or of a server does: any sequence of the library's calls, [hook] telling
    what installed functions may do. *)
Inductive library_call (hook : list action -> Prop) : list action -> Prop :=
| lc_hooks inside : hook inside -> library_call hook (call_hooks inside)
| lc_change : library_call hook change_hooks
| lc_databank db : library_call hook (databank_call db)
| lc_slave k hooks : (forall h, In h hooks -> hook h) -> library_call hook (slave_call k hooks)
| lc_handle db k before hooks after :
    hook before -> (forall h, In h hooks -> hook h) -> (forall h, In h after -> hook h) ->
    library_call hook (server_handle_call db k before hooks after)
| lc_broadcast before slaves after :
    hook before -> (forall k hooks h, In (k, hooks) slaves -> In h hooks -> hook h) -> (forall h, In h after -> hook h) ->
    library_call hook (server_broadcast_call before slaves after)
| lc_execute tcp hooks : (forall h, In h hooks -> hook h) -> library_call hook (execute_call tcp hooks).
Definition library_thread (hook : list action -> Prop) (p : list action) : Prop :=
  exists calls, (forall c, In c calls -> library_call hook c) /\ p = concat calls.
(** Installed functions that only use databanks and the hook registry. *)
Definition modest (h : list action) : Prop :=
  exists calls, (forall c, In c calls -> c = change_hooks \/ (exists db, c = databank_call db)) /\ h = concat calls.

(** A piece of code that leaves the held locks as they were, and takes its locks in order. *)
Definition fits_in (held : list lock) (p : list action) : Prop := forall rest, ordered held rest -> ordered held (p ++ rest).
Lemma fits_nil held : fits_in held [].
Proof. intros rest H. exact H. Qed.
Lemma fits_app held p q : fits_in held p -> fits_in held q -> fits_in held (p ++ q).
Proof. intros P Q rest H. rewrite <- app_assoc. apply P, Q, H. Qed.
Lemma fits_with held l body :
  (In l held \/ forall x, In x held -> (rank x < rank l)%nat) -> fits_in (l :: held) body -> fits_in held (with_lock l body).
Proof.
  intros H B rest R. unfold with_lock. cbn. split; [exact H|]. rewrite <- app_assoc. apply B. cbn. exists held. auto.
Qed.
Lemma fits_concat held l : (forall c, In c l -> fits_in held c) -> fits_in held (concat l).
Proof.
  induction l as [|c l IH]; intros H; [apply fits_nil|]. cbn. apply fits_app; [apply H; now left|]. apply IH. intros x Hx. apply H. now right.
Qed.
Lemma fits_flat held (f : list action -> list action) l : (forall c, In c l -> fits_in held (f c)) -> fits_in held (flat_map f l).
Proof. intros H. rewrite flat_map_concat_map. apply fits_concat. intros c Hc. apply in_map_iff in Hc as (x & <- & Hx). auto. Qed.

Lemma modest_fits held h : (forall x, In x held -> (rank x < 2)%nat) -> modest h -> fits_in held (call_hooks h).
Proof.
  intros H (calls & HC & ->). apply fits_with; [right; intros x Hx; cbn; auto|]. apply fits_concat. intros c Hc.
  destruct (HC c Hc) as [->|(db & ->)].
  - apply fits_with; [left; now left|apply fits_nil].
  - apply fits_with; [|apply fits_nil]. right. intros x [<-|Hx]; cbn; [lia|]. specialize (H x Hx). lia.
Qed.
Lemma library_ordered p : library_call modest p -> fits_in [] p.
Proof.
  assert (S : forall k hooks, (forall h, In h hooks -> modest h) -> fits_in [] (slave_call k hooks)).
  { intros k hooks H. apply fits_with; [right; intros x []|]. apply fits_flat. intros h Hh. apply modest_fits; auto. intros x [<-|[]]. cbn. lia. }
  assert (D : forall db, fits_in [] (databank_call db)). { intros db. apply fits_with; [right; intros x []|apply fits_nil]. }
  assert (K : forall h, modest h -> fits_in [] (call_hooks h)). { intros h H. apply modest_fits; auto. intros x []. }
  intros [inside H| |db|k hooks H|db k before hooks after H1 H2 H3|before slaves after H1 H2 H3|tcp hooks H].
  - now apply K.
  - apply fits_with; [right; intros x []|apply fits_nil].
  - apply D.
  - now apply S.
  - apply fits_app; [now apply K|]. apply fits_app; [apply D|]. apply fits_app; [now apply S|]. apply fits_flat. auto.
  - apply fits_app; [now apply K|]. apply fits_app; [|apply fits_flat; auto].
    apply fits_concat. intros c Hc. apply in_map_iff in Hc as ([k hooks] & <- & Hin). apply S. intros h Hh. eauto.
  - apply fits_with; [right; intros x []|]. apply fits_app.
    + destruct tcp; [|apply fits_nil]. apply fits_with; [|apply fits_nil]. right. intros x [<-|[]]. cbn. lia.
    + apply fits_flat. intros h Hh. apply modest_fits; auto. intros x [<-|[]]. cbn. lia.
Qed.

(** With installed functions that use at most databanks and the hook registry, no deadlock: whatever
    the threads call and whatever the schedule, all of them can get through.
    (What is missing: installed functions that call slaves or masters.) *)
Theorem C55_partial : forall programs schedule,
  (forall p, In p programs -> library_thread modest p) ->
  exists more, all_through (lock_moves (schedule ++ more) (lock_start programs)).
Proof.
  intros programs schedule H. apply C55_in_order. intros p Hp. destruct (H p Hp) as (calls & HC & ->).
  replace (concat calls) with (concat calls ++ []) by apply app_nil_r. apply fits_concat; [|reflexivity].
  intros c Hc. apply library_ordered. auto.
Qed.
Example C55_ex : exists calls, (* a server thread with a hook that looks at the databank, an application thread that writes to a slave *)
  (forall p, In p [concat calls; slave_call 3 [[]; []]] -> library_thread modest p) /\
  calls = [server_handle_call 0 3 (databank_call 0) [[]; databank_call 0] [change_hooks]].
Proof.
  eexists. split; [|reflexivity]. intros p [<-|[<-|[]]].
  - exists [server_handle_call 0 3 (databank_call 0) [[]; databank_call 0] [change_hooks]]. split; [|reflexivity]. intros c [<-|[]].
    assert (M0 : modest []) by (exists []; split; [intros c []|reflexivity]).
    assert (M1 : modest (databank_call 0)). { exists [databank_call 0]. split; [|reflexivity]. intros c [<-|[]]. right. now exists 0. }
    constructor; [exact M1| |].
    + intros h [<-|[<-|[]]]; assumption.
    + intros h [<-|[]]. exists [change_hooks]. split; [|reflexivity]. intros c [<-|[]]. now left.
  - exists [slave_call 3 [[]; []]]. split; [|reflexivity]. intros c [<-|[]]. constructor. intros h [<-|[<-|[]]]; exists []; split; try reflexivity; intros c [].
Qed.

(** Nobody can move, and somebody is not through. *)
Definition deadlocked (ts : list locker) : Prop :=
  (forall schedule, lock_moves schedule ts = ts) /\ ~ all_through ts.
Lemma stuck_for_ever ts : (forall i, (i < length ts)%nat -> lock_move ts i = ts) -> forall schedule, lock_moves schedule ts = ts.
Proof.
  intros H. induction schedule as [|i s IH]; [reflexivity|]. cbn. destruct (Nat.lt_ge_cases i (length ts)) as [L|L].
  - now rewrite H.
  - unfold lock_move at 2. apply nth_error_None in L. rewrite L. exact IH.
Qed.

(** An installed function that reads a slave deadlocks with a thread that writes to that slave: the
    writer holds the slave's lock and waits for the hook lock, the other way round for the hook. *)
Theorem C55_refuted :
  exists (schedule : list nat) server_hook,
  server_hook = slave_call 3 [] /\
  let programs := [server_handle_call 0 5 server_hook [] [];  (* a server thread; the hook calls get_values of slave 3 *)
                   slave_call 3 [[]]]                        (* set_values on slave 3: one setitem hook call, which does nothing *)
  in deadlocked (lock_moves schedule (lock_start programs)).
Proof.
  exists [0; 1]%nat, (slave_call 3 []). split; [reflexivity|]. split.
  - apply stuck_for_ever. intros [|[|i]] L; [reflexivity|reflexivity|cbn in L; lia].
  - intros H. specialize (H _ (or_introl eq_refl)). discriminate H.
Qed.
(** The same with a hook of one master that uses another master. *)
Theorem C55_execute_refuted :
  exists schedule, deadlocked (lock_moves schedule (lock_start
    [call_hooks (execute_call false []);   (* e.g. a server's hook that forwards a request *)
     execute_call false [[]]])).           (* another thread's execute, which calls hooks *)
Proof.
  exists [0; 1]%nat. split.
  - apply stuck_for_ever. intros [|[|i]] L; [reflexivity|reflexivity|cbn in L; lia].
  - intros H. specialize (H _ (or_introl eq_refl)). discriminate H.
Qed.

Print Assumptions C55_in_order.
Print Assumptions C55_partial.
Print Assumptions C55_refuted.
Print Assumptions C55_execute_refuted.
