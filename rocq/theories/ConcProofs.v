(** Operations that hold their object's lock from beginning to end happen one at a time. *)
From Verif Require Import Base BaseFacts ConcModel ConcSpec.
From Coq Require Import Lia.

Fixpoint code_induction {S O} (P : code S O -> Prop) (HD : forall o, P (Done o))
  (HM : forall f, (forall s, P (snd (f s))) -> P (Micro f)) (c : code S O) : P c :=
  match c with
  | Done o => HD o
  | Micro f => HM f (fun s => code_induction P HD HM (let (_, c') := f s in c'))
  end.

Lemma run_andthen {S A B} (c : code S A) (k : A -> code S B) s :
  run (andthen c k) s = let (s', a) := run c s in run (k a) s'.
Proof.
  revert s. induction c as [a|f IH] using code_induction; intros s; [reflexivity|].
  cbn. pose proof (IH s) as H. destruct (f s) as [s' c'] eqn:E. cbn in H. apply H.
Qed.

Section Lin.
Context {S Op O : Type} (sem : Op -> code S O) (atomic : S -> Op -> S * O).
Hypothesis sem_atomic : forall op s, run (sem op) s = atomic s op.
Notation machine := (machine S Op O). Notation thread := (thread S Op O).
Notation move := (move true sem). Notation moves := (moves true sem).

Lemma upd_same {A} (f : Z -> A) k a : upd f k a k = a.
Proof. unfold upd. now rewrite Z.eqb_refl. Qed.
Lemma upd_other {A} (f : Z -> A) k a x : x <> k -> upd f k a x = f x.
Proof. intros H. unfold upd. now apply Z.eqb_neq in H as ->. Qed.

(** Objects nobody is working on are as the calls made so far left them; an object somebody is working
    on will, when he is done, be as after his call. *)
Definition inv (m : machine) (sigma : Z -> S) : Prop :=
  (forall k, match m_lock m k with
             | None => m_obj m k = sigma k
             | Some i => exists th op c, nth_error (m_threads m) i = Some th /\ th_now th = Some (k, op, c)
                                         /\ run c (m_obj m k) = atomic (sigma k) op
             end)
  /\ (forall i th k op c, nth_error (m_threads m) i = Some th -> th_now th = Some (k, op, c) -> m_lock m k = Some i).

Lemma nth_upd {A} (l : list A) i v x j y :
  nth_error l i = Some x -> nth_error (list_upd l i v) j = Some y -> (j = i /\ y = v) \/ (j <> i /\ nth_error l j = Some y).
Proof.
  intros N H. destruct (Nat.eq_dec j i) as [->|D].
  - left. rewrite list_upd_same in H by (apply nth_error_Some; congruence). now inversion H.
  - right. rewrite list_upd_other in H by auto. auto.
Qed.
Lemma nth_upd_same {A} (l : list A) i v x : nth_error l i = Some x -> nth_error (list_upd l i v) i = Some v.
Proof. intros N. apply list_upd_same. apply nth_error_Some. congruence. Qed.

Definition done_now (m : machine) (i : nat) : list event :=
  match nth_error (m_threads m) i with
  | Some th => match th_now th with Some (k, op, Done o) => [(i, k, op, o)] | _ => [] end
  | None => []
  end.

Lemma inv_move m sigma h init i :
  inv m sigma -> sequential atomic init h sigma ->
  exists sigma', inv (move m i) sigma' /\ sequential atomic init (h ++ done_now m i) sigma'.
Proof.
  intros [I1 I2] Sq. unfold move, done_now. destruct (nth_error (m_threads m) i) as [th|] eqn:N.
  2: { exists sigma. rewrite app_nil_r. split; [split; assumption|assumption]. }
  destruct (th_now th) as [[[k op] c]|] eqn:W.
  - pose proof (I2 _ _ _ _ _ N W) as L. pose proof (I1 k) as K. rewrite L in K.
    destruct K as (th' & op' & c' & N' & W' & R). rewrite N in N'. injection N' as <-. rewrite W in W'. injection W' as <- <-.
    destruct c as [o|f].
    + (* return *)
      cbn in R. exists (upd sigma k (m_obj m k)). split.
      * split; cbn [m_obj m_lock m_threads].
        -- intros x. destruct (Z.eq_dec x k) as [->|D].
           ++ now rewrite !upd_same.
           ++ rewrite !upd_other by auto. pose proof (I1 x) as K. destruct (m_lock m x) as [j|] eqn:LX; [|exact K].
              destruct K as (tj & oj & cj & Nj & Wj & Rj). assert (j <> i) by (intros ->; congruence).
              exists tj, oj, cj. rewrite list_upd_other by auto. auto.
        -- intros j tj x oj cj Nj Wj. destruct (nth_upd _ _ _ _ _ _ N Nj) as [[-> ->]|[D Nj']]; [discriminate Wj|].
           pose proof (I2 _ _ _ _ _ Nj' Wj) as LX. assert (x <> k) by (intros ->; congruence). now rewrite upd_other.
      * eapply seq_snoc; [eassumption|symmetry; exact R|apply upd_same|]. intros x D. now apply upd_other.
    + (* one access *)
      destruct (f (m_obj m k)) as [s' c'] eqn:F. rewrite app_nil_r. exists sigma. split; [|assumption].
      split; cbn [m_obj m_lock m_threads].
      * intros x. destruct (Z.eq_dec x k) as [->|D].
        -- rewrite L, upd_same. eexists _, op, c'. split; [now apply nth_upd_same with th|]. split; [reflexivity|].
           cbn in R. now rewrite F in R.
        -- rewrite upd_other by auto. pose proof (I1 x) as K. destruct (m_lock m x) as [j|] eqn:LX; [|exact K].
           destruct K as (tj & oj & cj & Nj & Wj & Rj). assert (j <> i) by (intros ->; congruence).
           exists tj, oj, cj. rewrite list_upd_other by auto. auto.
      * intros j tj x oj cj Nj Wj. destruct (nth_upd _ _ _ _ _ _ N Nj) as [[-> ->]|[D Nj']].
        -- cbn in Wj. injection Wj as <- <- <-. exact L.
        -- eapply I2; eassumption.
  - rewrite app_nil_r. exists sigma. split; [|assumption].
    destruct (th_next th (th_done th)) as [[k op]|] eqn:T; [|split; assumption].
    destruct (m_lock m k) as [j|] eqn:L; [split; assumption|].
    split; cbn [m_obj m_lock m_threads].
    + intros x. destruct (Z.eq_dec x k) as [->|D].
      * rewrite upd_same. eexists _, op, (sem op). split; [now apply nth_upd_same with th|]. split; [reflexivity|].
        rewrite sem_atomic. pose proof (I1 k) as K. rewrite L in K. now rewrite K.
      * rewrite upd_other by auto. pose proof (I1 x) as K. destruct (m_lock m x) as [j|] eqn:LX; [|exact K].
        destruct K as (tj & oj & cj & Nj & Wj & Rj). assert (j <> i) by (intros ->; congruence).
        exists tj, oj, cj. rewrite list_upd_other by auto. auto.
    + intros j tj x oj cj Nj Wj. destruct (nth_upd _ _ _ _ _ _ N Nj) as [[-> ->]|[D Nj']].
      * cbn in Wj. injection Wj as <- <- <-. apply upd_same.
      * pose proof (I2 _ _ _ _ _ Nj' Wj) as LX. assert (x <> k) by (intros ->; congruence). now rewrite upd_other.
Qed.

Lemma inv_moves sched m sigma h init :
  inv m sigma -> sequential atomic init h sigma ->
  exists sigma', inv (moves sched m) sigma' /\ sequential atomic init (h ++ returned true sem sched m) sigma'.
Proof.
  revert m sigma h. induction sched as [|i sched IH]; intros m sigma h I Sq.
  - exists sigma. cbn. rewrite app_nil_r. auto.
  - destruct (inv_move m sigma h init i I Sq) as (s1 & I' & Sq').
    destruct (IH _ _ _ I' Sq') as (s2 & I'' & Sq''). exists s2. split; [exact I''|].
    cbn [returned]. unfold done_now in Sq''. now rewrite <- app_assoc in Sq''.
Qed.

Lemma inv_start init progs : inv (start init progs) init.
Proof.
  split; cbn [start m_obj m_lock m_threads]; [reflexivity|]. intros i th k op c N W.
  rewrite nth_error_map in N. destruct (nth_error progs i); [|discriminate]. injection N as <-. discriminate W.
Qed.

(** Threads keep their programs and record their calls. *)
Lemma calls_app i (h1 h2 : list (@event Op O)) : calls_of i (h1 ++ h2) = calls_of i h1 ++ calls_of i h2.
Proof. induction h1 as [|[[[j k] op] o] h1 IH]; [reflexivity|]. cbn. destruct (Nat.eqb i j); cbn; now rewrite IH. Qed.

(** a thread's record is right: what it did and is doing is what its program calls *)
Definition honest (p : list (Z * Op * O) -> option (Z * Op)) (th : thread) : Prop :=
  th_next th = p /\ follows p (th_done th)
  /\ match th_now th with Some (k, op, _) => p (th_done th) = Some (k, op) | None => True end.

Lemma follows_snoc (p : list (Z * Op * O) -> option (Z * Op)) done k op o : follows p done -> p done = Some (k, op) -> follows p (done ++ [(k, op, o)]).
Proof.
  intros F P before k' op' o' after E. destruct (exists_last (l := (k', op', o') :: after)) as (l & x & El); [discriminate|].
  rewrite El, app_assoc in E. apply app_inj_tail in E as [E <-]. destruct l as [|y l].
  - injection El as -> -> -> ->. rewrite app_nil_r in E. now subst.
  - injection El as <- ->. apply (F before k' op' o' l). exact E.
Qed.

Lemma threads_move g m i j th p :
  nth_error (m_threads m) j = Some th -> honest p th ->
  exists th', nth_error (m_threads (ConcModel.move g sem m i)) j = Some th'
              /\ th_done th' = th_done th ++ calls_of j (done_now m i) /\ honest p th'.
Proof.
  intros N Ho. unfold ConcModel.move, done_now. destruct (nth_error (m_threads m) i) as [ti|] eqn:Ni.
  2: { exists th. cbn. rewrite app_nil_r. auto. }
  assert (K : forall ti', (j = i -> th_done ti' = th_done ti ++ calls_of j (done_now m i) /\ (honest p ti -> honest p ti'))
    -> (j <> i -> calls_of j (done_now m i) = [])
    -> exists th', nth_error (list_upd (m_threads m) i ti') j = Some th'
              /\ th_done th' = th_done th ++ calls_of j (done_now m i) /\ honest p th').
  { intros ti' H1 H2. destruct (Nat.eq_dec j i) as [->|D].
    - rewrite Ni in N. injection N as <-. exists ti'. split; [now apply nth_upd_same with ti|]. destruct (H1 eq_refl). auto.
    - exists th. rewrite list_upd_other by auto. rewrite H2 by auto. rewrite app_nil_r. auto. }
  unfold done_now in K. rewrite Ni in K.
  destruct (th_now ti) as [[[k op] [o|f]]|] eqn:W.
  - cbn [m_threads]. apply K; intros D.
    + cbn [th_done]. cbn. subst j. rewrite Nat.eqb_refl. split; [reflexivity|]. intros (P1 & P2 & P3). rewrite W in P3.
      split; [exact P1|]. cbn. split; [now apply follows_snoc|exact I].
    + cbn. now apply Nat.eqb_neq in D as ->.
  - destruct (f (m_obj m k)) as [s' c']. cbn [m_threads]. apply K; intros D; [|reflexivity].
    cbn. rewrite app_nil_r. split; [reflexivity|]. intros (P1 & P2 & P3). rewrite W in P3. split; [exact P1|]. split; assumption.
  - destruct (th_next ti (th_done ti)) as [[k op]|] eqn:T.
    2: { exists th. cbn. rewrite app_nil_r. auto. }
    destruct (if g then m_lock m k else None).
    { exists th. cbn. rewrite app_nil_r. auto. }
    cbn [m_threads]. apply K; intros D; [|reflexivity].
    cbn. rewrite app_nil_r. split; [reflexivity|]. intros (P1 & P2 & P3). split; [exact P1|]. split; [exact P2|]. cbn. now rewrite <- P1.
Qed.

Lemma threads_moves g sched m j th p :
  nth_error (m_threads m) j = Some th -> honest p th ->
  exists th', nth_error (m_threads (ConcModel.moves g sem sched m)) j = Some th'
              /\ th_done th' = th_done th ++ calls_of j (returned g sem sched m) /\ honest p th'.
Proof.
  revert m th. induction sched as [|i sched IH]; intros m th N Ho.
  - exists th. cbn. rewrite app_nil_r. auto.
  - destruct (threads_move g m i j th p N Ho) as (t1 & N1 & D1 & I1). destruct (IH _ _ N1 I1) as (t2 & N2 & D2 & I2).
    exists t2. split; [exact N2|]. split; [|exact I2]. rewrite D2, D1. cbn [returned]. rewrite calls_app.
    unfold done_now. now rewrite app_assoc.
Qed.

Lemma move_length g m i : length (m_threads (ConcModel.move g sem m i)) = length (m_threads m).
Proof.
  unfold ConcModel.move. destruct (nth_error (m_threads m) i) as [th|]; [|reflexivity].
  destruct (th_now th) as [[[k op] [o|f]]|].
  - apply list_upd_length.
  - destruct (f (m_obj m k)). apply list_upd_length.
  - destruct (th_next th (th_done th)) as [[k op]|]; [|reflexivity]. destruct (if g then m_lock m k else None); [reflexivity|]. apply list_upd_length.
Qed.
Lemma moves_length g sched m : length (m_threads (ConcModel.moves g sem sched m)) = length (m_threads m).
Proof. revert m. induction sched as [|i r IH]; intros m; [reflexivity|]. cbn. fold (ConcModel.moves g sem r (ConcModel.move g sem m i)). now rewrite IH, move_length. Qed.

Theorem one_at_a_time init progs sched :
  let m0 := start init progs in
  let m := moves sched m0 in
  let h := returned true sem sched m0 in
  exists final, sequential atomic init h final
    /\ (forall k, m_lock m k = None -> m_obj m k = final k)
    /\ (forall i p, nth_error progs i = Some p -> follows p (calls_of i h)).
Proof.
  intros m0 m h.
  destruct (inv_moves sched m0 init [] init (inv_start init progs) (seq_nil _ _ _ (fun _ => eq_refl))) as (fin & Iv & Sq).
  exists fin. split; [exact Sq|]. split.
  - intros k L. destruct Iv as [I1 _]. pose proof (I1 k) as K. fold m in K. now rewrite L in K.
  - intros i p N. destruct (threads_moves true sched m0 i {| th_next := p; th_now := None; th_done := [] |} p) as (th & H1 & H2 & H3).
    { cbn. now rewrite nth_error_map, N. }
    { split; [reflexivity|]. cbn. split; [|exact Logic.I]. intros [|x b] k op o aft E; discriminate. }
    cbn in H2. unfold h. rewrite <- H2. apply H3.
Qed.

(** What the objects go through. *)
Lemma sequential_object init h final k :
  sequential atomic init h final -> final k = fold_left (fun s o => fst (atomic s o)) (on_object k h) (init k).
Proof.
  assert (A : forall a b, @on_object Op O k (a ++ b) = on_object k a ++ on_object k b).
  { induction a as [|[[[j k'] op] o] a IH]; intros b; [reflexivity|]. cbn. destruct (k' =? k); cbn; now rewrite IH. }
  induction 1 as [final E|h before i k' op s' o final Sq IH At E1 E2]; [apply E|].
  rewrite A. cbn. destruct (k' =? k) eqn:Q.
  - apply Z.eqb_eq in Q as ->. rewrite fold_left_app. cbn. rewrite <- IH, At. exact E1.
  - rewrite app_nil_r, <- IH. apply E2. apply Z.eqb_neq in Q. auto.
Qed.

(** What holds of every object between calls, however the calls are interleaved. *)
Lemma sequential_invariant (P : Z -> S -> Prop) (A : Z -> Op -> Prop) (Q : Z -> Op -> O -> Prop) init h final :
  (forall k, P k (init k)) ->
  (forall k s op, P k s -> A k op -> P k (fst (atomic s op)) /\ Q k op (snd (atomic s op))) ->
  sequential atomic init h final ->
  (forall i k op o, In (i, k, op, o) h -> A k op) ->
  (forall k, P k (final k)) /\ (forall i k op o, In (i, k, op, o) h -> Q k op o).
Proof.
  intros H0 HS. induction 1 as [final E|h before i k op s' o final Sq IH At E1 E2]; intros HA.
  - split; [intros k; rewrite E; auto|intros i k op o []].
  - destruct IH as [IP IQ]. { intros. eapply HA, in_or_app. left. eassumption. }
    destruct (HS k (before k) op (IP k)) as [P1 Q1]. { eapply HA, in_or_app. right. left. reflexivity. }
    rewrite At in P1, Q1. cbn in P1, Q1. split.
    + intros x. destruct (Z.eq_dec x k) as [->|D]; [now rewrite E1|]. rewrite E2 by auto. apply IP.
    + intros j x op' o' Hin. apply in_app_or in Hin as [Hin|[Hin|[]]]; [eapply IQ; eassumption|]. injection Hin as -> -> -> ->. exact Q1.
Qed.

(** ** Nobody waits for ever *)

Lemma moves_app g s1 s2 m : ConcModel.moves g sem (s1 ++ s2) m = ConcModel.moves g sem s2 (ConcModel.moves g sem s1 m).
Proof. apply fold_left_app. Qed.

(** what a thread's move does to the others *)
Lemma move_others g m i j : j <> i -> nth_error (m_threads (ConcModel.move g sem m i)) j = nth_error (m_threads m) j.
Proof.
  intros D. unfold ConcModel.move. destruct (nth_error (m_threads m) i) as [th|]; [|reflexivity].
  destruct (th_now th) as [[[k op] [o|f]]|].
  - cbn. apply list_upd_other; auto.
  - destruct (f (m_obj m k)). cbn. apply list_upd_other; auto.
  - destruct (th_next th (th_done th)) as [[k op]|]; [|reflexivity]. destruct (if g then m_lock m k else None); [reflexivity|]. cbn. apply list_upd_other; auto.
Qed.

(** A thread inside a call can finish it. *)
Lemma finish_call m i th :
  nth_error (m_threads m) i = Some th ->
  exists sched th', nth_error (m_threads (moves sched m)) i = Some th' /\ th_now th' = None /\ th_next th' = th_next th
    /\ (forall j, j <> i -> nth_error (m_threads (moves sched m)) j = nth_error (m_threads m) j).
Proof.
  intros N. destruct (th_now th) as [[[k op] c]|] eqn:W.
  2: { exists [], th. cbn. auto. }
  revert m th N W. induction c as [o|f IH] using code_induction; intros m th N W.
  - exists [i]. cbn. exists {| th_next := th_next th; th_now := None; th_done := th_done th ++ [(k, op, o)] |}.
    split; [|split; [reflexivity|split; [reflexivity|]]].
    + unfold move. rewrite N, W. cbn. now apply nth_upd_same with th.
    + intros j D. now apply move_others.
  - destruct (f (m_obj m k)) as [s' c'] eqn:F.
    set (t1 := {| th_next := th_next th; th_now := Some (k, op, c'); th_done := th_done th |}).
    assert (N1 : nth_error (m_threads (move m i)) i = Some t1).
    { unfold move. rewrite N, W, F. cbn. now apply nth_upd_same with th. }
    pose proof (IH (m_obj m k)) as IH'. rewrite F in IH'. cbn in IH'.
    destruct (IH' _ _ N1 eq_refl) as (sched & th' & H1 & H2 & H3 & H4).
    exists (i :: sched), th'. cbn. fold (moves sched (move m i)). split; [exact H1|]. split; [exact H2|]. split; [exact H3|].
    intros j D. rewrite H4 by auto. now apply move_others.
Qed.

Lemma idle_locks m sigma : inv m sigma -> (forall i th, nth_error (m_threads m) i = Some th -> th_now th = None) -> forall k, m_lock m k = None.
Proof.
  intros [I1 _] H k. pose proof (I1 k) as K. destruct (m_lock m k) as [i|]; [|reflexivity].
  destruct K as (th & op & c & N & W & _). pose proof (H _ _ N). congruence.
Qed.

Definition rest_ok (m : machine) (n : nat) := forall i th, (i < n)%nat -> nth_error (m_threads m) i = Some th -> th_now th = None.

Lemma finish_calls m n : exists sched, rest_ok (moves sched m) n.
Proof.
  induction n as [|n [s H]].
  - exists []. intros i th L. lia.
  - destruct (nth_error (m_threads (moves s m)) n) as [th|] eqn:N.
    + destruct (finish_call _ _ _ N) as (s' & th' & H1 & H2 & _ & H4). exists (s ++ s'). rewrite moves_app.
      intros i t L Ni. destruct (Nat.eq_dec i n) as [->|D]; [congruence|]. rewrite H4 in Ni by auto. eapply H; [|eassumption]. lia.
    + exists s. intros i t L Ni. destruct (Nat.eq_dec i n) as [->|D]; [congruence|]. eapply H; [|eassumption]. lia.
Qed.

Definition idle (m : machine) := forall i th, nth_error (m_threads m) i = Some th -> th_now th = None.

Lemma moves_cons g i s m : ConcModel.moves g sem (i :: s) m = ConcModel.moves g sem s (ConcModel.move g sem m i).
Proof. reflexivity. Qed.

Lemma all_idle init progs sched : exists more, idle (moves (sched ++ more) (start init progs)).
Proof.
  set (m0 := start init progs).
  destruct (finish_calls (moves sched m0) (length (m_threads (moves sched m0)))) as [s1 R].
  exists s1. rewrite moves_app. intros i th N. eapply R; [|exact N]. rewrite <- (moves_length true s1).
  apply nth_error_Some. congruence.
Qed.

(** Whatever has happened, a thread that is in a call or wants to make one can still return from it. *)
Theorem no_deadlock init progs sched i p :
  let m0 := start init progs in
  nth_error progs i = Some p ->
  let so_far := calls_of i (returned true sem sched m0) in
  p so_far <> None ->
  exists more call, calls_of i (returned true sem (sched ++ more) m0) = so_far ++ [call].
Proof.
  intros m0 N so_far W.
  assert (N0 : nth_error (m_threads m0) i = Some {| th_next := p; th_now := None; th_done := [] |}).
  { cbn. now rewrite nth_error_map, N. }
  assert (Hon : honest p {| th_next := p; th_now := None; th_done := [] |}).
  { split; [reflexivity|]. cbn. split; [|exact Logic.I]. intros [|x b] k op o aft E; discriminate. }
  (* some schedule after which thread i has made one more call *)
  assert (K : forall s th, nth_error (m_threads (moves s m0)) i = Some th -> th_now th <> None ->
     exists more call, calls_of i (returned true sem (s ++ more) m0) = calls_of i (returned true sem s m0) ++ [call]).
  { intros s th Nt Wt. destruct (th_now th) as [[[k op] c]|] eqn:Et; [|congruence]. clear Wt.
    revert s th Nt Et. induction c as [o|f IH] using code_induction; intros s th Nt Et.
    - exists [i], (k, op, o).
      destruct (threads_moves true s m0 i _ p N0 Hon) as (t1 & N1 & D1 & _).
      destruct (threads_moves true (s ++ [i]) m0 i _ p N0 Hon) as (t2 & N2 & D2 & _).
      cbn in D1, D2. rewrite <- D1, <- D2. rewrite Nt in N1. injection N1 as <-.
      rewrite moves_app in N2. cbn in N2. unfold move in N2. rewrite Nt, Et in N2. cbn in N2. rewrite (nth_upd_same _ _ _ _ Nt) in N2.
      injection N2 as <-. reflexivity.
    - destruct (f (m_obj (moves s m0) k)) as [s' c'] eqn:F.
      set (t1 := {| th_next := th_next th; th_now := Some (k, op, c'); th_done := th_done th |}).
      assert (N1 : nth_error (m_threads (moves (s ++ [i]) m0)) i = Some t1).
      { rewrite moves_app. cbn. unfold move. rewrite Nt, Et, F. cbn. now apply nth_upd_same with th. }
      pose proof (IH (m_obj (moves s m0) k)) as IH'. rewrite F in IH'. cbn in IH'.
      destruct (IH' _ _ N1 eq_refl) as (more & call & E). exists (i :: more), call.
      change (i :: more) with ([i] ++ more). rewrite app_assoc, E. f_equal.
      destruct (threads_moves true s m0 i _ p N0 Hon) as (t2 & N2 & D2 & _).
      destruct (threads_moves true (s ++ [i]) m0 i _ p N0 Hon) as (t3 & N3 & D3 & _).
      cbn in D2, D3. rewrite <- D2, <- D3. rewrite Nt in N2. injection N2 as <-. rewrite N1 in N3. injection N3 as <-. reflexivity. }
  destruct (threads_moves true sched m0 i _ p N0 Hon) as (th & Nt & Dt & Ht). cbn in Dt.
  destruct (th_now th) as [c|] eqn:Et.
  { eapply K; [exact Nt|congruence]. }
  (* thread i waits: let the others finish, then let it enter *)
  assert (Others : forall n, exists s, nth_error (m_threads (moves (sched ++ s) m0)) i = Some th
            /\ forall j tj, (j < n)%nat -> nth_error (m_threads (moves (sched ++ s) m0)) j = Some tj -> th_now tj = None).
  { induction n as [|n (s & Ni & Hn)].
    - exists []. rewrite app_nil_r. split; [exact Nt|]. intros j tj L. lia.
    - destruct (Nat.eq_dec n i) as [->|Dn].
      + exists s. split; [exact Ni|]. intros j tj L Nj. destruct (Nat.eq_dec j i) as [->|D]; [congruence|]. eapply Hn; [|exact Nj]. lia.
      + destruct (nth_error (m_threads (moves (sched ++ s) m0)) n) as [tn|] eqn:Nn.
        * destruct (finish_call _ _ _ Nn) as (s' & tn' & H1 & H2 & _ & H4). exists (s ++ s'). rewrite app_assoc, moves_app.
          split; [rewrite H4 by auto; exact Ni|]. intros j tj L Nj. destruct (Nat.eq_dec j n) as [->|D]; [congruence|].
          rewrite H4 in Nj by auto. eapply Hn; [|exact Nj]. lia.
        * exists s. split; [exact Ni|]. intros j tj L Nj. destruct (Nat.eq_dec j n) as [->|D]; [congruence|]. eapply Hn; [|exact Nj]. lia. }
  destruct (Others (length (m_threads m0))) as (s & Ni & Hn).
  destruct (inv_moves (sched ++ s) m0 init [] init (inv_start init progs) (seq_nil _ _ _ (fun _ => eq_refl))) as (fin & Iv & _).
  assert (Id : idle (moves (sched ++ s) m0)).
  { intros j tj Nj. eapply Hn; [|exact Nj]. rewrite <- (moves_length true (sched ++ s)). apply nth_error_Some. congruence. }
  destruct Ht as (P1 & _ & _). unfold so_far in W. rewrite <- Dt in W. destruct (p (th_done th)) as [[k op]|] eqn:Pn; [|congruence].
  pose proof (idle_locks _ _ Iv Id k) as L.
  set (t1 := {| th_next := th_next th; th_now := Some (k, op, sem op); th_done := th_done th |}).
  assert (N1 : nth_error (m_threads (moves ((sched ++ s) ++ [i]) m0)) i = Some t1).
  { rewrite moves_app. cbn. unfold move. rewrite Ni, Et, P1, Pn, L. cbn. rewrite <- P1. now apply nth_upd_same with th. }
  destruct (K _ _ N1) as (more & call & E); [discriminate|]. exists (s ++ [i] ++ more), call.
  rewrite !app_assoc in *. rewrite E. f_equal. unfold so_far. rewrite <- Dt.
  destruct (threads_moves true (sched ++ s ++ [i]) m0 i _ p N0 Hon) as (t3 & N3 & D3 & _). cbn in D3.
  rewrite !app_assoc in *. rewrite <- D3. rewrite N1 in N3. injection N3 as <-. reflexivity.
Qed.
End Lin.
