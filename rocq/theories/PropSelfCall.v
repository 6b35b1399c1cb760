(** Property C91: start() and stop() called by a hook, in the server's own thread.  Vocabulary: SelfCallModel.v, LifecycleModel.v. *)
From Coq Require Import Lia.
From Verif Require Import Base BaseFacts LifecycleModel PropLifecycle SelfCallModel.

Definition srv (w : hworld) : server := w_server (hw_world w).
Definition hthread (w : hworld) (i : nat) : option tpc := thread_of (hw_world w) i.

(** ** Facts about reachable worlds *)

Definition own (i : nat) (p : upc) : Prop :=
  match p with StartStart t | StopAlive t | StopJoin t => t = i | _ => True end.
Record hok (w : hworld) : Prop := {
  hok_srv : srv_ok (srv w);
  hok_inside : forall i p, hw_inside w i = Some p -> (exists q, nth_error (sv_threads (srv w)) i = Some q /\ hook_runs q = true) /\ own i p;
  hok_calls : forall i c r, In (i, c, r) (hw_calls w) -> r = Err PyRuntimeError
}.
Lemma hook_current q : hook_runs q = true -> current q = true.
Proof. now destruct q. Qed.
Lemma hook_here s i q : srv_ok s -> nth_error (sv_threads s) i = Some q -> hook_runs q = true -> i = sv_thread s.
Proof. intros (_ & _ & H & _) N R. apply (H i q N). now apply hook_current. Qed.

(** other people's moves leave a thread that is in a hook where it is *)
Lemma user_keeps s u i q : nth_error (sv_threads s) i = Some q -> q <> TNew ->
  nth_error (sv_threads (fst (user_move s u))) i = Some q.
Proof.
  intros N D. unfold user_move. destruct (us_now u) as [[|e| |t| |t| |e| |t]|]; try exact N; cbn.
  - destruct (nth_error (sv_threads s) t) as [p|] eqn:Nt; [|exact N]. destruct p; try exact N. cbn.
    rewrite list_upd_other; [exact N|]. congruence.
  - destruct (nth_error (sv_threads s) t) as [p|]; [|exact N]. now destruct (alive p).
  - destruct (nth_error (sv_threads s) t) as [p|]; [|exact N]. now destruct p.
  - destruct (us_todo u) as [|[] ?]; exact N.
Qed.
Lemma thread_keeps s i q j raises : nth_error (sv_threads s) i = Some q -> j <> i ->
  nth_error (sv_threads (thread_move s j raises)) i = Some q.
Proof.
  intros N D. apply thread_move_cases; [exact N| | |].
  - intros p p' _ _ _. cbn. rewrite list_upd_other by auto. exact N.
  - intros _. cbn. pose proof (nth_lt _ _ _ N). rewrite nth_error_app1 by (rewrite len_upd; assumption). now rewrite list_upd_other by auto.
  - intros s' Hs'. exact Hs'.
Qed.
Lemma hook_not_new q : hook_runs q = true -> q <> TNew.
Proof. destruct q; discriminate. Qed.

Lemma inner_ok s i p q : srv_ok s -> nth_error (sv_threads s) i = Some q -> hook_runs q = true -> own i p ->
  srv_ok (fst (inner_move s i p)) /\ sv_threads (fst (inner_move s i p)) = sv_threads s /\
  match snd (inner_move s i p) with inl p' => own i p' | inr r => r = Err PyRuntimeError end.
Proof.
  intros OK N R O. pose proof (hook_here s i q OK N R) as E.
  assert (A : alive q = true) by (destruct q; try discriminate R; reflexivity).
  destruct p; cbn in O |- *; try (split; [exact OK|split; [reflexivity|exact Logic.I || (rewrite <- E; reflexivity)]]).
  - split; [now apply srv_ok_event|]. split; [reflexivity|exact Logic.I].
  - subst t. rewrite N. destruct q; try discriminate R; cbn; auto.
  - subst t. rewrite N, A. cbn. auto.
  - split; [now apply srv_ok_event|]. split; [reflexivity|exact Logic.I].
  - subst t. rewrite Nat.eqb_refl. cbn. auto.
Qed.

Lemma hok_move w a : hok w -> hok (hmove w a).
Proof.
  intros [S I C]. destruct a as [u|i raises|i c]; cbn [hmove].
  - split; cbn.
    + exact (srv_ok_move (hw_world w) (ByUser u) S).
    + intros i p H. destruct (I i p H) as [(q & N & R) O]. split; [|exact O]. exists q. split; [|exact R].
      unfold srv. cbn. destruct (nth_error (w_users (hw_world w)) u) as [us|]; [|exact N].
      pose proof (user_keeps (srv w) us i q N (hook_not_new _ R)) as X. unfold srv in X.
      destruct (user_move (w_server (hw_world w)) us). exact X.
    + exact C.
  - destruct (hw_inside w i) as [p|] eqn:HI.
    + destruct (I i p HI) as [(q & N & R) O]. destruct (inner_ok (srv w) i p q S N R O) as (S' & T' & X).
      fold (srv w). destruct (inner_move (srv w) i p) as [s [p'|r]] eqn:M; cbn in S', T', X; split; cbn; try exact S'; try exact C.
      * intros j pj Hj. unfold set_inside in Hj. destruct (Nat.eqb_spec j i) as [->|D].
        { injection Hj as <-. split; [|exact X]. exists q. unfold srv; cbn. rewrite T'. auto. }
        destruct (I j pj Hj) as [(q' & N' & R') O']. split; [|exact O']. exists q'. unfold srv; cbn. rewrite T'. auto.
      * intros j pj Hj. unfold set_inside in Hj. destruct (Nat.eqb_spec j i) as [->|D]; [discriminate Hj|].
        destruct (I j pj Hj) as [(q' & N' & R') O']. split; [|exact O']. exists q'. unfold srv; cbn. rewrite T'. auto.
      * intros j c r' H. apply in_app_iff in H as [H|[H|[]]]; [now apply (C j c)|]. congruence.
    + split; cbn; try exact C.
      * now apply srv_ok_thread.
      * intros j p Hj. destruct (I j p Hj) as [(q & N & R) O]. split; [|exact O]. exists q. split; [|exact R].
        unfold srv; cbn. apply thread_keeps; [exact N|congruence].
  - destruct (nth_error (sv_threads (w_server (hw_world w))) i) as [q|] eqn:N; [|split; assumption].
    destruct (hw_inside w i) as [p|] eqn:HI; [split; assumption|]. destruct (hook_runs q) eqn:R; [|split; assumption].
    split; cbn; [exact S| |exact C]. intros j p Hj. unfold set_inside in Hj. destruct (Nat.eqb_spec j i) as [->|D].
    + injection Hj as <-. split; [|now destruct c]. exists q. auto.
    + exact (I j p Hj).
Qed.
Lemma hok_reach programs schedule : hok (hmoves schedule (hstart programs)).
Proof.
  assert (G : hok (hstart programs)). { split; cbn; [apply srv_ok_start|discriminate|intros _ _ _ []]. }
  unfold hmoves. revert G. generalize (hstart programs). induction schedule as [|a s IH]; intros w G; [exact G|]. cbn. apply IH. now apply hok_move.
Qed.

(* ------------------------------------------------------------------ C91 *)
(** Whoever else calls what: start() and stop() called by a hook never return, they raise RuntimeError. *)
Theorem C91_raises : forall programs schedule i c r,
  In (i, c, r) (hw_calls (hmoves schedule (hstart programs))) -> r = Err PyRuntimeError.
Proof. intros programs schedule i c r. apply (hok_calls _ (hok_reach programs schedule)). Qed.

(** ... and they do not wait: the call is over after six steps of its own. *)
Definition steps_of (i : nat) (schedule : list hactor) : nat :=
  length (filter (fun a => match a with HThread j _ => Nat.eqb i j | _ => false end) schedule).
Definition rank (p : upc) : nat :=
  match p with
  | StartGo => 4 | StartSet _ => 3 | StartThread => 2 | StartStart _ => 1
  | StopThread => 6 | StopAlive _ => 5 | StopGo => 4 | StopClear _ => 3 | StopThread2 => 2 | StopJoin _ => 1
  end.
Lemma inner_rank s i p q : srv_ok s -> nth_error (sv_threads s) i = Some q -> hook_runs q = true -> own i p ->
  match snd (inner_move s i p) with inl p' => S (rank p') = rank p | inr r => rank p = 1%nat end.
Proof.
  intros OK N R O. assert (A : alive q = true) by (destruct q; try discriminate R; reflexivity).
  destruct p; cbn in O |- *; try reflexivity; subst; rewrite ?N, ?A, ?Nat.eqb_refl; cbn; try reflexivity. destruct q; try discriminate R; reflexivity.
Qed.
Lemma calls_grow w a : exists l, hw_calls (hmove w a) = hw_calls w ++ l.
Proof.
  destruct a as [u|i raises|i c]; cbn; [exists []; now rewrite app_nil_r| |].
  - destruct (hw_inside w i) as [p|]; [|exists []; now rewrite app_nil_r]. destruct (inner_move (w_server (hw_world w)) i p) as [s [p'|r]]; cbn; [exists []; now rewrite app_nil_r|eauto].
  - destruct (nth_error (sv_threads (w_server (hw_world w))) i) as [q|]; [|exists []; now rewrite app_nil_r].
    destruct (hw_inside w i); [exists []; now rewrite app_nil_r|]. destruct (hook_runs q); exists []; now rewrite app_nil_r.
Qed.
Lemma calls_grow_all more w : exists l, hw_calls (hmoves more w) = hw_calls w ++ l.
Proof.
  revert w. induction more as [|a m IH]; intros w; [exists []; now rewrite app_nil_r|]. cbn. destruct (calls_grow w a) as [l1 E1]. destruct (IH (hmove w a)) as [l2 E2].
  exists (l1 ++ l2). change (hw_calls (hmoves m (hmove w a)) = hw_calls w ++ l1 ++ l2). now rewrite E2, E1, app_assoc.
Qed.
Theorem C91_does_not_wait : forall programs schedule i p more,
  let w := hmoves schedule (hstart programs) in
  hw_inside w i = Some p -> (6 <= steps_of i more)%nat ->
  exists l, hw_calls (hmoves more w) = hw_calls w ++ l /\ In (i, call_of p, Err PyRuntimeError) l.
Proof.
  intros programs schedule i p more w HI L. pose proof (hok_reach programs schedule) as OK. fold w in OK. clearbody w.
  assert (G : forall more w p, hok w -> hw_inside w i = Some p -> (rank p <= steps_of i more)%nat ->
              exists l, hw_calls (hmoves more w) = hw_calls w ++ l /\ In (i, call_of p, Err PyRuntimeError) l).
  { clear. intros more. induction more as [|a m IH]; intros w p OK HI L; [exfalso; cbn in L; destruct p; cbn in L; lia|].
    pose proof (hok_move w a OK) as OK'. change (hmoves (a :: m) w) with (hmoves m (hmove w a)).
    destruct (calls_grow w a) as [l1 E1].
    assert (Other : hw_inside (hmove w a) i = Some p -> (rank p <= steps_of i m)%nat -> exists l, hw_calls (hmoves m (hmove w a)) = hw_calls w ++ l /\ In (i, call_of p, Err PyRuntimeError) l).
    { intros H1 H2. destruct (IH _ _ OK' H1 H2) as (l & E & X). exists (l1 ++ l). rewrite E, E1, app_assoc. split; [reflexivity|]. apply in_app_iff. now right. }
    destruct a as [u|j raises|j c].
    - apply Other; [exact HI|exact L].
    - cbn in L. unfold steps_of in L. cbn in L. destruct (Nat.eqb_spec i j) as [<-|D].
      + cbn in L. destruct (hok_inside _ OK i p HI) as [(q & N & R) O].
        pose proof (inner_rank (srv w) i p q (hok_srv _ OK) N R O) as RK. pose proof (inner_ok (srv w) i p q (hok_srv _ OK) N R O) as (_ & _ & X).
        unfold srv in RK, X. cbn [hmove] in *. rewrite HI in *. destruct (inner_move (w_server (hw_world w)) i p) as [s [p'|r]] eqn:M; cbn in RK, X.
        * assert (Cp : call_of p' = call_of p).
          { clear - M O N R. destruct p; cbn in M; try (injection M as <- <-; reflexivity); destruct (nth_error _ _) as [[]|]; cbn in M; try destruct (Nat.eqb t i); try discriminate M; injection M as _ <-; reflexivity. }
          rewrite <- Cp. cbn in E1. destruct (IH _ p' OK') as (l & E & Y); [cbn; unfold set_inside; now rewrite Nat.eqb_refl|fold (steps_of i m) in L; lia|].
          exists l. split; [exact E|exact Y].
        * subst r. destruct (calls_grow_all m (hmove w (HThread i raises))) as [l E]. cbn [hmove] in E. rewrite HI, M in E. cbn in E.
          exists ((i, call_of p, Err PyRuntimeError) :: l). split; [rewrite E, <- app_assoc; reflexivity|now left].
      + apply Other; [|exact L]. cbn. destruct (hw_inside w j) as [p'|]; [|exact HI]. destruct (inner_move (w_server (hw_world w)) j p') as [s [p''|r]]; cbn; unfold set_inside; destruct (Nat.eqb_spec i j); try congruence; exact HI.
    - apply Other; [|exact L]. cbn. destruct (nth_error _ j) as [q|]; [|exact HI]. destruct (hw_inside w j) eqn:Hj; [exact HI|]. destruct (hook_runs q); [|exact HI].
      cbn. unfold set_inside. destruct (Nat.eqb_spec i j) as [<-|D]; [congruence|exact HI]. }
  apply (G more w p OK HI). assert (rank p <= 6)%nat by (destruct p; cbn; lia). lia.
Qed.
Example C91_does_not_wait_ex : exists schedule i p, hw_inside (hmoves schedule (hstart [[UStart]; [UStop]])) i = Some p /\ call_of p = UStop.
Proof. exists (repeat (HUser 0) 5 ++ repeat (HThread 0 false) 3 ++ [HCalls 0 UStop; HThread 0 false]), 0%nat, (StopAlive 0). split; vm_compute; reflexivity. Qed.

(** ** Stopping from a hook works, when nobody starts the server at the same time *)
(** the caller is not in start() and will not call it *)
Definition no_start (u : user) : Prop :=
  match us_now u with Some p => call_of p = UStop | None => True end /\ ~ In UStart (us_todo u).
Definition nobody_starts (w : hworld) : Prop := Forall no_start (w_users (hw_world w)).
Definition no_hook_starts (schedule : list hactor) : Prop := forall i, ~ In (HCalls i UStart) schedule.

(** the thread [i] is in, or through with, stop(): [done] once the flag is cleared *)
Record winding (i : nat) (w : hworld) : Prop := {
  wi_ok : hok w;
  wi_users : nobody_starts w;
  wi_inside : forall j p, hw_inside w j = Some p -> call_of p = UStop /\ (forall e, p = StopClear e -> e = sv_go (srv w) \/ cleared (srv w));
  wi_only : forall j p, nth_error (sv_threads (srv w)) j = Some p -> serving p = true -> j = i;
  wi_here : (i < length (sv_threads (srv w)))%nat
}.
Definition flag_down (i : nat) (w : hworld) : Prop :=
  cleared (srv w) /\ forall e, nth_error (sv_threads (srv w)) i = Some (TTestOn e) -> nth e (sv_events (srv w)) false = false.
Lemma stop_user s u : no_start u ->
  no_start (snd (user_move s u)) /\ (fst (user_move s u) = s \/ exists e, fst (user_move s u) = put_event s e false).
Proof.
  intros [H1 H2]. unfold user_move, no_start. destruct (us_now u) as [[|e| |t| |t| |e| |t]|] eqn:E; try discriminate H1; cbn; auto.
  - destruct (nth_error (sv_threads s) t) as [p|]; [destruct (alive p)|]; cbn; auto.
  - split; [auto|]. right. eauto.
  - destruct (nth_error (sv_threads s) t) as [[]|]; cbn; rewrite ?E; auto.
  - destruct (us_todo u) as [|[] rest] eqn:T; cbn; rewrite ?E, ?T; auto.
    + exfalso. apply H2. now left.
    + split; [|now left]. split; [reflexivity|]. intros X. apply H2. now right.
Qed.
Lemma upd_false_nth e f l : nth e l false = false -> nth e (list_upd l f false) false = false.
Proof.
  intros H. destruct (Nat.eq_dec e f) as [->|D]; [|now rewrite nth_upd_other by exact D].
  destruct (nth_upd_same f l false) as [X|X]; exact X.
Qed.
Lemma thread_serving s i raises j p : nth_error (sv_threads (thread_move s i raises)) j = Some p -> serving p = true ->
  exists q, nth_error (sv_threads s) j = Some q /\ serving q = true.
Proof.
  unfold thread_move. destruct (nth_error (sv_threads s) i) as [q|] eqn:N; [|eauto].
  assert (Put : forall q', serving q = true -> nth_error (sv_threads (put_thread s i q')) j = Some p -> serving p = true -> exists q, nth_error (sv_threads s) j = Some q /\ serving q = true).
  { intros q' Sq X Sp. cbn in X. destruct (nth_upd _ _ _ _ _ _ N X) as [[-> ->]|[D X']]; eauto. }
  destruct q; try (intros X Sp; now eauto); try (apply Put; reflexivity).
  - cbn. intros X Sp. destruct (Nat.lt_ge_cases j (length (list_upd (sv_threads s) i TMakeGo))) as [L|L].
    + rewrite nth_error_app1 in X by exact L. destruct (nth_upd _ _ _ _ _ _ N X) as [[-> ->]|[D X']]; [discriminate Sp|eauto].
    + rewrite nth_error_app2 in X by exact L. destruct (j - _)%nat as [|[|k]]; cbn in X; try discriminate X. injection X as <-. discriminate Sp.
  - cbn. intros X Sp. destruct (nth_upd _ _ _ _ _ _ N X) as [[-> ->]|[D X']]; [discriminate Sp|eauto].
Qed.
Lemma thread_events s i raises : sv_events (thread_move s i raises) = sv_events s /\ sv_go (thread_move s i raises) = sv_go s \/
  sv_events (thread_move s i raises) = sv_events s ++ [false] /\ sv_go (thread_move s i raises) = length (sv_events s).
Proof. unfold thread_move. destruct (nth_error (sv_threads s) i) as [[]|]; cbn; auto. Qed.
Lemma thread_length s i raises : (length (sv_threads s) <= length (sv_threads (thread_move s i raises)))%nat.
Proof. unfold thread_move. destruct (nth_error (sv_threads s) i) as [[]|]; cbn; rewrite ?app_length, ?len_upd; lia. Qed.
Lemma thread_teston s i raises e : nth_error (sv_threads (thread_move s i raises)) i = Some (TTestOn e) ->
  e = sv_go s \/ nth_error (sv_threads s) i = Some (TTestOn e).
Proof.
  unfold thread_move. destruct (nth_error (sv_threads s) i) as [q|] eqn:N; [|intros X; rewrite N in X; discriminate X].
  assert (Put : forall q', nth_error (sv_threads (put_thread s i q')) i = Some (TTestOn e) -> q' = TTestOn e).
  { intros q' X. cbn in X. rewrite list_upd_same in X by (eapply nth_lt; exact N). congruence. }
  destruct q; try (rewrite N; discriminate); try (intros X; apply Put in X; destruct raises; discriminate X).
  - intros X. apply Put in X. injection X as <-. now left.
  - intros X. apply Put in X. destruct (nth e0 (sv_events s) false); discriminate X.
  - cbn. intros X. rewrite nth_error_app1 in X by (rewrite len_upd; eapply nth_lt; exact N). rewrite list_upd_same in X by (eapply nth_lt; exact N). discriminate X.
Qed.
Lemma inner_stop s i p q : srv_ok s -> nth_error (sv_threads s) i = Some q -> hook_runs q = true -> own i p -> call_of p = UStop ->
  (forall e, p = StopClear e -> e = sv_go s \/ cleared s) ->
  let s' := fst (inner_move s i p) in
  sv_go s' = sv_go s /\ sv_threads s' = sv_threads s /\
  (forall k, nth k (sv_events s) false = false -> nth k (sv_events s') false = false) /\
  ((exists e, p = StopClear e) -> cleared s') /\
  match snd (inner_move s i p) with inl p' => call_of p' = UStop /\ (forall e, p' = StopClear e -> e = sv_go s) | inr _ => exists t, p = StopJoin t end.
Proof.
  intros OK N R O C E. pose proof (hook_here s i q OK N R) as Ei.
  assert (A : alive q = true) by (destruct q; try discriminate R; reflexivity).
  destruct p; try discriminate C; cbn in O |- *.
  - repeat (split; [auto; fail|]). split; [intros [e X]; discriminate X|]. split; [reflexivity|discriminate].
  - subst t. rewrite N, A. cbn. repeat (split; [auto; fail|]). split; [intros [e X]; discriminate X|]. split; [reflexivity|discriminate].
  - repeat (split; [auto; fail|]). split; [intros [e X]; discriminate X|]. split; [reflexivity|]. intros e X. now injection X as <-.
  - assert (Ev : forall k, nth k (sv_events s) false = false -> nth k (list_upd (sv_events s) e false) false = false) by (intros k; apply upd_false_nth).
    split; [reflexivity|]. split; [reflexivity|]. split; [exact Ev|]. split; [|split; [reflexivity|discriminate]].
    intros _. unfold cleared. cbn. destruct (E e eq_refl) as [-> |X]; [|now apply Ev]. destruct (nth_upd_same (sv_go s) (sv_events s) false) as [X|X]; exact X.
  - repeat (split; [auto; fail|]). split; [intros [e X]; discriminate X|]. split; [reflexivity|discriminate].
  - subst t. rewrite Nat.eqb_refl. cbn. repeat (split; [auto; fail|]). split; [intros [e X]; discriminate X|]. eauto.
Qed.
Lemma flag_events i s s' : sv_go s' = sv_go s -> nth_error (sv_threads s') i = nth_error (sv_threads s) i ->
  (forall k, nth k (sv_events s) false = false -> nth k (sv_events s') false = false) ->
  (cleared s /\ forall e, nth_error (sv_threads s) i = Some (TTestOn e) -> nth e (sv_events s) false = false) ->
  (cleared s' /\ forall e, nth_error (sv_threads s') i = Some (TTestOn e) -> nth e (sv_events s') false = false).
Proof. intros G T E [F1 F2]. unfold cleared in *. rewrite G, T. split; [now apply E|]. intros e X. apply E. now apply F2. Qed.
Lemma nth_end e l : nth e l false = false -> nth e (l ++ [false]) false = false.
Proof. intros H. now rewrite nth_app_false. Qed.

Lemma winding_move i w a : winding i w -> (forall j, a <> HCalls j UStart) -> winding i (hmove w a) /\ (flag_down i w -> flag_down i (hmove w a)).
Proof.
  intros [OK U I On Hr] NS. pose proof (hok_move w a OK) as OK'.
  destruct a as [u|j raises|j c].
  - (* a caller *)
    cbn [hmove] in *. cbn [world_move] in *. destruct (nth_error (w_users (hw_world w)) u) as [us|] eqn:Nu.
    2:{ split; [constructor; assumption|auto]. }
    assert (Us : no_start us). { unfold nobody_starts in U. rewrite Forall_forall in U. apply U. eapply nth_error_In; exact Nu. }
    destruct (stop_user (w_server (hw_world w)) us Us) as [Us' Sv]. destruct (user_move (w_server (hw_world w)) us) as [s us'] eqn:M. cbn in Us', Sv.
    assert (T : sv_threads s = sv_threads (srv w)) by (destruct Sv as [->|[e ->]]; reflexivity).
    assert (Gs : sv_go s = sv_go (srv w)) by (destruct Sv as [->|[e ->]]; reflexivity).
    assert (Ev : forall k, nth k (sv_events (srv w)) false = false -> nth k (sv_events s) false = false).
    { intros k Hk. destruct Sv as [->|[e ->]]; [exact Hk|]. cbn. now apply upd_false_nth. }
    split.
    + split; try exact OK'; unfold srv; cbn; rewrite ?T; auto.
      * unfold nobody_starts. cbn. now apply list_upd_Forall.
      * intros j p Hj. destruct (I j p Hj) as [Y1 Y2]. split; [exact Y1|]. intros e Ee. rewrite Gs. unfold cleared. rewrite Gs. destruct (Y2 e Ee) as [Y|Y]; [now left|right; now apply Ev].
    + apply flag_events; [exact Gs|unfold srv; cbn; now rewrite T|exact Ev].
  - cbn [hmove] in *. destruct (hw_inside w j) as [p|] eqn:HI.
    + (* a hook *)
      destruct (hok_inside _ OK j p HI) as [(q & N & R) O]. destruct (I j p HI) as [Cp Ep].
      pose proof (inner_stop (srv w) j p q (hok_srv _ OK) N R O Cp Ep) as (Gs & T & Ev & _ & X). unfold srv in Gs, T, Ev, X.
      destruct (inner_move (w_server (hw_world w)) j p) as [s r] eqn:M. cbn in Gs, T, Ev, X.
      assert (Cl : cleared (srv w) -> cleared s) by (unfold cleared, srv; rewrite Gs; apply Ev).
      destruct r as [p'|r]; (split; [|apply flag_events; [exact Gs|unfold srv; cbn; now rewrite T|exact Ev]]); (split; try exact OK'; unfold srv; cbn; rewrite ?T; auto); rewrite ?Gs.
      * intros k pk Hk. unfold set_inside in Hk. destruct (Nat.eqb_spec k j) as [->|D].
        -- injection Hk as <-. destruct X as [X1 X2]. split; [exact X1|]. intros e Ee. left. now apply X2.
        -- destruct (I k pk Hk) as [Y1 Y2]. split; [exact Y1|]. intros e Ee. destruct (Y2 e Ee); auto.
      * intros k pk Hk. unfold set_inside in Hk. destruct (Nat.eqb_spec k j) as [->|D]; [discriminate Hk|].
        destruct (I k pk Hk) as [Y1 Y2]. split; [exact Y1|]. intros e Ee. destruct (Y2 e Ee); auto.
    + (* a thread *)
      cbn [world_move] in *. destruct (thread_events (srv w) j raises) as [[Ee Eg]|[Ee Eg]]; unfold srv in Ee, Eg.
      * assert (Cl : cleared (srv w) -> cleared (thread_move (w_server (hw_world w)) j raises)) by (unfold cleared; rewrite Ee, Eg; auto).
        split.
        -- split; try exact OK'; unfold srv; cbn; auto.
           ++ intros k pk Hk. destruct (I k pk Hk) as [Y1 Y2]. split; [exact Y1|]. intros e Ex. rewrite Eg. destruct (Y2 e Ex); auto.
           ++ intros k q N Sq. destruct (thread_serving _ _ _ _ _ N Sq) as (q' & N' & Sq'). exact (On k q' N' Sq').
           ++ pose proof (thread_length (w_server (hw_world w)) j raises). unfold srv in Hr. lia.
        -- intros [F1 F2]. split; [apply Cl; exact F1|]. unfold srv. cbn. rewrite Ee. intros e X.
           destruct (Nat.eq_dec j i) as [->|D].
           ++ destruct (thread_teston _ _ _ _ X) as [->|Y]; [exact F1|now apply F2].
           ++ apply F2. destruct (nth_error (sv_threads (srv w)) i) as [q|] eqn:Ni; [|apply nth_error_None in Ni; lia].
              pose proof (thread_keeps _ _ _ _ raises Ni D) as Y. unfold srv in Y. rewrite Y in X. exact X.
      * assert (Cl : cleared (thread_move (w_server (hw_world w)) j raises)).
        { unfold cleared. rewrite Ee, Eg. rewrite app_nth2, Nat.sub_diag; [reflexivity|lia]. }
        split.
        -- split; try exact OK'; unfold srv; cbn; auto.
           ++ intros k pk Hk. destruct (I k pk Hk) as [Y1 Y2]. split; [exact Y1|]. intros e Ex. now right.
           ++ intros k q N Sq. destruct (thread_serving _ _ _ _ _ N Sq) as (q' & N' & Sq'). exact (On k q' N' Sq').
           ++ pose proof (thread_length (w_server (hw_world w)) j raises). unfold srv in Hr. lia.
        -- intros [F1 F2]. split; [exact Cl|]. unfold srv. cbn. rewrite Ee. intros e X. apply nth_end.
           destruct (Nat.eq_dec j i) as [->|D].
           ++ destruct (thread_teston _ _ _ _ X) as [->|Y]; [exact F1|now apply F2].
           ++ apply F2. destruct (nth_error (sv_threads (srv w)) i) as [q|] eqn:Ni; [|apply nth_error_None in Ni; lia].
              pose proof (thread_keeps _ _ _ _ raises Ni D) as Y. unfold srv in Y. rewrite Y in X. exact X.
  - (* a hook begins a call *)
    cbn [hmove] in *. destruct (nth_error (sv_threads (w_server (hw_world w))) j) as [q|] eqn:N; [|split; [constructor; assumption|auto]].
    destruct (hw_inside w j) as [p|] eqn:HI; [split; [constructor; assumption|auto]|]. destruct (hook_runs q) eqn:R; [|split; [constructor; assumption|auto]].
    split; [|auto]. split; try exact OK'; unfold srv; cbn; auto.
    intros k pk Hk. unfold set_inside in Hk. destruct (Nat.eqb_spec k j) as [->|D]; [|exact (I k pk Hk)].
    destruct c; [exfalso; now apply (NS j)|]. injection Hk as <-. split; [reflexivity|discriminate].
Qed.

(** [i] has begun a stop(): the flag is down from its third line on *)
Definition stop_begun (i : nat) (n : nat) (w : hworld) : Prop :=
  (length (hw_calls w) = n /\ exists p, hw_inside w i = Some p /\ call_of p = UStop /\ ((rank p <= 2)%nat -> cleared (srv w))) \/ flag_down i w.
Lemma hooked_no_test w i p : hok w -> hw_inside w i = Some p -> forall e, nth_error (sv_threads (srv w)) i <> Some (TTestOn e).
Proof. intros OK H e X. destruct (hok_inside _ OK i p H) as [(q & N & R) _]. rewrite N in X. injection X as ->. discriminate R. Qed.
Lemma stop_begun_move i n w a : winding i w -> (forall j, a <> HCalls j UStart) -> stop_begun i n w -> stop_begun i n (hmove w a).
Proof.
  intros W NS [(L & p & HI & Cp & F)|F]; [|right; now apply winding_move].
  pose proof (winding_move i w a W NS) as [W' _]. pose proof W as [OK U I On Hr].
  assert (Keep : hw_calls (hmove w a) = hw_calls w -> hw_inside (hmove w a) i = Some p -> (cleared (srv w) -> cleared (srv (hmove w a))) -> stop_begun i n (hmove w a)).
  { intros H1 H2 H3. left. rewrite H1. split; [exact L|]. exists p. auto. }
  assert (Clr : cleared (srv w) -> cleared (srv (hmove w a))).
  { intros X. assert (FD : flag_down i w) by (split; [exact X|intros e Y; exfalso; exact (hooked_no_test w i p OK HI e Y)]).
    destruct (proj2 (winding_move i w a W NS) FD) as [Y _]. exact Y. }
  destruct a as [u|j raises|j c].
  - apply Keep; [reflexivity|exact HI|exact Clr].
  - destruct (Nat.eq_dec j i) as [->|D].
    + destruct (hok_inside _ OK i p HI) as [(q & N & R) O]. destruct (I i p HI) as [_ Ep].
      pose proof (inner_stop (srv w) i p q (hok_srv _ OK) N R O Cp Ep) as (Gs & T & Ev & K & X). unfold srv in Gs, T, Ev, K, X.
      pose proof (inner_rank (srv w) i p q (hok_srv _ OK) N R O) as RK. unfold srv in RK.
      cbn [hmove] in *. rewrite HI in *. destruct (inner_move (w_server (hw_world w)) i p) as [s r] eqn:M. cbn in Gs, T, Ev, K, X, RK.
      destruct r as [p'|r].
      * left. cbn. split; [exact L|]. exists p'. split; [unfold set_inside; now rewrite Nat.eqb_refl|]. split; [apply X|]. unfold srv. cbn. intros Rp.
        destruct (Nat.eq_dec (rank p) 3) as [E3|E3].
        { apply K. destruct p; try discriminate Cp; try discriminate E3. eauto. }
        unfold cleared. rewrite Gs. apply Ev. apply F. lia.
      * destruct X as [t ->]. right. split; unfold srv; cbn.
        -- unfold cleared. rewrite Gs. apply Ev. apply F. cbn. lia.
        -- rewrite T. intros e Y. exfalso. exact (hooked_no_test w i _ OK HI e Y).
    + assert (Hi : hw_inside (hmove w (HThread j raises)) i = Some p).
      { cbn. destruct (hw_inside w j) as [p'|]; [|exact HI]. destruct (inner_move (w_server (hw_world w)) j p') as [s [p''|r]]; cbn; unfold set_inside; destruct (Nat.eqb_spec i j); try congruence; exact HI. }
      apply Keep; [|exact Hi|exact Clr].
      cbn. destruct (hw_inside w j) as [p'|] eqn:Hj; [|reflexivity].
      (* a second thread in a hook is not possible *)
      exfalso. destruct (hok_inside _ OK j p' Hj) as [(qj & Nj & Rj) _]. destruct (hok_inside _ OK i p HI) as [(qi & Ni & Ri) _].
      apply D. rewrite (hook_here _ _ _ (hok_srv _ OK) Nj Rj), (hook_here _ _ _ (hok_srv _ OK) Ni Ri). reflexivity.
  - assert (Hs : srv (hmove w (HCalls j c)) = srv w /\ hw_calls (hmove w (HCalls j c)) = hw_calls w /\ hw_inside (hmove w (HCalls j c)) i = Some p).
    { cbn. destruct (nth_error _ j) as [q|]; [|auto]. destruct (hw_inside w j) eqn:Hj; [auto|]. destruct (hook_runs q); [|auto]. cbn. repeat split; auto.
      unfold set_inside. destruct (Nat.eqb_spec i j) as [<-|D]; [congruence|exact HI]. }
    destruct Hs as (H1 & H2 & H3). apply Keep; auto.
Qed.
Lemma winding_moves i n more : forall w, winding i w -> no_hook_starts more -> stop_begun i n w -> winding i (hmoves more w) /\ stop_begun i n (hmoves more w).
Proof.
  induction more as [|a m IH]; intros w W NS B; [auto|]. change (hmoves (a :: m) w) with (hmoves m (hmove w a)).
  assert (Na : forall j, a <> HCalls j UStart) by (intros j ->; apply (NS j); now left).
  apply IH; [now apply winding_move|intros j X; apply (NS j); now right|now apply stop_begun_move].
Qed.
Lemma winding_begin programs schedule i q :
  let w := hmoves schedule (hstart programs) in
  hthread w i = Some q -> hook_runs q = true -> hw_inside w i = None -> nobody_starts w ->
  winding i (hmove w (HCalls i UStop)) /\ stop_begun i (length (hw_calls w)) (hmove w (HCalls i UStop)).
Proof.
  intros w N R HI U. pose proof (hok_reach programs schedule) as OK. fold w in OK. clearbody w.
  assert (N' : nth_error (sv_threads (w_server (hw_world w))) i = Some q) by exact N.
  pose proof (hok_move w (HCalls i UStop) OK) as OK'. cbn [hmove] in *. rewrite N', HI, R in *. split.
  - split; try exact OK'; unfold srv; cbn; auto.
    + intros j p Hj. unfold set_inside in Hj. destruct (Nat.eqb_spec j i) as [->|D]; [injection Hj as <-; split; [reflexivity|discriminate]|].
      destruct (hok_inside _ OK j p Hj) as [(qj & Nj & Rj) _]. exfalso. apply D.
      rewrite (hook_here _ _ _ (hok_srv _ OK) Nj Rj), (hook_here _ _ _ (hok_srv _ OK) N' R). reflexivity.
    + intros j p Nj Sj. destruct (hok_srv _ OK) as (_ & _ & H3 & _).
      rewrite (H3 j p Nj) by (destruct p; try discriminate Sj; reflexivity). symmetry. exact (hook_here _ _ _ (hok_srv _ OK) N' R).
    + eapply nth_lt; exact N'.
  - left. cbn. split; [reflexivity|]. exists StopThread. split; [unfold set_inside; now rewrite Nat.eqb_refl|]. split; [reflexivity|cbn; lia].
Qed.

(** A hook stops the server: once the call is over and the turn in which it was made has ended, the server does nothing more. *)
Theorem C91_stops : forall programs schedule i q more later,
  let w0 := hmoves schedule (hstart programs) in
  let w := hmoves more (hmove w0 (HCalls i UStop)) in
  hthread w0 i = Some q -> hook_runs q = true -> hw_inside w0 i = None ->
  nobody_starts w0 -> no_hook_starts more -> no_hook_starts later ->
  (length (hw_calls w0) < length (hw_calls w))%nat ->
  hthread w i <> Some TRun ->
  forall j, hthread (hmoves later w) j <> Some TRun.
Proof.
  intros programs schedule i q more later w0 w N R HI U NS1 NS2 L NR.
  destruct (winding_begin programs schedule i q N R HI U) as [W B]. fold w0 in W, B.
  destruct (winding_moves i _ more _ W NS1 B) as [W1 B1]. fold w in W1, B1.
  destruct B1 as [[X _]|F]; [lia|]. clearbody w. clear - W1 F NR NS2. intros j.
  assert (G : forall j, hthread w j <> Some TRun).
  { intros k X. apply NR. rewrite <- (wi_only _ _ W1 k TRun X eq_refl). exact X. }
  clear NR. revert w W1 F G. induction later as [|a m IH]; intros w W F G; [apply G|]. change (hmoves (a :: m) w) with (hmoves m (hmove w a)).
  assert (Na : forall j, a <> HCalls j UStart) by (intros k ->; apply (NS2 k); now left).
  apply IH; [intros k X; apply (NS2 k); now right|now apply winding_move|now apply winding_move|].
  intros k X. pose proof (winding_move i w a W Na) as [W' _].
  pose proof (wi_only _ _ W' k TRun X eq_refl) as ->.
  destruct a as [u|t raises|t c]; cbn in X; unfold hthread, thread_of in X; cbn in X.
  - destruct (nth_error (w_users (hw_world w)) u) as [us|] eqn:Nu; [|exact (G i X)].
    assert (Us : no_start us). { pose proof (wi_users _ _ W) as U. unfold nobody_starts in U. rewrite Forall_forall in U. apply U. eapply nth_error_In; exact Nu. }
    destruct (stop_user (w_server (hw_world w)) us Us) as [_ Sv]. destruct (user_move (w_server (hw_world w)) us) as [s us']. cbn in Sv, X.
    apply (G i). unfold hthread, thread_of. destruct Sv as [->|[e ->]]; exact X.
  - destruct (hw_inside w t) as [p|] eqn:Ht.
    + destruct (hok_inside _ (wi_ok _ _ W) t p Ht) as [(q & N & R) O]. pose proof (inner_ok (srv w) t p q (hok_srv _ (wi_ok _ _ W)) N R O) as (_ & T & _).
      unfold srv in T. destruct (inner_move (w_server (hw_world w)) t p) as [s [p'|r]]; cbn in X, T; apply (G i); unfold hthread, thread_of; rewrite <- T; exact X.
    + cbn in X. destruct (Nat.eq_dec t i) as [->|D].
      * (* the loop test *)
        unfold thread_move in X. destruct (nth_error (sv_threads (w_server (hw_world w))) i) as [q|] eqn:N; [|rewrite N in X; discriminate X].
        assert (Put : forall q', nth_error (sv_threads (put_thread (w_server (hw_world w)) i q')) i = Some TRun -> q' = TRun).
        { intros q' Y. cbn in Y. rewrite list_upd_same in Y by (eapply nth_lt; exact N). congruence. }
        destruct q; try (apply (G i); exact X); try (apply Put in X; destruct raises; discriminate X); try (apply Put in X; discriminate X).
        -- apply Put in X. destruct F as [_ F]. unfold srv in F. rewrite (F _ N) in X. discriminate X.
        -- cbn in X. rewrite nth_error_app1 in X by (rewrite len_upd; eapply nth_lt; exact N). rewrite list_upd_same in X by (eapply nth_lt; exact N). discriminate X.
      * destruct (nth_error (sv_threads (srv w)) i) as [q|] eqn:Ni; [|pose proof (wi_here _ _ W); apply nth_error_None in Ni; lia].
        pose proof (thread_keeps _ _ _ _ raises Ni D) as Y. unfold srv in Y. rewrite Y in X. apply (G i). unfold hthread, thread_of. unfold srv in Ni. congruence.
  - apply (G i). unfold hthread, thread_of. destruct (nth_error (sv_threads (w_server (hw_world w))) t) as [q|]; [|exact X]. destruct (hw_inside w t); [exact X|]. destruct (hook_runs q); exact X.
Qed.
Example C91_stops_ex : exists schedule q more,
  let w0 := hmoves schedule (hstart [[UStart]; [UStop]]) in
  let w := hmoves more (hmove w0 (HCalls 0 UStop)) in
  hthread w0 0 = Some q /\ hook_runs q = true /\ hw_inside w0 0 = None /\ nobody_starts w0 /\ no_hook_starts more /\
  (length (hw_calls w0) < length (hw_calls w))%nat /\ hthread w 0 <> Some TRun.
Proof.
  exists (repeat (HUser 0) 5 ++ repeat (HThread 0 false) 3), TRun, (repeat (HThread 0 false) 7).
  split; [reflexivity|]. split; [reflexivity|]. split; [reflexivity|]. split; [repeat constructor; vm_compute; intuition discriminate|].
  split; [intros i X; repeat (destruct X as [X|X]; [discriminate X|]); exact X|]. split; [vm_compute; lia|discriminate].
Qed.

(** ... and its thread ends: 16 steps of its own after the call began at the latest, if the hooks make no further calls. *)
Definition no_hook_calls (schedule : list hactor) : Prop := forall i c, ~ In (HCalls i c) schedule.
Definition left_to_do (i : nat) (w : hworld) : nat :=
  (match hw_inside w i with Some p => rank p | None => 0 end + togo (srv w) i)%nat.
Lemma left_move i n w a : winding i w -> stop_begun i n w -> (forall j c, a <> HCalls j c) ->
  (left_to_do i (hmove w a) <= left_to_do i w)%nat /\
  ((exists raises, a = HThread i raises) -> (0 < left_to_do i w)%nat -> (left_to_do i (hmove w a) < left_to_do i w)%nat).
Proof.
  intros W B NC. pose proof (wi_ok _ _ W) as OK. destruct a as [u|j raises|j c]; [| |exfalso; now apply (NC j c)].
  - split; [|intros [r X]; discriminate X]. unfold left_to_do. cbn. apply Nat.add_le_mono_l. unfold srv. cbn.
    destruct (nth_error (w_users (hw_world w)) u) as [us|] eqn:Nu; [|apply le_n].
    assert (Us : no_start us). { pose proof (wi_users _ _ W) as U. unfold nobody_starts in U. rewrite Forall_forall in U. apply U. eapply nth_error_In; exact Nu. }
    destruct (stop_user (w_server (hw_world w)) us Us) as [_ Sv]. destruct (user_move (w_server (hw_world w)) us) as [s us']. cbn in Sv |- *.
    destruct Sv as [->|[e ->]]; [apply le_n|]. unfold togo. cbn. destruct (nth_error (sv_threads (w_server (hw_world w))) i) as [[]|]; try apply le_n.
    destruct (nth e0 (sv_events (w_server (hw_world w))) false) eqn:E; [destruct (nth e0 (list_upd _ _ _) false); lia|]. rewrite upd_false_nth by exact E. apply le_n.
  - destruct (Nat.eq_dec j i) as [->|D].
    + assert (G : (0 < left_to_do i w)%nat -> (left_to_do i (hmove w (HThread i raises)) < left_to_do i w)%nat).
      { unfold left_to_do. cbn [hmove]. destruct (hw_inside w i) as [p|] eqn:HI.
        - intros _. destruct (hok_inside _ OK i p HI) as [(q & N & R) O]. pose proof (inner_rank (srv w) i p q (hok_srv _ OK) N R O) as RK.
          pose proof (inner_ok (srv w) i p q (hok_srv _ OK) N R O) as (_ & T & _).
          assert (TG : forall s, sv_threads s = sv_threads (srv w) -> togo s i = togo (srv w) i).
          { intros s Es. unfold togo. rewrite Es, N. destruct q; try discriminate R; reflexivity. }
          unfold srv in RK, T. destruct (inner_move (w_server (hw_world w)) i p) as [s [p'|r]]; cbn in RK, T |- *; unfold set_inside, srv; rewrite Nat.eqb_refl; cbn; rewrite (TG s T); unfold srv; destruct p; cbn in *; lia.
        - cbn. rewrite HI. cbn. unfold srv. cbn. destruct B as [(_ & p & X & _)|[F1 F2]]; [congruence|].
          unfold srv in F1, F2. unfold togo at 1. intros L. unfold togo, thread_move. unfold srv in L.
          destruct (nth_error (sv_threads (w_server (hw_world w))) i) as [q|] eqn:N; [|cbn in L; lia].
          pose proof (nth_lt _ _ _ N) as Li.
          destruct q; cbn in L |- *; try lia; try (rewrite list_upd_same by exact Li; destruct raises; lia).
          + rewrite list_upd_same by exact Li. unfold cleared in F1. rewrite F1. lia.
          + rewrite (F2 _ eq_refl). cbn. rewrite list_upd_same by exact Li. lia.
          + rewrite nth_error_app1 by (rewrite len_upd; exact Li). rewrite list_upd_same by exact Li. lia. }
      split; [|intros _; exact G]. destruct (Nat.eq_dec (left_to_do i w) 0) as [Z|Z]; [|specialize (G ltac:(lia)); lia].
      unfold left_to_do in Z |- *. cbn [hmove]. destruct (hw_inside w i) as [p|] eqn:HI; [exfalso; destruct p; cbn in Z; lia|]. cbn. rewrite HI. cbn in Z |- *.
      rewrite Z. unfold srv in Z |- *. cbn. unfold togo in Z. unfold thread_move. destruct (nth_error (sv_threads (w_server (hw_world w))) i) as [q|] eqn:N; [|unfold togo; rewrite N; lia].
      destruct q; try (exfalso; cbn in Z; try destruct (nth e _ _); lia); unfold togo; rewrite N; lia.
    + split; [|intros [r X]; injection X as -> _; now elim D]. unfold left_to_do. cbn [hmove]. destruct (hw_inside w j) as [p|] eqn:Hj.
      * destruct (hok_inside _ OK j p Hj) as [(q & N & R) O]. pose proof (inner_ok (srv w) j p q (hok_srv _ OK) N R O) as (_ & T & _).
        (* only one thread can be in a hook *)
        exfalso. apply D. apply (wi_only _ _ W j q N). destruct q; try discriminate R; reflexivity.
      * cbn. apply Nat.add_le_mono_l. unfold srv. cbn.
        destruct (nth_error (sv_threads (srv w)) i) as [q|] eqn:Ni; [|pose proof (wi_here _ _ W); apply nth_error_None in Ni; lia].
        pose proof (thread_keeps _ _ _ _ raises Ni D) as Y. unfold srv in Y, Ni. unfold togo. rewrite Y, Ni. destruct q; try apply le_n.
        destruct (thread_events (srv w) j raises) as [[Ee _]|[Ee _]]; unfold srv in Ee; rewrite Ee; [apply le_n|]. now rewrite nth_app_false.
Qed.
Theorem C91_ends : forall programs schedule i q more,
  let w0 := hmoves schedule (hstart programs) in
  let w := hmoves more (hmove w0 (HCalls i UStop)) in
  hthread w0 i = Some q -> hook_runs q = true -> hw_inside w0 i = None ->
  nobody_starts w0 -> no_hook_calls more -> (16 <= steps_of i more)%nat ->
  (exists p, hthread w i = Some p /\ alive p = false) /\ nobody_serves (hw_world w).
Proof.
  intros programs schedule i q more w0 w N R HI U NC L.
  destruct (winding_begin programs schedule i q N R HI U) as [W B]. fold w0 in W, B.
  assert (NS : no_hook_starts more) by (intros j; apply NC).
  assert (L0 : (left_to_do i (hmove w0 (HCalls i UStop)) <= 16)%nat).
  { unfold left_to_do. assert (E : hw_inside (hmove w0 (HCalls i UStop)) i = Some StopThread).
    { cbn. unfold hthread, thread_of in N. rewrite N, HI, R. cbn. unfold set_inside. now rewrite Nat.eqb_refl. }
    rewrite E. pose proof (togo_bound (srv (hmove w0 (HCalls i UStop))) i). change (rank StopThread) with 6%nat. lia. }
  assert (G : left_to_do i w = 0%nat /\ winding i w).
  { unfold w. clear w N R HI U. generalize dependent (hmove w0 (HCalls i UStop)). generalize (length (hw_calls w0)). intros n w1 W B. clear w0.
    assert (K : forall k more, no_hook_calls more -> forall w1, winding i w1 -> stop_begun i n w1 -> (left_to_do i w1 <= k)%nat -> (k <= steps_of i more)%nat -> left_to_do i (hmoves more w1) = 0%nat /\ winding i (hmoves more w1)).
    { clear. intros k more. revert k. induction more as [|a m IH]; intros k NC w1 W B L1 L2.
      - cbn in L2. split; [cbn; lia|exact W].
      - change (hmoves (a :: m) w1) with (hmoves m (hmove w1 a)).
        assert (Na : forall j c, a <> HCalls j c) by (intros j c ->; apply (NC j c); now left).
        assert (NC' : no_hook_calls m) by (intros j c X; apply (NC j c); now right).
        destruct (left_move i n w1 a W B Na) as [H1 H2].
        pose proof (proj1 (winding_move i w1 a W (fun j => Na j UStart))) as W'. pose proof (stop_begun_move i n w1 a W (fun j => Na j UStart) B) as B'.
        unfold steps_of in L2. cbn in L2. destruct a as [u|j raises|j c]; try (apply (IH k); auto; lia).
        destruct (Nat.eqb_spec i j) as [<-|D]; [|apply (IH k); auto; lia]. cbn in L2.
        destruct (Nat.eq_dec (left_to_do i w1) 0) as [Z|Z]; [apply (IH 0%nat); auto; lia|].
        specialize (H2 (ex_intro _ raises eq_refl) ltac:(lia)). apply (IH (Nat.pred k)); auto; fold (steps_of i m) in L2; lia. }
    intros L0. apply (K 16%nat more NC w1 W B L0 L). }
  destruct G as [Z W']. unfold left_to_do in Z.
  assert (T0 : togo (srv w) i = 0%nat) by lia. apply togo_alive in T0 as T1 || pose proof (proj1 (togo_alive (srv w) i) T0) as T1.
  split.
  - destruct (nth_error (sv_threads (srv w)) i) as [p|] eqn:Ni; [|pose proof (wi_here _ _ W'); apply nth_error_None in Ni; lia].
    exists p. split; [exact Ni|]. now apply T1.
  - intros j p Nj. destruct (serving p) eqn:Sp; [|reflexivity]. exfalso. pose proof (wi_only _ _ W' j p Nj Sp) as ->.
    pose proof (T1 p Nj) as A. destruct p; try discriminate Sp; discriminate A.
Qed.
Example C91_ends_ex : exists schedule q,
  let w0 := hmoves schedule (hstart [[UStart]; [UStop; UStop]]) in
  hthread w0 0 = Some q /\ hook_runs q = true /\ hw_inside w0 0 = None /\ nobody_starts w0 /\
  no_hook_calls (concat (repeat [HThread 0 false; HUser 1] 16)) /\ (16 <= steps_of 0 (concat (repeat [HThread 0 false; HUser 1] 16)))%nat.
Proof.
  exists (repeat (HUser 0) 5 ++ repeat (HThread 0 false) 3), TRun.
  split; [reflexivity|]. split; [reflexivity|]. split; [reflexivity|]. split; [repeat constructor; vm_compute; intuition discriminate|].
  split; [intros i c X; repeat (destruct X as [X|X]; [discriminate X|]); exact X|]. vm_compute. lia.
Qed.

(** Afterwards the server can be started again, unless the function installed as on_exception let an exception out. *)
Lemma hmoves_user i k : forall w, hmoves (repeat (HUser i) k) w = {| hw_world := world_moves (repeat (ByUser i) k) (hw_world w); hw_inside := hw_inside w; hw_calls := hw_calls w |}.
Proof. induction k as [|k IH]; intros w; [now destruct w|]. cbn [repeat]. change (hmoves (HUser i :: repeat (HUser i) k) w) with (hmoves (repeat (HUser i) k) (hmove w (HUser i))). now rewrite IH. Qed.
Theorem C91_restart_partial : forall programs schedule i u rest,
  let w := hmoves schedule (hstart programs) in
  quiet (hw_world w) -> (forall t, hthread w t <> Some TKilled) ->
  nth_error (w_users (hw_world w)) i = Some u -> us_now u = None -> us_todo u = UStart :: rest ->
  exists t, let w' := hmoves (repeat (HUser i) 5) w in
  nth_error (w_users (hw_world w')) i = Some {| us_now := None; us_todo := rest; us_done := us_done u ++ [(UStart, Ok tt)] |} /\
  hthread w' t = Some TInit.
Proof.
  intros programs schedule i u rest w Q K N E T. pose proof (hok_srv _ (hok_reach programs schedule)) as OK. fold w in OK.
  destruct (restart_from (hw_world w) i u rest OK Q K N E T) as (t & H1 & H2 & _). exists t. cbv zeta. rewrite hmoves_user. split; [exact H1|exact H2].
Qed.
Example C91_restart_ex : exists schedule u rest,
  let w := hmoves schedule (hstart [[UStart; UStart]]) in
  quiet (hw_world w) /\ (forall t, hthread w t <> Some TKilled) /\ nth_error (w_users (hw_world w)) 0 = Some u /\ us_now u = None /\ us_todo u = UStart :: rest /\
  hw_calls w = [(0%nat, UStop, Err PyRuntimeError)].
Proof.
  exists (repeat (HUser 0) 5 ++ repeat (HThread 0 false) 3 ++ HCalls 0 UStop :: repeat (HThread 0 false) 16), {| us_now := None; us_todo := [UStart]; us_done := [(UStart, Ok tt)] |}, [].
  split; [apply quiet_compute; vm_compute; reflexivity|].
  split; [intros [|[|i]] N; vm_compute in N; try discriminate N; destruct i; discriminate N|].
  repeat (split; [vm_compute; reflexivity|]). vm_compute. reflexivity.
Qed.

(** ... which a function that calls stop() when the server fails does: afterwards the server cannot be started again. *)
Theorem C91_restart_refuted :
  exists schedule u,
  let w := hmoves schedule (hstart [[UStart; UStart]]) in
  hw_calls w = [(0%nat, UStop, Err PyRuntimeError)] /\            (* the call of the hook, and what it raised *)
  quiet (hw_world w) /\                                            (* no thread is left *)
  caller (hw_world w) u /\ us_done u = [(UStart, Ok tt); (UStart, Err PyRuntimeError)] /\
  (* what raised: something in _do_run, and the hook, which let the exception of stop() out *)
  exists before after, schedule = before ++ HThread 0 true :: HCalls 0 UStop :: repeat (HThread 0 false) 6 ++ HThread 0 true :: after /\
  hthread (hmoves before (hstart [[UStart; UStart]])) 0 = Some TRun /\
  (forall i, ~ In (HThread i true) (before ++ after)).
Proof.
  exists (repeat (HUser 0) 5 ++ repeat (HThread 0 false) 3 ++ HThread 0 true :: HCalls 0 UStop :: repeat (HThread 0 false) 6 ++ HThread 0 true :: repeat (HThread 0 false) 3 ++ repeat (HUser 0) 5),
    {| us_now := None; us_todo := []; us_done := [(UStart, Ok tt); (UStart, Err PyRuntimeError)] |}.
  split; [vm_compute; reflexivity|]. split; [apply quiet_compute; vm_compute; reflexivity|]. split; [vm_compute; reflexivity|]. split; [reflexivity|].
  exists (repeat (HUser 0) 5 ++ repeat (HThread 0 false) 3), (repeat (HThread 0 false) 3 ++ repeat (HUser 0) 5). split; [reflexivity|]. split; [vm_compute; reflexivity|].
  intros i X; repeat (destruct X as [X|X]; [discriminate X|]); exact X.
Qed.

Print Assumptions C91_raises.
Print Assumptions C91_does_not_wait.
Print Assumptions C91_stops.
Print Assumptions C91_ends.
Print Assumptions C91_restart_partial.
Print Assumptions C91_restart_refuted.
