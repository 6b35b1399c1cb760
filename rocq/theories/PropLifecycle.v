(** Property C52: start() and stop() of servers.  Vocabulary: LifecycleModel.v. *)
From Coq Require Import Lia.
From Verif Require Import Base BaseFacts LifecycleModel.

(** The thread is between its start and the end of its work: it may handle requests. *)
Definition serving (p : tpc) : bool :=
  match p with TInit | TTest | TTestOn _ | TRun | TExit | TFail => true | _ => false end.
Definition thread_of (w : world) (i : nat) : option tpc := nth_error (sv_threads (w_server w)) i.
Definition nobody_serves (w : world) : Prop := forall i p, thread_of w i = Some p -> serving p = false.
(** no thread of the server is running at all *)
Definition quiet (w : world) : Prop := forall i p, thread_of w i = Some p -> alive p = false.

Lemma quiet_compute w : forallb (fun p => negb (alive p)) (sv_threads (w_server w)) = true -> quiet w.
Proof. intros H i p N. apply nth_error_In in N. rewrite forallb_forall in H. specialize (H p N). now destruct (alive p). Qed.

(** ** Facts about reachable worlds *)

(** the only threads that are new, serving or about to replace self._thread: self._thread *)
Definition current (p : tpc) : bool := match p with TNew | TMakeThread => true | _ => serving p end.
Definition srv_ok (s : server) : Prop :=
  (sv_thread s < length (sv_threads s))%nat /\ (sv_go s < length (sv_events s))%nat /\
  (forall i p, nth_error (sv_threads s) i = Some p -> current p = true -> i = sv_thread s) /\
  (forall p, nth_error (sv_threads s) (sv_thread s) = Some p -> p <> TMakeGo /\ p <> TDead).

Lemma nth_upd {A} (l : list A) i v x j y :
  nth_error l i = Some x -> nth_error (list_upd l i v) j = Some y -> (j = i /\ y = v) \/ (j <> i /\ nth_error l j = Some y).
Proof.
  intros N H. destruct (Nat.eq_dec j i) as [->|D].
  - left. rewrite list_upd_same in H by (apply nth_error_Some; congruence). now inversion H.
  - right. rewrite list_upd_other in H by auto. auto.
Qed.
Lemma nth_lt {A} (l : list A) i x : nth_error l i = Some x -> (i < length l)%nat.
Proof. intros H. apply nth_error_Some. congruence. Qed.
Lemma len_upd {A} (l : list A) i v : length (list_upd l i v) = length l.
Proof. revert i. induction l; intros [|i]; cbn; auto. Qed.

Lemma srv_ok_put s i p q :
  srv_ok s -> nth_error (sv_threads s) i = Some p -> current p = true -> q <> TMakeGo -> q <> TDead -> srv_ok (put_thread s i q).
Proof.
  intros (H1 & H2 & H3 & H4) N C Q1 Q2. pose proof (H3 _ _ N C) as E. unfold put_thread. split; [|split; [|split]]; cbn.
  - now rewrite len_upd.
  - exact H2.
  - intros j r Nj Cj. destruct (nth_upd _ _ _ _ _ _ N Nj) as [[-> ->]|[D Nj']]; eauto.
  - intros r Nr. destruct (nth_upd _ _ _ _ _ _ N Nr) as [[X ->]|[D Nr']]; [auto|congruence].
Qed.
Lemma srv_ok_thread s i raises : srv_ok s -> srv_ok (thread_move s i raises).
Proof.
  intros OK. pose proof OK as (H1 & H2 & H3 & H4). unfold thread_move. destruct (nth_error (sv_threads s) i) as [p|] eqn:N; [|exact OK].
  destruct p; try exact OK; try (eapply srv_ok_put; [exact OK|exact N|reflexivity|..]; destruct raises; discriminate).
  - eapply srv_ok_put; [exact OK|exact N|reflexivity|..]; destruct (nth e (sv_events s) false); discriminate.
  - (* a new thread *)
    pose proof (H3 _ _ N eq_refl) as E. split; [|split; [|split]]; cbn.
    + rewrite app_length, !len_upd. cbn. lia.
    + exact H2.
    + intros j q Nj Cj. destruct (Nat.lt_ge_cases j (length (list_upd (sv_threads s) i TMakeGo))) as [L|L].
      * rewrite nth_error_app1 in Nj by exact L. destruct (nth_upd _ _ _ _ _ _ N Nj) as [[-> ->]|[D Nj']]; [discriminate Cj|]. exfalso. apply D. rewrite E. eapply H3; eauto.
      * apply nth_lt in Nj. rewrite app_length in Nj. cbn in Nj. lia.
    + intros q Nq. rewrite nth_error_app2 in Nq by lia. rewrite Nat.sub_diag in Nq. injection Nq as <-. split; discriminate.
  - (* a new event *)
    split; [|split; [|split]]; cbn.
    + now rewrite len_upd.
    + rewrite app_length. cbn. lia.
    + intros j q Nj Cj. destruct (nth_upd _ _ _ _ _ _ N Nj) as [[-> ->]|[D Nj']]; [discriminate Cj|eauto].
    + intros q Nq. destruct (nth_upd _ _ _ _ _ _ N Nq) as [[X ->]|[D Nq']]; [|auto]. exfalso. rewrite <- X in N. destruct (H4 _ N) as [X1 _]. now apply X1.
Qed.
Lemma srv_ok_event s e b : srv_ok s -> srv_ok (put_event s e b).
Proof. intros (H1 & H2 & H3 & H4). unfold put_event. split; [exact H1|split; [|split; assumption]]. cbn. now rewrite len_upd. Qed.
Lemma srv_ok_user s u : srv_ok s -> srv_ok (fst (user_move s u)).
Proof.
  intros OK. unfold user_move. destruct (us_now u) as [[|e| |t| |t| |e| |t]|]; try exact OK; cbn.
  - now apply srv_ok_event.
  - destruct (nth_error (sv_threads s) t) as [p|] eqn:N; [|exact OK]. destruct p; try exact OK. cbn. eapply srv_ok_put; [exact OK|exact N|reflexivity|discriminate|discriminate].
  - destruct (nth_error (sv_threads s) t) as [p|]; [|exact OK]. now destruct (alive p).
  - now apply srv_ok_event.
  - destruct (nth_error (sv_threads s) t) as [p|]; [|exact OK]. now destruct p.
  - destruct (us_todo u) as [|[] ?]; exact OK.
Qed.
Lemma srv_ok_move w a : srv_ok (w_server w) -> srv_ok (w_server (world_move w a)).
Proof.
  intros OK. destruct a as [i|i raises]; cbn; [|now apply srv_ok_thread].
  destruct (nth_error (w_users w) i) as [u|]; [|exact OK]. pose proof (srv_ok_user _ u OK) as X.
  destruct (user_move (w_server w) u). exact X.
Qed.
Lemma srv_ok_start : srv_ok new_server.
Proof.
  split; [cbn; lia|]. split; [cbn; lia|]. split.
  - intros [|[|i]] p N C; cbn in N; try discriminate. reflexivity.
  - intros p N. injection N as <-. split; discriminate.
Qed.
Lemma srv_ok_reach programs schedule : srv_ok (w_server (world_moves schedule (world_start programs))).
Proof.
  unfold world_moves. assert (G : srv_ok (w_server (world_start programs))) by apply srv_ok_start.
  revert G. generalize (world_start programs). induction schedule as [|a s IH]; intros w G; [exact G|]. cbn. apply IH. now apply srv_ok_move.
Qed.

(* ------------------------------------------------------------------ C52 *)
(** Whoever calls start() and stop() and whatever fails: at most one thread serves. *)
Theorem C52_one_server : forall programs schedule i j p q,
  let w := world_moves schedule (world_start programs) in
  thread_of w i = Some p -> thread_of w j = Some q -> serving p = true -> serving q = true -> i = j.
Proof.
  intros programs schedule i j p q w Hi Hj Si Sj. destruct (srv_ok_reach programs schedule) as (_ & _ & H & _).
  rewrite (H i p Hi), (H j q Hj); [reflexivity|destruct q; try reflexivity; discriminate Sj|destruct p; try reflexivity; discriminate Si].
Qed.

Example C52_one_server_ex : exists schedule, (* the second server thread serves *)
  let w := world_moves schedule (world_start [[UStart; UStop; UStart]]) in
  thread_of w 0 = Some TDead /\ thread_of w 1 = Some TRun.
Proof.
  exists (repeat (ByUser 0) 5 ++ repeat (ByThread 0 false) 4 ++ repeat (ByUser 0) 6 ++ repeat (ByThread 0 false) 8 ++ repeat (ByUser 0) 6 ++ repeat (ByThread 1 false) 3).
  split; reflexivity.
Qed.

(** *** One caller *)

(** [one w u]: [u] is the only caller *)
Definition caller (w : world) (u : user) : Prop := w_users w = [u].
Lemma world_ind1 (P : server -> user -> Prop) program :
  P new_server {| us_now := None; us_todo := program; us_done := [] |} ->
  (forall s u, srv_ok s -> P s u -> P (fst (user_move s u)) (snd (user_move s u))) ->
  (forall s u i raises, srv_ok s -> P s u -> P (thread_move s i raises) u) ->
  forall schedule, exists u, caller (world_moves schedule (world_start [program])) u /\ P (w_server (world_moves schedule (world_start [program]))) u.
Proof.
  intros H0 HU HT schedule.
  assert (G : forall w u, caller w u -> srv_ok (w_server w) -> P (w_server w) u -> exists u', caller (world_moves schedule w) u' /\ P (w_server (world_moves schedule w)) u').
  { unfold world_moves. induction schedule as [|a sch IH]; intros w u C OK HP; [eauto|]. cbn. destruct a as [[|i]|i raises].
    - unfold caller in C. pose proof (srv_ok_move w (ByUser 0) OK) as OK'. cbn in OK' |- *. rewrite C in *. cbn in *.
      pose proof (HU _ _ OK HP) as HP'. destruct (user_move (w_server w) u) as [s' u']. cbn in *. eapply IH; [reflexivity|exact OK'|exact HP'].
    - assert (X : world_move w (ByUser (S i)) = w) by (cbn; rewrite C; destruct i; reflexivity). rewrite X. eapply IH; eauto.
    - eapply IH; [exact C|now apply srv_ok_thread|]. cbn. apply HT; assumption. }
  eapply G; [reflexivity|apply srv_ok_start|exact H0].
Qed.

Definition nobody (s : server) : Prop := forall i p, nth_error (sv_threads s) i = Some p -> serving p = false.
(** a thread [t] loaded earlier: still self._thread, or replaced by one that has not been started *)
Definition loaded (s : server) (t : nat) : Prop :=
  t = sv_thread s \/ nth_error (sv_threads s) (sv_thread s) = Some TNew.
Lemma loaded_nobody s t : srv_ok s -> loaded s t ->
  (forall p, nth_error (sv_threads s) t = Some p -> serving p = false) -> nobody s.
Proof.
  intros (_ & _ & H & _) L Ht i p N. destruct (serving p) eqn:S; [|reflexivity]. exfalso.
  assert (E : i = sv_thread s) by (apply (H i p N); destruct p; try reflexivity; discriminate S).
  destruct L as [L|L]; subst.
  - rewrite (Ht p N) in S. discriminate.
  - rewrite N in L. injection L as ->. discriminate.
Qed.
(** the states of a sole caller *)
Definition caller_ok (s : server) (u : user) : Prop :=
  match us_now u with
  | Some (StopAlive t) | Some (StopJoin t) => loaded s t
  | _ => True
  end /\
  (us_now u = None -> forall r rest, us_done u = rest ++ [(UStop, r)] -> nobody s).

Lemma thread_move_cases s i raises (P : server -> Prop) :
  P s ->
  (forall p q, nth_error (sv_threads s) i = Some p -> (serving p = true \/ (p = TMakeGo /\ q = TDead)) -> q <> TNew -> P (put_thread s i q)) ->
  (nth_error (sv_threads s) i = Some TMakeThread ->
     P {| sv_thread := length (sv_threads s); sv_go := sv_go s; sv_threads := list_upd (sv_threads s) i TMakeGo ++ [TNew]; sv_events := sv_events s |}) ->
  (forall s', P s' -> P {| sv_thread := sv_thread s'; sv_go := length (sv_events s'); sv_threads := sv_threads s'; sv_events := sv_events s' ++ [false] |}) ->
  P (thread_move s i raises).
Proof.
  intros H0 H1 H2 H3. unfold thread_move. destruct (nth_error (sv_threads s) i) as [p|] eqn:N; [|exact H0].
  destruct p; try exact H0; try (eapply H1; [reflexivity|now left|destruct raises; discriminate]).
  - eapply H1; [reflexivity|now left|]. destruct (nth e (sv_events s) false); discriminate.
  - cbn. rewrite len_upd. apply H2; reflexivity.
  - apply (H3 (put_thread s i TDead)). eapply H1; [reflexivity|right; auto|discriminate].
Qed.
Lemma loaded_thread s i raises t : srv_ok s -> loaded s t -> loaded (thread_move s i raises) t.
Proof.
  intros OK L. apply thread_move_cases; [exact L| | |].
  - intros p q N S Q. unfold loaded in *. cbn. destruct L as [L|L]; [now left|right].
    destruct (Nat.eq_dec (sv_thread s) i) as [E|D].
    + rewrite E in L. rewrite N in L. injection L as ->. destruct S as [S|[S _]]; discriminate S.
    + rewrite list_upd_other by auto. exact L.
  - intros N. right. cbn. rewrite nth_error_app2 by (rewrite len_upd; lia). rewrite len_upd, Nat.sub_diag. reflexivity.
  - intros s' [L'|L']; [now left|now right].
Qed.
Lemma nobody_thread s i raises : nobody s -> nobody (thread_move s i raises).
Proof.
  intros B. apply thread_move_cases; [exact B| | |].
  - intros p q N S Q j r Nj. cbn in Nj. destruct (nth_upd _ _ _ _ _ _ N Nj) as [[-> ->]|[D Nj']]; [|eauto].
    destruct S as [S|[-> ->]]; [|reflexivity]. rewrite (B _ _ N) in S. discriminate.
  - intros N j r Nj. cbn in Nj. destruct (Nat.lt_ge_cases j (length (list_upd (sv_threads s) i TMakeGo))) as [L|L].
    + rewrite nth_error_app1 in Nj by exact L. destruct (nth_upd _ _ _ _ _ _ N Nj) as [[-> ->]|[D Nj']]; [reflexivity|eauto].
    + rewrite nth_error_app2 in Nj by exact L. destruct (j - length (list_upd (sv_threads s) i TMakeGo))%nat as [|[|k]]; cbn in Nj; try discriminate. now injection Nj as <-.
  - intros s' B' j r Nj. cbn in Nj. eauto.
Qed.

Lemma last_done (rest : list (ucall * res unit)) l c r c' r' : l ++ [(c, r)] = rest ++ [(c', r')] -> c = c'.
Proof. intros H. apply app_inj_tail in H as [_ H]. congruence. Qed.
Lemma caller_ok_user s u : srv_ok s -> caller_ok s u -> caller_ok (fst (user_move s u)) (snd (user_move s u)).
Proof.
  intros OK [H1 H2]. unfold user_move, caller_ok. destruct (us_now u) as [[|e| |t| |t| |e| |t]|] eqn:E; cbn; try (split; [exact Logic.I|discriminate]).
  - destruct (nth_error (sv_threads s) t) as [p|] eqn:N; [destruct p|]; cbn; (split; [exact Logic.I|]); intros _ r rest X; apply last_done in X; discriminate X.
  - split; [now left|discriminate].
  - destruct (nth_error (sv_threads s) t) as [p|] eqn:N; [destruct (alive p) eqn:A|]; cbn.
    + split; [exact Logic.I|discriminate].
    + split; [exact Logic.I|]. intros _ r rest X. eapply loaded_nobody; [exact OK|exact H1|]. intros q Nq. rewrite N in Nq. injection Nq as <-. destruct p; try discriminate A; reflexivity.
    + split; [exact Logic.I|]. intros _ r rest X. eapply loaded_nobody; [exact OK|exact H1|]. intros q Nq. congruence.
  - split; [now left|discriminate].
  - destruct (nth_error (sv_threads s) t) as [p|] eqn:N; [destruct p|]; cbn; try rewrite E;
      try (split; [exact H1|discriminate]);
      (split; [exact Logic.I|]; intros _ r rest X; eapply loaded_nobody; [exact OK|exact H1|]; intros q Nq; rewrite N in Nq; first [discriminate Nq|injection Nq as <-; reflexivity]).
  - destruct (us_todo u) as [|[] ?]; cbn; try rewrite E; (split; [exact Logic.I|]); try discriminate. intros _ r rest X. eauto.
Qed.

Lemma caller_ok_reach program schedule :
  exists u, caller (world_moves schedule (world_start [program])) u /\ caller_ok (w_server (world_moves schedule (world_start [program]))) u.
Proof.
  apply (world_ind1 caller_ok).
  - split; [exact Logic.I|]. intros _ r rest X. apply app_cons_not_nil in X as [].
  - apply caller_ok_user.
  - intros s u i raises OK [H1 H2]. split.
    + destruct (us_now u) as [[]|]; auto; now apply loaded_thread.
    + intros E r rest X. apply nobody_thread. eauto.
Qed.

(** With one caller: when a stop() is over nothing serves any more, until the next start(), whatever
    failed, and whether stop() returned or raised. *)
Theorem C52_stop_stops : forall program schedule u rest r,
  let w := world_moves schedule (world_start [program]) in
  caller w u -> us_now u = None -> us_done u = rest ++ [(UStop, r)] -> nobody_serves w.
Proof.
  intros program schedule u rest r w C E D. destruct (caller_ok_reach program schedule) as (u' & C' & [_ H]).
  unfold caller in *. fold w in C'. rewrite C in C'. injection C' as <-. exact (H E _ _ D).
Qed.
Example C52_stop_stops_ex : exists schedule u,
  let w := world_moves schedule (world_start [[UStart; UStop; UStart]]) in
  caller w u /\ us_now u = None /\ us_done u = [(UStart, Ok tt)] ++ [(UStop, Ok tt)].
Proof.
  exists (repeat (ByUser 0) 5 ++ repeat (ByThread 0 false) 4 ++ repeat (ByUser 0) 6 ++ repeat (ByThread 0 false) 8 ++ repeat (ByUser 0) 1).
  eexists. repeat split; reflexivity.
Qed.

(** A round: the caller and every thread there is move at least once, in any order, anything raising. *)
Definition round (w : world) (moves : list actor) : Prop :=
  In (ByUser 0) moves /\ forall i, (i < length (sv_threads (w_server w)))%nat -> exists raises, In (ByThread i raises) moves.
Inductive rounds : nat -> world -> list actor -> Prop :=
| rounds_none w : rounds 0 w []
| rounds_more n w moves rest : round w moves -> rounds n (world_moves moves w) rest -> rounds (S n) w (moves ++ rest).

Lemma rounds_inv n w l : rounds (S n) w l -> exists moves rest, l = moves ++ rest /\ round w moves /\ rounds n (world_moves moves w) rest.
Proof. intros H. inversion H; subst. eauto. Qed.
(** the event of self._go is cleared *)
Definition cleared (s : server) : Prop := nth (sv_go s) (sv_events s) false = false.
Definition stop_ok (s : server) (u : user) : Prop :=
  match us_now u with
  | Some (StopClear e) => e = sv_go s \/ cleared s
  | Some StopThread2 | Some (StopJoin _) => cleared s
  | _ => True
  end.
Lemma nth_app_false e l : nth e (l ++ [false]) false = nth e l false.
Proof.
  destruct (Nat.lt_ge_cases e (length l)) as [L|L]; [now apply app_nth1|].
  rewrite app_nth2, (nth_overflow l) by lia. destruct (e - length l)%nat as [|[|k]]; reflexivity.
Qed.
Lemma nth_upd_same e l b : nth e (list_upd l e b) false = b \/ nth e (list_upd l e b) false = false.
Proof. revert e. induction l as [|x l IH]; intros [|e]; cbn; auto. Qed.
Lemma nth_upd_other e f l b : e <> f -> nth e (list_upd l f b) false = nth e l false.
Proof. revert e f. induction l as [|x l IH]; intros [|e] [|f] H; cbn; auto; congruence. Qed.
Lemma cleared_thread s i raises : cleared s -> cleared (thread_move s i raises).
Proof.
  intros H. apply thread_move_cases; [exact H| | |].
  - intros p q _ _ _. exact H.
  - intros _. exact H.
  - intros s' _. unfold cleared. cbn. rewrite nth_app_false. apply nth_overflow. lia.
Qed.
Lemma stop_ok_thread s u i raises : stop_ok s u -> stop_ok (thread_move s i raises) u.
Proof.
  unfold stop_ok. destruct (us_now u) as [[|e| |t| |t| |e| |t]|]; auto; try apply cleared_thread.
  intros [->|H]; [|right; now apply cleared_thread].
  apply thread_move_cases; [now left| | |].
  - intros p q _ _ _. now left.
  - intros _. now left.
  - intros s' _. right. unfold cleared. cbn. rewrite nth_app_false. apply nth_overflow. lia.
Qed.
Lemma stop_ok_user s u : stop_ok s u -> stop_ok (fst (user_move s u)) (snd (user_move s u)).
Proof.
  unfold stop_ok, user_move. destruct (us_now u) as [[|e| |t| |t| |e| |t]|] eqn:E; cbn; auto.
  - destruct (nth_error (sv_threads s) t) as [[]|]; cbn; auto.
  - destruct (nth_error (sv_threads s) t) as [p|]; [destruct (alive p)|]; cbn; auto.
  - intros H. unfold cleared, put_event. cbn. destruct (Nat.eq_dec (sv_go s) e) as [->|D].
    + destruct (nth_upd_same e (sv_events s) false); assumption.
    + destruct H as [->|H]; [congruence|]. now rewrite nth_upd_other.
  - destruct (nth_error (sv_threads s) t) as [[]|]; cbn; try rewrite E; auto.
  - destruct (us_todo u) as [|[] ?]; cbn; try rewrite E; auto.
Qed.
Lemma stop_ok_reach program schedule :
  exists u, caller (world_moves schedule (world_start [program])) u /\ stop_ok (w_server (world_moves schedule (world_start [program]))) u.
Proof.
  apply (world_ind1 stop_ok); [exact Logic.I|intros s u _; apply stop_ok_user|intros s u i raises _; apply stop_ok_thread].
Qed.

(** how far a thread is from its end when self._go is cleared *)
Definition togo (s : server) (t : nat) : nat :=
  match nth_error (sv_threads s) t with
  | Some TInit | Some TRun => 8 | Some TTest => 7 | Some (TTestOn e) => if nth e (sv_events s) false then 9 else 6
  | Some TExit => 5 | Some TFail => 4 | Some TMakeThread => 3 | Some TMakeGo => 2 | _ => 0
  end.
Lemma togo_alive s t : togo s t = 0%nat <-> (forall p, nth_error (sv_threads s) t = Some p -> alive p = false).
Proof.
  unfold togo. destruct (nth_error (sv_threads s) t) as [p|]; split; intros H.
  - intros q X. injection X as <-. destruct p; try reflexivity; try discriminate H. destruct (nth e (sv_events s) false); discriminate H.
  - specialize (H p eq_refl). destruct p; try discriminate H; reflexivity.
  - intros q X. discriminate X.
  - reflexivity.
Qed.
Lemma togo_other s i raises t : i <> t -> togo (thread_move s i raises) t = togo s t.
Proof.
  intros D. apply thread_move_cases; [reflexivity| | |].
  - intros p q _ _ _. unfold togo. cbn. rewrite list_upd_other by auto. reflexivity.
  - intros N. unfold togo. cbn. destruct (Nat.lt_ge_cases t (length (sv_threads s))) as [L|L].
    + rewrite nth_error_app1 by (rewrite len_upd; lia). rewrite list_upd_other by auto. reflexivity.
    + replace (nth_error (sv_threads s) t) with (@None tpc) by (symmetry; now apply nth_error_None).
      rewrite nth_error_app2 by (rewrite len_upd; lia). rewrite len_upd. destruct (t - length (sv_threads s))%nat as [|[|k]]; reflexivity.
  - intros s' H. rewrite <- H. unfold togo. cbn. destruct (nth_error (sv_threads s') t) as [[]|]; try reflexivity. now rewrite nth_app_false.
Qed.
Lemma togo_same s t raises : cleared s -> togo s t <> 0%nat -> (togo (thread_move s t raises) t < togo s t)%nat.
Proof.
  intros C. unfold thread_move, togo. destruct (nth_error (sv_threads s) t) as [p|] eqn:N; [|congruence].
  assert (L : (t < length (sv_threads s))%nat) by (eapply nth_lt; exact N).
  destruct p; intros H; try congruence; cbn; try (rewrite list_upd_same by exact L); try (destruct raises; lia).
  - rewrite C. lia.
  - destruct (nth e (sv_events s) false) eqn:E; lia.
  - rewrite nth_error_app1 by (rewrite len_upd; lia). rewrite list_upd_same by exact L. lia.
Qed.
Definition phi (s : server) (u : user) : nat :=
  match us_now u with
  | Some StopThread => 16 | Some (StopAlive _) => 15 | Some StopGo => 14 | Some (StopClear _) => 13 | Some StopThread2 => 12
  | Some (StopJoin t) => 1 + togo s t
  | _ => 0
  end.
Lemma togo_bound s t : (togo s t <= 9)%nat.
Proof. unfold togo. destruct (nth_error (sv_threads s) t) as [[]|]; try lia. destruct (nth e (sv_events s) false); lia. Qed.
Definition in_stop (u : user) : Prop := exists p, us_now u = Some p /\ call_of p = UStop.
Definition stopping (n : nat) (w : world) (u : user) : Prop :=
  caller w u /\ srv_ok (w_server w) /\ stop_ok (w_server w) u /\ in_stop u /\ length (us_done u) = n.
Definition finished (n : nat) (w : world) : Prop := exists u, caller w u /\ (n < length (us_done u))%nat.
Lemma finished_move n w a : finished n w -> finished n (world_move w a).
Proof.
  intros (u & C & L). unfold caller in C. destruct a as [[|i]|i raises]; cbn; rewrite ?C.
  - cbn. destruct (user_move (w_server w) u) as [s' u'] eqn:E. exists u'. split; [reflexivity|].
    unfold user_move in E. destruct (us_now u) as [[|e| |t| |t| |e| |t]|];
      repeat (match type of E with context [match ?x with _ => _ end] => destruct x end); injection E as <- <-; cbn; try rewrite app_length; cbn; lia.
  - exists u. destruct i; (split; [exact C|exact L]).
  - exists u. split; [reflexivity|exact L].
Qed.
(** who has to move for the call to get on *)
Definition needed (w : world) (u : user) (a : actor) : Prop :=
  match us_now u with
  | Some (StopJoin t) => if (togo (w_server w) t =? 0)%nat then a = ByUser 0 else exists raises, a = ByThread t raises
  | _ => a = ByUser 0
  end.
Lemma user_stop s u p : us_now u = Some p -> call_of p = UStop ->
  (exists r, snd (user_move s u) = over u UStop r) \/
  (exists p', snd (user_move s u) = at_pc u p' /\ call_of p' = UStop /\ (phi (fst (user_move s u)) (at_pc u p') < phi s u)%nat) \/
  (user_move s u = (s, u) /\ exists t, p = StopJoin t /\ togo s t <> 0%nat).
Proof.
  intros E K. unfold user_move. unfold phi at 2. rewrite E. destruct p; try discriminate K; cbn.
  - right. left. eexists. split; [reflexivity|]. split; [reflexivity|]. cbn. lia.
  - destruct (nth_error (sv_threads s) t) as [q|]; [destruct (alive q)|]; cbn; eauto.
    right. left. eexists. split; [reflexivity|]. split; [reflexivity|]. cbn. lia.
  - right. left. eexists. split; [reflexivity|]. split; [reflexivity|]. cbn. lia.
  - right. left. eexists. split; [reflexivity|]. split; [reflexivity|]. cbn. lia.
  - right. left. eexists. split; [reflexivity|]. split; [reflexivity|]. cbn. pose proof (togo_bound s (sv_thread s)). lia.
  - assert (X : forall q, nth_error (sv_threads s) t = Some q -> alive q = true -> togo s t <> 0%nat).
    { intros q N A Z. pose proof (proj1 (togo_alive s t) Z q N). congruence. }
    destruct (nth_error (sv_threads s) t) as [q|] eqn:N; [|left; eexists; reflexivity].
    destruct q; cbn; try (left; eexists; reflexivity); right; right; (split; [reflexivity|]); exists t; (split; [reflexivity|]); eapply X; reflexivity.
Qed.
Lemma stopping_move n w u a : stopping n w u ->
  finished n (world_move w a) \/
  exists u', stopping n (world_move w a) u' /\
    ((phi (w_server (world_move w a)) u' < phi (w_server w) u)%nat \/
     (u' = u /\ phi (w_server (world_move w a)) u' = phi (w_server w) u /\ ~ needed w u a)).
Proof.
  intros (C & OK & SO & (p & E & K) & L). unfold caller in C. destruct a as [[|i]|i raises].
  - pose proof (srv_ok_user _ u OK) as OK'. pose proof (stop_ok_user _ u SO) as SO'. pose proof (user_stop (w_server w) u p E K) as U.
    cbn. rewrite C. cbn. destruct (user_move (w_server w) u) as [s' u'] eqn:M. cbn in *. destruct U as [[r ->]|[(p' & -> & K' & F)|[X (t & -> & T)]]].
    + left. exists (over u UStop r). split; [reflexivity|]. cbn. rewrite app_length. cbn. lia.
    + right. exists (at_pc u p'). split; [|now left]. split; [reflexivity|]. split; [exact OK'|]. split; [exact SO'|]. split; [now exists p'|exact L].
    + injection X as -> ->. right. exists u. split.
      * split; [reflexivity|]. split; [exact OK|]. split; [exact SO|]. split; [now exists (StopJoin t)|exact L].
      * right. split; [reflexivity|]. split; [reflexivity|]. unfold needed. rewrite E. apply Nat.eqb_neq in T. rewrite T. intros [r X]. discriminate X.
  - assert (X : world_move w (ByUser (S i)) = w) by (cbn; rewrite C; destruct i; reflexivity). rewrite X. right. exists u. split.
    + split; [exact C|]. split; [exact OK|]. split; [exact SO|]. split; [now exists p|exact L].
    + right. split; [reflexivity|]. split; [reflexivity|]. unfold needed. rewrite E. destruct p; try discriminate.
      destruct (togo (w_server w) t =? 0)%nat; [discriminate|intros [r Y]; discriminate Y].
  - right. exists u. split.
    + split; [exact C|]. split; [now apply srv_ok_thread|]. split; [now apply stop_ok_thread|]. split; [now exists p|exact L].
    + cbn. unfold phi, needed. rewrite E. destruct p; try (right; split; [reflexivity|]; split; [reflexivity|discriminate]).
      unfold stop_ok in SO. rewrite E in SO. destruct (Nat.eq_dec (togo (w_server w) t) 0) as [Z|NZ].
      * right. split; [reflexivity|]. rewrite Z. destruct (Nat.eq_dec i t) as [->|D].
        -- split; [|discriminate]. f_equal. unfold thread_move. unfold togo in Z.
           destruct (nth_error (sv_threads (w_server w)) t) as [[]|] eqn:N; try discriminate Z; try (unfold togo; rewrite N; reflexivity).
           destruct (nth e (sv_events (w_server w)) false); discriminate Z.
        -- split; [|discriminate]. rewrite togo_other, Z by exact D. reflexivity.
      * destruct (Nat.eq_dec i t) as [->|D].
        -- left. pose proof (togo_same (w_server w) t raises SO NZ). lia.
        -- right. split; [reflexivity|]. rewrite togo_other by exact D. split; [reflexivity|].
           apply Nat.eqb_neq in NZ. rewrite NZ. intros [r X]. injection X as X _. congruence.
Qed.
Lemma stopping_moves n moves : forall w u, stopping n w u ->
  finished n (world_moves moves w) \/
  exists u', stopping n (world_moves moves w) u' /\
    ((phi (w_server (world_moves moves w)) u' < phi (w_server w) u)%nat \/
     (u' = u /\ phi (w_server (world_moves moves w)) u' = phi (w_server w) u /\ forall a, In a moves -> ~ needed w u a)).
Proof.
  induction moves as [|a moves IH]; intros w u S.
  - right. exists u. split; [exact S|]. right. split; [reflexivity|]. split; [reflexivity|intros a []].
  - cbn. destruct (stopping_move n w u a S) as [F|(u1 & S1 & H1)].
    + left. clear -F. revert F. generalize (world_move w a). unfold world_moves. induction moves as [|b moves IH]; intros w' F; [exact F|]. cbn. apply IH. now apply finished_move.
    + destruct (IH _ _ S1) as [F|(u2 & S2 & H2)]; [now left|]. right. exists u2. split; [exact S2|].
      destruct H1 as [H1|(-> & H1 & N1)].
      * left. destruct H2 as [H2|(-> & H2 & _)]; unfold world_moves in *; lia.
      * destruct H2 as [H2|(-> & H2 & N2)]; [left; unfold world_moves in *; lia|]. right. split; [reflexivity|]. split; [unfold world_moves in *; lia|].
        intros b [<-|Hb]; [exact N1|]. specialize (N2 b Hb). unfold needed in *. unfold phi in H1. destruct (us_now u) as [[]|]; auto.
        assert (T : togo (w_server (world_move w a)) t = togo (w_server w) t) by lia. rewrite T in N2. exact N2.
Qed.
Lemma stopping_round n w u moves : stopping n w u -> round w moves ->
  finished n (world_moves moves w) \/ exists u', stopping n (world_moves moves w) u' /\ (phi (w_server (world_moves moves w)) u' < phi (w_server w) u)%nat.
Proof.
  intros S [R1 R2]. destruct (stopping_moves n moves w u S) as [F|(u' & S' & [H|(-> & H & N)])]; eauto. exfalso.
  destruct S as (C & OK & SO & (p & E & K) & L). unfold needed in N. rewrite E in N.
  destruct p; try (apply (N _ R1); reflexivity). destruct (togo (w_server w) t =? 0)%nat eqn:T; [apply (N _ R1); reflexivity|].
  destruct (R2 t) as [r Hr]; [|apply (N _ Hr); eauto]. apply Nat.eqb_neq in T. unfold togo in T. destruct (nth_error (sv_threads (w_server w)) t) eqn:X; [eapply nth_lt; exact X|congruence].
Qed.

(** With one caller a stop() never waits for ever: once everybody has had 16 turns it is over, whatever has
    happened before and whatever raises. *)
Theorem C52_stop_ends : forall program schedule u p more,
  let w := world_moves schedule (world_start [program]) in
  caller w u -> us_now u = Some p -> call_of p = UStop ->
  rounds 16 w more ->
  exists u', caller (world_moves more w) u' /\ (length (us_done u) < length (us_done u'))%nat.
Proof.
  intros program schedule u p more w C E K R.
  assert (S : stopping (length (us_done u)) w u).
  { split; [exact C|]. split; [apply srv_ok_reach|]. split; [|split; [now exists p|reflexivity]].
    destruct (stop_ok_reach program schedule) as (u' & C' & H). unfold caller in *. fold w in C', H. rewrite C in C'. injection C' as <-. exact H. }
  assert (B : (phi (w_server w) u <= 16)%nat).
  { unfold phi. rewrite E. destruct p; try lia. pose proof (togo_bound (w_server w) t). lia. }
  change (finished (length (us_done u)) (world_moves more w)). generalize dependent (length (us_done u)). intros n S.
  clear C E K p. generalize dependent u. generalize dependent more. generalize dependent w. clear.
  generalize 16%nat as k. induction k as [|k IH]; intros w more R u B S.
  - exfalso. destruct S as (_ & _ & _ & (p & E & K) & _). unfold phi in B. rewrite E in B. destruct p; try discriminate K; lia.
  - apply rounds_inv in R as (moves & rest & -> & Rd & R'). unfold world_moves. rewrite fold_left_app. fold (world_moves moves w).
    destruct (stopping_round n w u moves S Rd) as [F|(u' & S' & L)].
    + clear -F. revert F. generalize (world_moves moves w). induction rest as [|b rest IH]; intros w' F; [exact F|]. cbn. apply IH. now apply finished_move.
    + eapply (IH _ _ R' u'); [lia|exact S'].
Qed.
Example C52_stop_ends_ex : exists schedule u p,
  let w := world_moves schedule (world_start [[UStart; UStop]]) in
  caller w u /\ us_now u = Some p /\ call_of p = UStop /\
  rounds 16 w (concat (repeat [ByThread 0 true; ByUser 0; ByThread 0 false; ByThread 1 false] 16)).
Proof.
  exists (repeat (ByUser 0) 5 ++ repeat (ByThread 0 false) 4 ++ repeat (ByUser 0) 6). do 2 eexists. split; [reflexivity|]. split; [reflexivity|]. split; [reflexivity|].
  assert (R : forall w, (length (sv_threads (w_server w)) <= 2)%nat -> round w [ByThread 0 true; ByUser 0; ByThread 0 false; ByThread 1 false]).
  { intros w L. split; [cbn; auto|]. intros [|[|i]] H; [exists true|exists false|lia]; cbn; auto. }
  cbn [repeat concat]. repeat (apply rounds_more; [apply R; vm_compute; lia|]). constructor.
Qed.

(** one caller making [k] moves alone *)
Fixpoint solo (k : nat) (s : server) (u : user) : server * user :=
  match k with O => (s, u) | S m => let '(s', u') := user_move s u in solo m s' u' end.
Lemma solo_moves i k : forall w u, nth_error (w_users w) i = Some u ->
  world_moves (repeat (ByUser i) (S k)) w = {| w_server := fst (solo (S k) (w_server w) u); w_users := list_upd (w_users w) i (snd (solo (S k) (w_server w) u)) |}.
Proof.
  induction k as [|k IH]; intros w u N.
  - unfold world_moves. cbn. rewrite N. now destruct (user_move (w_server w) u).
  - change (repeat (ByUser i) (S (S k))) with (ByUser i :: repeat (ByUser i) (S k)).
    change (world_moves (ByUser i :: repeat (ByUser i) (S k)) w) with (world_moves (repeat (ByUser i) (S k)) (world_move w (ByUser i))).
    change (solo (S (S k)) (w_server w) u) with (let '(s', u') := user_move (w_server w) u in solo (S k) s' u').
    assert (W : world_move w (ByUser i) = {| w_server := fst (user_move (w_server w) u); w_users := list_upd (w_users w) i (snd (user_move (w_server w) u)) |}).
    { cbn. rewrite N. now destruct (user_move (w_server w) u). }
    rewrite W. destruct (user_move (w_server w) u) as [s' u'] eqn:M. cbn [fst snd].
    rewrite (IH _ u') by (cbn; apply list_upd_same; eapply nth_lt; exact N). cbn [w_server w_users]. now rewrite list_upd_upd.
Qed.

Lemma iter_out {A} (f : A -> A) k x : Nat.iter k f (f x) = f (Nat.iter k f x).
Proof. induction k as [|k IH]; [reflexivity|]. cbn. f_equal. exact IH. Qed.
Lemma iter_plus {A} (f : A -> A) n m x : Nat.iter (n + m) f x = Nat.iter n f (Nat.iter m f x).
Proof. induction n as [|n IH]; [reflexivity|]. cbn. f_equal. exact IH. Qed.
Lemma thread_moves t k : forall w, world_moves (repeat (ByThread t false) k) w = {| w_server := Nat.iter k (fun s => thread_move s t false) (w_server w); w_users := w_users w |}.
Proof.
  induction k as [|k IH]; intros w; [now destruct w|]. cbn [repeat]. change (world_moves (ByThread t false :: repeat (ByThread t false) k) w) with (world_moves (repeat (ByThread t false) k) (world_move w (ByThread t false))).
  rewrite IH. cbn [world_move w_server w_users]. f_equal. exact (iter_out (fun s => thread_move s t false) k (w_server w)).
Qed.

(** Whoever calls: when no thread of the server runs, stop() returns and changes nothing. *)
Theorem C52_stop_idle : forall programs schedule i u rest,
  let w := world_moves schedule (world_start programs) in
  quiet w -> nth_error (w_users w) i = Some u -> us_now u = None -> us_todo u = UStop :: rest ->
  world_moves (repeat (ByUser i) 3) w =
  {| w_server := w_server w;
     w_users := list_upd (w_users w) i {| us_now := None; us_todo := rest; us_done := us_done u ++ [(UStop, Ok tt)] |} |}.
Proof.
  intros programs schedule i u rest w Q N E T. pose proof (nth_lt _ _ _ N) as L.
  destruct (srv_ok_reach programs schedule) as (Hlt & _). fold w in Hlt.
  destruct (nth_error (sv_threads (w_server w)) (sv_thread (w_server w))) as [p|] eqn:Np; [|apply nth_error_None in Np; lia].
  pose proof (Q _ _ Np) as A. rewrite (solo_moves i 2 w u N). cbn [solo]. unfold user_move at 1 4. rewrite E, T. cbn. rewrite Np, A. reflexivity.
Qed.
Example C52_stop_idle_ex : exists schedule u rest,
  let w := world_moves schedule (world_start [[UStart]; [UStop; UStart]]) in
  quiet w /\ nth_error (w_users w) 1 = Some u /\ us_now u = None /\ us_todo u = UStop :: rest /\ thread_of w 0 = Some TDead.
Proof. (* the server thread failed and is through *)
  exists (repeat (ByUser 0) 5 ++ repeat (ByThread 0 true) 1 ++ repeat (ByThread 0 false) 3). do 2 eexists.
  split; [apply quiet_compute; vm_compute; reflexivity|]. repeat split; reflexivity.
Qed.

Lemma restart_from w i u rest :
  srv_ok (w_server w) -> quiet w -> (forall t, thread_of w t <> Some TKilled) ->
  nth_error (w_users w) i = Some u -> us_now u = None -> us_todo u = UStart :: rest ->
  exists t, let w' := world_moves (repeat (ByUser i) 5) w in
  nth_error (w_users w') i = Some {| us_now := None; us_todo := rest; us_done := us_done u ++ [(UStart, Ok tt)] |} /\
  thread_of w' t = Some TInit /\
  forall n, thread_of (world_moves (repeat (ByThread t false) (3 * n + 3)) w') t = Some TRun.
Proof.
  intros OK Q NK N E T. pose proof (nth_lt _ _ _ N) as L.
  destruct OK as (Hlt & Hgo & _ & Hd).
  destruct (nth_error (sv_threads (w_server w)) (sv_thread (w_server w))) as [p|] eqn:Np; [|apply nth_error_None in Np; lia].
  pose proof (Q _ _ Np) as A. destruct (Hd _ eq_refl) as [_ ND].
  assert (p = TNew) as -> by (destruct p; try discriminate A; [reflexivity|congruence|exfalso; exact (NK _ Np)]).
  exists (sv_thread (w_server w)).
  set (u' := {| us_now := None; us_todo := rest; us_done := us_done u ++ [(UStart, Ok tt)] |}).
  set (s' := put_thread (put_event (w_server w) (sv_go (w_server w)) true) (sv_thread (w_server w)) TInit).
  assert (W : world_moves (repeat (ByUser i) 5) w = {| w_server := s'; w_users := list_upd (w_users w) i u' |}).
  { rewrite (solo_moves i 4 w u N). cbn [solo]. unfold user_move at 1 6. rewrite E, T. cbn. rewrite Np. reflexivity. }
  cbv zeta. rewrite W. cbn [w_users w_server]. split; [now apply list_upd_same|]. split; [unfold thread_of; cbn; now apply list_upd_same|].
  intros n. unfold thread_of. rewrite thread_moves. cbn [w_server].
  assert (Up : forall k, Nat.iter (3 * k + 3) (fun s => thread_move s (sv_thread (w_server w)) false) s' = put_thread s' (sv_thread (w_server w)) TRun).
  { assert (G : nth (sv_go (w_server w)) (list_upd (sv_events (w_server w)) (sv_go (w_server w)) true) false = true).
    { apply nth_error_nth. now apply list_upd_same. }
    assert (Three : forall p, p = TInit \/ p = TRun -> Nat.iter 3 (fun s => thread_move s (sv_thread (w_server w)) false) (put_thread s' (sv_thread (w_server w)) p) = put_thread s' (sv_thread (w_server w)) TRun).
    { intros p Hp. cbn [Nat.iter nat_rect].
      assert (One : forall q q', thread_move (put_thread s' (sv_thread (w_server w)) q) (sv_thread (w_server w)) false = put_thread (put_thread s' (sv_thread (w_server w)) q) (sv_thread (w_server w)) q' ->
                    thread_move (put_thread s' (sv_thread (w_server w)) q) (sv_thread (w_server w)) false = put_thread s' (sv_thread (w_server w)) q').
      { intros q q' ->. unfold put_thread. cbn. now rewrite list_upd_upd. }
      assert (Nq : forall q, nth_error (sv_threads (put_thread s' (sv_thread (w_server w)) q)) (sv_thread (w_server w)) = Some q).
      { intros q. cbn. apply list_upd_same. now rewrite len_upd. }
      rewrite (One p TTest) by (unfold thread_move; rewrite Nq; destruct Hp as [-> | ->]; reflexivity).
      rewrite (One TTest (TTestOn (sv_go (w_server w)))) by (unfold thread_move; rewrite Nq; reflexivity).
      apply One. unfold thread_move. rewrite Nq. cbn [put_thread sv_events s' put_event]. rewrite G. reflexivity. }
    induction k as [|k IH].
    - rewrite <- (Three TInit (or_introl eq_refl)). f_equal. unfold s', put_thread. cbn. now rewrite list_upd_upd.
    - replace (3 * S k + 3)%nat with (3 + (3 * k + 3))%nat by lia. rewrite iter_plus, IH. apply Three. now right. }
  rewrite Up. cbn. apply list_upd_same. now rewrite len_upd.
Qed.
(** Whoever calls: when no thread of the server runs and no on_exception hook has raised, start() returns,
    and a thread serves as long as nothing raises and self._go is not cleared. *)
Theorem C52_restart_partial : forall programs schedule i u rest,
  let w := world_moves schedule (world_start programs) in
  quiet w -> (forall t, thread_of w t <> Some TKilled) ->
  nth_error (w_users w) i = Some u -> us_now u = None -> us_todo u = UStart :: rest ->
  exists t, let w' := world_moves (repeat (ByUser i) 5) w in
  nth_error (w_users w') i = Some {| us_now := None; us_todo := rest; us_done := us_done u ++ [(UStart, Ok tt)] |} /\
  thread_of w' t = Some TInit /\
  forall n, thread_of (world_moves (repeat (ByThread t false) (3 * n + 3)) w') t = Some TRun.
Proof. intros programs schedule i u rest w Q NK N E T. apply restart_from; try assumption. apply srv_ok_reach. Qed.
Example C52_restart_ex : exists schedule u rest,
  let w := world_moves schedule (world_start [[UStart; UStop; UStart]]) in
  quiet w /\ (forall t, thread_of w t <> Some TKilled) /\ nth_error (w_users w) 0 = Some u /\ us_now u = None /\ us_todo u = UStart :: rest /\
  us_done u = [(UStart, Ok tt); (UStop, Ok tt)].
Proof.
  exists (repeat (ByUser 0) 5 ++ repeat (ByThread 0 false) 4 ++ repeat (ByUser 0) 6 ++ repeat (ByThread 0 false) 8 ++ repeat (ByUser 0) 1), {| us_now := None; us_todo := [UStart]; us_done := [(UStart, Ok tt); (UStop, Ok tt)] |}, [].
  split; [apply quiet_compute; vm_compute; reflexivity|].
  split; [intros [|[|i]] N; vm_compute in N; try discriminate N; destruct i; discriminate N|].
  repeat (split; [vm_compute; reflexivity|]). reflexivity.
Qed.

(** With one caller: stop() never raises as long as the server thread does not come to its end by itself
    between the first and the last line of stop(). *)
Definition between (u : user) : Prop := exists p, us_now u = Some p /\
  match p with StopAlive _ | StopGo | StopClear _ | StopThread2 => True | _ => False end.
Fixpoint calm (w : world) (schedule : list actor) : Prop :=
  match schedule with
  | [] => True
  | a :: rest =>
      (forall i raises u, a = ByThread i raises -> thread_of w i = Some TMakeThread -> caller w u -> ~ between u) /\
      calm (world_move w a) rest
  end.
Definition between_b (u : user) : bool :=
  match us_now u with Some (StopAlive _) | Some StopGo | Some (StopClear _) | Some StopThread2 => true | _ => false end.
Fixpoint calm_b (w : world) (schedule : list actor) : bool :=
  match schedule with
  | [] => true
  | a :: rest =>
      match a with
      | ByThread i _ => match thread_of w i with Some TMakeThread => forallb (fun u => negb (between_b u)) (w_users w) | _ => true end
      | _ => true
      end && calm_b (world_move w a) rest
  end.
Lemma calm_compute schedule : forall w, calm_b w schedule = true -> calm w schedule.
Proof.
  induction schedule as [|a sch IH]; intros w H; [exact Logic.I|]. cbn in H. apply andb_true_iff in H as [H H']. split; [|now apply IH].
  intros i raises u -> N C (p & E & B). unfold caller in C. rewrite N, C in H. cbn in H. unfold between_b in H. rewrite E in H. destruct p; try destruct B; discriminate H.
Qed.
Definition calm_ok (s : server) (u : user) : Prop :=
  match us_now u with
  | Some (StopAlive t) => t = sv_thread s
  | Some StopGo | Some (StopClear _) | Some StopThread2 => nth_error (sv_threads s) (sv_thread s) <> Some TNew
  | Some (StopJoin t) => nth_error (sv_threads s) t <> Some TNew /\ (t < length (sv_threads s))%nat
  | _ => True
  end /\ forall r, In (UStop, r) (us_done u) -> r = Ok tt.
Lemma calm_ok_user s u : srv_ok s -> calm_ok s u -> calm_ok (fst (user_move s u)) (snd (user_move s u)).
Proof.
  intros (Hlt & _) [H1 H2]. unfold calm_ok, user_move. destruct (us_now u) as [[|e| |t| |t| |e| |t]|] eqn:E; cbn; auto.
  - destruct (nth_error (sv_threads s) t) as [[]|]; cbn; (split; [exact Logic.I|]); intros r X; apply in_app_iff in X as [X|[X|[]]]; auto; discriminate X.
  - destruct (nth_error (sv_threads s) t) as [p|] eqn:N; [destruct (alive p) eqn:A|]; cbn.
    + split; [|exact H2]. subst t. rewrite N. intros X. injection X as ->. discriminate A.
    + split; [exact Logic.I|]. intros r X. apply in_app_iff in X as [X|[X|[]]]; auto. now injection X as <-.
    + split; [exact Logic.I|]. intros r X. apply in_app_iff in X as [X|[X|[]]]; auto. now injection X as <-.
  - destruct H1 as [H1 H1']. destruct (nth_error (sv_threads s) t) as [p|] eqn:N; [destruct p|]; cbn; try rewrite E; try congruence;
      try (split; [split; [rewrite N; discriminate|exact H1']|exact H2]);
      (split; [exact Logic.I|]); intros r X; apply in_app_iff in X as [X|[X|[]]]; auto; now injection X as <-.
  - destruct (us_todo u) as [|[] ?]; cbn; try rewrite E; auto.
Qed.
Lemma calm_ok_thread s u i raises :
  srv_ok s -> (nth_error (sv_threads s) i = Some TMakeThread -> ~ between u) -> calm_ok s u -> calm_ok (thread_move s i raises) u.
Proof.
  intros OK NB [H1 H2]. split; [|exact H2]. destruct (us_now u) as [p|] eqn:E; [|exact Logic.I].
  assert (St : sv_thread (thread_move s i raises) = sv_thread s \/ nth_error (sv_threads s) i = Some TMakeThread).
  { unfold thread_move. destruct (nth_error (sv_threads s) i) as [[]|]; auto. }
  assert (Nw : forall t, (t < length (sv_threads s))%nat -> nth_error (sv_threads s) t <> Some TNew -> nth_error (sv_threads (thread_move s i raises)) t <> Some TNew).
  { intros t L Ht. apply thread_move_cases; [exact Ht| | |].
    - intros q q' N S Q X. cbn in X. destruct (nth_upd _ _ _ _ _ _ N X) as [[-> Y]|[D X']]; congruence.
    - intros N X. cbn in X. rewrite nth_error_app1 in X by (rewrite len_upd; exact L). destruct (nth_upd _ _ _ _ _ _ N X) as [[-> Y]|[D X']]; congruence.
    - intros s' Hs'. exact Hs'. }
  assert (Ln : forall t, (t < length (sv_threads s))%nat -> (t < length (sv_threads (thread_move s i raises)))%nat).
  { intros t L. apply thread_move_cases; [exact L| | |].
    - intros q q' _ _ _. cbn. now rewrite len_upd.
    - intros _. cbn. rewrite app_length, len_upd. cbn. lia.
    - intros s' Hs'. exact Hs'. }
  destruct OK as (Hlt & _). destruct p; try exact Logic.I.
  - destruct St as [->|St]; [exact H1|]. exfalso. apply (NB St). now exists (StopAlive t).
  - destruct St as [->|St]; [now apply Nw|]. exfalso. apply (NB St). now exists StopGo.
  - destruct St as [->|St]; [now apply Nw|]. exfalso. apply (NB St). now exists (StopClear e).
  - destruct St as [->|St]; [now apply Nw|]. exfalso. apply (NB St). now exists StopThread2.
  - destruct H1. split; auto.
Qed.
Theorem C52_stop_returns_partial : forall program schedule u r,
  let w := world_moves schedule (world_start [program]) in
  calm (world_start [program]) schedule -> caller w u -> In (UStop, r) (us_done u) -> r = Ok tt.
Proof.
  intros program schedule u r w K C D.
  assert (G : forall w u, caller w u -> srv_ok (w_server w) -> calm_ok (w_server w) u -> calm w schedule ->
              exists u', caller (world_moves schedule w) u' /\ calm_ok (w_server (world_moves schedule w)) u').
  { clear. unfold world_moves. induction schedule as [|a sch IH]; intros w u C OK HP KK; [eauto|]. destruct KK as [K K']. cbn. destruct a as [[|i]|i raises].
    - unfold caller in C. pose proof (srv_ok_move w (ByUser 0) OK) as OK'. pose proof (calm_ok_user _ _ OK HP) as HP'.
      assert (W : world_move w (ByUser 0) = {| w_server := fst (user_move (w_server w) u); w_users := [snd (user_move (w_server w) u)] |}).
      { cbn. rewrite C. cbn. destruct (user_move (w_server w) u). reflexivity. }
      rewrite W in *. eapply IH; [reflexivity|exact OK'|exact HP'|exact K'].
    - assert (X : world_move w (ByUser (S i)) = w) by (cbn; rewrite C; destruct i; reflexivity). rewrite X in *. eapply IH; eauto.
    - eapply IH; [exact C|now apply srv_ok_thread| |exact K']. cbn. apply calm_ok_thread; [exact OK| |exact HP]. intros N. eapply K; [reflexivity|exact N|exact C]. }
  destruct (G (world_start [program]) {| us_now := None; us_todo := program; us_done := [] |}) as (u' & C' & [_ H]).
  - reflexivity.
  - apply srv_ok_start.
  - split; [exact Logic.I|intros x []].
  - exact K.
  - unfold caller in *. fold w in C'. rewrite C in C'. injection C' as <-. now apply H.
Qed.
Example C52_stop_returns_ex : exists schedule u,
  let w := world_moves schedule (world_start [[UStart; UStop]]) in
  calm (world_start [[UStart; UStop]]) schedule /\ caller w u /\ In (UStop, Ok tt) (us_done u).
Proof.
  exists (repeat (ByUser 0) 5 ++ repeat (ByThread 0 false) 4 ++ repeat (ByUser 0) 6 ++ repeat (ByThread 0 false) 8 ++ repeat (ByUser 0) 1), {| us_now := None; us_todo := []; us_done := [(UStart, Ok tt); (UStop, Ok tt)] |}.
  split; [|split; [vm_compute; reflexivity|vm_compute; auto]]. apply calm_compute. vm_compute. reflexivity.
Qed.

(** But it may come to its end there, and then stop() raises RuntimeError (it joins the new thread, which
    has not been started) although nothing has failed. *)
Theorem C52_stop_raises_refuted :
  exists schedule u,
  (forall i, ~ In (ByThread i true) schedule) /\                     (* nothing raises *)
  caller (world_moves schedule (world_start [[UStart; UStop]])) u /\
  us_done u = [(UStart, Ok tt); (UStop, Err PyRuntimeError)].
Proof.
  exists (repeat (ByUser 0) 5 ++ repeat (ByThread 0 false) 2 ++ repeat (ByUser 0) 5 ++ repeat (ByThread 0 false) 5 ++ repeat (ByThread 0 false) 3 ++ repeat (ByUser 0) 2), {| us_now := None; us_todo := []; us_done := [(UStart, Ok tt); (UStop, Err PyRuntimeError)] |}.
  split; [intros i H; repeat (destruct H as [H|H]; [discriminate H|]); exact H|]. split; vm_compute; reflexivity.
Qed.

(** A start() can be lost: when the server thread has just failed, start() returns, yet in the end nothing
    runs although stop() was never called. *)
Theorem C52_lost_start_refuted :
  exists schedule u,
  let w := world_moves schedule (world_start [[UStart; UStart]]) in
  caller w u /\ us_done u = [(UStart, Ok tt); (UStart, Ok tt)] /\ quiet w /\
  (* only the first thread failed, in _do_init *)
  exists before after, schedule = before ++ ByThread 0 true :: after /\ thread_of (world_moves before (world_start [[UStart; UStart]])) 0 = Some TInit /\
  forall i, ~ In (ByThread i true) (before ++ after).
Proof.
  exists (repeat (ByUser 0) 5 ++ ByThread 0 true :: repeat (ByThread 0 false) 2 ++ repeat (ByUser 0) 5 ++ repeat (ByThread 0 false) 1 ++ repeat (ByThread 1 false) 6), {| us_now := None; us_todo := []; us_done := [(UStart, Ok tt); (UStart, Ok tt)] |}.
  split; [vm_compute; reflexivity|]. split; [reflexivity|].
  split; [apply quiet_compute; vm_compute; reflexivity|].
  exists (repeat (ByUser 0) 5). eexists. split; [reflexivity|]. split; [reflexivity|].
  intros i H; repeat (destruct H as [H|H]; [discriminate H|]); exact H.
Qed.

(** An on_exception hook that raises ends the server for good: every later start() raises RuntimeError. *)
Theorem C52_killed_refuted : forall programs schedule more i u u' n,
  let w := world_moves schedule (world_start programs) in
  thread_of w (sv_thread (w_server w)) = Some TKilled ->
  nth_error (w_users w) i = Some u -> us_now u = None ->
  nth_error (w_users (world_moves more w)) i = Some u' ->
  (length (us_done u) <= n)%nat -> forall r, nth_error (us_done u') n = Some (UStart, r) -> r = Err PyRuntimeError.
Proof.
  intros programs schedule more i u u' n w HK N E N' L r D.
  set (killed := fun s : server => srv_ok s /\ nth_error (sv_threads s) (sv_thread s) = Some TKilled).
  assert (KN : forall s t, killed s -> nth_error (sv_threads s) t <> Some TNew).
  { intros s t [(_ & _ & H & _) K] X. rewrite (H t TNew X eq_refl), K in X. discriminate X. }
  assert (KT : forall s t r, killed s -> killed (thread_move s t r)).
  { intros s t r0 [OK K]. split; [now apply srv_ok_thread|]. apply thread_move_cases; [exact K| | |].
    - intros p q Np S Q. cbn. destruct (Nat.eq_dec (sv_thread s) t) as [X|X]; [|rewrite list_upd_other by auto; exact K].
      rewrite X in K. rewrite Np in K. injection K as ->. destruct S as [S|[S _]]; discriminate S.
    - intros Nt. exfalso. pose proof OK as (_ & _ & H & _). rewrite (H t TMakeThread Nt eq_refl), K in Nt. discriminate Nt.
    - intros s' H. exact H. }
  assert (KU : forall s v, killed s -> killed (fst (user_move s v)) /\ (exists l, us_done (snd (user_move s v)) = us_done v ++ l /\ (length (us_done v ++ l) <= S (length (us_done v)))%nat /\ forall r, In (UStart, r) l -> r = Err PyRuntimeError)).
  { intros s v Ks. split.
    - split; [apply srv_ok_user; apply Ks|]. destruct Ks as [OK K]. unfold user_move. destruct (us_now v) as [[|e| |t| |t| |e| |t]|]; try exact K.
      + destruct (nth_error (sv_threads s) t) as [p|] eqn:Nt; [|exact K]. destruct p; try exact K. exfalso. eapply KN; [|exact Nt]. now split.
      + destruct (nth_error (sv_threads s) t) as [p|]; [|exact K]. destruct (alive p); exact K.
      + destruct (nth_error (sv_threads s) t) as [p|]; [|exact K]. destruct p; exact K.
      + destruct (us_todo v) as [|[] ?]; exact K.
    - assert (Nil : exists l, us_done v = us_done v ++ l /\ (length (us_done v ++ l) <= S (length (us_done v)))%nat /\ forall r, In (UStart, r) l -> r = Err PyRuntimeError).
      { exists []. rewrite app_nil_r. split; [reflexivity|]. split; [lia|intros x []]. }
      assert (One : forall c q, (c = UStart -> q = Err PyRuntimeError) -> exists l, us_done v ++ [(c, q)] = us_done v ++ l /\ (length (us_done v ++ l) <= S (length (us_done v)))%nat /\ forall r, In (UStart, r) l -> r = Err PyRuntimeError).
      { intros c q H. exists [(c, q)]. split; [reflexivity|]. rewrite app_length. split; [cbn; lia|]. intros x [X|[]]. injection X as X1 X2. rewrite <- X2. now apply H. }
      unfold user_move. destruct (us_now v) as [[|e| |t| |t| |e| |t]|]; cbn; auto.
      + destruct (nth_error (sv_threads s) t) as [p|] eqn:Nt; [destruct p|]; cbn; try (apply One; reflexivity). exfalso. eapply KN; eauto.
      + destruct (nth_error (sv_threads s) t) as [p|]; [destruct (alive p)|]; cbn; auto; apply One; discriminate.
      + destruct (nth_error (sv_threads s) t) as [p|]; [destruct p|]; cbn; auto; apply One; discriminate.
      + destruct (us_todo v) as [|[] ?]; cbn; auto. }
  assert (G : forall more w u, killed (w_server w) -> nth_error (w_users w) i = Some u ->
     forall u', nth_error (w_users (world_moves more w)) i = Some u' -> exists l, us_done u' = us_done u ++ l /\ forall r, In (UStart, r) l -> r = Err PyRuntimeError).
  { clear -KT KU. induction more as [|a more IH]; intros w u K N u' N'.
    - cbn in N'. rewrite N in N'. injection N' as <-. exists []. rewrite app_nil_r. split; [reflexivity|intros r []].
    - cbn in N'. destruct a as [j|j raises].
      + cbn in N'. destruct (nth_error (w_users w) j) as [v|] eqn:Nj; [|eapply IH; eauto].
        destruct (KU (w_server w) v K) as [K' (l & Dl & _ & Hl)]. destruct (user_move (w_server w) v) as [s' v'] eqn:M. cbn in *.
        destruct (Nat.eq_dec i j) as [->|Dij].
        * rewrite N in Nj. injection Nj as <-. destruct (IH {| w_server := s'; w_users := list_upd (w_users w) j v' |} v' K' (list_upd_same _ _ _ (nth_lt _ _ _ N)) u' N') as (l2 & D2 & H2).
          exists (l ++ l2). split; [now rewrite D2, Dl, app_assoc|]. intros r X. apply in_app_iff in X as [X|X]; auto.
        * eapply (IH {| w_server := s'; w_users := list_upd (w_users w) j v' |}); [exact K'| |exact N']. cbn. rewrite list_upd_other by auto. exact N.
      + eapply (IH {| w_server := thread_move (w_server w) j raises; w_users := w_users w |}); [now apply KT|exact N|exact N']. }
  destruct (G more w u) with (u' := u') as (l & Dl & Hl); [split; [apply srv_ok_reach|exact HK]|exact N|exact N'|].
  apply Hl. rewrite Dl in D. rewrite nth_error_app2 in D by exact L. eapply nth_error_In. exact D.
Qed.
Example C52_killed_ex : exists schedule, let w := world_moves schedule (world_start [[UStart; UStop; UStart]]) in
  thread_of w (sv_thread (w_server w)) = Some TKilled /\ exists u, nth_error (w_users w) 0 = Some u /\ us_now u = None.
Proof. exists (repeat (ByUser 0) 5 ++ repeat (ByThread 0 true) 2). split; [reflexivity|]. eexists. split; reflexivity. Qed.

(** With two callers: a start() while a stop() waits sets self._go again (and raises); the server goes on, and
    stop() waits as long as nothing raises. *)
Theorem C52_hung_stop_refuted :
  exists schedule, forall more,
  (forall i, ~ In (ByThread i true) more) ->
  let w := world_moves (schedule ++ more) (world_start [[UStart; UStop]; [UStart]]) in
  exists u p, nth_error (w_users w) 0 = Some u /\ us_now u = Some (StopJoin 0) /\
  thread_of w 0 = Some p /\ serving p = true.
Proof.
  exists (repeat (ByUser 0) 5 ++ repeat (ByThread 0 false) 4 ++ repeat (ByUser 0) 6 ++ repeat (ByUser 1) 3). intros more NR.
  unfold world_moves. cbv zeta. rewrite fold_left_app.
  set (inv := fun w : world => exists p u v, w_server w = {| sv_thread := 0; sv_go := 0; sv_threads := [p]; sv_events := [true] |} /\ w_users w = [u; v] /\
     (p = TTest \/ p = TTestOn 0 \/ p = TRun) /\ us_now u = Some (StopJoin 0) /\
     (us_now v = Some StartThread \/ (exists t, us_now v = Some (StartStart t) /\ t = 0%nat) \/ us_now v = None) /\ us_todo v = []).
  match goal with |- context [fold_left world_move more ?w] => assert (I0 : inv w); [|generalize dependent w] end.
  { exists TTest, {| us_now := Some (StopJoin 0); us_todo := []; us_done := [(UStart, Ok tt)] |}, {| us_now := Some StartThread; us_todo := []; us_done := [] |}.
    repeat (split; [vm_compute; auto|]). vm_compute. auto. }
  induction more as [|a more IH]; intros w Hw.
  - destruct Hw as (p & u & v & S & U & P & J & _). exists u, p. unfold thread_of. cbn. rewrite S, U. repeat split; auto.
    destruct P as [->|[->| ->]]; reflexivity.
  - cbn. apply IH; [intros i H; apply (NR i); now right|]. destruct Hw as (p & u & v & S & U & P & J & V & T).
    assert (Keep : inv w) by (exists p, u, v; auto 10).
    destruct a as [[|[|i]]|[|i] [|]]; cbn; rewrite ?U; cbn.
    + assert (X : user_move (w_server w) u = (w_server w, u)). { unfold user_move. rewrite J, S. cbn. destruct P as [->|[->| ->]]; reflexivity. }
      rewrite X. destruct w; cbn in *; subst. exact Keep.
    + unfold user_move. destruct V as [V|[(t & V & ->)|V]]; rewrite V, ?T.
      * exists p, u. eexists. split; [exact S|]. split; [reflexivity|]. split; [exact P|]. split; [exact J|]. split; [right; left; cbn; rewrite S; eauto|exact T].
      * rewrite S. cbn. destruct P as [->|[->| ->]]; cbn; (eexists; exists u; eexists; split; [reflexivity|]; split; [reflexivity|]; split; [eauto|]; split; [exact J|]; split; [right; right; reflexivity|exact T]).
      * destruct w; cbn in *; subst. exact Keep.
    + destruct i; exact Keep.
    + exfalso. apply (NR 0%nat). now left.
    + unfold thread_move. rewrite S. cbn. destruct P as [->|[->| ->]]; cbn;
        (eexists; exists u, v; split; [reflexivity|]; split; [reflexivity|]; split; [eauto|]; auto).
    + exfalso. apply (NR (Datatypes.S i)). now left.
    + unfold thread_move. rewrite S. cbn. replace (nth_error [] i) with (@None tpc) by (destruct i; reflexivity). rewrite <- S. destruct w; cbn in *; subst. exact Keep.
Qed.

(** TcpServer: as long as every run of the server thread ended by a stop(), the next start() gets its listening
    socket. *)
Theorem C52_tcp_restart_partial : forall history,
  (forall events, In events history -> In LoopOver events /\ ~ In RunRaised events) ->
  forall r, In r (tcp_lives 0%nat history) -> r = Ok tt.
Proof.
  induction history as [|e t IH]; intros H r R; [destruct R|].
  destruct (H e (or_introl eq_refl)) as [H1 H2].
  assert (X : forall l, tcp_rest l e = (0%nat, Ok tt)).
  { clear -H1 H2. induction e as [|[] e IH]; intros l; [destruct H1| |reflexivity|].
    - cbn. apply IH; [destruct H1 as [X|X]; [discriminate X|exact X]|intros X; apply H2; now right].
    - exfalso. apply H2. now left. }
  cbn [tcp_lives] in R. unfold tcp_run_server in R. cbn [tcp_do_init] in R. rewrite X in R.
  destruct R as [<-|R]; [reflexivity|]. apply IH; [|exact R]. intros x Hx. apply H. now right.
Qed.
Example C52_tcp_restart_ex : forall events, In events [[LoopOver]; [AcceptFailed; LoopOver]] -> In LoopOver events /\ ~ In RunRaised events.
Proof. intros e [<-|[<-|[]]]; split; cbn; auto; intros H; repeat (destruct H as [H|H]; try discriminate H); exact H. Qed.
(** But when an exception came out of _do_run, its listening socket stays open: no later start() ever works. *)
Theorem C52_tcp_leak_refuted : forall later,
  Forall (fun r => r = Err GenericException) (tcp_lives 0%nat ([RunRaised] :: later)).
Proof.
  intros later. cbn. constructor; [reflexivity|]. induction later as [|e t IH]; [constructor|]. cbn. constructor; [reflexivity|exact IH].
Qed.

(** If accept had failed before, the listening socket was closed then: a new start() works after the exception. *)
Theorem C52_tcp_accept_failed : forall later, tcp_lives 0%nat ([AcceptFailed; RunRaised] :: later) = Err GenericException :: tcp_lives 0%nat later.
Proof. reflexivity. Qed.
Print Assumptions C52_one_server.
Print Assumptions C52_stop_stops.
Print Assumptions C52_stop_ends.
Print Assumptions C52_stop_idle.
Print Assumptions C52_restart_partial.
Print Assumptions C52_stop_returns_partial.
Print Assumptions C52_stop_raises_refuted.
Print Assumptions C52_lost_start_refuted.
Print Assumptions C52_killed_refuted.
Print Assumptions C52_hung_stop_refuted.
Print Assumptions C52_tcp_restart_partial.
Print Assumptions C52_tcp_leak_refuted.
Print Assumptions C52_tcp_accept_failed.
