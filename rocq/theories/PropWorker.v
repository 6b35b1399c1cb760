(** Property C80: utils.WorkerThread.  Vocabulary: WorkerModel.v. *)
From Coq Require Import Lia.
From Verif Require Import Base BaseFacts WorkerModel.

(** Spec: what may have been called before the exit function: nothing; an init function that raised; the init function and any number of
    calls of the main function, of which only the last may have raised. *)
Inductive body_calls (init : bool) : list (wfct * bool) -> Prop :=
| InitRaised : init = true -> body_calls init [(FInit, true)]
| MainCalls n (raised : bool) : body_calls init ((if init then [(FInit, false)] else []) ++ repeat (FMain, false) n ++ (if raised then [(FMain, true)] else [])).
(** Spec: all that is called in the life of a worker. *)
Definition whole_life (init exit : bool) (t : list (wfct * bool)) : Prop :=
  exists body, body_calls init body /\ exists raised, t = body ++ (if exit then [(FExit, raised)] else []).

Definition trace_ok (w : worker) : Prop :=
  match wk_pc w with
  | WNew | WInit => wk_trace w = []
  | WTest | WMain => exists n, wk_trace w = (if wk_init w then [(FInit, false)] else []) ++ repeat (FMain, false) n
  | WExit => body_calls (wk_init w) (wk_trace w)
  | WDead => whole_life (wk_init w) (wk_exit w) (wk_trace w)
  end.
Lemma repeat_snoc {A} (x : A) n : repeat x n ++ [x] = repeat x (S n).
Proof. induction n as [|n IH]; [reflexivity|]. cbn [repeat app]. rewrite IH. reflexivity. Qed.
Lemma trace_thread w raises : trace_ok w -> trace_ok (worker_move w raises).
Proof.
  unfold trace_ok, worker_move. destruct (wk_pc w) eqn:P; cbn.
  - now rewrite P.
  - intros E. destruct (wk_init w) eqn:I; cbn; rewrite ?I, E; [|now exists O]. destruct raises; cbn; [now constructor|now exists O].
  - intros (n & E). destruct (wk_go w); cbn; [eauto|]. rewrite E. replace (repeat (FMain, false) n) with (repeat (FMain, false) n ++ (if false then [(FMain, true)] else [])) by apply app_nil_r. exact (MainCalls (wk_init w) n false).
  - intros (n & E). rewrite E. destruct raises; cbn.
    + rewrite <- app_assoc. exact (MainCalls (wk_init w) n true).
    + exists (S n). now rewrite <- app_assoc, repeat_snoc.
  - intros B. destruct (wk_exit w) eqn:X; cbn; rewrite ?X; exists (wk_trace w); (split; [exact B|]); [now exists raises|exists false; now rewrite app_nil_r].
  - now rewrite P.
Qed.
Lemma trace_user w u : trace_ok w -> trace_ok (fst (wuser_move w u)).
Proof.
  unfold wuser_move. destruct (wu_now u) as [[]|]; [..|destruct (wu_todo u) as [|[] ?]]; cbn; auto.
  - destruct (wk_pc w) eqn:P; cbn; auto. unfold trace_ok. rewrite P. auto.
  - destruct (walive (wk_pc w)); auto.
  - destruct (walive (wk_pc w)); auto.
Qed.
Lemma user_keeps w u : wk_init (fst (wuser_move w u)) = wk_init w /\ wk_exit (fst (wuser_move w u)) = wk_exit w.
Proof.
  unfold wuser_move. destruct (wu_now u) as [[]|]; [..|destruct (wu_todo u) as [|[] ?]]; cbn; auto.
  - destruct (wk_pc w); auto.
  - destruct (walive (wk_pc w)); auto.
  - destruct (walive (wk_pc w)); auto.
Qed.
Lemma thread_keeps w r : wk_init (worker_move w r) = wk_init w /\ wk_exit (worker_move w r) = wk_exit w.
Proof. unfold worker_move. destruct (wk_pc w); cbn; auto; [destruct (wk_init w) eqn:E|destruct (wk_exit w) eqn:E]; cbn; auto. Qed.
Lemma wmove_worker w a : exists k, ww_worker (wmove w a) = k /\
  ((exists r, k = worker_move (ww_worker w) r) \/ (exists u, k = fst (wuser_move (ww_worker w) u)) \/ k = ww_worker w).
Proof.
  eexists. split; [reflexivity|]. destruct a as [i|r]; cbn; [|left; eauto]. destruct (nth_error (ww_users w) i) as [u|]; [|auto].
  right. left. exists u. destruct (wuser_move (ww_worker w) u). reflexivity.
Qed.
Lemma wmoves_inv (P : worker -> Prop) : (forall k r, P k -> P (worker_move k r)) -> (forall k u, P k -> P (fst (wuser_move k u))) ->
  forall schedule w, P (ww_worker w) -> P (ww_worker (wmoves schedule w)).
Proof.
  intros H1 H2 schedule. unfold wmoves. induction schedule as [|a sch IH]; intros w H; cbn [fold_left]; [exact H|]. apply IH.
  destruct (wmove_worker w a) as (k & -> & [(r & ->)|[(u & ->)| ->]]); auto.
Qed.

(** Whoever calls start() and stop() and whatever raises: the init function is called at most once and first, then the main function
    again and again, and not after one of the two has raised; *)
Theorem C80_order : forall init exit programs schedule,
  let w := ww_worker (wmoves schedule (wstart init exit programs)) in
  wk_pc w <> WDead -> wk_trace w = [] \/ body_calls init (wk_trace w).
Proof.
  intros init exit programs schedule w N.
  assert (T : trace_ok w) by (apply (wmoves_inv trace_ok); [intros; now apply trace_thread|intros; now apply trace_user|reflexivity]).
  assert (I : wk_init w = init).
  { unfold w. apply (wmoves_inv (fun k => wk_init k = init)); [intros k r <-; apply thread_keeps|intros k u <-; apply user_keeps|reflexivity]. }
  unfold trace_ok in T. rewrite I in T. destruct (wk_pc w); auto; try congruence.
  - destruct T as (n & ->). right. replace (repeat (FMain, false) n) with (repeat (FMain, false) n ++ (if false then [(FMain, true)] else [])) by apply app_nil_r. exact (MainCalls init n false).
  - destruct T as (n & ->). right. replace (repeat (FMain, false) n) with (repeat (FMain, false) n ++ (if false then [(FMain, true)] else [])) by apply app_nil_r. exact (MainCalls init n false).
Qed.
(** and when the thread has ended, the exit function was called exactly once, last, also if the init or the main function raised. *)
Theorem C80_exit : forall init exit programs schedule,
  let w := ww_worker (wmoves schedule (wstart init exit programs)) in
  wk_pc w = WDead -> whole_life init exit (wk_trace w).
Proof.
  intros init exit programs schedule w D.
  assert (T : trace_ok w) by (apply (wmoves_inv trace_ok); [intros; now apply trace_thread|intros; now apply trace_user|reflexivity]).
  assert (I : wk_init w = init /\ wk_exit w = exit).
  { unfold w. apply (wmoves_inv (fun k => wk_init k = init /\ wk_exit k = exit)); [intros k r [<- <-]; apply thread_keeps|intros k u [<- <-]; apply user_keeps|split; reflexivity]. }
  unfold trace_ok in T. rewrite D in T. destruct I as [I1 I2]. rewrite I1, I2 in T. exact T.
Qed.
Example C80_exit_ex : exists schedule,
  let w := ww_worker (wmoves schedule (wstart true true [[WStart]])) in
  wk_pc w = WDead /\ wk_trace w = [(FInit, false); (FMain, false); (FMain, true); (FExit, false)].
Proof.
  exists (repeat (WByUser 0) 3 ++ [WByThread false; WByThread false; WByThread false; WByThread false; WByThread true; WByThread false]). split; reflexivity.
Qed.

(** Nothing is called any more once the thread has ended, whatever is called on the worker. *)
Theorem C80_over : forall init exit programs schedule more,
  let w := wmoves schedule (wstart init exit programs) in
  wk_pc (ww_worker w) = WDead -> wk_pc (ww_worker (wmoves more w)) = WDead /\ wk_trace (ww_worker (wmoves more w)) = wk_trace (ww_worker w).
Proof.
  intros init exit programs schedule more w D.
  apply (wmoves_inv (fun k => wk_pc k = WDead /\ wk_trace k = wk_trace (ww_worker w))); [| |auto].
  - intros k r [P T]. unfold worker_move. now rewrite P.
  - intros k u [P T]. unfold wuser_move. destruct (wu_now u) as [[]|]; [..|destruct (wu_todo u) as [|[] ?]]; cbn; rewrite ?P; auto.
Qed.

(** ** Callers *)
Definition starts_ok (u : wuser) : nat := length (filter (fun c => match c with (WStart, Ok _) => true | _ => false end) (wu_done u)).
Definition total_starts (w : wworld) : nat := list_sum (map starts_ok (ww_users w)).
Lemma sum_upd (f : wuser -> nat) (l : list wuser) i u v : nth_error l i = Some u ->
  (list_sum (map f (list_upd l i v)) + f u = list_sum (map f l) + f v)%nat.
Proof.
  revert i. induction l as [|x l IH]; intros [|i] H; try discriminate; cbn in *.
  - injection H as ->. unfold list_sum. lia.
  - specialize (IH i H). unfold list_sum in *. lia.
Qed.
(** start() returns once in the life of a worker; every other start() raises RuntimeError. *)
Theorem C80_started_once : forall init exit programs schedule,
  let w := wmoves schedule (wstart init exit programs) in
  total_starts w = (match wk_pc (ww_worker w) with WNew => 0 | _ => 1 end)%nat /\
  forall u r, In u (ww_users w) -> In (WStart, r) (wu_done u) -> r = Ok tt \/ r = Err PyRuntimeError.
Proof.
  intros init exit programs schedule. 
  assert (G : forall sch w, (total_starts w = (match wk_pc (ww_worker w) with WNew => 0 | _ => 1 end)%nat /\ forall u r, In u (ww_users w) -> In (WStart, r) (wu_done u) -> r = Ok tt \/ r = Err PyRuntimeError) ->
     total_starts (wmoves sch w) = (match wk_pc (ww_worker (wmoves sch w)) with WNew => 0 | _ => 1 end)%nat /\ forall u r, In u (ww_users (wmoves sch w)) -> In (WStart, r) (wu_done u) -> r = Ok tt \/ r = Err PyRuntimeError).
  { induction sch as [|a sch IH]; intros w H; [exact H|]. cbn. apply IH. clear IH. destruct H as [H1 H2]. destruct a as [i|r]; cbn [wmove].
    - destruct (nth_error (ww_users w) i) as [u|] eqn:N; [|auto].
      assert (K : forall v, (exists more, wu_done v = wu_done u ++ more /\ forall r, In (WStart, r) more -> r = Ok tt \/ r = Err PyRuntimeError) ->
                  forall x r, In x (list_upd (ww_users w) i v) -> In (WStart, r) (wu_done x) -> r = Ok tt \/ r = Err PyRuntimeError).
      { intros v (more & E & M) x r I D. apply In_nth_error in I as (j & J). destruct (Nat.eq_dec j i) as [->|X].
        - rewrite list_upd_same in J by (apply nth_error_Some; congruence). injection J as <-. rewrite E in D. apply in_app_or in D as [D|D]; [|now apply M].
          eapply H2; [eapply nth_error_In; exact N|exact D].
        - rewrite list_upd_other in J by auto. eapply H2; [eapply nth_error_In; exact J|exact D]. }
      assert (Same : forall v, wu_done v = wu_done u -> total_starts {| ww_worker := ww_worker w; ww_users := list_upd (ww_users w) i v |} = total_starts w).
      { intros v E. unfold total_starts. cbn [ww_users]. pose proof (sum_upd starts_ok (ww_users w) i u v N) as S. assert (X : starts_ok v = starts_ok u) by (unfold starts_ok; now rewrite E). lia. }
      assert (Stop : forall v r, wu_done v = wu_done u ++ [(WStop, r)] -> total_starts {| ww_worker := ww_worker w; ww_users := list_upd (ww_users w) i v |} = total_starts w).
      { intros v r E. unfold total_starts. cbn [ww_users]. pose proof (sum_upd starts_ok (ww_users w) i u v N) as S. assert (X : starts_ok v = starts_ok u) by (unfold starts_ok; rewrite E, filter_app, app_length; cbn; lia). lia. }
      unfold wuser_move. destruct (wu_now u) as [[]|]; [..|destruct (wu_todo u) as [|[] ?]]; cbn.
      + split; [|apply K; exists []; rewrite app_nil_r; cbn; tauto]. etransitivity; [|exact H1]. exact (Same (wu_at u CStart) eq_refl).
      + destruct (wk_pc (ww_worker w)) eqn:P; cbn [ww_worker ww_users at_wpc wk_pc]; rewrite ?P;
          (split; [|apply K; eexists; split; [reflexivity|]; intros r [E|[]]; injection E as <-; auto]);
          unfold total_starts in *; cbn [ww_users];
          match goal with |- context [wu_over u WStart ?r] => pose proof (sum_upd starts_ok (ww_users w) i u (wu_over u WStart r) N) as Sm end;
          [assert (X : starts_ok (wu_over u WStart (Ok tt)) = S (starts_ok u)) by (unfold starts_ok; cbn [wu_over wu_done]; rewrite filter_app, app_length; cbn; lia)
          |assert (X : starts_ok (wu_over u WStart (Err PyRuntimeError)) = starts_ok u) by (unfold starts_ok; cbn [wu_over wu_done]; rewrite filter_app, app_length; cbn; lia)..];
          rewrite X in Sm; unfold list_sum in *; cbn in *; lia.
      + destruct (walive (wk_pc (ww_worker w))) eqn:P; cbn.
        * split; [|apply K; exists []; rewrite app_nil_r; cbn; tauto]. etransitivity; [|exact H1]. exact (Same (wu_at u CClear) eq_refl).
        * split; [|apply K; eexists; split; [reflexivity|]; intros r [E|[]]; discriminate E]. etransitivity; [|exact H1]. exact (Stop (wu_over u WStop (Ok tt)) (Ok tt) eq_refl).
      + split; [|apply K; exists []; rewrite app_nil_r; cbn; tauto]. etransitivity; [|exact H1]. exact (Same (wu_at u CJoin) eq_refl).
      + destruct (walive (wk_pc (ww_worker w))) eqn:P; cbn.
        * split; [|apply K; exists []; rewrite app_nil_r; cbn; tauto]. etransitivity; [|exact H1]. exact (Same u eq_refl).
        * split; [|apply K; eexists; split; [reflexivity|]; intros r [E|[]]; discriminate E]. etransitivity; [|exact H1]. exact (Stop (wu_over u WStop (Ok tt)) (Ok tt) eq_refl).
      + split; [|apply K; exists []; rewrite app_nil_r; cbn; tauto]. etransitivity; [|exact H1]. exact (Same u eq_refl).
      + split; [|apply K; exists []; rewrite app_nil_r; cbn; tauto]. etransitivity; [|exact H1]. eapply (Same {| wu_now := _; wu_todo := _; wu_done := _ |}). reflexivity.
      + split; [|apply K; exists []; rewrite app_nil_r; cbn; tauto]. etransitivity; [|exact H1]. eapply (Same {| wu_now := _; wu_todo := _; wu_done := _ |}). reflexivity.
    - split; [|exact H2]. unfold total_starts in *. cbn [ww_users ww_worker]. rewrite H1. unfold worker_move. destruct (wk_pc (ww_worker w)) eqn:P; cbn; rewrite ?P; auto.
      + destruct (wk_init (ww_worker w)); cbn; [destruct r|]; reflexivity.
      + destruct (wk_go (ww_worker w)); reflexivity.
      + destruct r; reflexivity.
      + destruct (wk_exit (ww_worker w)); reflexivity. }
  apply G. split.
  - cbn. unfold total_starts. cbn. rewrite map_map. cbn. induction programs; cbn in *; [reflexivity|exact IHprograms].
  - intros u r H. cbn in H. apply in_map_iff in H as (p & <- & _). intros [].
Qed.

Definition one_caller_ok (w : wworld) : Prop :=
  exists u, ww_users w = [u] /\
    (forall r, In (WStop, r) (wu_done u) -> r = Ok tt) /\
    (wu_now u = Some CJoin -> wk_go (ww_worker w) = false) /\
    (forall before r, wu_now u = None -> wu_done u = before ++ [(WStop, r)] -> walive (wk_pc (ww_worker w)) = false).
Lemma thread_go w r : wk_go (worker_move w r) = wk_go w.
Proof. unfold worker_move. destruct (wk_pc w); cbn; auto; [destruct (wk_init w)|destruct (wk_exit w)]; reflexivity. Qed.
Lemma thread_idle w r : walive (wk_pc w) = false -> worker_move w r = w.
Proof. unfold worker_move. destruct (wk_pc w); try discriminate; reflexivity. Qed.
Lemma thread_not_new w r : wk_pc w <> WNew -> wk_pc (worker_move w r) <> WNew.
Proof.
  unfold worker_move. intros H. destruct (wk_pc w) eqn:P; cbn; try congruence.
  - destruct (wk_init w); cbn; [destruct r|]; congruence.
  - destruct (wk_go w); congruence.
  - destruct r; congruence.
  - destruct (wk_exit w); cbn; congruence.
Qed.
Lemma snoc_call (a b : list (wcall * res unit)) x y : a ++ [x] = b ++ [y] -> x = y.
Proof. intros H. now apply app_inj_tail in H as [_ ->]. Qed.
Lemma one_caller_move w a : one_caller_ok w -> one_caller_ok (wmove w a).
Proof.
  intros (u & U & R & J & L). destruct a as [i|r].
  - cbn [wmove]. rewrite U. destruct i as [|i]; [|destruct i; exists u; auto]. cbn [nth_error]. unfold wuser_move.
    destruct (wu_now u) as [[]|] eqn:N; [..|destruct (wu_todo u) as [|[] ?] eqn:T]; cbn [list_upd].
    + exists (wu_at u CStart). cbn. repeat split; auto; discriminate.
    + destruct (wk_pc (ww_worker w)); eexists; (split; [reflexivity|]); cbn; (split; [|split; [discriminate|]]);
        try (intros r0 I; apply in_app_or in I as [I|[I|[]]]; [now apply R|discriminate I]);
        intros before r0 _ H; apply snoc_call in H; discriminate H.
    + destruct (walive (wk_pc (ww_worker w))) eqn:A; eexists; (split; [reflexivity|]); cbn; repeat split; auto; try discriminate.
      intros r0 I. apply in_app_or in I as [I|[I|[]]]; [now apply R|]. now injection I.
    + eexists; (split; [reflexivity|]); cbn; repeat split; auto; discriminate.
    + destruct (walive (wk_pc (ww_worker w))) eqn:A; eexists; (split; [reflexivity|]); cbn; repeat split; auto; try discriminate.
      * intros before r0 H. congruence.
      * intros r0 I. apply in_app_or in I as [I|[I|[]]]; [now apply R|]. now injection I.
    + eexists; (split; [reflexivity|]); cbn; repeat split; auto; [congruence|eauto].
    + eexists; (split; [reflexivity|]); cbn; repeat split; auto; discriminate.
    + eexists; (split; [reflexivity|]); cbn; repeat split; auto; discriminate.
  - exists u. cbn [wmove ww_worker ww_users]. repeat split; auto.
    + intros H. rewrite thread_go. auto.
    + intros before r0 N D. specialize (L _ _ N D). now rewrite thread_idle.
Qed.
Lemma one_caller_moves schedule w : one_caller_ok w -> one_caller_ok (wmoves schedule w).
Proof. revert w. induction schedule as [|a sch IH]; intros w H; [exact H|]. cbn. apply IH. now apply one_caller_move. Qed.
Lemma one_caller_start init exit program : one_caller_ok (wstart init exit [program]).
Proof. eexists. split; [reflexivity|]. cbn. repeat split; try tauto; try discriminate; try (intros [|? ?] ? _ H; discriminate H). Qed.

(** A caller that has the worker to itself: when its stop() has returned, the thread does not run (and, C80_over, calls nothing any more
    if it ever ran); stop() never raises. *)
Theorem C80_stop_stops_partial : forall init exit program schedule u,
  let w := wmoves schedule (wstart init exit [program]) in
  ww_users w = [u] ->
  (forall r, In (WStop, r) (wu_done u) -> r = Ok tt) /\
  (forall before r, wu_now u = None -> wu_done u = before ++ [(WStop, r)] -> walive (wk_pc (ww_worker w)) = false).
Proof.
  intros init exit program schedule u w U. destruct (one_caller_moves schedule _ (one_caller_start init exit program)) as (v & V & R & _ & L).
  fold w in V, L. rewrite U in V. injection V as <-. auto.
Qed.

Definition thread_moves (l : list wactor) : nat := length (filter (fun a => match a with WByThread _ => true | _ => false end) l).
Definition steps_left (p : wpc) : nat := match p with WNew | WDead => 0 | WExit => 1 | WTest => 2 | WMain | WInit => 3 end.
(** And it returns: once stop() waits, three moves of the thread (the function it is in, the test, the exit function) are enough,
    whatever else moves meanwhile, and the next move of the caller then leaves stop(). *)
Theorem C80_stop_ends_partial : forall init exit program schedule u more,
  let w := wmoves schedule (wstart init exit [program]) in
  ww_users w = [u] -> wu_now u = Some CJoin -> (3 <= thread_moves more)%nat ->
  walive (wk_pc (ww_worker (wmoves more w))) = false /\
  (ww_users (wmoves more w) = [u] -> ww_users (wmove (wmoves more w) (WByUser 0)) = [wu_over u WStop (Ok tt)]).
Proof.
  intros init exit program schedule u more w U N M.
  assert (O : one_caller_ok w) by (apply one_caller_moves, one_caller_start).
  assert (D : walive (wk_pc (ww_worker (wmoves more w))) = false).
  { assert (G : forall more w, one_caller_ok w -> walive (wk_pc (ww_worker w)) = false \/ (exists v, ww_users w = [v] /\ wu_now v = Some CJoin) ->
       wk_pc (ww_worker w) <> WNew ->
       (steps_left (wk_pc (ww_worker w)) <= thread_moves more)%nat -> walive (wk_pc (ww_worker (wmoves more w))) = false).
    { clear. induction more as [|a more IH]; intros w O H Nw M.
      - cbn in *. destruct (wk_pc (ww_worker w)); cbn in *; try lia; reflexivity.
      - cbn [wmoves fold_left]. apply IH; clear IH; [now apply one_caller_move|..].
        + destruct H as [H|(v & V & Nv)].
          * left. destruct a as [i|r]; cbn; [|now rewrite thread_idle]. destruct (nth_error (ww_users w) i) as [v|]; [|exact H].
            unfold wuser_move. destruct (wk_pc (ww_worker w)) eqn:P; try discriminate; try congruence.
            destruct (wu_now v) as [[]|]; [..|destruct (wu_todo v) as [|[] ?]]; cbn; rewrite ?P; reflexivity.
          * destruct a as [i|r]; [|right; exists v; auto]. cbn [wmove]. rewrite V. destruct i as [|i]; [|destruct i; right; exists v; auto].
            cbn [nth_error]. unfold wuser_move. rewrite Nv. destruct (walive (wk_pc (ww_worker w))) eqn:A; cbn; [right; exists v; auto|auto].
        + destruct a as [i|r]; cbn.
          * destruct (nth_error (ww_users w) i) as [v|]; [|exact Nw]. unfold wuser_move.
            destruct (wu_now v) as [[]|]; [..|destruct (wu_todo v) as [|[] ?]]; cbn; auto; [destruct (wk_pc (ww_worker w)) eqn:P; cbn; try congruence; try discriminate|destruct (walive (wk_pc (ww_worker w))); auto..].
          * now apply thread_not_new.
        + destruct a as [i|r]; cbn [wmove].
          * unfold thread_moves in *. cbn in M. destruct (nth_error (ww_users w) i) as [v|]; [|exact M]. unfold wuser_move.
            destruct (wu_now v) as [[]|]; [..|destruct (wu_todo v) as [|[] ?]]; cbn; auto; [destruct (wk_pc (ww_worker w)) eqn:P; cbn in *; rewrite ?P; auto; congruence|destruct (walive (wk_pc (ww_worker w))); auto..].
          * unfold thread_moves in *. cbn in M. assert (G : wk_go (ww_worker w) = false \/ walive (wk_pc (ww_worker w)) = false).
            { destruct H as [H|(v & V & Nv)]; [auto|]. left. destruct O as (v' & V' & _ & J & _). rewrite V in V'. injection V' as <-. auto. }
            cbn. unfold worker_move. destruct (wk_pc (ww_worker w)) eqn:P; cbn in *; rewrite ?P; cbn; try lia.
            -- destruct (wk_init (ww_worker w)); cbn; [destruct r|]; cbn; lia.
            -- destruct G as [-> |G]; [cbn; lia|discriminate].
            -- destruct r; cbn; lia.
            -- destruct (wk_exit (ww_worker w)); cbn; lia. }
    apply G; [exact O|right; exists u; auto| |].
    - (* a caller waits only for a thread that was alive *)
      assert (K : forall sch w, ((exists v, ww_users w = [v] /\ (wu_now v = Some CJoin \/ wu_now v = Some CClear)) -> wk_pc (ww_worker w) <> WNew) ->
                (length (ww_users w) = 1)%nat ->
                (exists v, ww_users (wmoves sch w) = [v] /\ (wu_now v = Some CJoin \/ wu_now v = Some CClear)) -> wk_pc (ww_worker (wmoves sch w)) <> WNew).
      { clear. induction sch as [|a sch IH]; intros w H Len; [exact H|]. cbn [wmoves fold_left]. apply IH; clear IH.
        - intros (v & V & Nv). destruct a as [i|r].
          + cbn [wmove] in *. destruct (nth_error (ww_users w) i) as [x|] eqn:X; [|apply H; exists v; auto].
            destruct (ww_users w) as [|x' [|? ?]] eqn:Us; try discriminate Len. destruct i as [|i]; [|destruct i; discriminate X]. cbn in X. injection X as ->.
            unfold wuser_move in *. destruct (wu_now x) as [[]|] eqn:Nx; [..|destruct (wu_todo x) as [|[] ?] eqn:T]; cbn in *; try (injection V as <-; cbn in Nv; destruct Nv; congruence).
            * destruct (wk_pc (ww_worker w)); cbn in V; injection V as <-; cbn in Nv; destruct Nv; discriminate.
            * destruct (walive (wk_pc (ww_worker w))) eqn:A; cbn in *; [intros E; rewrite E in A; discriminate|]. injection V as <-. cbn in Nv. destruct Nv; discriminate.
            * apply H. eauto.
            * destruct (walive (wk_pc (ww_worker w))) eqn:A; cbn in *; apply H; eauto.
          + cbn in V |- *. specialize (H (ex_intro _ v (conj V Nv))). now apply thread_not_new.
        - destruct a as [i|r]; cbn; [|exact Len]. destruct (nth_error (ww_users w) i); [|exact Len]. destruct (wuser_move (ww_worker w) w0). cbn. now rewrite list_upd_length. }
      unfold w in *. apply K; [intros (v & V & Nv); cbn in V; injection V as <-; destruct Nv; discriminate|reflexivity|eauto].
    - etransitivity; [|exact M]. destruct (wk_pc (ww_worker w)); cbn; lia. }
  split; [exact D|]. intros E. cbn [wmove]. rewrite E. cbn [nth_error]. unfold wuser_move. rewrite N, D. reflexivity.
Qed.
Example C80_stop_ex : exists schedule u,
  let w := wmoves schedule (wstart false true [[WStart; WStop]]) in
  ww_users w = [u] /\ wu_now u = Some CJoin /\ walive (wk_pc (ww_worker w)) = true /\
  ww_users (wmoves [WByThread false; WByThread true; WByUser 0; WByThread false; WByUser 0] w) = [wu_over u WStop (Ok tt)].
Proof.
  exists (repeat (WByUser 0) 3 ++ [WByThread false; WByThread false; WByThread false] ++ repeat (WByUser 0) 3). eexists. cbn. repeat split; reflexivity.
Qed.

Definition hanging (a b : wuser) (x : wworld) : Prop :=
  ww_users x = [a; b] /\ wk_go (ww_worker x) = true /\ (wk_pc (ww_worker x) = WTest \/ wk_pc (ww_worker x) = WMain).
Lemma hanging_moves a b more x : wu_now a = Some CJoin -> wu_now b = None -> wu_todo b = [] -> ~ In (WByThread true) more ->
  hanging a b x -> hanging a b (wmoves more x).
Proof.
  intros A B T. revert x. induction more as [|m more IH]; intros x N H; [exact H|]. cbn [wmoves fold_left].
  apply IH; [intros I; apply N; now right|]. clear IH. destruct H as (U & G & P). destruct m as [i|r].
  - cbn [wmove]. rewrite U. destruct i as [|[|i]]; cbn [nth_error].
    + unfold wuser_move. rewrite A. assert (L : walive (wk_pc (ww_worker x)) = true) by (destruct P as [-> | ->]; reflexivity). rewrite L. repeat split; auto.
    + unfold wuser_move. rewrite B, T. repeat split; auto.
    + destruct i; repeat split; auto.
  - destruct r; [elim N; now left|]. cbn [wmove]. split; [exact U|]. cbn [ww_worker]. rewrite thread_go. split; [exact G|].
    unfold worker_move. destruct P as [-> | ->]; cbn; [rewrite G|]; auto.
Qed.
(** Two callers: a second start() raises, and yet sets the flag again that stop() has cleared; stop() then waits for ever for a thread
    that goes on calling the main function, as long as that does not raise. *)
Theorem C80_two_callers_refuted : exists programs schedule u,
  let w := wmoves schedule (wstart false false programs) in
  nth_error (ww_users w) 0 = Some u /\ wu_now u = Some CJoin /\
  (exists v, nth_error (ww_users w) 1 = Some v /\ wu_done v = [(WStart, Err PyRuntimeError)]) /\
  forall more, ~ In (WByThread true) more ->
    nth_error (ww_users (wmoves more w)) 0 = Some u /\ walive (wk_pc (ww_worker (wmoves more w))) = true.
Proof.
  exists [[WStart; WStop]; [WStart]], (repeat (WByUser 0) 3 ++ [WByThread false] ++ repeat (WByUser 0) 3 ++ repeat (WByUser 1) 3).
  exists {| wu_now := Some CJoin; wu_todo := []; wu_done := [(WStart, Ok tt)] |}.
  split; [reflexivity|]. split; [reflexivity|]. split; [eexists; split; reflexivity|]. intros more N.
  match goal with |- context [wmoves more ?w0] =>
    destruct (hanging_moves {| wu_now := Some CJoin; wu_todo := []; wu_done := [(WStart, Ok tt)] |}
                {| wu_now := None; wu_todo := []; wu_done := [(WStart, Err PyRuntimeError)] |} more w0) as (U & _ & P) end;
    [reflexivity..|exact N|repeat split; left; reflexivity|].
  rewrite U. split; [reflexivity|]. destruct P as [-> | ->]; reflexivity.
Qed.
Lemma wmove_at w i u k v : nth_error (ww_users w) i = Some u -> wuser_move (ww_worker w) u = (k, v) ->
  wmove w (WByUser i) = {| ww_worker := k; ww_users := list_upd (ww_users w) i v |}.
Proof. intros H E. cbn. now rewrite H, E. Qed.
(** A worker cannot be started again: once its thread has ended every start() raises. *)
Theorem C80_restart_refuted : forall init exit programs schedule i u,
  let w := wmoves schedule (wstart init exit programs) in
  wk_pc (ww_worker w) = WDead -> nth_error (ww_users w) i = Some u -> wu_now u = None -> hd_error (wu_todo u) = Some WStart ->
  exists v, nth_error (ww_users (wmoves (repeat (WByUser i) 3) w)) i = Some v /\ wu_done v = wu_done u ++ [(WStart, Err PyRuntimeError)].
Proof.
  intros init exit programs schedule i u w D U N T. destruct (wu_todo u) as [|c rest] eqn:R; [discriminate|]. injection T as ->.
  assert (L : (i < length (ww_users w))%nat) by (apply nth_error_Some; congruence).
  unfold wmoves. cbn [repeat fold_left].
  rewrite (wmove_at w i u (ww_worker w) {| wu_now := Some CSet; wu_todo := rest; wu_done := wu_done u |} U) by (unfold wuser_move; now rewrite N, R).
  set (w1 := {| ww_worker := ww_worker w; ww_users := _ |}).
  set (u2 := {| wu_now := Some CStart; wu_todo := rest; wu_done := wu_done u |}).
  rewrite (wmove_at w1 i {| wu_now := Some CSet; wu_todo := rest; wu_done := wu_done u |} (set_go (ww_worker w) true) u2) by (reflexivity || (cbn [w1 ww_users]; apply list_upd_same; exact L)).
  set (w2 := {| ww_worker := _; ww_users := _ |}).
  rewrite (wmove_at w2 i u2 (set_go (ww_worker w) true) (wu_over u2 WStart (Err PyRuntimeError))).
  - cbn [ww_users]. rewrite list_upd_same by (unfold w2, w1; cbn [ww_users]; rewrite !list_upd_length; exact L). eexists. split; reflexivity.
  - unfold w2, w1. cbn [ww_users]. apply list_upd_same. rewrite list_upd_length. exact L.
  - unfold wuser_move. cbn. now rewrite D.
Qed.

Print Assumptions C80_order.
Print Assumptions C80_exit.
Print Assumptions C80_over.
Print Assumptions C80_started_once.
Print Assumptions C80_stop_stops_partial.
Print Assumptions C80_stop_ends_partial.
Print Assumptions C80_two_callers_refuted.
Print Assumptions C80_restart_refuted.
