(** Property C78: CompositeServer.  Vocabulary: LifecycleModel.v, CompositeModel.v. *)
From Coq Require Import Lia.
From Verif Require Import Base BaseFacts LifecycleModel PropLifecycle CompositeModel.

(** Spec: no thread of any server of the composite serves. *)
Definition none_serves (w : composite) : Prop :=
  forall k s i p, nth_error (cs_servers w) k = Some s -> nth_error (sv_threads s) i = Some p -> serving p = false.
(** Spec: every server of the composite has a thread that has been started. *)
Definition all_started (w : composite) : Prop :=
  forall k s, nth_error (cs_servers w) k = Some s -> exists p, nth_error (sv_threads s) 0 = Some p /\ p <> TNew.

(* ------------------------------------------------------------------ the databank *)
Theorem C78_one_databank : forall (C A D : Type) (is_server : C -> bool) classes args (given : option D) fresh,
  let '(db, servers) := composite_servers is_server classes args given fresh in
  db = match given with Some d => d | None => fresh end /\
  (forall c (a : A) d, In (c, a, d) servers -> d = db /\ is_server c = true) /\
  (length classes = length args -> forallb is_server classes = true -> map (fun x => fst (fst x)) servers = classes /\ map (fun x => snd (fst x)) servers = args).
Proof.
  intros C A D is_server classes args given fresh. unfold composite_servers. split; [reflexivity|]. split.
  - intros c a d H. apply in_map_iff in H as ([c' a'] & E & F). injection E as <- <- <-. apply filter_In in F as [_ F]. auto.
  - revert args. induction classes as [|c cl IH]; intros [|a args] L F; try discriminate; [auto|]. cbn in *. apply andb_prop in F as [F1 F2]. rewrite F1. cbn.
    injection L as L. destruct (IH args L F2) as [-> ->]. auto.
Qed.

(** ** One server of the composite goes through what a server with one caller goes through *)
(** the state of one server [s] whose caller is at [now]: a world of LifecycleModel with one caller leads to it, and [last] is how its last
    finished call ended *)
Definition one_view (s : server) (now : option upc) (done : list (ucall * res unit)) : Prop :=
  exists program schedule, forall more,
    world_moves schedule (world_start [program ++ more]) = {| w_server := s; w_users := [{| us_now := now; us_todo := more; us_done := done |}] |}.
Lemma view_new : one_view new_server None [].
Proof. exists [], []. intros more. reflexivity. Qed.
Lemma world_moves_snoc sch a w : world_moves (sch ++ [a]) w = world_move (world_moves sch w) a.
Proof. unfold world_moves. now rewrite fold_left_app. Qed.
Lemma view_thread s now done i raises : one_view s now done -> one_view (thread_move s i raises) now done.
Proof. intros (p & sch & H). exists p, (sch ++ [ByThread i raises]). intros more. rewrite world_moves_snoc, H. reflexivity. Qed.
Lemma view_begin s done c : one_view s None done -> one_view s (Some (first_pc c)) done.
Proof.
  intros (p & sch & H). exists (p ++ [c]), (sch ++ [ByUser 0]). intros more. rewrite world_moves_snoc, <- app_assoc, H. destruct c; reflexivity.
Qed.
Lemma user_move_shape s p todo done s' u : user_move s {| us_now := Some p; us_todo := todo; us_done := done |} = (s', u) ->
  us_todo u = todo /\
  ((exists p', us_now u = Some p' /\ us_done u = done /\ call_of p' = call_of p) \/ (us_now u = None /\ exists r, us_done u = done ++ [(call_of p, r)])).
Proof.
  unfold user_move. cbn [us_now]. destruct p; cbn.
  all: repeat match goal with |- context [match nth_error ?l ?t with _ => _ end] => destruct (nth_error l t) as [[]|] end; cbn.
  all: intros [= <- <-]; cbn; (split; [reflexivity|]); eauto 10.
Qed.
Lemma user_move_frame s p todo done s' u : user_move s {| us_now := Some p; us_todo := []; us_done := [] |} = (s', u) ->
  user_move s {| us_now := Some p; us_todo := todo; us_done := done |} = (s', {| us_now := us_now u; us_todo := todo; us_done := done ++ us_done u |}).
Proof.
  unfold user_move. cbn [us_now]. destruct p; cbn.
  all: repeat match goal with |- context [match nth_error ?l ?t with _ => _ end] => destruct (nth_error l t) as [[]|] end; cbn.
  all: intros [= <- <-]; cbn; rewrite ?app_nil_r; reflexivity.
Qed.
Lemma view_step s p done s' u : one_view s (Some p) done -> user_move s {| us_now := Some p; us_todo := []; us_done := [] |} = (s', u) ->
  one_view s' (us_now u) (done ++ us_done u).
Proof.
  intros (pr & sch & H) M. exists pr, (sch ++ [ByUser 0]). intros more. rewrite world_moves_snoc, H. cbn [world_move w_users nth_error w_server].
  rewrite (user_move_frame _ _ more done _ _ M). reflexivity.
Qed.

(** ** Invariant *)
(** what the calls made so far mean for server [k]: in a stop() that has passed it, or after a stop() that returned, its last call is a stop() *)
Definition last_is_stop (done : list (ucall * res unit)) : Prop := exists rest r, done = rest ++ [(UStop, r)].
Definition passed_stop (w : composite) (k : nat) : Prop :=
  match cs_now w with
  | Some (UStop, j, _) => (k < j)%nat
  | Some (UStart, _, _) => False
  | None => exists rest, cs_done w = rest ++ [(UStop, Ok tt)]
  end.
Definition pc_at (w : composite) (k : nat) : option upc :=
  match cs_now w with Some (_, j, p) => if Nat.eqb k j then p else None | None => None end.
Definition comp_ok (w : composite) : Prop :=
  (forall k s, nth_error (cs_servers w) k = Some s -> exists done, one_view s (pc_at w k) done /\ (passed_stop w k -> last_is_stop done)) /\
  (forall c j p, cs_now w = Some (c, j, Some p) -> call_of p = c).
Lemma comp_ok_start n program : comp_ok (composite_start n program).
Proof.
  split; [|discriminate]. intros k s H. cbn in H. apply nth_error_In, repeat_spec in H. subst s. exists []. split; [exact view_new|].
  intros (rest & E). cbn in E. destruct rest; discriminate.
Qed.
Lemma nth_put (l : list server) k s0 s j x : nth_error l k = Some s0 -> nth_error (list_upd l k s) j = Some x ->
  (j = k /\ x = s) \/ (j <> k /\ nth_error l j = Some x).
Proof. intros N. now apply (nth_upd l k s s0 j x). Qed.
Lemma comp_ok_move w a : comp_ok w -> comp_ok (composite_move w a).
Proof.
  intros [H K]. destruct a as [|k i raises]; cbn [composite_move].
  2: { destruct (nth_error (cs_servers w) k) as [s|] eqn:N; [|split; assumption]. split; [|exact K].
       intros j x X. destruct (nth_put _ _ _ _ _ _ N X) as [[-> ->]|[D X']].
       - destruct (H k s N) as (done & V & P). exists done. split; [now apply view_thread|exact P].
       - exact (H j x X'). }
  unfold composite_call. destruct (cs_now w) as [[[c k] [p|]]|] eqn:Nw.
  - destruct (nth_error (cs_servers w) k) as [s|] eqn:N; [|split; [exact H|rewrite Nw; exact K]].
    destruct (user_move s {| us_now := Some p; us_todo := []; us_done := [] |}) as [s' u] eqn:M.
    destruct (H k s N) as (done & V & P). unfold pc_at in V. rewrite Nw, Nat.eqb_refl in V.
    pose proof (view_step _ _ _ _ _ V M) as V'. destruct (user_move_shape _ _ _ _ _ _ M) as (_ & [(p' & E1 & E2 & E3)|(E1 & r & E2)]).
    + rewrite E1 in *. rewrite E2, app_nil_r in V'. split.
      * intros j x X. cbn [go_to put_server cs_servers] in X. destruct (nth_put _ _ _ _ _ _ N X) as [[-> ->]|[D X']].
        -- exists done. unfold pc_at, passed_stop. cbn [go_to put_server cs_now]. rewrite Nat.eqb_refl. split; [exact V'|]. destruct c; [tauto|lia].
        -- destruct (H j x X') as (dj & Vj & Pj). exists dj. unfold pc_at, passed_stop in *. rewrite Nw in Vj, Pj. cbn [go_to put_server cs_now] in *. destruct (Nat.eqb_spec j k); [lia|]. auto.
      * intros c0 j0 p0 E. cbn in E. injection E as <- <- <-. rewrite E3. exact (K _ _ _ eq_refl).
    + rewrite E1, E2 in *. cbn [app] in *. destruct r as [[]|e].
      * split; [|intros c0 j0 p0 E; discriminate E]. intros j x X. cbn [go_to put_server cs_servers] in X. destruct (nth_put _ _ _ _ _ _ N X) as [[-> ->]|[D X']].
        -- exists (done ++ [(call_of p, Ok tt)]). unfold pc_at, passed_stop. cbn [go_to put_server cs_now]. destruct (Nat.eqb_spec k (S k)); [lia|]. split; [exact V'|].
           rewrite (K c k p eq_refl). destruct c; [tauto|]. intros _. now exists done, (Ok tt).
        -- destruct (H j x X') as (dj & Vj & Pj). exists dj. unfold pc_at, passed_stop in *. rewrite Nw in Vj, Pj. cbn [go_to put_server cs_now] in *.
           destruct (Nat.eqb_spec j k); [lia|]. destruct (Nat.eqb_spec j (S k)); (split; [exact Vj|]); destruct c; try tauto; intros L; apply Pj; lia.
      * split; [|intros c0 j0 p0 E; discriminate E]. intros j x X. cbn [finish put_server cs_servers] in X. destruct (nth_put _ _ _ _ _ _ N X) as [[-> ->]|[D X']].
        -- exists (done ++ [(call_of p, Err e)]). unfold pc_at, passed_stop. cbn [finish put_server cs_now cs_done]. split; [exact V'|].
           intros (rest & Q). apply app_inj_tail in Q as [_ Q]. discriminate Q.
        -- destruct (H j x X') as (dj & Vj & Pj). exists dj. unfold pc_at, passed_stop in *. rewrite Nw in Vj, Pj. cbn [finish put_server cs_now cs_done] in *.
           destruct (Nat.eqb_spec j k); [lia|]. split; [exact Vj|]. intros (rest & Q). apply app_inj_tail in Q as [_ Q]. discriminate Q.
  - destruct (nth_error (cs_servers w) k) as [s|] eqn:N.
    + split.
      * intros j x X. cbn [go_to cs_servers] in X. destruct (H j x X) as (dj & Vj & Pj). exists dj. unfold pc_at, passed_stop in *. rewrite Nw in Vj, Pj. cbn [go_to cs_now] in *.
        destruct (Nat.eqb_spec j k); [subst j; split; [now apply view_begin|]; destruct c; [tauto|lia]|]. auto.
      * intros c0 j0 p0 E. cbn in E. injection E as <- <- <-. now destruct c.
    + split; [|intros c0 j0 p0 E; discriminate E]. intros j x X. cbn [finish cs_servers] in X. destruct (H j x X) as (dj & Vj & Pj). exists dj.
      unfold pc_at, passed_stop in *. rewrite Nw in Vj, Pj. cbn [finish cs_now cs_done] in *.
      assert (j < k)%nat by (apply nth_error_None in N; assert (j < length (cs_servers w))%nat by (apply nth_error_Some; congruence); lia).
      destruct (Nat.eqb_spec j k); [lia|]. split; [exact Vj|]. intros (rest & Q). apply app_inj_tail in Q as [_ Q]. injection Q as ->. now apply Pj.
  - destruct (cs_todo w) as [|c rest]; [split; [exact H|intros c0 j0 p0 E; rewrite Nw in E; discriminate E]|]. split; [|intros c0 j0 p0 E; discriminate E].
    intros j x X. cbn [cs_servers] in X. destruct (H j x X) as (dj & Vj & Pj). exists dj. unfold pc_at, passed_stop in *. rewrite Nw in Vj, Pj. cbn [cs_now] in *.
    destruct (Nat.eqb j 0); (split; [exact Vj|]); destruct c; try tauto; lia.
Qed.
Lemma comp_ok_reach n program schedule : comp_ok (composite_moves schedule (composite_start n program)).
Proof.
  unfold composite_moves. pose proof (comp_ok_start n program) as H. revert H. generalize (composite_start n program).
  induction schedule as [|a sch IH]; intros w H; cbn [fold_left]; [exact H|]. apply IH, comp_ok_move, H.
Qed.

(** With one caller: when a stop() has returned nothing serves any more in any of the servers, until the next start(), whatever failed. *)
Theorem C78_stop_stops_partial : forall n program schedule rest,
  let w := composite_moves schedule (composite_start n program) in
  cs_now w = None -> cs_done w = rest ++ [(UStop, Ok tt)] -> none_serves w.
Proof.
  intros n program schedule rest w E D k s i p N T. destruct (comp_ok_reach n program schedule) as [H _].
  destruct (H k s N) as (done & V & P). unfold passed_stop in P. fold w in P, V. unfold pc_at in V. rewrite E in P, V. destruct P as (r1 & r & ->); [now exists rest|].
  destruct V as (pr & sch & V). specialize (V []). rewrite app_nil_r in V.
  pose proof (C52_stop_stops pr sch {| us_now := None; us_todo := []; us_done := r1 ++ [(UStop, r)] |} r1 r) as S. rewrite V in S.
  apply (S eq_refl eq_refl eq_refl i p). exact T.
Qed.
Example C78_stop_ex : exists schedule,
  let w := composite_moves schedule (composite_start 2 [UStart; UStop]) in
  cs_now w = None /\ cs_done w = [(UStart, Ok tt); (UStop, Ok tt)] /\
  exists before after, schedule = before ++ after /\ ~ none_serves (composite_moves before (composite_start 2 [UStart; UStop])).
Proof.
  set (starting := repeat ByCaller 12 ++ repeat (ByServer 0 0 false) 4 ++ repeat (ByServer 1 0 false) 3).
  exists (starting ++ repeat ByCaller 7 ++ repeat (ByServer 0 0 false) 8 ++ repeat ByCaller 8 ++ repeat (ByServer 1 0 false) 8 ++ repeat ByCaller 4).
  split; [vm_compute; reflexivity|]. split; [vm_compute; reflexivity|]. eexists starting, _. split; [reflexivity|].
  intros H. discriminate (H 0%nat _ 0%nat TTest eq_refl eq_refl).
Qed.

(** stop() that raises: the servers behind the one that raised go on serving, although nothing failed. *)
Theorem C78_stop_stops_refuted :
  ~ (forall n program schedule rest r,
       (forall k i, ~ In (ByServer k i true) schedule) ->
       let w := composite_moves schedule (composite_start n program) in
       cs_now w = None -> cs_done w = rest ++ [(UStop, r)] -> none_serves w).
Proof.
  intros H.
  specialize (H 2%nat [UStart; UStop]
    (repeat ByCaller 12 ++ repeat (ByServer 0 0 false) 2 ++ repeat (ByServer 1 0 false) 3 ++ repeat ByCaller 6 ++ repeat (ByServer 0 0 false) 4 ++ repeat ByCaller 2)
    [(UStart, Ok tt)] (Err PyRuntimeError)).
  assert (Q : forall k i, ~ In (ByServer k i true) (repeat ByCaller 12 ++ repeat (ByServer 0 0 false) 2 ++ repeat (ByServer 1 0 false) 3 ++ repeat ByCaller 6 ++ repeat (ByServer 0 0 false) 4 ++ repeat ByCaller 2)).
  { intros k i X; repeat (destruct X as [X|X]; [discriminate X|]); exact X. }
  specialize (H Q). vm_compute in H. discriminate (H eq_refl eq_refl 1%nat _ 0%nat _ eq_refl eq_refl).
Qed.

(** ** The first start() *)
Definition before_start (s : server) (p : option upc) : Prop :=
  sv_thread s = O /\ sv_threads s = [TNew] /\ sv_go s = O /\ length (sv_events s) = 1%nat /\
  match p with
  | None | Some StartGo | Some StartThread => True
  | Some (StartSet e) => e = O
  | Some (StartStart t) => t = O
  | _ => False
  end.
Definition begun (s : server) : Prop := exists p l, sv_threads s = p :: l /\ p <> TNew.
Definition starting (w : composite) : Prop :=
  match cs_now w, cs_done w with
  | Some (c, k, p), [] => c = UStart /\ forall j s, nth_error (cs_servers w) j = Some s ->
                          if (j <? k)%nat then begun s else before_start s (if (j =? k)%nat then p else None)
  | _, (c, r) :: _ => c = UStart /\ r = Ok tt /\ forall j s, nth_error (cs_servers w) j = Some s -> begun s
  | None, [] => (exists rest, cs_todo w = UStart :: rest) /\ forall j s, nth_error (cs_servers w) j = Some s -> before_start s None
  end.
Lemma begun_thread s i raises : begun s -> begun (thread_move s i raises).
Proof.
  intros (p & l & E & N). unfold begun, thread_move. rewrite E.
  destruct (nth_error (p :: l) i) as [q|] eqn:Q; [|eauto]. destruct q; try (now eauto);
    cbn [put_thread sv_threads]; rewrite E; destruct i as [|i]; cbn in Q |- *; try (injection Q as ->); eauto; try (exfalso; congruence);
    try (eexists _, _; split; [reflexivity|]; try (destruct raises); try (destruct (nth _ _ _)); discriminate).
Qed.
Lemma begun_user s u : begun s -> begun (fst (user_move s u)).
Proof.
  intros (p & l & E & N). unfold begun, user_move. destruct (us_now u) as [[]|]; [..|destruct (us_todo u) as [|[] ?]]; cbn; try (now eauto).
  - destruct (nth_error (sv_threads s) t) as [[]|] eqn:Q; cbn; try (now eauto). rewrite E in *. destruct t; cbn in *; [congruence|eauto].
  - destruct (nth_error (sv_threads s) t) as [q|] eqn:Q; [destruct (alive q)|]; cbn; eauto.
  - destruct (nth_error (sv_threads s) t) as [[]|] eqn:Q; cbn; eauto.
Qed.
Lemma before_thread s p i raises : before_start s p -> thread_move s i raises = s.
Proof. intros (_ & E & _). unfold thread_move. rewrite E. destruct i as [|[|i]]; reflexivity. Qed.
Lemma before_user s p s' u : before_start s (Some p) -> user_move s {| us_now := Some p; us_todo := []; us_done := [] |} = (s', u) ->
  (exists p', us_now u = Some p' /\ before_start s' (Some p')) \/ (us_now u = None /\ us_done u = [(UStart, Ok tt)] /\ begun s').
Proof.
  intros (E1 & E2 & E3 & E4 & P). unfold user_move. cbn [us_now]. destruct p; try tauto; cbn.
  - intros [= <- <-]. left. eexists. split; [reflexivity|]. now split.
  - intros [= <- <-]. left. eexists. split; [reflexivity|]. unfold before_start. cbn. rewrite list_upd_length. auto.
  - intros [= <- <-]. left. eexists. split; [reflexivity|]. now split.
  - subst t. rewrite E2. cbn. intros [= <- <-]. right. split; [reflexivity|]. split; [reflexivity|]. unfold begun. cbn. rewrite E2. now exists TInit, [].
Qed.
Lemma starting_move w a : starting w -> starting (composite_move w a).
Proof.
  intros H. destruct a as [|k i raises]; cbn [composite_move].
  2: { destruct (nth_error (cs_servers w) k) as [s|] eqn:N; [|exact H]. unfold starting in *. cbn [put_server cs_now cs_done cs_servers cs_todo].
       destruct (cs_now w) as [[[c j] p]|], (cs_done w) as [|[c0 r0] dn].
       - destruct H as [-> H]. split; [reflexivity|]. intros m x X. destruct (nth_put _ _ _ _ _ _ N X) as [[-> ->]|[D X']]; [|now apply H].
         specialize (H k s N). destruct (k <? j)%nat; [now apply begun_thread|]. now rewrite (before_thread s _ i raises H).
       - destruct H as (-> & -> & H). split; [reflexivity|]. split; [reflexivity|]. intros m x X. destruct (nth_put _ _ _ _ _ _ N X) as [[-> ->]|[D X']]; [|now apply (H m)].
         apply begun_thread, (H k s N).
       - destruct H as [R H]. split; [exact R|]. intros m x X. destruct (nth_put _ _ _ _ _ _ N X) as [[-> ->]|[D X']]; [|now apply (H m)].
         specialize (H k s N). now rewrite (before_thread s None i raises H).
       - destruct H as (-> & -> & H). split; [reflexivity|]. split; [reflexivity|]. intros m x X. destruct (nth_put _ _ _ _ _ _ N X) as [[-> ->]|[D X']]; [|now apply (H m)].
         apply begun_thread, (H k s N). }
  unfold composite_call. destruct (cs_done w) as [|[c0 r0] dn] eqn:Dn.
  - unfold starting in H. rewrite Dn in H. destruct (cs_now w) as [[[c k] [p|]]|] eqn:Nw.
    + destruct H as [-> H]. destruct (nth_error (cs_servers w) k) as [s|] eqn:N; [|unfold starting; rewrite Nw, Dn; auto].
      pose proof (H k s N) as B. rewrite Nat.ltb_irrefl, Nat.eqb_refl in B.
      destruct (user_move s {| us_now := Some p; us_todo := []; us_done := [] |}) as [s' u] eqn:M.
      destruct (before_user s p s' u B M) as [(p' & -> & B')|(-> & -> & B')]; unfold starting; cbn [go_to put_server cs_now cs_done cs_servers]; rewrite Dn; (split; [reflexivity|]); intros j x X;
        (destruct (nth_put _ _ _ _ _ _ N X) as [[-> ->]|[D X']]).
      * now rewrite Nat.ltb_irrefl, Nat.eqb_refl.
      * specialize (H j x X'). destruct (Nat.eqb_spec j k); [lia|]. exact H.
      * replace (k <? S k)%nat with true by (symmetry; apply Nat.ltb_lt; lia). exact B'.
      * specialize (H j x X'). destruct (Nat.ltb_spec j k), (Nat.ltb_spec j (S k)); try lia; [exact H|]. destruct (Nat.eqb_spec j k); [lia|]. now destruct (j =? S k)%nat.
    + destruct H as [-> H]. destruct (nth_error (cs_servers w) k) as [s|] eqn:N; unfold starting; cbn [go_to finish cs_now cs_done cs_servers]; rewrite Dn.
      * split; [reflexivity|]. intros j x X. specialize (H j x X). destruct (j <? k)%nat; [exact H|]. destruct (j =? k)%nat; [|exact H].
        destruct H as (H1 & H2 & H3 & H4 & _). repeat split; auto.
      * cbn [app]. split; [reflexivity|]. split; [reflexivity|]. intros j x X. specialize (H j x X).
        assert (j < k)%nat by (apply nth_error_None in N; assert (j < length (cs_servers w))%nat by (apply nth_error_Some; congruence); lia).
        destruct (Nat.ltb_spec j k); [exact H|lia].
    + destruct H as [(rest & ->) H]. unfold starting. cbn [cs_now cs_done cs_servers]. split; [reflexivity|]. intros j x X. specialize (H j x X).
      destruct (Nat.ltb_spec j 0); [lia|]. now destruct (j =? 0)%nat.
  - assert (H' : c0 = UStart /\ r0 = Ok tt /\ forall j s, nth_error (cs_servers w) j = Some s -> begun s).
    { unfold starting in H. rewrite Dn in H. destruct (cs_now w) as [[[]]|]; exact H. }
    clear H. destruct H' as (-> & -> & H).
    assert (G : forall v, (exists more, cs_done v = (UStart, Ok tt) :: more) -> (forall j s, nth_error (cs_servers v) j = Some s -> begun s) -> starting v).
    { intros v (more & E) B. unfold starting. rewrite E. destruct (cs_now v) as [[[]]|]; auto. }
    destruct (cs_now w) as [[[c k] [p|]]|] eqn:Nw.
    + destruct (nth_error (cs_servers w) k) as [s|] eqn:N; [|apply G; [rewrite Dn; eauto|exact H]].
      pose proof (begun_user s {| us_now := Some p; us_todo := []; us_done := [] |} (H k s N)) as B.
      destruct (user_move s {| us_now := Some p; us_todo := []; us_done := [] |}) as [s' u] eqn:M. cbn [fst] in B.
      assert (B' : forall j x, nth_error (list_upd (cs_servers w) k s') j = Some x -> begun x).
      { intros j x X. destruct (nth_put _ _ _ _ _ _ N X) as [[-> ->]|[D X']]; [exact B|now apply (H j)]. }
      destruct (us_now u) as [p'|]; [apply G; [cbn; rewrite Dn; eauto|exact B']|].
      destruct (us_done u) as [|[c1 [[]|e]] l]; (apply G; [cbn; rewrite Dn; cbn; eauto|exact B']).
    + destruct (nth_error (cs_servers w) k); (apply G; [cbn; rewrite Dn; cbn; eauto|exact H]).
    + destruct (cs_todo w); (apply G; [cbn; rewrite ?Dn; cbn; eauto|exact H]).
Qed.
(** The first start() never raises, and when it is over every server has been started, whatever the threads already do. *)
Theorem C78_start : forall n program schedule call r later,
  let w := composite_moves schedule (composite_start n (UStart :: program)) in
  cs_done w = (call, r) :: later -> call = UStart /\ r = Ok tt /\ all_started w.
Proof.
  intros n program schedule call r later w E.
  assert (S : starting w).
  { clear E. unfold w, composite_moves. clear w. assert (S0 : starting (composite_start n (UStart :: program))).
    { cbn. split; [eauto|]. intros j s H. apply nth_error_In, repeat_spec in H. subst s. cbv. auto. }
    revert S0. generalize (composite_start n (UStart :: program)). induction schedule as [|a sch IH]; intros v S0; cbn [fold_left]; [exact S0|]. apply IH, starting_move, S0. }
  unfold starting in S. rewrite E in S.
  assert (S' : call = UStart /\ r = Ok tt /\ forall j s, nth_error (cs_servers w) j = Some s -> begun s) by (destruct (cs_now w) as [[[? ?] ?]|]; exact S).
  destruct S' as (-> & -> & S'). split; [reflexivity|]. split; [reflexivity|]. intros k s N. destruct (S' k s N) as (p & l & Q & NN). exists p. rewrite Q. auto.
Qed.
Example C78_start_ex : exists schedule, let w := composite_moves schedule (composite_start 3 [UStart]) in
  cs_done w = [(UStart, Ok tt)] /\ (exists s, nth_error (cs_servers w) 0 = Some s /\ nth_error (sv_threads s) 0 = Some TDead).
Proof.
  (* the first server fails while the others are being started *)
  exists (repeat ByCaller 6 ++ repeat (ByServer 0 0 true) 1 ++ repeat (ByServer 0 0 false) 3 ++ repeat ByCaller 11). split; [vm_compute; reflexivity|].
  eexists. split; vm_compute; reflexivity.
Qed.
(** A server whose thread has failed cannot be restarted with start(): it raises at the first server that still runs, and the servers
    behind it are not reached. *)
Theorem C78_restart_refuted :
  ~ (forall n program schedule,
       let w := composite_moves schedule (composite_start n program) in
       cs_now w = None -> (exists rest, cs_done w = rest ++ [(UStart, Ok tt); (UStart, Ok tt)]) \/
       (forall rest r, cs_done w <> rest ++ [(UStart, Ok tt); (UStart, r)])).
Proof.
  intros H.
  specialize (H 2%nat [UStart; UStart] (repeat ByCaller 12 ++ [ByServer 1 0 true] ++ repeat (ByServer 1 0 false) 3 ++ repeat (ByServer 0 0 false) 3 ++ repeat ByCaller 7)).
  vm_compute in H. specialize (H eq_refl). destruct H as [(rest & E)|N].
  - apply (f_equal (@rev _)) in E. rewrite rev_app_distr in E. discriminate E.
  - exact (N [] _ eq_refl).
Qed.

Print Assumptions C78_one_databank.
Print Assumptions C78_stop_stops_partial.
Print Assumptions C78_stop_stops_refuted.
Print Assumptions C78_start.
Print Assumptions C78_restart_refuted.
