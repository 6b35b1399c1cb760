(** Properties C92 and C93: masters and servers in one process.  Vocabulary: GatewayModel.v, LockModel.v. *)
From Coq Require Import Lia.
From Verif Require Import Base BaseFacts LockModel PropLocks GatewayModel.

(** ** Code that takes its locks in order

    [remote s]: server [s] is a device in another process.  [fit remote server held todo]: holding [held], the actions take locks
    in the library's order; a request to a server of this process is only made while nothing but the lock of execute is held, and never by
    a server thread; server threads do not take the lock of execute.  Every lock is released in the end. *)
Inductive fit (remote : nat -> bool) : bool -> list lock -> list gaction -> Prop :=
| fit_nil server : fit remote server [] []
| fit_acquire server h l rest : (In l h \/ forall x, In x h -> (rank x < rank l)%nat) -> (server = true -> l <> LExecute) ->
    fit remote server (l :: h) rest -> fit remote server h (GLock (Acquire l) :: rest)
| fit_release server h l rest : fit remote server h rest -> fit remote server (l :: h) (GLock (Release l) :: rest)
| fit_remote server h s rest : remote s = true -> fit remote server h rest -> fit remote server h (GAsk s [] :: rest)
| fit_near h s work rest : remote s = false -> (forall x, In x h -> x = LExecute) -> fit remote true [] work -> fit remote false h rest ->
    fit remote false h (GAsk s work :: rest).

Section Progress.
Variable remote : nat -> bool.
Variable servers : nat.
Hypothesis remote_there : forall s, remote s = true -> (s < servers)%nat.

Definition fit_now (t : gthread) : Prop :=
  fit remote (gt_server t) (gt_held t) (gt_todo t) \/
  exists s n rest, gt_todo t = GAnswer s n :: rest /\ fit remote (gt_server t) (gt_held t) rest /\
                   (remote s = true \/ (gt_server t = false /\ forall x, In x (gt_held t) -> x = LExecute)).
Record ginv (w : gworld) : Prop := {
  gi_fit : forall i t, nth_error (gw_threads w) i = Some t -> fit_now t;
  gi_excl : forall i j t u l, nth_error (gw_threads w) i = Some t -> nth_error (gw_threads w) j = Some u -> In l (gt_held t) -> In l (gt_held u) -> i = j;
  gi_kind : forall i t, nth_error (gw_threads w) i = Some t -> gt_server t = (i <? servers)%nat;
  gi_many : (servers <= length (gw_threads w))%nat;
  gi_remote : forall i t, nth_error (gw_threads w) i = Some t -> remote i = true -> gt_todo t = [];
  gi_idle : forall i t, nth_error (gw_threads w) i = Some t -> gt_server t = true -> gt_serving t = None -> gt_todo t = [];
  gi_wait : forall n s work, In (n, s, work) (gw_waiting w) -> (n < gw_next w)%nat /\ ((remote s = true /\ work = []) \/ (remote s = false /\ fit remote true [] work));
  gi_once : forall n s s' work work', In (n, s, work) (gw_waiting w) -> In (n, s', work') (gw_waiting w) -> s = s';
  gi_answer : forall i t s n rest, nth_error (gw_threads w) i = Some t -> gt_todo t = GAnswer s n :: rest ->
    In n (gw_answered w) \/ (exists work, In (n, s, work) (gw_waiting w)) \/ (exists u, nth_error (gw_threads w) s = Some u /\ gt_serving u = Some n)
}.
Lemma fit_answer server h s n rest : ~ fit remote server h (GAnswer s n :: rest).
Proof. intros H. inversion H. Qed.

Lemma fit_end server h : fit remote server h [] -> h = [].
Proof. intros H. inversion H. reflexivity. Qed.
Lemma fit_acq server h l rest : fit remote server h (GLock (Acquire l) :: rest) ->
  (In l h \/ forall x, In x h -> (rank x < rank l)%nat) /\ (server = true -> l <> LExecute).
Proof. intros H. inversion H; subst. auto. Qed.

Lemma ginv_upd w i t t' waiting answered next :
  ginv w -> nth_error (gw_threads w) i = Some t ->
  let w' := {| gw_threads := list_upd (gw_threads w) i t'; gw_waiting := waiting; gw_answered := answered; gw_next := next |} in
  gt_server t' = gt_server t -> fit_now t' ->
  (forall l, In l (gt_held t') -> In l (gt_held t) \/ forall j u, j <> i -> nth_error (gw_threads w) j = Some u -> ~ In l (gt_held u)) ->
  (remote i = true -> gt_todo t' = []) -> (gt_server t = true -> gt_serving t' = None -> gt_todo t' = []) ->
  (forall n s work, In (n, s, work) waiting -> (n < next)%nat /\ ((remote s = true /\ work = []) \/ (remote s = false /\ fit remote true [] work))) ->
  (forall n s s' work work', In (n, s, work) waiting -> In (n, s', work') waiting -> s = s') ->
  (forall j u s n rest, nth_error (list_upd (gw_threads w) i t') j = Some u -> gt_todo u = GAnswer s n :: rest ->
    In n answered \/ (exists work, In (n, s, work) waiting) \/ (exists v, nth_error (list_upd (gw_threads w) i t') s = Some v /\ gt_serving v = Some n)) ->
  ginv w'.
Proof.
  intros [F X K M R I W O A] N w' Sv Fi Hd Re Id Wa On An. split; cbn; [ | | | | | |exact Wa|exact On|exact An].
  - intros j u Nj. destruct (nth_upd _ _ _ _ _ _ N Nj) as [[-> ->]|[D Nj']]; eauto.
  - intros j1 j2 t1 t2 l N1 N2 H1 H2.
    destruct (nth_upd _ _ _ _ _ _ N N1) as [[-> ->]|[D1 N1']]; destruct (nth_upd _ _ _ _ _ _ N N2) as [[-> ->]|[D2 N2']]; auto.
    + destruct (Hd l H1) as [H|H]; [eapply X; eauto|exfalso; eapply H; eauto].
    + destruct (Hd l H2) as [H|H]; [eapply X; eauto|exfalso; eapply H; eauto].
    + eapply X; eauto.
  - intros j u Nj. destruct (nth_upd _ _ _ _ _ _ N Nj) as [[-> ->]|[D Nj']]; [rewrite Sv|]; eauto.
  - now rewrite list_upd_length.
  - intros j u Nj Rj. destruct (nth_upd _ _ _ _ _ _ N Nj) as [[-> ->]|[D Nj']]; eauto.
  - intros j u Nj Sj Vj. destruct (nth_upd _ _ _ _ _ _ N Nj) as [[-> ->]|[D Nj']]; eauto; try (apply Id; congruence).
Qed.
(** the answers others wait for stay where they are *)
Lemma answers_stay w i t t' : ginv w -> nth_error (gw_threads w) i = Some t -> gt_serving t' = gt_serving t ->
  (forall s n rest, gt_todo t' = GAnswer s n :: rest -> False) ->
  forall j u s n rest, nth_error (list_upd (gw_threads w) i t') j = Some u -> gt_todo u = GAnswer s n :: rest ->
    In n (gw_answered w) \/ (exists work, In (n, s, work) (gw_waiting w)) \/ (exists v, nth_error (list_upd (gw_threads w) i t') s = Some v /\ gt_serving v = Some n).
Proof.
  intros G N V NA j u s n rest Nj T. destruct (nth_upd _ _ _ _ _ _ N Nj) as [[-> ->]|[D Nj']]; [exfalso; eapply NA; eauto|].
  destruct (gi_answer _ G _ _ _ _ _ Nj' T) as [H|[H|(v & Nv & Sv)]]; auto. right. right.
  destruct (Nat.eq_dec s i) as [->|Ds].
  - rewrite N in Nv. injection Nv as <-. exists t'. split; [apply list_upd_same; apply nth_error_Some; congruence|congruence].
  - exists v. split; [now rewrite list_upd_other by auto|exact Sv].
Qed.
Lemma fit_no_answer server h todo : fit remote server h todo -> forall s n rest, todo = GAnswer s n :: rest -> False.
Proof. intros H s n rest ->. now apply fit_answer in H. Qed.
Lemma release_head l h : release_one l (l :: h) = h.
Proof. cbn. now rewrite (proj2 (lock_eqb_eq l l) eq_refl). Qed.
Lemma locker_nth ts j : nth_error (map as_locker ts) j = option_map as_locker (nth_error ts j).
Proof. apply nth_error_map. Qed.

Lemma ginv_move w a : ginv w -> ginv (gmove w a).
Proof.
  intros G. pose proof G as [F X K M R I W O A]. destruct a as [i|i n|i]; cbn [gmove].
  - destruct (nth_error (gw_threads w) i) as [t|] eqn:N; [|exact G]. pose proof (F i t N) as Fi. destruct (gt_todo t) as [|a rest] eqn:T.
    + destruct (gt_serving t) as [n|] eqn:V; [|exact G].
      eapply ginv_upd; [exact G|exact N|reflexivity| | |reflexivity|reflexivity|exact W|exact O|].
      * destruct Fi as [Fi|(s & m & rest & E & _)]; [left; cbn; rewrite T in Fi; exact Fi|congruence].
      * auto.
      * intros j u s m rest Nj Tj. destruct (nth_upd _ _ _ _ _ _ N Nj) as [[-> ->]|[D Nj']]; [discriminate Tj|].
        destruct (A _ _ _ _ _ Nj' Tj) as [H|[H|(v & Nv & Sv)]]; [left; now right|auto|].
        destruct (Nat.eq_dec s i) as [->|Ds]; [left; left; congruence|]. right. right. exists v. split; [now rewrite list_upd_other by auto|exact Sv].
    + assert (NR : remote i = true -> False). { intros Ri. pose proof (R i t N Ri). congruence. }
      assert (Busy : gt_server t = true -> gt_serving t = None -> False). { intros Sv Vv. pose proof (I i t N Sv Vv). congruence. }
      destruct a as [[l|l]|s work|s n].
      * (* Acquire *)
        destruct (taken_by_other l i (map as_locker (gw_threads w))) eqn:Tk; [exact G|].
        assert (Ff : fit remote (gt_server t) (l :: gt_held t) rest).
        { unfold fit_now in Fi. rewrite T in Fi. destruct Fi as [Fi|(? & ? & ? & E & _)]; [inversion Fi; subst; assumption|discriminate E]. }
        eapply ginv_upd; [exact G|exact N|reflexivity|left; exact Ff| | | |exact W|exact O|].
        -- intros x [<-|Hx]; [right|now left]. intros j u Dj Nj Hin.
           assert (Y : taken_by_other l i (map as_locker (gw_threads w)) = true).
           { apply taken_spec. exists j, (as_locker u). split; [exact Dj|]. split; [rewrite locker_nth, Nj; reflexivity|exact Hin]. }
           congruence.
        -- intros Ri. destruct (NR Ri).
        -- intros Sv Vv. destruct (Busy Sv Vv).
        -- apply (answers_stay w i t); [exact G|exact N|reflexivity|]. intros s n r E. cbn in E. subst rest. now apply fit_answer in Ff.
      * (* Release *)
        assert (Ff : exists h, gt_held t = l :: h /\ fit remote (gt_server t) h rest).
        { unfold fit_now in Fi. rewrite T in Fi. destruct Fi as [Fi|(? & ? & ? & E & _)]; [inversion Fi; subst; eauto|discriminate E]. }
        destruct Ff as (h & Eh & Ff). rewrite Eh, release_head.
        eapply ginv_upd; [exact G|exact N|reflexivity|left; exact Ff| | | |exact W|exact O|].
        -- intros x Hx. left. rewrite Eh. now right.
        -- intros Ri. destruct (NR Ri).
        -- intros Sv Vv. destruct (Busy Sv Vv).
        -- apply (answers_stay w i t); [exact G|exact N|reflexivity|]. intros s n r E. cbn in E. subst rest. now apply fit_answer in Ff.
      * (* Ask *)
        assert (Ff : fit remote (gt_server t) (gt_held t) rest /\
                     ((remote s = true /\ work = []) \/ (remote s = false /\ gt_server t = false /\ (forall x, In x (gt_held t) -> x = LExecute) /\ fit remote true [] work))).
        { unfold fit_now in Fi. rewrite T in Fi. destruct Fi as [Fi|(? & ? & ? & E & _)]; [inversion Fi; subst; auto 10|discriminate E]. }
        destruct Ff as [Ff Kw].
        eapply ginv_upd; [exact G|exact N|reflexivity| | | | | | |].
        -- right. exists s, (gw_next w), rest. cbn. split; [reflexivity|]. split; [exact Ff|]. tauto.
        -- auto.
        -- intros Ri. destruct (NR Ri).
        -- intros Sv Vv. destruct (Busy Sv Vv).
        -- intros n s' work' Hin. apply in_app_iff in Hin as [Hin|[Hin|[]]]; [destruct (W _ _ _ Hin); split; [lia|assumption]|].
           injection Hin as <- <- <-. split; [lia|]. tauto.
        -- intros n s1 s2 w1 w2 H1 H2. apply in_app_iff in H1 as [H1|[H1|[]]]; apply in_app_iff in H2 as [H2|[H2|[]]].
           ++ eapply O; eauto.
           ++ injection H2 as <- _ _. destruct (W _ _ _ H1). lia.
           ++ injection H1 as <- _ _. destruct (W _ _ _ H2). lia.
           ++ congruence.
        -- intros j u s' n r Nj Tj. destruct (nth_upd _ _ _ _ _ _ N Nj) as [[-> ->]|[D Nj']].
           ++ cbn in Tj. injection Tj as <- <- <-. right. left. exists work. apply in_app_iff. right. now left.
           ++ destruct (A _ _ _ _ _ Nj' Tj) as [H|[(w0 & H)|(v & Nv & Sv)]]; [now left|right; left; exists w0; apply in_app_iff; now left|]. right. right.
              destruct (Nat.eq_dec s' i) as [->|Ds].
              ** rewrite N in Nv. injection Nv as <-. eexists. split; [apply list_upd_same; apply nth_error_Some; congruence|exact Sv].
              ** exists v. split; [now rewrite list_upd_other by auto|exact Sv].
      * (* Answer *)
        destruct (existsb (Nat.eqb n) (gw_answered w)); [|exact G].
        assert (Ff : fit remote (gt_server t) (gt_held t) rest).
        { unfold fit_now in Fi. rewrite T in Fi. destruct Fi as [Fi|(s' & n' & r' & E & Ff & _)]; [now apply fit_answer in Fi|]. injection E as <- <- <-. exact Ff. }
        eapply ginv_upd; [exact G|exact N|reflexivity|left; exact Ff|auto| | |exact W|exact O|].
        -- intros Ri. destruct (NR Ri).
        -- intros Sv Vv. destruct (Busy Sv Vv).
        -- apply (answers_stay w i t); [exact G|exact N|reflexivity|]. intros s' n' r E. cbn in E. subst rest. now apply fit_answer in Ff.
  - destruct (nth_error (gw_threads w) i) as [t|] eqn:N; [|exact G]. destruct (gt_server t) eqn:Sv; [|exact G].
    destruct (gt_todo t) eqn:T; [|exact G]. destruct (gt_serving t) eqn:V; [exact G|].
    destruct (find _ (gw_waiting w)) as [[[n' s'] work]|] eqn:Fd; [|exact G].
    apply find_some in Fd as [Hin Eq]. cbn in Eq. apply andb_true_iff in Eq as [E1 E2]. apply Nat.eqb_eq in E1, E2. subst n' s'.
    pose proof (F i t N) as Fi. unfold fit_now in Fi. rewrite T, Sv in Fi. destruct Fi as [Fi|(? & ? & ? & E & _)]; [|discriminate E].
    assert (Eh : gt_held t = []) by (inversion Fi; reflexivity).
    destruct (W _ _ _ Hin) as [_ Kw].
    assert (In_filter : forall x, In x (filter (fun r => negb (Nat.eqb n (fst (fst r)))) (gw_waiting w)) -> In x (gw_waiting w)) by (intros x Hx; apply filter_In in Hx; tauto).
    eapply ginv_upd; [exact G|exact N|rewrite Sv; reflexivity| | | | | | |].
    + left. cbn. rewrite Eh. destruct Kw as [[_ ->]|[_ Kw]]; [constructor|exact Kw].
    + cbn. auto.
    + cbn. intros Ri. destruct Kw as [[_ ->]|[Kw _]]; [reflexivity|congruence].
    + cbn. discriminate.
    + intros m s wk H. apply W. auto.
    + intros m s1 s2 w1 w2 H1 H2. eapply O; eauto.
    + intros j u s m r Nj Tj. destruct (nth_upd _ _ _ _ _ _ N Nj) as [[-> ->]|[D Nj']].
      * exfalso. cbn in Tj. destruct Kw as [[_ ->]|[_ Kw]]; [discriminate Tj|]. eapply fit_no_answer; eauto.
      * destruct (A _ _ _ _ _ Nj' Tj) as [H|[(w0 & H)|(v & Nv & Vv)]]; [now left| |].
        -- destruct (Nat.eq_dec m n) as [->|Dm].
           ++ pose proof (O _ _ _ _ _ H Hin) as ->. right. right. eexists. split; [apply list_upd_same; apply nth_error_Some; congruence|reflexivity].
           ++ right. left. exists w0. apply filter_In. split; [exact H|]. cbn. apply negb_true_iff. now apply Nat.eqb_neq, not_eq_sym.
        -- right. right. destruct (Nat.eq_dec s i) as [->|Ds]; [congruence|]. exists v. split; [now rewrite list_upd_other by auto|exact Vv].
  - destruct (nth_error (gw_threads w) i) as [t|] eqn:N; [|exact G]. pose proof (F i t N) as Fi. destruct (gt_todo t) as [|[| |s n] rest] eqn:T; try exact G.
    assert (Ff : fit remote (gt_server t) (gt_held t) rest).
    { unfold fit_now in Fi. rewrite T in Fi. destruct Fi as [Fi|(s' & n' & r' & E & Ff & _)]; [now apply fit_answer in Fi|]. injection E as <- <- <-. exact Ff. }
    eapply ginv_upd; [exact G|exact N|reflexivity|left; exact Ff|auto| | |exact W|exact O|].
    + intros Ri. pose proof (R i t N Ri). congruence.
    + intros Sv Vv. pose proof (I i t N Sv Vv). congruence.
    + apply (answers_stay w i t); [exact G|exact N|reflexivity|]. intros s' n' r E. cbn in E. subst rest. now apply fit_answer in Ff.
Qed.

(** ** Progress *)
Fixpoint weight (a : gaction) : nat :=
  match a with
  | GLock _ | GAnswer _ _ => 1
  | GAsk _ work => 4 + (fix all (l : list gaction) : nat := match l with [] => 0 | x :: t => weight x + all t end) work
  end%nat.
Definition weights (l : list gaction) : nat := fold_right (fun a n => weight a + n)%nat O l.
Lemma weights_cons a l : weights (a :: l) = (weight a + weights l)%nat.
Proof. reflexivity. Qed.
Lemma weight_ask s work : weight (GAsk s work) = (4 + weights work)%nat.
Proof. cbn. do 4 f_equal. Qed.
Lemma weight_pos a : (0 < weight a)%nat.
Proof. destruct a; cbn; lia. Qed.
Definition gload (t : gthread) : nat := (weights (gt_todo t) + match gt_serving t with Some _ => 1 | None => 0 end)%nat.
Lemma gload_eq t : gload t = (weights (gt_todo t) + match gt_serving t with Some _ => 1 | None => 0 end)%nat.
Proof. reflexivity. Qed.
Fixpoint sum_over {A} (f : A -> nat) (l : list A) : nat := match l with [] => O | x :: t => (f x + sum_over f t)%nat end.
Definition gweight (w : gworld) : nat :=
  (sum_over gload (gw_threads w) + sum_over (fun r : nat * nat * list gaction => 2 + weights (snd r)) (gw_waiting w))%nat.
Lemma sum_upd {A} (f : A -> nat) l i x y : nth_error l i = Some x -> (sum_over f (list_upd l i y) + f x = sum_over f l + f y)%nat.
Proof. revert i. induction l as [|z l IH]; intros [|i] N; try discriminate; cbn in *; [injection N as ->; lia|specialize (IH i N); lia]. Qed.
Lemma sum_app {A} (f : A -> nat) l m : sum_over f (l ++ m) = (sum_over f l + sum_over f m)%nat.
Proof. induction l as [|x l IH]; cbn; [reflexivity|lia]. Qed.
Lemma sum_filter {A} (f : A -> nat) (q : A -> bool) l x : In x l -> q x = false -> (sum_over f (filter q l) + f x <= sum_over f l)%nat.
Proof.
  assert (L : forall l, (sum_over f (filter q l) <= sum_over f l)%nat) by (induction l0 as [|y l0 IH]; cbn; [lia|destruct (q y); cbn; lia]).
  induction l as [|y l IH]; [intros []|]. intros [<-|H] Q; cbn.
  - rewrite Q. specialize (L l). lia.
  - specialize (IH H Q). destruct (q y); cbn; lia.
Qed.
(** not the expiry of a timeout *)
Definition proper (a : gactor) : Prop := match a with GExpire _ => False | _ => True end.
Definition moves_on (w : gworld) : Prop := exists a, proper a /\ (gweight (gmove w a) < gweight w)%nat.

Lemma thread_moves w i t todo' held' : nth_error (gw_threads w) i = Some t -> gt_todo t <> [] -> (weights todo' < weights (gt_todo t))%nat ->
  (gweight (gput w i (gthen t held' todo')) < gweight w)%nat.
Proof.
  intros N _ L. unfold gweight. cbn [gput gw_threads gw_waiting]. pose proof (sum_upd gload (gw_threads w) i t (gthen t held' todo') N) as E.
  rewrite !gload_eq in E. cbn [gthen gt_todo gt_serving] in E. lia.
Qed.
Lemma server_finishes w s u n : nth_error (gw_threads w) s = Some u -> gt_serving u = Some n -> gt_todo u = [] -> moves_on w.
Proof.
  intros N V T. exists (GMove s). split; [exact Logic.I|]. cbn [gmove]. rewrite N, T, V. unfold gweight. cbn [gw_threads gw_waiting].
  match goal with |- context [list_upd _ s ?t'] => pose proof (sum_upd gload (gw_threads w) s u t' N) as E end.
  rewrite !gload_eq in E. cbn [gt_todo gt_serving] in E. rewrite T, V in E. lia.
Qed.
Definition blocked (w : gworld) (i : nat) (t : gthread) : Prop :=
  (gt_todo t = [] /\ gt_serving t = None) \/
  (exists l rest, gt_todo t = GLock (Acquire l) :: rest /\ taken_by_other l i (map as_locker (gw_threads w)) = true) \/
  (exists s n rest, gt_todo t = GAnswer s n :: rest /\
     ((servers <= s)%nat \/ exists u, nth_error (gw_threads w) s = Some u /\ gt_server u = true /\ gt_todo u <> [])).
Lemma moves_or_blocked w i t : ginv w -> nth_error (gw_threads w) i = Some t -> moves_on w \/ blocked w i t.
Proof.
  intros G N. destruct (gt_todo t) as [|a rest] eqn:T.
  { destruct (gt_serving t) as [n|] eqn:V; [left; eapply server_finishes; eauto|right; now left]. }
  assert (Go : forall held' todo', gmove w (GMove i) = gput w i (gthen t held' todo') -> (weights todo' < weights (gt_todo t))%nat -> moves_on w).
  { intros held' todo' E L. exists (GMove i). split; [exact Logic.I|]. rewrite E. apply thread_moves; [exact N|congruence|exact L]. }
  destruct a as [[l|l]|s work|s n].
  - destruct (taken_by_other l i (map as_locker (gw_threads w))) eqn:Tk; [right; right; left; eauto|]. left.
    eapply (Go (l :: gt_held t) rest); [cbn; rewrite N, T, Tk; reflexivity|rewrite T, weights_cons; cbn [weight]; lia].
  - left. eapply (Go _ rest); [cbn; rewrite N, T; reflexivity|rewrite T, weights_cons; cbn [weight]; lia].
  - left. exists (GMove i). split; [exact Logic.I|]. cbn [gmove]. rewrite N, T. unfold gweight. cbn [gw_threads gw_waiting].
    match goal with |- context [list_upd _ i ?t'] => pose proof (sum_upd gload (gw_threads w) i t t' N) as E end.
    rewrite sum_app. cbn [sum_over snd]. unfold gthen in E |- *. rewrite !gload_eq in E. cbn [gt_todo gt_serving] in E. rewrite T in E.
    rewrite !weights_cons, weight_ask in E. cbn [weight] in E. lia.
  - destruct (existsb (Nat.eqb n) (gw_answered w)) eqn:An.
    + left. eapply (Go _ rest); [cbn; rewrite N, T, An; reflexivity|rewrite T, weights_cons; cbn [weight]; lia].
    + destruct (Nat.lt_ge_cases s servers) as [Ls|Ls]; [|right; right; right; exists s, n, rest; auto].
      destruct (nth_error (gw_threads w) s) as [u|] eqn:Ns; [|apply nth_error_None in Ns; pose proof (gi_many _ G); lia].
      assert (Su : gt_server u = true). { rewrite (gi_kind _ G s u Ns). now apply Nat.ltb_lt. }
      destruct (gt_todo u) as [|b r] eqn:Tu; [|right; right; right; exists s, n, rest; split; [exact T|]; right; exists u; repeat split; auto; congruence].
      left. destruct (gt_serving u) as [m|] eqn:Vu; [eapply server_finishes; eauto|].
      destruct (gi_answer _ G _ _ _ _ _ N T) as [H|[(work & H)|(v & Nv & Vv)]].
      * exfalso. assert (X : existsb (Nat.eqb n) (gw_answered w) = true) by (apply existsb_exists; exists n; split; [exact H|apply Nat.eqb_refl]). congruence.
      * exists (GTake s n). split; [exact Logic.I|]. cbn [gmove]. rewrite Ns, Su, Tu, Vu.
        destruct (find _ (gw_waiting w)) as [[[n' s'] wk]|] eqn:Fd.
        2:{ exfalso. pose proof (find_none _ _ Fd _ H) as X. cbn in X. rewrite !Nat.eqb_refl in X. discriminate X. }
        pose proof Fd as Fd'. apply find_some in Fd' as [Hin Eq]. cbn in Eq. apply andb_true_iff in Eq as [E1 E2]. apply Nat.eqb_eq in E1, E2. subst n' s'.
        unfold gweight. cbn [gw_threads gw_waiting].
        match goal with |- context [list_upd _ s ?t'] => pose proof (sum_upd gload (gw_threads w) s u t' Ns) as E end.
        rewrite !gload_eq in E. cbn [gt_todo gt_serving] in E. rewrite Tu, Vu in E. cbn [weights fold_right] in E.
        pose proof (sum_filter (fun r : nat * nat * list gaction => (2 + weights (snd r))%nat) (fun r => negb (n =? fst (fst r))%nat) (gw_waiting w) _ Hin) as S.
        cbn [fst snd] in S. rewrite Nat.eqb_refl in S. specialize (S eq_refl). lia.
      * congruence.
Qed.
Lemma all_blocked w : ginv w -> moves_on w \/ forall i t, nth_error (gw_threads w) i = Some t -> blocked w i t.
Proof.
  intros G. assert (K : forall n, moves_on w \/ forall i t, (i < n)%nat -> nth_error (gw_threads w) i = Some t -> blocked w i t).
  { induction n as [|n [IH|IH]]; [right; intros; lia|now left|].
    destruct (nth_error (gw_threads w) n) as [t|] eqn:N.
    2: { right. intros i t L Ni. destruct (Nat.eq_dec i n) as [->|D]; [congruence|]. apply IH; [lia|assumption]. }
    destruct (moves_or_blocked w n t G N) as [H|H]; [now left|]. right. intros i u L Ni. destruct (Nat.eq_dec i n) as [->|D]; [congruence|]. apply IH; [lia|assumption]. }
  destruct (K (length (gw_threads w))) as [H|H]; [now left|right]. intros i t N. apply H; [|exact N]. apply nth_error_Some. congruence.
Qed.
(** When nobody can move, an unfinished thread waits for the lock of execute or for a server that is not there. *)
Lemma stuck_reasons w i t : ginv w -> (forall i t, nth_error (gw_threads w) i = Some t -> blocked w i t) ->
  nth_error (gw_threads w) i = Some t -> gt_todo t <> [] ->
  (exists rest, gt_todo t = GLock (Acquire LExecute) :: rest /\ gt_server t = false /\ taken_by_other LExecute i (map as_locker (gw_threads w)) = true) \/
  (exists s n rest, gt_todo t = GAnswer s n :: rest /\ (servers <= s)%nat).
Proof.
  intros G B N T0.
  assert (Rem : forall s u, nth_error (gw_threads w) s = Some u -> remote s = true -> gt_todo u <> [] -> False).
  { intros s u Ns Rs X. apply X. now apply (gi_remote _ G s u). }
  assert (Up : forall n i t l rest, nth_error (gw_threads w) i = Some t -> gt_todo t = GLock (Acquire l) :: rest -> l <> LExecute -> (3 - rank l < n)%nat -> False).
  { induction n as [|n IH]; intros j u l rest Nj Tj Dl L; [lia|].
    destruct (B j u Nj) as [[E _]|[(l' & r' & T' & Tk)|(s & m & r' & T' & _)]]; [congruence| |congruence]. rewrite Tj in T'. injection T' as <- <-.
    apply taken_spec in Tk as (k & v & Dk & Nk & Hin). rewrite locker_nth in Nk. destruct (nth_error (gw_threads w) k) as [tk|] eqn:Nk'; [|discriminate Nk].
    injection Nk as <-. cbn in Hin.
    pose proof (gi_fit _ G k tk Nk') as Fk. destruct (B k tk Nk') as [[E _]|[(l2 & r2 & T2 & Tk2)|(s & m & r2 & T2 & Ks)]].
    - unfold fit_now in Fk. rewrite E in Fk. destruct Fk as [Fk|(? & ? & ? & X & _)]; [apply fit_end in Fk; rewrite Fk in Hin; destruct Hin|discriminate X].
    - unfold fit_now in Fk. rewrite T2 in Fk. destruct Fk as [Fk|(? & ? & ? & X & _)]; [|discriminate X].
      apply fit_acq in Fk as [Ho _].
      destruct Ho as [Ho|Ho].
      + apply taken_spec in Tk2 as (k2 & v2 & D2 & Nk2 & Hin2). rewrite locker_nth in Nk2. destruct (nth_error (gw_threads w) k2) as [tk2|] eqn:N2; [|discriminate Nk2].
        injection Nk2 as <-. cbn in Hin2. apply D2. eapply (gi_excl _ G); eauto.
      + specialize (Ho l Hin). eapply (IH k tk l2 r2); eauto.
        * intros ->. cbn in Ho. lia.
        * assert (rank l2 <= 3)%nat by (destruct l2; cbn; lia). lia.
    - unfold fit_now in Fk. rewrite T2 in Fk. destruct Fk as [Fk|(s' & m' & r' & X & _ & Kr)]; [now apply fit_answer in Fk|]. injection X as <- <- <-.
      destruct Kr as [Kr|[_ Kr]]; [|apply Dl; now apply Kr].
      destruct Ks as [Ks|(us & Ns & _ & Tu)]; [pose proof (remote_there _ Kr); lia|]. eapply Rem; eauto. }
  assert (Bnd : forall l, (3 - rank l < 4)%nat) by (intros l; lia).
  pose proof (gi_fit _ G i t N) as Fi.
  destruct (B i t N) as [[E _]|[(l & rest & T & Tk)|(s & m & rest & T & Ks)]]; [congruence| |].
  - left. assert (El : l = LExecute). { assert (Dec : {l = LExecute} + {l <> LExecute}) by (destruct l; (left; reflexivity) || (right; discriminate)). destruct Dec as [E|D]; [exact E|]. exfalso. eapply (Up 4%nat i t l rest); eauto. }
    subst l. exists rest. split; [exact T|]. split; [|exact Tk]. unfold fit_now in Fi. rewrite T in Fi. destruct Fi as [Fi|(? & ? & ? & X & _)]; [|discriminate X].
    apply fit_acq in Fi as [_ Hs]. destruct (gt_server t); [exfalso; now apply Hs|reflexivity].
  - right. exists s, m, rest. split; [exact T|]. destruct Ks as [Ks|(u & Ns & Su & Tu)]; [exact Ks|exfalso].
    pose proof (gi_fit _ G s u Ns) as Fu. destruct (B s u Ns) as [[E _]|[(l & r & T2 & Tk)|(s2 & m2 & r & T2 & Ks2)]]; [congruence| |].
    + unfold fit_now in Fu. rewrite T2 in Fu. destruct Fu as [Fu|(? & ? & ? & X & _)]; [|discriminate X].
      apply fit_acq in Fu as [_ Hs]. rewrite Su in Hs. eapply (Up 4%nat s u l r); eauto.
    + unfold fit_now in Fu. rewrite T2 in Fu. destruct Fu as [Fu|(s' & m' & r' & X & _ & Kr)]; [now apply fit_answer in Fu|]. injection X as <- <- <-.
      destruct Kr as [Kr|[Kr _]]; [|congruence]. destruct Ks2 as [Ks2|(u2 & Ns2 & _ & Tu2)]; [pose proof (remote_there _ Kr); lia|]. eapply Rem; eauto.
Qed.
(** Every move that changes anything brings the end nearer. *)
Lemma move_weight w a : gmove w a = w \/ (gweight (gmove w a) < gweight w)%nat.
Proof.
  destruct a as [i|i n|i]; cbn [gmove]; (destruct (nth_error (gw_threads w) i) as [t|] eqn:N; [|now left]).
  - destruct (gt_todo t) as [|[[l|l]|s work|s n] rest] eqn:T.
    + destruct (gt_serving t) as [n|] eqn:V; [|now left]. right. unfold gweight. cbn [gw_threads gw_waiting].
      match goal with |- context [list_upd _ i ?t'] => pose proof (sum_upd gload (gw_threads w) i t t' N) as E end.
      rewrite !gload_eq in E. cbn [gt_todo gt_serving] in E. rewrite T, V in E. lia.
    + destruct (taken_by_other l i (map as_locker (gw_threads w))); [now left|]. right.
      apply thread_moves; [exact N|congruence|]. rewrite T, weights_cons. cbn [weight]. lia.
    + right. apply thread_moves; [exact N|congruence|]. rewrite T, weights_cons. cbn [weight]. lia.
    + right. unfold gweight. cbn [gw_threads gw_waiting].
      match goal with |- context [list_upd _ i ?t'] => pose proof (sum_upd gload (gw_threads w) i t t' N) as E end.
      rewrite sum_app. cbn [sum_over snd]. unfold gthen in E |- *. rewrite !gload_eq in E. cbn [gt_todo gt_serving] in E. rewrite T in E.
      rewrite !weights_cons, weight_ask in E. cbn [weight] in E. lia.
    + destruct (existsb (Nat.eqb n) (gw_answered w)); [|now left]. right.
      apply thread_moves; [exact N|congruence|]. rewrite T, weights_cons. cbn [weight]. lia.
  - destruct (gt_server t); [|now left]. destruct (gt_todo t) eqn:T; [|now left]. destruct (gt_serving t) eqn:V; [now left|].
    destruct (find _ (gw_waiting w)) as [[[n' s'] wk]|] eqn:Fd; [|now left]. right.
    apply find_some in Fd as [Hin Eq]. cbn in Eq. apply andb_true_iff in Eq as [E1 E2]. apply Nat.eqb_eq in E1, E2. subst n' s'.
    unfold gweight. cbn [gw_threads gw_waiting].
    match goal with |- context [list_upd _ i ?t'] => pose proof (sum_upd gload (gw_threads w) i t t' N) as E end.
    rewrite !gload_eq in E. cbn [gt_todo gt_serving] in E. rewrite T, V in E. cbn [weights fold_right] in E.
    pose proof (sum_filter (fun r : nat * nat * list gaction => (2 + weights (snd r))%nat) (fun r => negb (n =? fst (fst r))%nat) (gw_waiting w) _ Hin) as Sm.
    cbn [fst snd] in Sm. rewrite Nat.eqb_refl in Sm. specialize (Sm eq_refl). lia.
  - destruct (gt_todo t) as [|[| |s n] rest] eqn:T; try now left. right. apply thread_moves; [exact N|congruence|]. rewrite T, weights_cons. cbn [weight]. lia.
Qed.
(** What holds whenever nobody can move can be reached. *)
Lemma reach_goal (keep goal : gworld -> Prop) :
  (forall w a, ginv w -> keep w -> keep (gmove w a)) ->
  (forall w, ginv w -> keep w -> (forall i t, nth_error (gw_threads w) i = Some t -> blocked w i t) -> goal w) ->
  forall w, ginv w -> keep w ->
    (exists more, Forall proper more /\ goal (gmoves more w)) /\ ((forall a, proper a -> gmove w a = w) -> goal w).
Proof.
  intros Hk Hg w G K. split.
  - remember (gweight w) as n eqn:E. revert w E G K. induction n as [n IH] using lt_wf_ind. intros w -> G K.
    destruct (all_blocked w G) as [(a & Pa & L)|B].
    + destruct (IH _ L _ eq_refl (ginv_move w a G) (Hk w a G K)) as (more & Pm & Go). exists (a :: more). split; [now constructor|exact Go].
    + exists []. split; [constructor|]. now apply Hg.
  - intros Q. apply Hg; auto. destruct (all_blocked w G) as [(a & Pa & L)|B]; [|exact B]. rewrite (Q a Pa) in L. lia.
Qed.
Lemma ginv_start programs : (forall p, In p programs -> fit remote false [] p) -> ginv (gstart servers programs).
Proof.
  intros H.
  assert (K : forall i t, nth_error (gw_threads (gstart servers programs)) i = Some t ->
    gt_held t = [] /\ gt_serving t = None /\ gt_server t = (i <? servers)%nat /\ (gt_server t = true -> gt_todo t = []) /\ (gt_server t = false -> In (gt_todo t) programs)).
  { intros i t N. cbn in N. destruct (Nat.lt_ge_cases i servers) as [L|L].
    - rewrite nth_error_app1 in N by (now rewrite repeat_length). rewrite nth_error_repeat in N by exact L. injection N as <-. cbn [gt_held gt_serving gt_server gt_todo].
      rewrite (proj2 (Nat.ltb_lt _ _) L). repeat split; auto. discriminate.
    - rewrite nth_error_app2 in N by (now rewrite repeat_length). rewrite nth_error_map in N.
      destruct (nth_error programs _) as [p|] eqn:Np; [|discriminate N]. injection N as <-. cbn [gt_held gt_serving gt_server gt_todo].
      rewrite (proj2 (Nat.ltb_ge _ _) L). repeat split; auto. discriminate. intros _. eapply nth_error_In; eauto. }
  assert (Fp : forall i t, nth_error (gw_threads (gstart servers programs)) i = Some t -> fit remote (gt_server t) (gt_held t) (gt_todo t)).
  { intros i t N. destruct (K i t N) as (Eh & _ & _ & Et & Ep). rewrite Eh. destruct (gt_server t); [rewrite Et by reflexivity; constructor|apply H, Ep; reflexivity]. }
  split.
  - intros i t N. left. eauto.
  - intros i j t u l N1 N2 H1 _. destruct (K i t N1) as (Eh & _). rewrite Eh in H1. destruct H1.
  - intros i t N. apply (K i t N).
  - cbn. rewrite app_length, repeat_length. lia.
  - intros i t N Ri. destruct (K i t N) as (_ & _ & Es & Et & _). apply Et. rewrite Es. apply Nat.ltb_lt. now apply remote_there.
  - intros i t N Si _. destruct (K i t N) as (_ & _ & _ & Et & _). auto.
  - intros n s work [].
  - intros n s s' work work' [].
  - intros i t s n rest N T. exfalso. pose proof (Fp i t N) as X. rewrite T in X. now apply fit_answer in X.
Qed.
Lemma ginv_moves schedule w : ginv w -> ginv (gmoves schedule w).
Proof. revert w. induction schedule as [|a l IH]; intros w G; [exact G|]. apply IH. now apply ginv_move. Qed.
End Progress.

(** The action asks nobody who is not there. *)
Definition reaches (servers : nat) (a : gaction) : Prop := match a with GAsk s _ | GAnswer s _ => (s < servers)%nat | GLock _ => True end.
(** Every call has ended, every request taken has been answered, no lock is held. *)
Definition finished (w : gworld) : Prop :=
  forall i t, nth_error (gw_threads w) i = Some t -> gt_todo t = [] /\ gt_serving t = None /\ gt_held t = [].

(** How the code of a thread changes in a move. *)
Lemma todo_move (P : gaction -> Prop) w a i t' : (forall s work n, P (GAsk s work) -> P (GAnswer s n)) ->
  nth_error (gw_threads (gmove w a)) i = Some t' -> gt_server t' = false ->
  exists t, nth_error (gw_threads w) i = Some t /\ gt_server t = false /\ (Forall P (gt_todo t) -> Forall P (gt_todo t')).
Proof.
  intros PA N' S'.
  assert (Same : nth_error (gw_threads w) i = Some t' -> exists t, nth_error (gw_threads w) i = Some t /\ gt_server t = false /\ (Forall P (gt_todo t) -> Forall P (gt_todo t'))) by eauto.
  assert (Upd : forall j u u', nth_error (gw_threads w) j = Some u -> gt_server u' = gt_server u -> (gt_server u = false -> Forall P (gt_todo u) -> Forall P (gt_todo u')) ->
    nth_error (list_upd (gw_threads w) j u') i = Some t' -> exists t, nth_error (gw_threads w) i = Some t /\ gt_server t = false /\ (Forall P (gt_todo t) -> Forall P (gt_todo t'))).
  { intros j u u' N Su Pu Nu. destruct (nth_upd _ _ _ _ _ _ N Nu) as [[-> ->]|[_ Ni]]; [|eauto]. exists u. split; [exact N|]. rewrite <- Su. split; [exact S'|]. apply Pu. congruence. }
  destruct a as [j|j n|j]; cbn [gmove] in N'; (destruct (nth_error (gw_threads w) j) as [u|] eqn:N; [|auto]).
  - destruct (gt_todo u) as [|[[l|l]|s work|s n] rest] eqn:T.
    + destruct (gt_serving u); [|auto]. eapply (Upd j u); [exact N| | |exact N']; [reflexivity|]. intros _ _. constructor.
    + destruct (taken_by_other l j (map as_locker (gw_threads w))); [auto|]. eapply (Upd j u); [exact N| | |exact N']; [reflexivity|].
      intros _ F. cbn. rewrite T in F. now inversion F.
    + eapply (Upd j u); [exact N| | |exact N']; [reflexivity|]. intros _ F. cbn. rewrite T in F. now inversion F.
    + eapply (Upd j u); [exact N| | |exact N']; [reflexivity|]. intros _ F. cbn. rewrite T in F. inversion F; subst. constructor; eauto.
    + destruct (existsb (Nat.eqb n) (gw_answered w)); [|auto]. eapply (Upd j u); [exact N| | |exact N']; [reflexivity|].
      intros _ F. cbn. rewrite T in F. now inversion F.
  - destruct (gt_server u) eqn:Su; [|auto]. destruct (gt_todo u) eqn:T; [|auto]. destruct (gt_serving u); [auto|].
    destruct (find _ (gw_waiting w)) as [[[n' s'] wk]|]; [|auto]. eapply (Upd j u); [exact N| | |exact N']; [now rewrite Su|]. congruence.
  - destruct (gt_todo u) as [|[| |s n] rest] eqn:T; auto. eapply (Upd j u); [exact N| | |exact N']; [reflexivity|].
    intros _ F. cbn. rewrite T in F. now inversion F.
Qed.
Lemma todo_start (P : gaction -> Prop) servers programs i t : (forall p, In p programs -> Forall P p) ->
  nth_error (gw_threads (gstart servers programs)) i = Some t -> Forall P (gt_todo t).
Proof.
  intros H N. apply nth_error_In in N. cbn in N. apply in_app_iff in N as [N|N].
  - apply repeat_spec in N. subst t. constructor.
  - apply in_map_iff in N as (p & <- & Hp). now apply H.
Qed.

(** C92.  Masters, servers and slaves used in one process by any number of threads, whose code takes locks in order: whatever has
    happened, timeouts included, every call can still end without waiting for a timeout; and when nobody can move any more,
    every call has ended. *)
Theorem C92_in_order remote servers programs schedule :
  (forall s, remote s = true -> (s < servers)%nat) ->
  (forall p, In p programs -> fit remote false [] p /\ Forall (reaches servers) p) ->
  let w := gmoves schedule (gstart servers programs) in
  (exists more, Forall proper more /\ finished (gmoves more w)) /\ ((forall a, proper a -> gmove w a = w) -> finished w).
Proof.
  intros There H w.
  set (keep := fun w => forall i t, nth_error (gw_threads w) i = Some t -> gt_server t = false -> Forall (reaches servers) (gt_todo t)).
  assert (Step : forall w a, keep w -> keep (gmove w a)).
  { intros w0 a K i t N St. destruct (todo_move (reaches servers) w0 a i t) as (t0 & N0 & S0 & F0); auto. apply F0. eapply K; eauto. }
  assert (Kw : keep w).
  { subst w. assert (K0 : keep (gstart servers programs)). { intros i t N _. eapply todo_start; [|exact N]. intros p Hp. now apply H. }
    revert K0. generalize (gstart servers programs). induction schedule as [|a l IH]; intros w0 K0; [exact K0|]. cbn. apply IH. now apply Step. }
  assert (G : ginv remote servers w). { apply (ginv_moves remote servers There). apply (ginv_start remote servers There). intros p Hp. now apply H. }
  apply (reach_goal remote servers There keep finished); auto.
  clear w Kw G. intros w G K B.
  assert (Done : forall i t, nth_error (gw_threads w) i = Some t -> gt_todo t <> [] ->
    exists rest, gt_todo t = GLock (Acquire LExecute) :: rest /\ taken_by_other LExecute i (map as_locker (gw_threads w)) = true).
  { intros i t N T. destruct (stuck_reasons remote servers There w i t G B N T) as [(rest & T' & _ & Tk)|(s & n & rest & T' & Ls)]; [eauto|exfalso].
    destruct (gt_server t) eqn:St.
    - destruct (gi_fit _ _ _ G i t N) as [F|(s' & n' & r' & T2 & _ & [R|[R _]])]; [rewrite T' in F; now apply fit_answer in F| |congruence].
      rewrite T' in T2. injection T2 as <- <- <-. pose proof (There _ R). lia.
    - pose proof (K i t N St) as F. rewrite T' in F. inversion F; subst. cbn in *. lia. }
  assert (End : forall i t, nth_error (gw_threads w) i = Some t -> gt_todo t = []).
  { intros i t N. destruct (gt_todo t) as [|a r] eqn:T; [reflexivity|exfalso].
    destruct (Done i t N) as (rest & T' & Tk); [congruence|].
    apply taken_spec in Tk as (k & v & Dk & Nk & Hin). rewrite locker_nth in Nk. destruct (nth_error (gw_threads w) k) as [tk|] eqn:Nk'; [|discriminate Nk].
    injection Nk as <-. cbn in Hin.
    assert (Tk : gt_todo tk <> []).
    { intros E. destruct (gi_fit _ _ _ G k tk Nk') as [F|(? & ? & ? & X & _)]; [rewrite E in F; apply fit_end in F; rewrite F in Hin; destruct Hin|congruence]. }
    destruct (Done k tk Nk' Tk) as (r2 & T2 & Tk2). apply taken_spec in Tk2 as (m & v & Dm & Nm & Hm). rewrite locker_nth in Nm.
    destruct (nth_error (gw_threads w) m) as [tm|] eqn:Nm'; [|discriminate Nm]. injection Nm as <-. cbn in Hm.
    apply Dm. eapply (gi_excl _ _ _ G); eauto. }
  intros i t N. pose proof (End i t N) as T. split; [exact T|]. split.
  - destruct (B i t N) as [[_ V]|[(l & r & T' & _)|(s & n & r & T' & _)]]; congruence.
  - destruct (gi_fit _ _ _ G i t N) as [F|(? & ? & ? & X & _)]; [rewrite T in F; now apply fit_end in F|congruence].
Qed.
(** ** Calls of the library *)
(** Code of an installed function: it may use databanks and the hook registry, and forward requests to devices of other processes
    with execute(..., threadsafe=False), itself with such functions installed on the master it uses. *)
Inductive hook_code (remote : nat -> bool) : list gaction -> Prop :=
| hc_done : hook_code remote []
| hc_databank db rest : hook_code remote rest -> hook_code remote (gdatabank db ++ rest)
| hc_registry rest : hook_code remote rest -> hook_code remote (ghooks [] ++ rest)
| hc_forward tcp before s after rest : remote s = true ->
    (forall h, In h before -> hook_code remote h) -> (forall h, In h after -> hook_code remote h) ->
    hook_code remote rest -> hook_code remote (gexecute false tcp before s [] after ++ rest).
(** Calls made by a user's thread: databanks, slaves, and execute, to a device of another process or to a server of this one. *)
Inductive user_call (remote : nat -> bool) : list gaction -> Prop :=
| uc_databank db : user_call remote (gdatabank db)
| uc_slave k hooks : (forall h, In h hooks -> hook_code remote h) -> user_call remote (gslave k hooks)
| uc_remote threadsafe tcp before s after : remote s = true ->
    (forall h, In h before -> hook_code remote h) -> (forall h, In h after -> hook_code remote h) ->
    user_call remote (gexecute threadsafe tcp before s [] after)
| uc_near threadsafe tcp before s db k first hooks last after : remote s = false ->
    (forall h, In h before -> hook_code remote h) -> hook_code remote first -> (forall h, In h hooks -> hook_code remote h) ->
    (forall h, In h last -> hook_code remote h) -> (forall h, In h after -> hook_code remote h) ->
    user_call remote (gexecute threadsafe tcp before s (ghandle db k first hooks last) after).

(** A piece of code that fits, whatever comes after it. *)
Definition gfits remote server held p : Prop := forall rest, fit remote server held rest -> fit remote server held (p ++ rest).
Lemma gfits_nil remote server held : gfits remote server held [].
Proof. intros rest H. exact H. Qed.
Lemma gfits_app remote server held p q : gfits remote server held p -> gfits remote server held q -> gfits remote server held (p ++ q).
Proof. intros P Q rest H. rewrite <- app_assoc. auto. Qed.
Lemma gfits_with remote server held l body :
  (In l held \/ forall x, In x held -> (rank x < rank l)%nat) -> (server = true -> l <> LExecute) -> gfits remote server (l :: held) body ->
  gfits remote server held (gwith l body).
Proof. intros Ho Hs B rest R. unfold gwith. cbn. apply fit_acquire; auto. rewrite <- app_assoc. apply B. cbn. now apply fit_release. Qed.
Lemma gfits_concat remote server held l : (forall c, In c l -> gfits remote server held c) -> gfits remote server held (concat l).
Proof. induction l as [|c l IH]; intros H; [apply gfits_nil|]. cbn. apply gfits_app; [apply H; now left|]. apply IH. intros x Hx. apply H. now right. Qed.
Lemma gfits_flat remote server held (f : list gaction -> list gaction) l : (forall c, In c l -> gfits remote server held (f c)) -> gfits remote server held (flat_map f l).
Proof. intros H. rewrite flat_map_concat_map. apply gfits_concat. intros c Hc. apply in_map_iff in Hc as (x & <- & Hx). auto. Qed.
Lemma gfits_ghooks remote server held h : In LHooks held \/ (forall x, In x held -> (rank x < 2)%nat) -> gfits remote server (LHooks :: held) h -> gfits remote server held (ghooks h).
Proof. intros H F. apply gfits_with; [exact H|discriminate|exact F]. Qed.
Lemma hook_fits remote h : hook_code remote h -> forall server held, In LHooks held -> (forall x, In x held -> (rank x < 3)%nat) -> gfits remote server held h.
Proof.
  induction 1 as [|db rest H IH|rest H IH|tcp before s after rest R Hb IHb Ha IHa H IH]; intros server held Hk Hr.
  - apply gfits_nil.
  - apply gfits_app; [|auto]. apply gfits_with; [right; exact Hr|discriminate|apply gfits_nil].
  - apply gfits_app; [|auto]. apply gfits_ghooks; [now left|apply gfits_nil].
  - apply gfits_app; [|auto]. unfold gexecute.
    assert (Nest : forall hs, (forall h, In h hs -> forall server held, In LHooks held -> (forall x, In x held -> (rank x < 3)%nat) -> gfits remote server held h) ->
      gfits remote server held (flat_map ghooks hs)).
    { intros hs Hs. apply gfits_flat. intros c Hc. apply gfits_ghooks; [now left|]. apply Hs; [exact Hc|now left|]. intros x [<-|Hx]; [cbn; lia|auto]. }
    apply gfits_app; [destruct tcp; [|apply gfits_nil]; apply gfits_with; [right; exact Hr|discriminate|apply gfits_nil]|].
    apply gfits_app; [now apply Nest|]. intros r Fr. cbn. apply fit_remote; [exact R|]. now apply Nest.
Qed.
Lemma hooks_fit remote server held hs : (forall h, In h hs -> hook_code remote h) -> (forall x, In x held -> (rank x < 2)%nat) -> gfits remote server held (flat_map ghooks hs).
Proof.
  intros H R. apply gfits_flat. intros h Hh. apply gfits_ghooks; [now right|]. apply hook_fits; [auto|now left|].
  intros x [<-|Hx]; [cbn; lia|]. specialize (R x Hx). lia.
Qed.
Lemma slave_fits remote server k hooks : (forall h, In h hooks -> hook_code remote h) -> gfits remote server [] (gslave k hooks).
Proof. intros H. apply gfits_with; [right; intros x []|discriminate|]. apply hooks_fit; [exact H|]. intros x [<-|[]]. cbn. lia. Qed.
Lemma databank_fits remote server db : gfits remote server [] (gdatabank db).
Proof. apply gfits_with; [right; intros x []|discriminate|apply gfits_nil]. Qed.
Lemma execute_fits remote threadsafe tcp before s work after :
  (forall h, In h before -> hook_code remote h) -> (forall h, In h after -> hook_code remote h) ->
  (remote s = true /\ work = [] \/ remote s = false /\ fit remote true [] work) -> gfits remote false [] (gexecute threadsafe tcp before s work after).
Proof.
  intros Hb Ha Hw.
  assert (K : forall held, (forall x, In x held -> x = LExecute) -> gfits remote false held
    ((if tcp then gwith LTransaction [] else []) ++ flat_map ghooks before ++ GAsk s work :: flat_map ghooks after)).
  { intros held E. assert (R : forall x, In x held -> (rank x < 2)%nat) by (intros x Hx; rewrite (E x Hx); cbn; lia).
    apply gfits_app; [destruct tcp; [|apply gfits_nil]; apply gfits_with; [right; intros x Hx; specialize (R x Hx); cbn; lia|discriminate|apply gfits_nil]|].
    apply gfits_app; [now apply hooks_fit|]. intros r Fr. cbn.
    destruct Hw as [[Rs ->]|[Rs Fw]]; [apply fit_remote; [exact Rs|]|apply fit_near; auto]; now apply hooks_fit. }
  unfold gexecute. destruct threadsafe; [|apply K; intros x []].
  apply gfits_with; [right; intros x []|discriminate|]. apply K. intros x [<-|[]]. reflexivity.
Qed.
Lemma handle_fits remote db k first hooks last : hook_code remote first -> (forall h, In h hooks -> hook_code remote h) -> (forall h, In h last -> hook_code remote h) ->
  fit remote true [] (ghandle db k first hooks last).
Proof.
  intros Hf Hh Hl.
  assert (A : gfits remote true [] (ghandle db k first hooks last)).
  { unfold ghandle. apply gfits_app; [|apply gfits_app; [apply databank_fits|apply gfits_app; [now apply slave_fits|apply hooks_fit; [exact Hl|intros x []]]]].
    apply gfits_ghooks; [right; intros x []|]. apply hook_fits; [exact Hf|now left|]. intros x [<-|[]]. cbn. lia. }
  specialize (A [] (fit_nil remote true)). now rewrite app_nil_r in A.
Qed.
Lemma call_fits remote p : user_call remote p -> gfits remote false [] p.
Proof.
  intros [db|k hooks H|ts tcp before s after R Hb Ha|ts tcp before s db k first hooks last after R Hb Hf Hh Hl Ha].
  - apply databank_fits.
  - now apply slave_fits.
  - apply execute_fits; auto.
  - apply execute_fits; auto. right. split; [exact R|]. now apply handle_fits.
Qed.
Lemma user_fits remote calls : (forall c, In c calls -> user_call remote c) -> fit remote false [] (concat calls).
Proof.
  intros H. assert (A : gfits remote false [] (concat calls)) by (apply gfits_concat; intros c Hc; apply call_fits; auto).
  specialize (A [] (fit_nil remote false)). now rewrite app_nil_r in A.
Qed.

(** C92 for calls of the library: functions installed on masters, servers and slaves may use databanks and the hook registry, and
    forward to devices of other processes with threadsafe=False. *)
Theorem C92_partial remote servers programs schedule :
  (forall s, remote s = true -> (s < servers)%nat) ->
  (forall calls c, In calls programs -> In c calls -> user_call remote c /\ Forall (reaches servers) c) ->
  let w := gmoves schedule (gstart servers (map (@concat gaction) programs)) in
  (exists more, Forall proper more /\ finished (gmoves more w)) /\ ((forall a, proper a -> gmove w a = w) -> finished w).
Proof.
  intros There H. apply (C92_in_order remote); [exact There|].
  intros p Hp. apply in_map_iff in Hp as (calls & <- & Hc). split.
  - apply user_fits. intros c Hin. now apply (H calls c).
  - apply Forall_concat. apply Forall_forall. intros c Hin. now apply (H calls c).
Qed.
(** Nobody but a timeout can change anything. *)
Definition only_timeouts (w : gworld) : Prop := forall a, proper a -> gmove w a = w.

Lemma absent_move w i : (length (gw_threads w) <=? i)%nat = true -> gmove w (GMove i) = w /\ forall n, gmove w (GTake i n) = w.
Proof. intros L. apply Nat.leb_le in L. apply nth_error_None in L. cbn [gmove]. now rewrite L. Qed.
Lemma three_quiet w : length (gw_threads w) = 3%nat ->
  (forall i, In i [0; 1; 2]%nat -> gmove w (GMove i) = w /\ forall n, gmove w (GTake i n) = w) -> only_timeouts w.
Proof.
  intros L H [i|i n|i] Pa; [| |destruct Pa];
    (destruct (Nat.le_gt_cases 3 i) as [Li|Li]; [apply absent_move; rewrite L; now apply Nat.leb_le|apply H; cbn; lia]).
Qed.

(** A gateway: server 0 of this process forwards the requests it gets, with execute called in an installed function, to device 1,
    which would answer.  A master of the same process, whoever uses it, waits for server 0 with the lock of execute held: neither can go on
    before the timeout. *)
Theorem C92_gateway_refuted :
  let forward := gexecute true true [] 1 [] [] in
  let call := gexecute true true [] 0 (ghandle 0 1 forward [] []) [] in
  exists schedule, let w := gmoves schedule (gstart 2 [call]) in only_timeouts w /\ ~ finished w.
Proof.
  exists [GMove 2; GMove 2; GMove 2; GMove 2; GTake 0 0; GMove 0]%nat. split.
  - apply three_quiet; [vm_compute; reflexivity|]. intros i [<-|[<-|[<-|[]]]]; (split; [|intros [|[|n]]]; vm_compute; reflexivity).
  - intros F. specialize (F 2%nat _ eq_refl). destruct F as [F _]. vm_compute in F. discriminate F.
Qed.
(** The same with threadsafe=False, when the device it forwards to is another server of this process: that server needs the lock which
    is held while the installed function runs. *)
Theorem C92_hook_lock_refuted :
  let forward := gexecute false true [] 1 (ghandle 0 1 [] [] []) [] in
  let call := gexecute false true [] 0 (ghandle 0 1 forward [] []) [] in
  exists schedule, let w := gmoves schedule (gstart 2 [call]) in only_timeouts w /\ ~ finished w.
Proof.
  exists [GMove 2; GMove 2; GMove 2; GTake 0 0; GMove 0; GMove 0; GMove 0; GMove 0; GTake 1 1; GMove 1]%nat. split.
  - apply three_quiet; [vm_compute; reflexivity|]. intros i [<-|[<-|[<-|[]]]]; (split; [|intros [|[|n]]]; vm_compute; reflexivity).
  - intros F. specialize (F 2%nat _ eq_refl). destruct F as [F _]. vm_compute in F. discriminate F.
Qed.
(** A function installed on a master, called before a request is sent, that itself calls a server of the process. *)
Theorem C92_master_hook_refuted :
  let inner := gexecute true true [] 0 (ghandle 0 1 [] [] []) [] in
  let call := gexecute true true [inner] 1 [] [] in
  exists schedule, let w := gmoves schedule (gstart 2 [call]) in only_timeouts w /\ ~ finished w.
Proof.
  exists [GMove 2; GMove 2; GMove 2; GMove 2; GMove 2; GMove 2; GMove 2; GMove 2; GTake 0 0]%nat. split.
  - apply three_quiet; [vm_compute; reflexivity|]. intros i [<-|[<-|[<-|[]]]]; (split; [|intros [|[|n]]]; vm_compute; reflexivity).
  - intros F. specialize (F 2%nat _ eq_refl). destruct F as [F _]. vm_compute in F. discriminate F.
Qed.

(** ** C93.  A device that does not answer *)
(** The calls of thread [j], made with threadsafe=False, to servers that are there, end without any timeout, whatever the other threads
    do, even if they all wait for devices that will never answer. *)
Theorem C93_partial remote servers programs schedule j mine :
  (forall s, remote s = true -> (s < servers)%nat) ->
  (forall calls c, In calls programs -> In c calls -> user_call remote c) ->
  nth_error programs j = Some mine ->
  (forall c, In c mine -> Forall (reaches servers) c /\ ~ In (GLock (Acquire LExecute)) c) ->
  let w := gmoves schedule (gstart servers (map (@concat gaction) programs)) in
  exists more, Forall proper more /\
    exists t, nth_error (gw_threads (gmoves more w)) (servers + j) = Some t /\ gt_todo t = [].
Proof.
  intros There H Nj Hm w.
  set (P := fun a => reaches servers a /\ a <> GLock (Acquire LExecute)).
  set (keep := fun w => exists t, nth_error (gw_threads w) (servers + j) = Some t /\ gt_server t = false /\ Forall P (gt_todo t)).
  assert (G0 : ginv remote servers (gstart servers (map (@concat gaction) programs))).
  { apply (ginv_start remote servers There). intros p Hp. apply in_map_iff in Hp as (calls & <- & Hc). apply user_fits. intros c Hin. eapply H; eauto. }
  assert (Step : forall w a, ginv remote servers w -> keep w -> keep (gmove w a)).
  { intros w0 a G (t & N & St & F). pose proof (ginv_move remote servers There w0 a G) as G'.
    destruct (nth_error (gw_threads (gmove w0 a)) (servers + j)) as [t'|] eqn:N'.
    - assert (S' : gt_server t' = false). { rewrite (gi_kind _ _ _ G' _ _ N'). apply Nat.ltb_ge. lia. }
      destruct (todo_move P w0 a (servers + j) t') as (t0 & N0 & S0 & F0); [intros s work n [Hs _]; split; [exact Hs|discriminate]|exact N'|exact S'|].
      exists t'. split; [exact N'|]. split; [exact S'|]. apply F0. congruence.
    - exfalso. apply nth_error_None in N'. assert (L : length (gw_threads (gmove w0 a)) = length (gw_threads w0)).
      { clear. destruct a as [i|i n|i]; cbn [gmove]; repeat match goal with |- context [match ?x with _ => _ end] => destruct x end; cbn; rewrite ?list_upd_length; reflexivity. }
      assert (servers + j < length (gw_threads w0))%nat by (apply nth_error_Some; congruence). lia. }
  assert (Kw : keep w /\ ginv remote servers w).
  { subst w. assert (K0 : keep (gstart servers (map (@concat gaction) programs))).
    { exists {| gt_server := false; gt_held := []; gt_todo := concat mine; gt_serving := None |}. cbn. split; [|split; [reflexivity|]].
      - rewrite nth_error_app2 by (rewrite repeat_length; lia). rewrite repeat_length. replace (servers + j - servers)%nat with j by lia.
        rewrite map_map. now rewrite nth_error_map, Nj.
      - apply Forall_concat. apply Forall_forall. intros c Hc. destruct (Hm c Hc) as [Hr Hl]. apply Forall_forall. intros a Ha. split; [now apply (proj1 (Forall_forall _ _) Hr)|]. intros ->. auto. }
    revert K0 G0. generalize (gstart servers (map (@concat gaction) programs)). induction schedule as [|a l IH]; intros w0 K0 G0; [now split|]. cbn. apply IH; [now apply Step|now apply ginv_move]. }
  destruct Kw as [Kw G].
  destruct (reach_goal remote servers There keep (fun w => exists t, nth_error (gw_threads w) (servers + j) = Some t /\ gt_todo t = [])) with (w := w) as [R _]; auto.
  clear w Kw G. intros w G (t & N & St & F) B. exists t. split; [exact N|]. destruct (gt_todo t) as [|a r] eqn:T; [reflexivity|exfalso].
  destruct (stuck_reasons remote servers There w _ t G B N) as [(rest & T' & _)|(s & n & rest & T' & Ls)]; [congruence| |];
    rewrite T in T'; injection T' as -> ->; inversion F as [|x l [X1 X2] X3]; subst; [now apply X2|cbn in X1; lia].
Qed.
(** With the default, threadsafe=True, one device that does not answer stops the calls of all masters of the process, to whatever device,
    until the timeout. *)
Theorem C93_refuted :
  let silent := gexecute true true [] 7 (ghandle 0 1 [] [] []) [] in
  let other := gexecute true true [] 0 [] [] in
  exists schedule, forall more, Forall proper more ->
    exists t, nth_error (gw_threads (gmoves more (gmoves schedule (gstart 1 [silent; other])))) 2 = Some t /\ gt_todo t <> [].
Proof.
  intros silent other. exists [GMove 1; GMove 1; GMove 1; GMove 1]%nat. intros more Pm.
  assert (E : forall w, only_timeouts w -> gmoves more w = w).
  { intros w Qw. induction Pm as [|a l Pa Pl IH]; [reflexivity|]. cbn. rewrite (Qw a Pa). exact IH. }
  rewrite E.
  - eexists. split; [vm_compute; reflexivity|]. cbn. discriminate.
  - apply three_quiet; [vm_compute; reflexivity|]. intros i [<-|[<-|[<-|[]]]]; (split; [|intros [|[|n]]]; vm_compute; reflexivity).
Qed.

(** The hypotheses are met: a gateway that forwards with threadsafe=False to a device of another process, used by a master of its own
    process and by a thread that writes to a slave with a hook of its own. *)
Example C92_partial_applies :
  let remote := Nat.eqb 1 in
  let forward := gexecute false true [] 1 [] [] in
  let programs := [[gexecute true true [[]] 0 (ghandle 0 1 forward [gdatabank 0] []) []]; [gslave 5 [forward]; gdatabank 0]] in
  (forall s, remote s = true -> (s < 2)%nat) /\
  (forall calls c, In calls programs -> In c calls -> user_call remote c /\ Forall (reaches 2) c) /\
  let w := gmoves [GMove 2; GMove 2; GMove 2; GMove 2; GMove 2; GMove 2; GTake 0 0; GMove 0; GMove 0; GMove 0; GMove 0; GMove 3; GMove 3]%nat
             (gstart 2 (map (@concat gaction) programs)) in
  ~ finished w /\ exists more, Forall proper more /\ finished (gmoves more w).
Proof.
  intros remote forward programs.
  assert (Hf : hook_code remote forward).
  { unfold forward. rewrite <- app_nil_r. apply hc_forward; [reflexivity| | |constructor]; intros h []. }
  assert (There : forall s, remote s = true -> (s < 2)%nat). { intros s E. apply Nat.eqb_eq in E. lia. }
  assert (Calls : forall calls c, In calls programs -> In c calls -> user_call remote c /\ Forall (reaches 2) c).
  { intros calls c [<-|[<-|[]]] Hc.
    - destruct Hc as [<-|[]]. split.
      + apply uc_near; [reflexivity| |exact Hf| |intros h []|intros h []].
        * intros h [<-|[]]. constructor.
        * intros h [<-|[]]. rewrite <- (app_nil_r (gdatabank 0)). apply hc_databank. constructor.
      + cbn. repeat constructor.
    - destruct Hc as [<-|[<-|[]]]; (split; [|cbn; repeat constructor]).
      + apply uc_slave. intros h [<-|[]]. exact Hf.
      + apply uc_databank. }
  split; [exact There|]. split; [exact Calls|]. intros w. split.
  - intros F. specialize (F 2%nat). vm_compute in F. specialize (F _ eq_refl). destruct F as [F _]. discriminate F.
  - exact (proj1 (C92_partial remote 2 programs _ There Calls)).
Qed.
Example C93_partial_applies :
  let silent := gexecute true true [] 7 (ghandle 0 1 [] [] []) [] in
  let mine := [gexecute false true [] 0 [] []; gslave 3 [[]]] in
  let programs := [[silent]; [silent; silent]; mine] in
  let remote := Nat.eqb 0 in
  (forall s, remote s = true -> (s < 1)%nat) /\
  (forall calls c, In calls programs -> In c calls -> user_call remote c) /\
  (forall c, In c mine -> Forall (reaches 1) c /\ ~ In (GLock (Acquire LExecute)) c).
Proof.
  intros silent mine programs remote.
  assert (S : user_call remote silent) by (apply uc_near; try (intros h []); [reflexivity|constructor]).
  split; [intros s E; apply Nat.eqb_eq in E; lia|]. split.
  - intros calls c [<-|[<-|[<-|[]]]] Hc.
    + destruct Hc as [<-|[]]. exact S.
    + destruct Hc as [<-|[<-|[]]]; exact S.
    + destruct Hc as [<-|[<-|[]]].
      * apply uc_remote; [reflexivity| |]; intros h [].
      * apply uc_slave. intros h [<-|[]]. constructor.
  - intros c [<-|[<-|[]]]; (split; [cbn; repeat constructor|cbn; intuition discriminate]).
Qed.

Print Assumptions C92_in_order.
Print Assumptions C92_partial.
Print Assumptions C92_gateway_refuted.
Print Assumptions C92_hook_lock_refuted.
Print Assumptions C92_master_hook_refuted.
Print Assumptions C93_partial.
Print Assumptions C93_refuted.
