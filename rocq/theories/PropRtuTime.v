(** C101: the RTU server and master in time.
    Vocabulary: RtuTimeModel.v (lines: bytes with the times at which they arrive; lag; t_serve; t_recv) and the definitions below. *)
From Coq Require Import ZArith Lia.
From Verif Require Import Base BaseFacts Spec DbSpec SlaveSpec SlaveModel DatabankModel QueryModel TransportModel TimeoutModel PropDatabank PropTransport RtuTimeModel.

(** ** Spec *)
(** bytes that follow each other in time, never more than T apart *)
Fixpoint steady (T : Z) (l : list (Z * Z)) : Prop :=
  match l with x :: ((y :: _) as t) => fst x <= fst y <= fst x + T /\ steady T t | _ => True end.
Definition first_time (f : list (Z * Z)) : Z := fst (hd (0, 0) f).
Definition last_time (f : list (Z * Z)) : Z := fst (last f (0, 0)).
(** what the slaves make of requests handled one after the other: the databank after them, and what is to be sent for each *)
Fixpoint answered (d : databank) (l : list (list Z)) : databank * list (option (list Z)) :=
  match l with
  | [] => (d, [])
  | r :: t => let '(d1, x) := db_handle_request d RTU r in let '(d2, o) := answered d1 t in (d2, match x with Ok resp => sent resp | Err _ => None end :: o)
  end.
Definition requests (turns : list tturn) : list (list Z) := map (fun t => map snd (tt_request t)) turns.

Section Facts.
Variable lag : nat -> Z.
Variable ibt : option Z.
Hypothesis LAG : forall n, 0 <= lag n.

Lemma arrived_prefix now l : exists r, l = arrived now l ++ r /\ Forall (fun x => fst x <= now) (arrived now l).
Proof.
  induction l as [|x l [r [E F]]]; [exists []; split; [reflexivity|constructor]|]. cbn [arrived]. destruct (fst x <=? now) eqn:A.
  - exists r. cbn. split; [now rewrite <- E|]. constructor; [lia|exact F].
  - exists (x :: l). split; [reflexivity|constructor].
Qed.
Lemma taken_prefix n now l : exists r, l = firstn n (arrived now l) ++ r /\ skipn (length (firstn n (arrived now l))) l = r /\ Forall (fun x => fst x <= now) (firstn n (arrived now l)).
Proof.
  destruct (arrived_prefix now l) as [r [E F]]. exists (skipn n (arrived now l) ++ r). rewrite app_assoc, firstn_skipn. split; [exact E|]. split.
  - rewrite E at 2. rewrite <- (firstn_skipn n (arrived now l)) at 2. rewrite <- app_assoc. rewrite skipn_app, skipn_all, Nat.sub_diag. reflexivity.
  - apply Forall_forall. intros x X. apply (proj1 (Forall_forall _ _) F). rewrite <- (firstn_skipn n (arrived now l)). apply in_or_app. now left.
Qed.
Lemma waits_spec d p p' b : waits d p = Some (p', b) -> tp_line p' = tp_line p /\ tp_ops p' = tp_ops p /\ tp_now p <= tp_now p' /\
  (b = true -> exists x l, tp_line p = x :: l /\ fst x <= tp_now p' /\ tp_now p' = Z.max (tp_now p) (fst x) /\ (forall t, d = Some t -> fst x <= Z.max (tp_now p) t)) /\
  (b = false -> exists t, d = Some t /\ tp_now p' = Z.max (tp_now p) t /\ match tp_line p with [] => True | x :: _ => tp_now p' < fst x end).
Proof.
  unfold waits. destruct (tp_line p) as [|x l] eqn:E.
  - destruct d as [t|]; [|discriminate]. intros H. injection H as <- <-. cbn. repeat split; [exact E|lia|discriminate|]. intros _. exists t. repeat split.
  - destruct (fst x <=? tp_now p) eqn:A.
    + intros H. injection H as <- <-. repeat split; [exact E|lia| |discriminate]. intros _. exists x, l. repeat split; try lia. all: intros t' D; try discriminate D; try (injection D as <-); lia.
    + destruct d as [t|].
      * destruct (fst x <=? t) eqn:B; intros H; injection H as <- <-; cbn.
        -- repeat split; [exact E|lia| |discriminate]. intros _. exists x, l. repeat split; try lia. all: intros t' D; try discriminate D; try (injection D as <-); lia.
        -- repeat split; [exact E|lia|discriminate|]. intros _. exists t. repeat split. lia.
      * intros H; injection H as <- <-. cbn. repeat split; [exact E|lia| |discriminate]. intros _. exists x, l. repeat split; try lia. all: intros t' D; try discriminate D; try (injection D as <-); lia.
Qed.

(** what a read does, whatever the lags *)
Lemma loop_general : forall fuel size dl p acc p' out, tread_loop lag ibt fuel size dl p acc = Some (p', out) ->
  exists b, out = acc ++ b /\ tp_line p = b ++ tp_line p' /\ tp_now p <= tp_now p' /\ (tp_ops p <= tp_ops p')%nat /\ Forall (fun x => fst x <= tp_now p') b /\
  (length acc <= size -> length out <= size)%nat /\
  (acc = [] -> b = [] -> (0 < fuel)%nat -> (0 < size)%nat -> exists t, dl = Some t /\ t <= tp_now p' /\ match tp_line p' with [] => True | x :: _ => t < fst x end).
Proof.
  induction fuel as [|m IH]; intros size dl p acc p' out H; cbn [tread_loop] in H.
  - injection H as <- <-. exists []. rewrite app_nil_r. repeat split; try lia; try apply Forall_nil; auto; intros; lia.
  - destruct (length acc <? size)%nat eqn:SZ.
    2:{ injection H as <- <-. exists []. rewrite app_nil_r. repeat split; try lia; try apply Forall_nil; auto. intros -> _ _ Z. apply Nat.ltb_ge in SZ. cbn in SZ. lia. }
    destruct (waits _ (tick lag p)) as [[p2 [|]]|] eqn:W; [| |discriminate].
    + apply waits_spec in W as (L & O & N & WT & _). destruct (WT eq_refl) as (x & l & L1 & X & _ & _). set (p3 := tick lag p2) in *.
      destruct (taken_prefix (size - length acc) (tp_now p3) (tp_line p3)) as (r & T1 & T2 & T3). set (buf := firstn (size - length acc) (arrived (tp_now p3) (tp_line p3))) in *.
      assert (P3 : tp_line p3 = tp_line p /\ tp_now p <= tp_now p3 /\ tp_ops p3 = S (S (tp_ops p))).
      { subst p3. cbn. rewrite L, O. cbn. pose proof (LAG (S (tp_ops p))). pose proof (LAG (tp_ops p)). cbn in N. repeat split; lia. }
      destruct P3 as (P3 & P3N & P3O). assert (A : fst x <=? tp_now p3 = true) by (subst p3; cbn; pose proof (LAG (tp_ops p2)); lia). apply Nat.ltb_lt in SZ.
      assert (BUF : buf <> []).
      { subst buf. rewrite P3. cbn in L1. rewrite L1. cbn [arrived]. rewrite A. destruct (size - length acc)%nat eqn:Z; [lia|]. discriminate. }
      assert (BL : (length acc + length buf <= size)%nat) by (subst buf; rewrite firstn_length; lia).
      clearbody buf. clearbody p3.
      match type of H with (if ?c then _ else _) = _ => destruct c end.
      * injection H as <- <-. exists buf. cbn [tp_line tp_now tp_ops]. rewrite T2. rewrite <- P3. repeat split; [exact T1|lia|lia|exact T3|rewrite app_length; lia|]. intros _ B. now rewrite B in BUF.
      * apply IH in H as (b & -> & E2 & N2 & O2 & F2 & S2 & _). cbn [tp_line tp_now tp_ops] in E2, N2, O2. exists (buf ++ b). rewrite app_assoc. split; [reflexivity|]. rewrite <- P3. split; [|split; [|split; [|split; [|split]]]].
        -- rewrite <- app_assoc. rewrite T1 at 1. rewrite T2 in E2. now rewrite <- E2.
        -- lia.
        -- lia.
        -- apply Forall_app. split; [|exact F2]. eapply Forall_impl; [|exact T3]. intros y Y. cbn in Y. lia.
        -- intros _. apply S2. rewrite app_length. lia.
        -- intros _ B. apply app_eq_nil in B as [B _]. now rewrite B in BUF.
    + injection H as <- <-. apply waits_spec in W as (L & O & N & _ & WF). destruct (WF eq_refl) as (t & D & NT & G). cbn in L, O, N, NT. exists []. rewrite app_nil_r. cbn. rewrite L.
      pose proof (LAG (tp_ops p)). repeat split; try lia; try apply Forall_nil. intros -> _ _ _. cbn in D. rewrite D. exists t. split; [reflexivity|]. split; [lia|]. cbn in G. destruct (tp_line p); [exact Logic.I|lia].
Qed.
Lemma read_general size T p p' b : (0 < size)%nat -> tread lag ibt size T p = Some (p', b) ->
  tp_line p = b ++ tp_line p' /\ tp_now p <= tp_now p' /\ (tp_ops p <= tp_ops p')%nat /\ Forall (fun x => fst x <= tp_now p') b /\ (length b <= size)%nat /\
  (b = [] -> exists t, T = Some t /\ tp_now p + t <= tp_now p' /\ match tp_line p' with [] => True | x :: _ => tp_now p + t < fst x end).
Proof.
  intros Z H. unfold tread in H. apply loop_general in H as (b' & E & L & N & O & F & S & K). cbn in E. subst b'. cbn in L, N, O. pose proof (LAG (tp_ops p)). repeat split; try assumption; try lia.
  intros B. destruct (K eq_refl B ltac:(lia) ltac:(lia)) as (t & D & TN & G). destruct T as [T|]; [|discriminate]. injection D as <-. cbn in *. exists T. split; [reflexivity|]. split; [lia|]. destruct (tp_line p'); [exact Logic.I|lia].
Qed.
Lemma loop_ends : forall fuel size d p acc, exists r, tread_loop lag ibt fuel size (Some d) p acc = Some r.
Proof.
  induction fuel as [|m IH]; intros size d p acc; cbn [tread_loop]; [eexists; reflexivity|]. destruct (_ <? _)%nat; [|eexists; reflexivity].
  assert (U : exists t, until ibt (Some d) (tick lag p) acc = Some t) by (unfold until; destruct acc, ibt; eexists; reflexivity). destruct U as [t ->].
  destruct (waits (Some t) (tick lag p)) as [[p2 [|]]|] eqn:W.
  - destruct (_ <=? _); [eexists; reflexivity|apply IH].
  - eexists; reflexivity.
  - unfold waits in W. destruct (tp_line (tick lag p)); [discriminate|]. destruct (_ <=? _); [discriminate|]. destruct (_ <=? _); discriminate.
Qed.
Lemma read_ends size T p : exists p' b, tread lag ibt size (Some T) p = Some (p', b).
Proof. unfold tread. destruct (loop_ends size size (tp_now (tick lag p) + T) (tick lag p) []) as [[p' b] E]. rewrite E. eauto. Qed.

(** the rest of a request: ends at a silence longer than T *)
Definition silence (T : Z) (before : list (Z * Z)) (after : list (Z * Z)) : Prop :=
  match after with [] => True | y :: _ => Forall (fun x => fst x + T < fst y) before end.
Lemma trest_S m T p request : trest lag ibt (S m) T p request =
  match tread lag ibt 128 (Some T) p with None => None | Some (p', []) => Some (p', request) | Some (p', b) => trest lag ibt m T p' (request ++ b) end.
Proof. reflexivity. Qed.
Lemma rest_general T : forall fuel p acc p' out, (length (tp_line p) < fuel)%nat -> Forall (fun x => fst x <= tp_now p) acc -> trest lag ibt fuel T p acc = Some (p', out) ->
  exists b, out = acc ++ b /\ tp_line p = b ++ tp_line p' /\ tp_now p <= tp_now p' /\ (tp_ops p <= tp_ops p')%nat /\
  Forall (fun x => fst x + T <= tp_now p') out /\ silence T out (tp_line p') /\ tp_now p + T <= tp_now p'.
Proof.
  induction fuel as [|m IH]; intros p acc p' out Z F H; [lia|]. rewrite trest_S in H. destruct (tread lag ibt 128 (Some T) p) as [[p1 b]|] eqn:R; [|discriminate].
  apply read_general in R as (L & N & O & FB & _ & K); [|lia]. destruct b as [|x b].
  - injection H as <- <-. destruct (K eq_refl) as (t & D & T1 & G). injection D as <-. exists []. rewrite app_nil_r. cbn in L. repeat split; try assumption.
    + eapply Forall_impl; [|exact F]. cbn. intros; lia.
    + unfold silence. destruct (tp_line p1) as [|y l]; [exact Logic.I|]. eapply Forall_impl; [|exact F]. cbn. intros; lia.
  - apply IH in H.
    + destruct H as (b' & -> & L' & N' & O' & F' & S' & T'). exists ((x :: b) ++ b'). rewrite app_assoc. split; [reflexivity|]. rewrite <- app_assoc, <- L'. repeat split; [exact L|lia|lia|exact F'|exact S'|lia].
    + rewrite L, app_length in Z. cbn in Z. lia.
    + apply Forall_app. split; [|exact FB]. eapply Forall_impl; [|exact F]. cbn. intros; lia.
Qed.
Lemma first_general p : match tread lag ibt 1 None p with
  | None => tp_line p = []
  | Some (p', b) => exists x, b = [x] /\ tp_line p = x :: tp_line p' /\ fst x <= tp_now p' /\ tp_now p <= tp_now p'
  end.
Proof.
  destruct (tread lag ibt 1 None p) as [[p' b]|] eqn:R.
  - apply read_general in R as (L & N & O & FB & Z & K); [|lia]. destruct b as [|x [|y b]]; [|exists x|cbn in Z; lia].
    + destruct (K eq_refl) as (t & D & _). discriminate.
    + split; [reflexivity|]. split; [exact L|]. split; [now inversion FB|exact N].
  - unfold tread in R. cbn [tread_loop] in R. cbn [length Nat.ltb Nat.leb until] in R. destruct (waits None (tick lag (tick lag p))) as [[p2 [|]]|] eqn:W; [discriminate|discriminate|].
    unfold waits in W. cbn [tick tp_line] in W. destruct (tp_line p); [reflexivity|]. destruct (_ <=? _); discriminate.
Qed.
Lemma rest_ends T : forall fuel p acc, exists r, trest lag ibt fuel T p acc = Some r.
Proof.
  induction fuel as [|m IH]; intros p acc; [eexists; reflexivity|]. rewrite trest_S. destruct (read_ends 128 T p) as (p' & b & ->). destruct b; [eexists; reflexivity|apply IH].
Qed.
Lemma at_time_line t p : tp_line (at_time t p) = tp_line p. Proof. reflexivity. Qed.

Definition response_to (d : databank) (request : list (Z * Z)) : option (list Z) :=
  match snd (db_handle_request d RTU (map snd request)) with Ok resp => sent resp | Err _ => None end.
Lemma run_general T d p : 0 <= T -> match t_do_run lag ibt T d p with
  | None => tp_line p = []
  | Some (p', d', t) =>
      tp_line p = tt_request t ++ tp_line p' /\ tt_request t <> [] /\ tp_now p <= tp_now p' /\ silence T (tt_request t) (tp_line p') /\
      Forall (fun x => fst x + T <= tt_read t) (tt_request t) /\ d' = fst (db_handle_request d RTU (map snd (tt_request t))) /\ tt_read t <= tp_now p' /\
      match tt_written t with
      | Some (w, b) => response_to d (tt_request t) = Some b /\ tt_read t <= w /\ w + T <= tp_now p' /\ match tp_line p' with [] => True | y :: _ => w < fst y end
      | None => response_to d (tt_request t) = None \/ exists y l, tp_line p' = y :: l /\ fst y <= tp_now p'
      end
  end.
Proof.
  intros HT. unfold t_do_run. pose proof (first_general p) as F. destruct (tread lag ibt 1 None p) as [[p1 b]|]; [|exact F]. destruct F as (x & -> & L1 & X & N1).
  destruct (rest_ends T (S (length (tp_line p1))) p1 [x]) as [[p2 out] R]. rewrite R. apply rest_general in R; [|lia|now constructor]. destruct R as (b & -> & L2 & N2 & _ & F2 & S2 & T2).
  unfold response_to. destruct (db_handle_request d RTU (map snd ([x] ++ b))) as [d' r] eqn:E. pose proof (LAG (tp_ops p2)) as G2. pose proof (LAG (tp_ops (tick lag p2))) as G3.
  assert (LL : tp_line p = ([x] ++ b) ++ tp_line p2) by (cbn; rewrite L1; f_equal; exact L2).
  destruct (match r with Ok resp => sent resp | Err _ => None end) as [resp|] eqn:SR.
  - destruct (arrived (tp_now (tick lag p2)) (tp_line (tick lag p2))) as [|y l] eqn:A.
    + cbn [tt_request tt_read tt_written]. rewrite E. cbn [fst snd]. rewrite SR. rewrite at_time_line. change (tp_line (tick lag (tick lag p2))) with (tp_line p2). cbn [tp_now at_time tick] in *.
      repeat split; try assumption; try lia; [discriminate|]. cbn [tick tp_line] in A. destruct (tp_line p2) as [|y l]; [exact Logic.I|]. cbn [arrived] in A. destruct (fst y <=? _) eqn:Y; [discriminate|]. lia.
    + cbn [tt_request tt_read tt_written]. rewrite E. cbn [fst snd]. rewrite SR. change (tp_line (tick lag p2)) with (tp_line p2) in *. cbn [tp_now tick] in *.
      repeat split; try assumption; try lia; [discriminate|]. right. destruct (tp_line p2) as [|y' l']; [discriminate|]. cbn [arrived] in A. destruct (fst y' <=? _) eqn:Y; [|discriminate]. exists y', l'. split; [reflexivity|lia].
  - cbn [tt_request tt_read tt_written]. rewrite E. cbn [fst snd]. rewrite SR. change (tp_line (tick lag p2)) with (tp_line p2). cbn [tp_now tick] in *. repeat split; try assumption; try lia; [discriminate|now left].
Qed.

(** *** With a bound on the lags *)
Variable delta : Z.
Hypothesis DELTA : forall n, lag n <= delta.
Definition W (n : nat) : Z := Z.of_nat n * delta.
Lemma delta_pos : 0 <= delta. Proof. pose proof (LAG 0). pose proof (DELTA 0). lia. Qed.
Lemma W_S n : W (S n) = W n + delta. Proof. unfold W. rewrite Nat2Z.inj_succ. ring. Qed.
Lemma W_le a b : (a <= b)%nat -> W a <= W b. Proof. intros H. unfold W. apply Z.mul_le_mono_nonneg_r; [exact delta_pos|lia]. Qed.
Lemma W_add a b : W (a + b) = W a + W b. Proof. unfold W. rewrite Nat2Z.inj_add. ring. Qed.
Definition late (p : tport) : Z := tp_now p - W (tp_ops p).
Lemma late_tick p : late (tick lag p) <= late p.
Proof. unfold late. cbn [tick tp_now tp_ops]. rewrite W_S. pose proof (DELTA (tp_ops p)). lia. Qed.
Definition far (t : Z) (rest : list (Z * Z)) : Prop := match rest with [] => True | y :: _ => t < fst y end.
Lemma far_less t u rest : u <= t -> far t rest -> far u rest.
Proof. unfold far. destruct rest; [auto|lia]. Qed.
Lemma arrived_far now f rest : far now rest -> exists f', f = arrived now (f ++ rest) ++ f'.
Proof.
  intros F. induction f as [|x f [f' IH]].
  - exists []. cbn. destruct rest as [|y r]; [reflexivity|]. cbn in F. cbn [arrived]. destruct (fst y <=? now) eqn:E; [lia|reflexivity].
  - cbn [app arrived]. destruct (fst x <=? now); [exists f'; cbn; now rewrite <- IH|exists (x :: f); reflexivity].
Qed.
Lemma loop_full fuel size D p acc : (size <= length acc)%nat -> tread_loop lag ibt fuel size D p acc = Some (p, acc).
Proof. intros H. destruct fuel; cbn [tread_loop]; [reflexivity|]. destruct (length acc <? size)%nat eqn:E; [apply Nat.ltb_lt in E; lia|reflexivity]. Qed.
Lemma loop_timed T K : 0 <= T -> forall fuel size D p acc f rest p' out,
  tp_line p = f ++ rest -> far (K + T + W (tp_ops p + 2 * length f + 2)) rest -> Forall (fun x => fst x <= K + W (tp_ops p)) f ->
  (f <> [] -> late p <= K) -> late p <= K + T -> D <= K + T + W (tp_ops p) ->
  tread_loop lag ibt fuel size (Some D) p acc = Some (p', out) ->
  exists b f', out = acc ++ b /\ f = b ++ f' /\ tp_line p' = f' ++ rest /\ (tp_ops p <= tp_ops p' <= tp_ops p + 2 * length b + 1)%nat /\ (f' <> [] -> late p' <= K) /\ late p' <= K + T /\ (b <> [] -> (size <= length out)%nat -> late p' <= K).
Proof.
  intros HT. induction fuel as [|m IH]; intros size D p acc f rest p' out L FAR FA LF LK HD H; cbn [tread_loop] in H.
  { injection H as <- <-. exists [], f. rewrite app_nil_r. repeat split; auto; try (cbn; lia); congruence. }
  destruct (length acc <? size)%nat eqn:SZ.
  2:{ injection H as <- <-. exists [], f. rewrite app_nil_r. repeat split; auto; try (cbn; lia); congruence. }
  assert (U : exists D', until ibt (Some D) (tick lag p) acc = Some D' /\ D' <= D) by (unfold until; destruct acc, ibt; eexists; (split; [reflexivity|lia])). destruct U as (D' & U & HD'). rewrite U in H.
  pose proof (late_tick p) as LT. assert (OT : tp_ops (tick lag p) = S (tp_ops p)) by reflexivity. assert (TL : tp_line (tick lag p) = tp_line p) by reflexivity. set (p1 := tick lag p) in *. clearbody p1. pose proof delta_pos as DP.
  destruct (waits (Some D') p1) as [[p2 [|]]|] eqn:WT; [| |discriminate]; apply waits_spec in WT as (L2 & O2 & N2 & WTT & WTF).
  - destruct (WTT eq_refl) as (x & l & LX & X & NX & DX). specialize (DX D' eq_refl). clear WTT WTF. rewrite TL, L in LX.
    assert (N1 : tp_now p1 <= K + T + W (S (tp_ops p))) by (unfold late in LT, LK; rewrite OT in LT; lia).
    destruct f as [|x' f].
    { exfalso. cbn in LX. subst rest. cbn in FAR. pose proof (W_le (S (tp_ops p)) (tp_ops p + 0 + 2) ltac:(lia)) as W1. pose proof (W_le (tp_ops p) (tp_ops p + 0 + 2) ltac:(lia)). lia. }
    injection LX as -> LX. inversion FA as [|? ? FX FA']; subst. specialize (LF ltac:(discriminate)).
    assert (LT2 : late p2 <= K) by (unfold late in *; rewrite O2, OT in *; rewrite W_S in *; lia).
    pose proof (late_tick p2) as LT3. assert (O3 : tp_ops (tick lag p2) = S (S (tp_ops p))) by (cbn; now rewrite O2, OT). assert (L3 : tp_line (tick lag p2) = (x :: f) ++ rest) by (cbn [tick tp_line]; now rewrite L2, TL, L).
    remember (tick lag p2) as p3 eqn:P3. rewrite L3 in H.
    assert (N3 : tp_now p3 <= K + W (S (S (tp_ops p)))) by (unfold late in *; rewrite O3 in *; lia).
    destruct (arrived_far (tp_now p3) (x :: f) rest) as [f' AF].
    { eapply far_less; [|exact FAR]. pose proof (W_le (S (S (tp_ops p))) (tp_ops p + 2 * length (x :: f) + 2) ltac:(lia)). lia. }
    set (buf := firstn (size - length acc) (arrived (tp_now p3) ((x :: f) ++ rest))) in *.
    assert (BF : exists f1, x :: f = buf ++ f1).
    { exists (skipn (size - length acc) (arrived (tp_now p3) ((x :: f) ++ rest)) ++ f'). rewrite app_assoc. subst buf. rewrite firstn_skipn. exact AF. }
    destruct BF as [f1 BF].
    assert (SK : skipn (length buf) ((x :: f) ++ rest) = f1 ++ rest) by (rewrite BF, <- app_assoc, skipn_app, skipn_all, Nat.sub_diag; reflexivity). rewrite SK in H.
    assert (BN : (1 <= length buf)%nat).
    { apply Nat.ltb_lt in SZ. assert (A : fst x <=? tp_now p3 = true) by (unfold tick in P3; rewrite P3; cbn [tp_now]; pose proof (LAG (tp_ops p2)); lia). subst buf. cbn [app arrived]. rewrite A. destruct (size - length acc)%nat eqn:Z; [lia|]. cbn [firstn length]. lia. }
    clearbody buf. assert (LEN : length (x :: f) = (length buf + length f1)%nat) by (rewrite BF; apply app_length).
    match type of H with (if ?c then _ else _) = _ => destruct c end.
    + injection H as <- <-. exists buf, f1. cbn [tp_line tp_ops]. rewrite O3. repeat split; try assumption; try lia; intros; unfold late in *; cbn [tp_now tp_ops]; rewrite ?O3 in *; lia.
    + pose proof H as HF. apply IH with (f := f1) (rest := rest) in H; cbn [tp_line tp_ops tp_now] in *; rewrite ?O3 in *.
      * destruct H as (b & f2 & -> & -> & L4 & O4 & LF4 & LK4 & LS4). exists (buf ++ b), f2. rewrite (app_length buf b). rewrite !app_assoc. repeat split; try assumption; try lia; [now rewrite app_assoc in BF|].
        intros _ FULL. destruct b as [|z b]; [|apply LS4; [discriminate|exact FULL]]. rewrite app_nil_r in *. rewrite loop_full in HF by exact FULL. injection HF as <-. unfold late in *. cbn [tp_now tp_ops]. rewrite O3 in *. lia.
      * reflexivity.
      * eapply far_less; [|exact FAR]. pose proof (W_le (S (S (tp_ops p)) + 2 * length f1 + 2) (tp_ops p + 2 * length (x :: f) + 2) ltac:(lia)). lia.
      * rewrite BF in FA. apply Forall_app in FA as [_ FA]. eapply Forall_impl; [|exact FA]. cbv beta. intros z Z. rewrite !W_S. lia.
      * intros _. unfold late in *. cbn [tp_now tp_ops]. rewrite O3 in *. lia.
      * unfold late in *. cbn [tp_now tp_ops]. rewrite O3 in *. lia.
      * rewrite !W_S. lia.
  - injection H as <- <-. destruct (WTF eq_refl) as (t & D1 & NT & G). injection D1 as <-. clear WTT WTF. exists [], f. rewrite app_nil_r. rewrite L2, TL, O2, OT. split; [reflexivity|]. split; [reflexivity|]. split; [exact L|]. split; [cbn [length]; lia|].
    assert (LK1 : late p1 <= K + T) by lia. unfold late in *. rewrite O2, OT in *. rewrite W_S in *. split; [|split; [lia|intros B; now destruct B]]. intros NE. specialize (LF NE). destruct f as [|x f]; [congruence|]. inversion FA; subst. rewrite TL, L in G. cbn in G. lia.
Qed.

Lemma read_timed T K size p f rest p' out : 0 <= T -> tp_line p = f ++ rest -> far (K + T + W (tp_ops p + 2 * length f + 3)) rest -> Forall (fun x => fst x <= K + W (tp_ops p)) f -> late p <= K ->
  tread lag ibt size (Some T) p = Some (p', out) ->
  exists f', f = out ++ f' /\ tp_line p' = f' ++ rest /\ (tp_ops p <= tp_ops p' <= tp_ops p + 2 * length out + 2)%nat /\ (f' <> [] -> late p' <= K) /\ late p' <= K + T /\ (out <> [] -> (size <= length out)%nat -> late p' <= K).
Proof.
  intros HT L FAR FA LK H. unfold tread in H. pose proof (late_tick p) as LT. pose proof delta_pos as DP. assert (OT : tp_ops (tick lag p) = S (tp_ops p)) by reflexivity.
  apply (loop_timed T K HT) with (f := f) (rest := rest) in H.
  - destruct H as (b & f' & -> & -> & L' & O' & A & B & C). exists f'. cbn [app]. rewrite OT in O'. repeat split; try assumption; lia.
  - exact L.
  - eapply far_less; [|exact FAR]. rewrite OT. pose proof (W_le (S (tp_ops p) + 2 * length f + 2) (tp_ops p + 2 * length f + 3) ltac:(lia)). lia.
  - eapply Forall_impl; [|exact FA]. cbv beta. intros z Z. rewrite OT, W_S. lia.
  - intros _. lia.
  - lia.
  - unfold late in *. rewrite OT in *. lia.
Qed.
Lemma steady_app T a y b : steady T (a ++ y :: b) -> steady T (y :: b) /\ (a <> [] -> exists x, In x a /\ fst x <= fst y <= fst x + T).
Proof.
  induction a as [|x a IH]; intros H; [split; [exact H|congruence]|]. destruct a as [|x' a].
  - cbn [app steady] in H. destruct H as [H1 H2]. split; [exact H2|]. intros _. exists x. split; [now left|exact H1].
  - cbn [app] in H, IH. cbn [steady] in H. destruct H as [_ H]. destruct (IH H) as [S1 S2]. split; [exact S1|]. intros _. destruct S2 as (z & Z1 & Z2); [discriminate|]. exists z. split; [now right|exact Z2].
Qed.
Lemma rest_timed T K rest : 0 <= T -> forall fuel p acc f p' out, (length (f ++ rest) < fuel)%nat ->
  tp_line p = f ++ rest -> far (K + 2 * T + W (tp_ops p + 4 * length f + 3)) rest -> Forall (fun x => fst x <= K + W (tp_ops p)) f ->
  (f <> [] -> late p <= K) -> late p <= K + T -> steady T f -> match f with [] => True | x :: _ => fst x <= tp_now p + T end ->
  trest lag ibt fuel T p acc = Some (p', out) ->
  out = acc ++ f /\ tp_line p' = rest /\ (tp_ops p <= tp_ops p' <= tp_ops p + 4 * length f + 2)%nat /\ late p' <= K + 2 * T.
Proof.
  intros HT. induction fuel as [|m IH]; intros p acc f p' out FU L FAR FA LF LK ST HD H; [lia|]. rewrite trest_S in H. pose proof delta_pos as DP.
  destruct (tread lag ibt 128 (Some T) p) as [[p1 b]|] eqn:R; [|discriminate]. pose proof (read_general 128 (Some T) p p1 b ltac:(lia) R) as (_ & N1 & _ & FB & _ & EM). destruct f as [|x f].
  - apply (read_timed T (K + T) _ _ [] rest) in R; [|exact HT|exact L| |constructor|exact LK].
    + destruct R as (f' & E & L1 & O1 & _ & LK1 & _). symmetry in E. apply app_eq_nil in E as [-> ->]. injection H as <- <-. rewrite app_nil_r. cbn in L1, O1. cbn [length]. repeat split; [exact L1|lia|lia|lia].
    + eapply far_less; [|exact FAR]. cbn [length]. pose proof (W_le (tp_ops p + 2 * 0 + 3) (tp_ops p + 4 * 0 + 3) ltac:(lia)). lia.
  - specialize (LF ltac:(discriminate)). apply (read_timed T K _ _ (x :: f) rest) in R; [|exact HT|exact L| |exact FA|exact LF].
    2:{ eapply far_less; [|exact FAR]. pose proof (W_le (tp_ops p + 2 * length (x :: f) + 3) (tp_ops p + 4 * length (x :: f) + 3) ltac:(lia)). lia. }
    destruct R as (f' & E & L1 & O1 & LF1 & LK1 & _). destruct b as [|x' b].
    + exfalso. destruct (EM eq_refl) as (t & D & _ & G). injection D as <-. cbn in E. subst f'. rewrite L1 in G. cbn in G. lia.
    + cbn [app] in E. injection E as <- E. assert (LEN : length f = (length b + length f')%nat) by (rewrite E; apply app_length).
      apply (IH p1 (acc ++ x :: b) f') in H.
      * destruct H as (-> & L2 & O2 & LK2). rewrite E. cbn [length] in *. split; [now rewrite <- app_assoc|]. split; [exact L2|]. split; [rewrite app_length; lia|exact LK2].
      * rewrite app_length in *. cbn [length] in FU. lia.
      * exact L1.
      * eapply far_less; [|exact FAR]. cbn [length] in *. pose proof (W_le (tp_ops p1 + 4 * length f' + 3) (tp_ops p + 4 * S (length f) + 3) ltac:(lia)). lia.
      * rewrite E in FA. apply (Forall_app _ (x :: b) f') in FA as [_ FA]. eapply Forall_impl; [|exact FA]. cbv beta. intros z Z. pose proof (W_le (tp_ops p) (tp_ops p1) ltac:(lia)). lia.
      * exact LF1.
      * exact LK1.
      * destruct f' as [|y f']; [exact Logic.I|]. rewrite E in ST. exact (proj1 (steady_app T (x :: b) y f' ST)).
      * destruct f' as [|y f']; [exact Logic.I|]. rewrite E in ST. destruct (steady_app T (x :: b) y f' ST) as [_ SX]. destruct SX as (z & Z1 & Z2); [discriminate|]. pose proof (proj1 (Forall_forall _ _) FB z Z1) as Z3. cbv beta in Z3. lia.
Qed.
Lemma first_timed p x l : tp_line p = x :: l -> exists p', tread lag ibt 1 None p = Some (p', [x]) /\ tp_line p' = l /\ tp_ops p' = (tp_ops p + 3)%nat /\ late p' <= Z.max (tp_now p) (fst x) - W (tp_ops p) /\ fst x <= tp_now p' /\ tp_now p <= tp_now p'.
Proof.
  intros L. pose proof (first_general p) as F. destruct (tread lag ibt 1 None p) as [[p' b]|] eqn:R; [|congruence]. destruct F as (x' & -> & L1 & X & N). rewrite L in L1. injection L1 as <- ->. exists p'. split; [reflexivity|]. split; [reflexivity|].
  unfold tread in R. cbn [tread_loop] in R. cbn [length Nat.ltb Nat.leb until] in R. set (q := tick lag (tick lag p)) in *. pose proof (late_tick p) as L1. pose proof (late_tick (tick lag p)) as L2. fold q in L2.
  destruct (waits None q) as [[p2 [|]]|] eqn:WT; [| |discriminate]; apply waits_spec in WT as (A & B & C & D1 & D2); [|destruct (D2 eq_refl) as (? & ? & _); discriminate]. destruct (D1 eq_refl) as (y & l' & Y1 & _ & Y2 & _). clear D1 D2.
  assert (QL : tp_line q = x :: tp_line p') by exact L. rewrite QL in Y1. injection Y1 as <- <-. cbn [app length Nat.sub] in R.
  assert (E : tp_now p' = tp_now (tick lag p2) /\ tp_ops p' = tp_ops (tick lag p2)) by (destruct (firstn 1 _) as [|z [|z' r]]; injection R as <-; split; reflexivity). destruct E as [E1 E2].
  pose proof (late_tick p2) as L3. assert (OQ : tp_ops q = S (S (tp_ops p))) by reflexivity. split; [cbn [tick tp_ops] in E2; lia|]. split; [|split; assumption]. unfold late in *. rewrite E1, E2. cbn [tick tp_ops] in *. rewrite B, OQ in *. rewrite !W_S in *. pose proof delta_pos. lia.
Qed.

Lemma steady_last T f : steady T f -> Forall (fun x => fst x <= last_time f) f.
Proof.
  unfold last_time. induction f as [|x f IH]; intros H; [constructor|]. destruct f as [|y f]; [constructor; [cbn; lia|constructor]|]. destruct H as [H1 H2]. specialize (IH H2).
  change (last (x :: y :: f) (0, 0)) with (last (y :: f) (0, 0)). constructor; [|exact IH]. inversion IH; subst. lia.
Qed.
Lemma last_in T f : steady T f -> f <> [] -> In (last f (0, 0)) f.
Proof. intros _. induction f as [|x [|y f] IH]; intros H; [congruence|now left|]. right. apply IH. discriminate. Qed.
Lemma run_timed T d p f rest : 0 <= T -> f <> [] -> tp_line p = f ++ rest -> steady T f -> let M := Z.max (tp_now p) (last_time f) in
  far (M + 2 * T + W (4 * length f + 2)) rest ->
  exists p' t, t_do_run lag ibt T d p = Some (p', fst (db_handle_request d RTU (map snd f)), t) /\ tt_request t = f /\ tp_line p' = rest /\
    last_time f + T <= tt_read t <= M + 2 * T + W (4 * length f + 1) /\ tp_now p' <= M + 3 * T + W (4 * length f + 3) /\
    match response_to d f with Some b => exists w, tt_written t = Some (w, b) /\ tt_read t <= w <= M + 2 * T + W (4 * length f + 2) | None => tt_written t = None end.
Proof.
  intros HT NE L ST M FAR. destruct f as [|x f]; [congruence|]. pose proof (steady_last T _ ST) as SL. pose proof delta_pos as DP. set (K := M - W (tp_ops p)).
  destruct (first_timed p x (f ++ rest) L) as (p1 & R1 & L1 & O1 & LA1 & X1 & N1). assert (FX : fst x <= last_time (x :: f)) by now inversion SL.
  assert (K1 : late p1 <= K) by (unfold K, M; lia).
  assert (LEN : length (x :: f) = S (length f)) by reflexivity.
  destruct (rest_ends T (S (length (tp_line p1))) p1 [x]) as [[p2 out] R2]. pose proof R2 as R3. assert (LT1 : fst x <= tp_now p1) by exact X1.
  apply (rest_timed T K rest HT) with (f := f) in R3.
  - destruct R3 as (-> & L2 & O2 & LA2). cbn [app] in R2. pose proof (run_general T d p HT) as G. unfold t_do_run in G |- *. rewrite R1, R2 in *. destruct (db_handle_request d RTU (map snd (x :: f))) as [d' r] eqn:E. unfold response_to. rewrite E. cbn [fst snd].
    assert (B2 : tp_now p2 <= M + 2 * T + W (4 * length (x :: f) + 1)).
    { unfold late in LA2. pose proof (W_le (tp_ops p2) (tp_ops p + (4 * length (x :: f) + 1)) ltac:(lia)) as WW. rewrite W_add in WW. unfold K in LA2. lia. }
    assert (B3 : tp_now (tick lag p2) <= M + 2 * T + W (4 * length (x :: f) + 2)). { cbn [tick tp_now]. pose proof (DELTA (tp_ops p2)). replace (4 * length (x :: f) + 2)%nat with (S (4 * length (x :: f) + 1)) by lia. rewrite W_S. lia. }
    assert (B4 : tp_now (tick lag (tick lag p2)) <= M + 2 * T + W (4 * length (x :: f) + 3)). { cbn [tick tp_now tp_ops] in *. pose proof (DELTA (S (tp_ops p2))). replace (4 * length (x :: f) + 3)%nat with (S (4 * length (x :: f) + 2)) by lia. rewrite W_S. lia. }
    pose proof (W_le (4 * length (x :: f) + 2) (4 * length (x :: f) + 3) ltac:(lia)) as B5. pose proof (LAG (tp_ops p2)) as G2.
    assert (RD : last_time (x :: f) + T <= tp_now p2).
    { assert (F : Forall (fun z => fst z + T <= tp_now p2) (x :: f)) by (destruct (match r with Ok resp => sent resp | Err _ => None end); [destruct (arrived _ _)|]; cbn [tt_request tt_read] in G; apply G).
      unfold last_time. apply (proj1 (Forall_forall _ _) F). apply (last_in T); [exact ST|discriminate]. }
    assert (AR : arrived (tp_now (tick lag p2)) (tp_line (tick lag p2)) = []).
    { change (tp_line (tick lag p2)) with (tp_line p2). rewrite L2. unfold far in FAR. destruct rest as [|y rest]; [reflexivity|]. cbn [arrived]. destruct (fst y <=? _) eqn:Y; [lia|reflexivity]. }
    rewrite AR. destruct (match r with Ok resp => sent resp | Err _ => None end) as [resp|].
    + eexists. eexists. split; [reflexivity|]. cbn [tt_request tt_read tt_written tp_now at_time]. split; [reflexivity|]. split; [exact L2|]. split; [lia|]. split; [lia|]. eexists. split; [reflexivity|]. cbn [tick tp_now] in *. lia.
    + eexists. eexists. split; [reflexivity|]. cbn [tt_request tt_read tt_written]. split; [reflexivity|]. split; [exact L2|]. split; [lia|]. split; [lia|reflexivity].
  - rewrite L1. lia.
  - exact L1.
  - eapply far_less; [|exact FAR]. unfold K. pose proof (W_le (tp_ops p1 + 4 * length f + 3) (tp_ops p + (4 * length (x :: f) + 2)) ltac:(lia)) as WW. rewrite (W_add (tp_ops p)) in WW. lia.
  - inversion SL as [|? ? _ SF]; subst. eapply Forall_impl; [|exact SF]. cbv beta. intros z Z. unfold K, M. pose proof (W_le (tp_ops p) (tp_ops p1) ltac:(lia)). lia.
  - intros _. exact K1.
  - lia.
  - destruct f as [|y f]; [exact Logic.I|exact (proj2 ST)].
  - destruct f as [|y f]; [exact Logic.I|]. destruct ST as [ST _]. lia.
Qed.
(** *** The master *)
Lemma recv_S m T expected p response : t_recv_loop lag ibt (S m) T expected p response =
  (let missing := expected - zlen response in
   match tread lag ibt (Z.to_nat (if 0 <? missing then missing else 1)) (Some T) p with
   | None => None
   | Some (p', []) => Some (p', response)
   | Some (p', b) => let response := response ++ b in if (0 <=? expected) && (expected <=? zlen response) then Some (p', response) else t_recv_loop lag ibt m T expected p' response
   end).
Proof. reflexivity. Qed.
Lemma size_pos (missing : Z) : (0 < Z.to_nat (if (0 <? missing)%Z then missing else 1%Z))%nat.
Proof using. clear. destruct (0 <? missing) eqn:E; lia. Qed.
Lemma prefix_of {A} (b f rest r : list A) : f ++ rest = b ++ r -> (length b <= length f)%nat -> exists f', f = b ++ f' /\ r = f' ++ rest.
Proof using.
  intros E L. destruct (app_eq_app _ _ _ _ E) as [k [[K1 K2]|[K1 K2]]]; [exists k; split; assumption|]. exists []. assert (k = []) as ->. { rewrite K1, app_length in L. destruct k; [reflexivity|cbn in L; lia]. }
  rewrite app_nil_r in K1. cbn in K2. rewrite app_nil_r. split; [now symmetry|]. now symmetry.
Qed.
Lemma recv_full T expected : forall fuel p acc f rest, (length (f ++ rest) < fuel)%nat -> tp_line p = f ++ rest -> f <> [] -> zlen acc + zlen f = expected -> steady T f -> first_time f <= tp_now p + T ->
  exists p', t_recv_loop lag ibt fuel T expected p acc = Some (p', acc ++ f) /\ tp_line p' = rest.
Proof using LAG.
  clear delta DELTA.
  induction fuel as [|m IH]; intros p acc f rest FU L NE Z ST HD; [lia|]. rewrite recv_S. cbv zeta. pose proof (size_pos (expected - zlen acc)) as SP. pose proof (read_ends (Z.to_nat (if 0 <? expected - zlen acc then expected - zlen acc else 1)) T p) as (p1 & b & R). rewrite R.
  apply read_general in R as (L1 & N1 & _ & FB & LB & EM); [|exact SP]. assert (ZF : 0 < zlen f) by (destruct f; [congruence|rewrite zlen_cons; pose proof (zlen_nonneg f); lia]).
  rewrite (proj2 (Z.ltb_lt 0 (expected - zlen acc))) in LB by lia. rewrite L in L1. destruct (prefix_of b f rest (tp_line p1) L1) as (f' & E & L2); [unfold zlen in *; lia|].
  destruct b as [|x b].
  { exfalso. destruct (EM eq_refl) as (t & D & _ & G). injection D as <-. cbn in L1. rewrite <- L1 in G. destruct f as [|y f]; [congruence|]. cbn in G. unfold first_time in HD. cbn in HD. lia. }
  assert (ZZ : zlen f = zlen (x :: b) + zlen f') by (rewrite E; apply zlen_app). pose proof (zlen_nonneg acc) as ZA. destruct f' as [|y f'].
  - rewrite app_nil_r in E. subst f. change (zlen (@nil (BinNums.Z * BinNums.Z))) with 0 in ZZ. assert (C : (0 <=? expected) && (expected <=? zlen (acc ++ x :: b)) = true) by (rewrite zlen_app; lia). rewrite C. exists p1. split; [reflexivity|exact L2].
  - assert (C : (0 <=? expected) && (expected <=? zlen (acc ++ x :: b)) = false). { rewrite zlen_app. rewrite zlen_cons in ZZ. rewrite (zlen_cons y f') in ZZ. rewrite zlen_cons. pose proof (zlen_nonneg f'). lia. }
    rewrite C. rewrite E in ST. destruct (steady_app T (x :: b) y f' ST) as [S1 S2]. destruct S2 as (z & Z1 & Z2); [discriminate|]. pose proof (proj1 (Forall_forall _ _) FB z Z1) as Z3. cbv beta in Z3.
    destruct (IH p1 (acc ++ x :: b) (y :: f') rest) as (p' & R' & L'); try assumption; [|discriminate|rewrite zlen_app; lia|unfold first_time; cbn; lia|].
    + rewrite E in FU. rewrite !app_length in *. cbn [length] in *. lia.
    + exists p'. split; [|exact L']. rewrite R', E. now rewrite <- app_assoc.
Qed.
Lemma recv_silent T expected fuel p : 0 <= T -> (0 < fuel)%nat -> far (tp_now p + T + 3 * delta) (tp_line p) -> exists p', t_recv_loop lag ibt fuel T expected p [] = Some (p', []) /\ tp_line p' = tp_line p /\ tp_now p + T <= tp_now p' <= tp_now p + T + 2 * delta.
Proof.
  intros HT FU FAR. destruct fuel as [|m]; [lia|]. rewrite recv_S. cbv zeta. pose proof (size_pos (expected - zlen (@nil (Z * Z)))) as SP. pose proof (read_ends (Z.to_nat (if 0 <? expected - zlen (@nil (Z * Z)) then expected - zlen (@nil (Z * Z)) else 1)) T p) as (p1 & b & R). rewrite R. pose proof R as R'.
  assert (W3 : W (tp_ops p + 2 * 0 + 3) = W (tp_ops p) + 3 * delta) by (unfold W; lia).
  apply (read_timed T (tp_now p - W (tp_ops p)) _ p [] (tp_line p)) in R; [|exact HT|reflexivity| |constructor|unfold late; lia].
  - destruct R as (f' & E & L1 & O1 & _ & LK & _). symmetry in E. apply app_eq_nil in E as [-> ->]. cbn in L1. exists p1. split; [reflexivity|]. split; [exact L1|]. apply read_general in R' as (_ & _ & _ & _ & _ & EM); [|exact SP]. destruct (EM eq_refl) as (t & D & T1 & _). injection D as <-. split; [exact T1|]. unfold late in LK. cbn [length] in O1. pose proof (W_le (tp_ops p1) (tp_ops p + 2) ltac:(lia)) as WW. rewrite W_add in WW. change (W 2) with (2 * delta) in WW. lia.
  - eapply far_less; [|exact FAR]. cbn [length]. lia.
Qed.
Lemma recv_short T K rest expected : 0 <= T -> forall fuel p acc f, (length (f ++ rest) < fuel)%nat -> expected < 0 \/ zlen acc + zlen f < expected ->
  tp_line p = f ++ rest -> far (K + 2 * T + W (tp_ops p + 4 * length f + 3)) rest -> Forall (fun x => fst x <= K + W (tp_ops p)) f ->
  (f <> [] -> late p <= K) -> late p <= K + T -> steady T f -> match f with [] => True | x :: _ => fst x <= tp_now p + T end ->
  exists p', t_recv_loop lag ibt fuel T expected p acc = Some (p', acc ++ f) /\ tp_line p' = rest /\ (tp_ops p <= tp_ops p' <= tp_ops p + 4 * length f + 2)%nat /\ late p' <= K + 2 * T.
Proof.
  intros HT. induction fuel as [|m IH]; intros p acc f FU EX L FAR FA LF LK ST HD; [lia|]. rewrite recv_S. cbv zeta. pose proof delta_pos as DP. pose proof (size_pos (expected - zlen acc)) as SP.
  destruct (read_ends (Z.to_nat (if 0 <? expected - zlen acc then expected - zlen acc else 1)) T p) as (p1 & b & R). rewrite R. pose proof (read_general _ (Some T) p p1 b SP R) as (_ & N1 & _ & FB & _ & EM). destruct f as [|x f].
  - apply (read_timed T (K + T) _ _ [] rest) in R; [|exact HT|exact L| |constructor|exact LK].
    + destruct R as (f' & E & L1 & O1 & _ & LK1 & _). symmetry in E. apply app_eq_nil in E as [-> ->]. rewrite app_nil_r. cbn in L1, O1. cbn [length]. exists p1. repeat split; [exact L1|lia|lia|lia].
    + eapply far_less; [|exact FAR]. cbn [length]. pose proof (W_le (tp_ops p + 2 * 0 + 3) (tp_ops p + 4 * 0 + 3) ltac:(lia)). lia.
  - specialize (LF ltac:(discriminate)). apply (read_timed T K _ _ (x :: f) rest) in R; [|exact HT|exact L| |exact FA|exact LF].
    2:{ eapply far_less; [|exact FAR]. pose proof (W_le (tp_ops p + 2 * length (x :: f) + 3) (tp_ops p + 4 * length (x :: f) + 3) ltac:(lia)). lia. }
    destruct R as (f' & E & L1 & O1 & LF1 & LK1 & _). destruct b as [|x' b].
    + exfalso. destruct (EM eq_refl) as (t & D & _ & G). injection D as <-. cbn in E. subst f'. rewrite L1 in G. cbn in G. lia.
    + cbn [app] in E. injection E as <- E. assert (LEN : length f = (length b + length f')%nat) by (rewrite E; apply app_length).
      assert (C : (0 <=? expected) && (expected <=? zlen (acc ++ x :: b)) = false). { rewrite zlen_app. rewrite !zlen_cons in *. unfold zlen in *. lia. }
      rewrite C. destruct (IH p1 (acc ++ x :: b) f') as (p' & R' & L2 & O2 & LK2).
      * rewrite app_length in *. cbn [length] in FU. lia.
      * rewrite zlen_app. rewrite !zlen_cons in *. unfold zlen in *. lia.
      * exact L1.
      * eapply far_less; [|exact FAR]. cbn [length] in *. pose proof (W_le (tp_ops p1 + 4 * length f' + 3) (tp_ops p + 4 * S (length f) + 3) ltac:(lia)). lia.
      * rewrite E in FA. apply (Forall_app _ (x :: b) f') in FA as [_ FA]. eapply Forall_impl; [|exact FA]. cbv beta. intros z Z. pose proof (W_le (tp_ops p) (tp_ops p1) ltac:(lia)). lia.
      * exact LF1.
      * exact LK1.
      * destruct f' as [|y f']; [exact Logic.I|]. rewrite E in ST. exact (proj1 (steady_app T (x :: b) y f' ST)).
      * destruct f' as [|y f']; [exact Logic.I|]. rewrite E in ST. destruct (steady_app T (x :: b) y f' ST) as [_ SX]. destruct SX as (z & Z1 & Z2); [discriminate|]. pose proof (proj1 (Forall_forall _ _) FB z Z1) as Z3. cbv beta in Z3. lia.
      * exists p'. rewrite R', E. split; [now rewrite <- app_assoc|]. cbn [length] in *. split; [exact L2|]. split; [rewrite app_length; lia|exact LK2].
Qed.
End Facts.

(** ** Statements *)
(** two bytes that follow each other on the line are in the same request *)
Definition in_one (turns : list tturn) (before : list (Z * Z)) (x y : Z * Z) : Prop :=
  exists ts t us l1 l2, turns = ts ++ t :: us /\ tt_request t = l1 ++ x :: y :: l2 /\ before = concat (map tt_request ts) ++ l1.

Lemma life_cut lag ibt T : (forall n, 0 <= lag n) -> 0 <= T -> forall fuel d p, (length (tp_line p) < fuel)%nat ->
  let '(turns, d', p') := t_life lag ibt fuel T d p in
  tp_line p = concat (map tt_request turns) /\ tp_line p' = [] /\
  (forall l x y r, tp_line p = l ++ x :: y :: r -> fst y <= fst x + T -> in_one turns l x y) /\
  d' = fst (answered d (requests turns)) /\
  Forall2 (fun t a => tt_request t <> [] /\ Forall (fun x => fst x + T <= tt_read t) (tt_request t) /\
    match tt_written t with Some (w, b) => a = Some b /\ tt_read t <= w | None => True end) turns (snd (answered d (requests turns))).
Proof.
  intros LAG HT. induction fuel as [|m IH]; intros d p FU; [lia|]. cbn [t_life]. pose proof (run_general lag ibt LAG T d p HT) as G. destruct (t_do_run lag ibt T d p) as [[[p1 d1] t]|].
  - destruct G as (L & NE & N & S & F & D & RD & WR). specialize (IH d1 p1). destruct (t_life lag ibt m T d1 p1) as [[turns d'] p'] eqn:E. destruct IH as (I1 & I2 & I3 & I4 & I5).
    { rewrite L, app_length in FU. destruct (tt_request t); [congruence|]. cbn in FU. lia. }
    cbn [map concat requests answered]. fold (requests turns). unfold response_to in WR. rewrite D in *. destruct (db_handle_request d RTU (map snd (tt_request t))) as [d2 rr]. cbn [fst snd] in *. destruct (answered d2 (requests turns)) as [d3 o] eqn:A. cbn [fst snd] in *. split; [rewrite L; now f_equal|]. split; [exact I2|]. split; [|split; [exact I4|]].
    + intros l x y r E1 C. rewrite L in E1. destruct (app_eq_app _ _ _ _ E1) as [k [[K1 K2]|[K1 K2]]].
      * destruct k as [|x' k].
        { cbn in K2. rewrite app_nil_r in K1. destruct (I3 [] x y r ltac:(now rewrite <- K2) C) as (ts & t0 & us & l1 & l2 & H1 & H2 & H3). exists (t :: ts), t0, us, l1, l2. subst turns. split; [reflexivity|]. split; [exact H2|]. cbn. rewrite <- app_assoc, <- H3, app_nil_r. now symmetry. }
        cbn in K2. injection K2 as <- K2. destruct k as [|y' k].
        { exfalso. cbn in K2. rewrite <- K2 in S. cbn in S. assert (In x (tt_request t)) as IX by (rewrite K1; apply in_or_app; right; now left). pose proof (proj1 (Forall_forall _ _) S x IX) as Q. cbv beta in Q. lia. }
        injection K2 as <- K2. exists [], t, turns, l, k. split; [reflexivity|]. split; [exact K1|reflexivity].
      * destruct (I3 k x y r ltac:(now rewrite K2) C) as (ts & t0 & us & l1 & l2 & H1 & H2 & H3). exists (t :: ts), t0, us, l1, l2. subst turns. split; [reflexivity|]. split; [exact H2|]. cbn. rewrite <- app_assoc, <- H3. exact K1.
    + constructor; [|exact I5]. split; [exact NE|]. split; [exact F|]. destruct (tt_written t) as [[w b]|]; [|exact Logic.I]. destruct WR as (W1 & W2 & _). split; [exact W1|exact W2].
  - cbn. rewrite G. repeat split; try constructor. intros l x y r E. destruct l; discriminate.
Qed.
(** C101: whatever the delays of the program, the requests the server handles are the bytes of the line, in order, none lost, none twice; two
    bytes that arrive at most T apart are never torn apart; the slaves see the requests one after the other; what is written is the answer,
    and it is not written before T has passed since the last byte of its request. *)
Theorem C101_cut : forall lag ibt T d p, (forall n, 0 <= lag n) -> 0 <= T ->
  let '(turns, d', p') := t_serve lag ibt T d p in
  tp_line p = concat (map tt_request turns) /\ tp_line p' = [] /\
  (forall l x y r, tp_line p = l ++ x :: y :: r -> fst y <= fst x + T -> in_one turns l x y) /\
  d' = fst (answered d (requests turns)) /\
  Forall2 (fun t a => tt_request t <> [] /\ Forall (fun x => fst x + T <= tt_read t) (tt_request t) /\
    match tt_written t with Some (w, b) => a = Some b /\ tt_read t <= w | None => True end) turns (snd (answered d (requests turns))).
Proof. intros lag ibt T d p LAG HT. unfold t_serve. apply life_cut; [exact LAG|exact HT|lia]. Qed.

(** frames on the line: the bytes of each at most T apart, the next one more than 3 T (and the time the program needs) after the end of the
    one before *)
Fixpoint conversation (T delta : Z) (fs : list (list (Z * Z))) : Prop :=
  match fs with
  | [] => True
  | f :: t => f <> [] /\ steady T f /\
      match t with g :: _ => last_time f + 3 * T + (4 * zlen f + 3) * delta < first_time g | [] => True end /\ conversation T delta t
  end.
Lemma head_time f g rest : f <> [] -> far g (f ++ rest) <-> g < first_time f.
Proof. destruct f; [congruence|]. intros _. reflexivity. Qed.
Lemma concat_head (fs : list (list (Z * Z))) T delta g : conversation T delta fs -> match fs with [] => True | f :: _ => g < first_time f end -> far g (concat fs).
Proof. destruct fs as [|f fs]; [intros; exact Logic.I|]. intros [NE _] H. cbn [concat]. now apply head_time. Qed.
Lemma life_conversation lag ibt T delta : (forall n, 0 <= lag n <= delta) -> 0 <= T -> forall fs fuel d p, (length (tp_line p) < fuel)%nat ->
  conversation T delta fs -> tp_line p = concat fs -> match fs with [] => True | f :: _ => tp_now p <= first_time f end ->
  let '(turns, d', p') := t_life lag ibt fuel T d p in
  map tt_request turns = fs /\
  Forall2 (fun t a => match a with
                      | Some b => exists w, tt_written t = Some (w, b) /\ last_time (tt_request t) + T <= w <= last_time (tt_request t) + 2 * T + (4 * zlen (tt_request t) + 2) * delta
                      | None => tt_written t = None end) turns (snd (answered d (requests turns))).
Proof.
  intros LAG HT. assert (LAG0 : forall n, 0 <= lag n) by (intros n; now destruct (LAG n)). assert (LAG1 : forall n, lag n <= delta) by (intros n; now destruct (LAG n)).
  induction fs as [|f fs IH]; intros fuel d p FU C L H0; (destruct fuel as [|m]; [lia|]); cbn [t_life].
  - pose proof (run_general lag ibt LAG0 T d p HT) as G. destruct (t_do_run lag ibt T d p) as [[[p1 d1] t]|]; [|split; [reflexivity|constructor]]. destruct G as (L1 & NE & _). rewrite L in L1. symmetry in L1. apply app_eq_nil in L1 as [L1 _]. congruence.
  - destruct C as (NE & ST & SP & C). cbn [concat] in L.
    assert (M : Z.max (tp_now p) (last_time f) = last_time f). { pose proof (steady_last T f ST) as SL. destruct f as [|x f]; [congruence|]. inversion SL; subst. unfold first_time in H0. cbn in H0. lia. }
    assert (D0 : 0 <= delta) by (destruct (LAG 0%nat); lia).
    assert (WE : forall k, W delta (4 * length f + k) = (4 * zlen f + Z.of_nat k) * delta) by (intros k; unfold W, zlen; f_equal; lia).
    destruct (run_timed lag ibt LAG0 delta LAG1 T d p f (concat fs) HT NE L ST) as (p1 & t & R & TR & L1 & RD & N1 & WR).
    { rewrite M, WE. apply (concat_head fs T delta); [exact C|]. destruct fs as [|g fs]; [exact Logic.I|]. nia. }
    rewrite M, !WE in *. rewrite R. specialize (IH m (fst (db_handle_request d RTU (map snd f))) p1). destruct (t_life lag ibt m T _ p1) as [[turns d'] p'] eqn:E. destruct IH as [I1 I2].
    + rewrite L, app_length in FU. rewrite L1. destruct f; [congruence|]. cbn in FU. lia.
    + exact C.
    + exact L1.
    + destruct fs as [|g fs]; [exact Logic.I|]. lia.
    + split; [cbn; now rewrite TR, I1|]. cbn [requests map answered]. fold (requests turns). rewrite TR. unfold response_to in WR. destruct (db_handle_request d RTU (map snd f)) as [d2 r]. cbn [fst snd] in *. destruct (answered d2 (requests turns)) as [d3 o]. cbn [snd] in *. constructor; [|exact I2].
      rewrite TR. destruct (match r with Ok resp => sent resp | Err _ => None end) as [b|]; [|exact WR]. destruct WR as (w & W1 & W2). exists w. split; [exact W1|]. lia.
Qed.
(** C101: a conversation is understood: the server, free when it begins, handles exactly its frames, and writes the answer to each - between
    T and 2 T (and the time the program needs) after its last byte. *)
Theorem C101_conversation : forall lag ibt T delta d p fs, (forall n, 0 <= lag n <= delta) -> 0 <= T -> conversation T delta fs -> tp_line p = concat fs ->
  match fs with [] => True | f :: _ => tp_now p <= first_time f end ->
  let '(turns, d', p') := t_serve lag ibt T d p in
  map tt_request turns = fs /\ d' = fst (answered d (map (map snd) fs)) /\
  Forall2 (fun t a => match a with
                      | Some b => exists w, tt_written t = Some (w, b) /\ last_time (tt_request t) + T <= w <= last_time (tt_request t) + 2 * T + (4 * zlen (tt_request t) + 2) * delta
                      | None => tt_written t = None end) turns (snd (answered d (map (map snd) fs))).
Proof.
  intros lag ibt T delta d p fs LAG HT C L H0. pose proof (life_conversation lag ibt T delta LAG HT fs (S (length (tp_line p))) d p ltac:(lia) C L H0) as H.
  pose proof (C101_cut lag ibt T d p ltac:(intros n; now destruct (LAG n)) HT) as H'. unfold t_serve in *. destruct (t_life lag ibt (S (length (tp_line p))) T d p) as [[turns d'] p']. destruct H as [H1 H2]. destruct H' as (_ & _ & _ & H3 & _).
  assert (RQ : requests turns = map (map snd) fs) by (unfold requests; rewrite <- H1, map_map; reflexivity). rewrite RQ in *. auto.
Qed.

(** C101: the master takes a response whose bytes come within its timeout, and does not wait after the last of them *)
Theorem C101_master_receives : forall lag ibt T expected q g rest, (forall n, 0 <= lag n) -> g <> [] -> steady T g -> first_time g <= tp_now q + T -> tp_line q = g ++ rest -> zlen g = expected ->
  exists q', t_recv lag ibt T expected q = Some (q', g) /\ tp_line q' = rest.
Proof. intros lag ibt T expected q g rest LAG NE ST F L Z. unfold t_recv. apply (recv_full lag ibt LAG T expected (S (length (tp_line q))) q [] g rest); try assumption. rewrite L; lia. Qed.
(** ... a response shorter than expected (a Modbus exception), after a silence of at most 2 T *)
Theorem C101_master_short : forall lag ibt T delta expected q g rest, (forall n, 0 <= lag n <= delta) -> 0 <= T -> g <> [] -> steady T g -> first_time g <= tp_now q + T -> tp_line q = g ++ rest ->
  expected < 0 \/ zlen g < expected -> let M := Z.max (tp_now q) (last_time g) in far (M + 2 * T + (4 * zlen g + 3) * delta) rest ->
  exists q', t_recv lag ibt T expected q = Some (q', g) /\ tp_line q' = rest /\ tp_now q' <= M + 2 * T + (4 * zlen g + 2) * delta.
Proof.
  intros lag ibt T delta expected q g rest LAG HT NE ST F L EX M FAR. assert (LAG0 : forall n, 0 <= lag n) by (intros n; now destruct (LAG n)). assert (LAG1 : forall n, lag n <= delta) by (intros n; now destruct (LAG n)).
  assert (WE : forall k, W delta (tp_ops q + 4 * length g + k) = W delta (tp_ops q) + (4 * zlen g + Z.of_nat k) * delta) by (intros k; unfold W, zlen; lia).
  destruct (recv_short lag ibt LAG0 delta LAG1 T (M - W delta (tp_ops q)) rest expected HT (S (length (tp_line q))) q [] g) as (q' & R & L' & O' & LA).
  - rewrite L. lia.
  - change (zlen (@nil (Z * Z))) with 0. lia.
  - exact L.
  - eapply far_less; [|exact FAR]. rewrite WE. lia.
  - pose proof (steady_last T g ST) as SL. eapply Forall_impl; [|exact SL]. cbv beta. intros z Z. unfold M. lia.
  - intros _. unfold late, M. lia.
  - unfold late, M. lia.
  - exact ST.
  - destruct g as [|x g]; [exact Logic.I|]. exact F.
  - exists q'. split; [exact R|]. split; [exact L'|]. unfold late in LA. pose proof (W_le lag LAG0 delta LAG1 (tp_ops q') (tp_ops q + 4 * length g + 2) ltac:(lia)) as WW. rewrite WE in WW. lia.
Qed.
(** ... and when nothing comes within its timeout, nothing, after the timeout *)
Theorem C101_master_silent : forall lag ibt T delta expected q, (forall n, 0 <= lag n <= delta) -> 0 <= T -> far (tp_now q + T + 3 * delta) (tp_line q) ->
  exists q', t_recv lag ibt T expected q = Some (q', []) /\ tp_now q + T <= tp_now q' <= tp_now q + T + 2 * delta.
Proof.
  intros lag ibt T delta expected q LAG HT F. unfold t_recv. destruct (recv_silent lag ibt) with (delta := delta) (T := T) (expected := expected) (fuel := S (length (tp_line q))) (p := q) as (q' & R & _ & N); try assumption; try lia; try (intros n; now destruct (LAG n)). exists q'. split; assumption.
Qed.

(** C101: server and master together.  The server sees a conversation; it writes the response [b] to the request of turn [t].  The master
    listens from the end of that request on, its bytes arrive as [g], the first at most [c] after the response was written.  If the timeout of
    the master is at least twice that of the server and the time everything takes, the master gets the response. *)
Theorem C101_exchange : forall lag ibt T delta d p fs lag' ibt' T' delta' c, (forall n, 0 <= lag n <= delta) -> (forall n, 0 <= lag' n <= delta') -> 0 <= T -> 0 <= c -> conversation T delta fs -> tp_line p = concat fs ->
  match fs with [] => True | f :: _ => tp_now p <= first_time f end ->
  forall t w b, In t (fst (fst (t_serve lag ibt T d p))) -> tt_written t = Some (w, b) ->
  forall q g expected, map snd g = b -> g <> [] -> steady T' g -> first_time g <= w + c -> tp_line q = g -> last_time (tt_request t) <= tp_now q ->
  2 * T + (4 * zlen (tt_request t) + 2) * delta + c <= T' -> zlen b <= expected ->
  exists q' g', t_recv lag' ibt' T' expected q = Some (q', g') /\ map snd g' = b.
Proof.
  intros lag ibt T delta d p fs lag' ibt' T' delta' c LAG LAG' HT HC C L H0 t w b IT WR q g expected <- NE ST F LQ N TT EX.
  pose proof (C101_conversation lag ibt T delta d p fs LAG HT C L H0) as H. destruct (t_serve lag ibt T d p) as [[turns d'] p']. cbn [fst] in IT. destruct H as (_ & _ & H).
  assert (B : w <= last_time (tt_request t) + 2 * T + (4 * zlen (tt_request t) + 2) * delta).
  { clear - IT WR H. induction H as [|t0 a turns l H1 H2 IH]; [destruct IT|]. destruct IT as [->|IT]; [|now apply IH]. destruct a as [b|]; [|congruence]. destruct H1 as (w' & E & B). rewrite WR in E. injection E as <- _. lia. }
  assert (ZM : zlen (map snd g) = zlen g) by (unfold zlen; now rewrite map_length). rewrite ZM in EX.
  assert (P : 0 <= delta /\ 0 <= zlen (tt_request t)) by (split; [destruct (LAG 0%nat); lia|apply zlen_nonneg]). assert (P' : 0 <= delta') by (destruct (LAG' 0%nat); lia).
  destruct (Z.eq_dec (zlen g) expected) as [E|NEQ].
  - destruct (C101_master_receives lag' ibt' T' expected q g []) as (q' & R & _); try assumption; [intros n; now destruct (LAG' n)|lia|now rewrite app_nil_r|]. exists q', g. now split.
  - assert (HT' : 0 <= T') by (pose proof (Z.mul_nonneg_nonneg (4 * zlen (tt_request t) + 2) delta ltac:(lia) ltac:(lia)); lia).
    destruct (C101_master_short lag' ibt' T' delta' expected q g []) as (q' & R & _); try assumption; [lia|now rewrite app_nil_r|lia|exact Logic.I|]. exists q', g. now split.
Qed.

(** C101: refuted for equal timeouts, which RtuMaster and RtuServer have by default (C101_default_timeouts): a master that listens from the
    end of its request on has given up before the server answers, whatever the line and the delays of the server. *)
Theorem C101_default_timeouts : forall before baudrate interchar interframe m s, new_rmaster before baudrate interchar interframe None = Some m -> new_rserver baudrate interchar interframe = Some s ->
  rm_serial m = rs_serial s.
Proof. intros before baudrate interchar interframe m s M S. unfold new_rmaster, new_rserver in *. destruct (UtilsModel.calculate_rtu_inter_char baudrate); [|discriminate]. injection M as <-. injection S as <-. reflexivity. Qed.
Theorem C101_same_timeout_refuted : forall lag ibt T d p lag' ibt' T' delta', (forall n, 0 <= lag n) -> (forall n, 0 <= lag' n <= delta') -> 0 <= T' <= T ->
  forall t w b, In t (fst (fst (t_serve lag ibt T d p))) -> tt_written t = Some (w, b) ->
  forall q expected, tp_now q <= last_time (tt_request t) -> far (w + 3 * delta') (tp_line q) ->
  exists q', t_recv lag' ibt' T' expected q = Some (q', []).
Proof.
  intros lag ibt T d p lag' ibt' T' delta' LAG LAG' HT t w b IT WR q expected N F. pose proof (C101_cut lag ibt T d p LAG ltac:(lia)) as H. destruct (t_serve lag ibt T d p) as [[turns d'] p']. cbn [fst] in IT. destruct H as (_ & _ & _ & _ & H).
  assert (B : last_time (tt_request t) + T <= w).
  { clear - IT WR H. induction H as [|t0 a turns l H1 H2 IH]; [destruct IT|]. destruct IT as [->|IT]; [|now apply IH]. destruct H1 as (NE & FA & H1). rewrite WR in H1. destruct H1 as [_ H1].
    assert (I : In (last (tt_request t) (0, 0)) (tt_request t)). { clear - NE. induction (tt_request t) as [|x [|y f] IH]; [congruence|now left|]. right. apply IH. discriminate. }
    pose proof (proj1 (Forall_forall _ _) FA _ I) as Q. cbv beta in Q. unfold last_time. lia. }
  destruct (C101_master_silent lag' ibt' T' delta' expected q LAG' ltac:(lia)) as (q' & R & _); [|exists q'; exact R]. eapply far_less; [|exact F]. lia.
Qed.

(** the bytes of a frame, one every [step] *)
Fixpoint stamp (start step : Z) (l : list Z) : list (Z * Z) := match l with [] => [] | b :: t => (start, b) :: stamp (start + step) step t end.
Definition no_lag (n : nat) : Z := 0.
Definition port_at (now : Z) (l : list (Z * Z)) : tport := {| tp_now := now; tp_line := l; tp_ops := 0 |}.
(** C101: refuted for frames separated by a silence longer than T (3.5 characters) but not than 2 T: both are lost, although each alone is
    answered, and although the program needs no time *)
Theorem C101_gap_refuted : exists T d f g, steady T f /\ steady T g /\ last_time f + T < first_time g /\
  (let run l := map tt_written (fst (fst (t_serve no_lag None T d (port_at 0 l)))) in
   (exists w b, run f = [Some (w, b)]) /\ (exists w b, run g = [Some (w, b)]) /\ run (f ++ g) = [None]).
Proof.
  exists 36, demo_db, (stamp 0 10 rtu_write), (stamp 107 10 rtu_write). split; [vm_compute; repeat split; discriminate|]. split; [vm_compute; repeat split; discriminate|]. split; [vm_compute; reflexivity|]. cbv zeta.
  split; [eexists; eexists; vm_compute; reflexivity|]. split; [eexists; eexists; vm_compute; reflexivity|]. vm_compute. reflexivity.
Qed.
(** ... and for a server that is busy: however long the silence was, two frames that wait for it are one *)
Theorem C101_busy_refuted : exists lag T d f g, (forall n, 0 <= lag n) /\ steady T f /\ steady T g /\ last_time f + 1000 * T < first_time g /\
  map tt_written (fst (fst (t_serve lag None T d (port_at 0 (f ++ g))))) = [None].
Proof.
  exists (fun n => match n with O => 100000 | _ => 0 end), 36, demo_db, (stamp 0 10 rtu_write), (stamp 50000 10 rtu_write). split; [intros [|n]; lia|]. split; [vm_compute; repeat split; discriminate|]. split; [vm_compute; repeat split; discriminate|]. split; vm_compute; reflexivity.
Qed.
(** the hypotheses of C101_conversation and C101_exchange can be met: two frames, the program needs up to 1 per operation *)
Example C101_ex : let fs := [stamp 5 10 rtu_write; stamp 300 10 rtu_write] in
  conversation 36 1 fs /\ zlen (fst (fst (t_serve (fun _ => 1) (Some 15) 36 demo_db (port_at 0 (concat fs))))) = 2 /\
  (exists w, map tt_written (fst (fst (t_serve (fun _ => 1) (Some 15) 36 demo_db (port_at 0 (concat fs))))) = [Some (w, rtu_write); Some (w + 295, rtu_write)] /\
    first_time (stamp (w + 10) 10 rtu_write) <= w + 20 /\ (exists q' g', t_recv no_lag None 160 8 (port_at 80 (stamp (w + 10) 10 rtu_write)) = Some (q', g') /\ map snd g' = rtu_write) /\
    exists q', t_recv no_lag None 36 8 (port_at 75 (stamp (w + 10) 10 rtu_write)) = Some (q', [])).
Proof.
  cbv zeta. split; [vm_compute; repeat split; discriminate|]. split; [vm_compute; reflexivity|].
  exists 118. split; [vm_compute; reflexivity|]. split; [vm_compute; discriminate|]. split; [eexists; eexists; split; vm_compute; reflexivity|]. eexists. vm_compute. reflexivity.
Qed.

(** ** A port without timeout *)
Lemma loop_none lag ibt (LAG : forall n, 0 <= lag n) : forall fuel size p acc, (size <= length acc + fuel)%nat -> (length acc <= size)%nat -> Forall (fun x => fst x <= tp_now p) acc ->
  match tread_loop lag ibt fuel size None p acc with
  | None => (length acc + length (tp_line p) < size)%nat /\ (ibt = None \/ (acc = [] /\ tp_line p = []))
  | Some (p', out) => exists b, out = acc ++ b /\ tp_line p = b ++ tp_line p' /\
      (length out = size \/ exists i, ibt = Some i /\ match tp_line p' with [] => True | y :: _ => Forall (fun x => fst x + i < fst y) out end)
  end.
Proof.
  induction fuel as [|m IH]; intros size p acc FU LE FA; cbn [tread_loop].
  { exists []. rewrite app_nil_r. split; [reflexivity|]. split; [reflexivity|left; lia]. }
  destruct (length acc <? size)%nat eqn:SZ.
  2:{ exists []. rewrite app_nil_r. split; [reflexivity|]. split; [reflexivity|]. left. apply Nat.ltb_ge in SZ. lia. }
  apply Nat.ltb_lt in SZ. pose proof (LAG (tp_ops p)) as L0.
  destruct (waits _ (tick lag p)) as [[p2 [|]]|] eqn:W.
  - apply waits_spec in W as (L & O & N & WT & _). destruct (WT eq_refl) as (x & l & L1 & X & _ & _). clear WT. cbn [tick tp_line tp_now] in L, N, L1. set (p3 := tick lag p2).
    assert (P3 : tp_line p3 = tp_line p) by exact L. assert (N3 : tp_now p2 <= tp_now p3) by (subst p3; cbn; pose proof (LAG (tp_ops p2)); lia).
    destruct (taken_prefix (size - length acc) (tp_now p3) (tp_line p3)) as (r & T1 & T2 & T3). set (buf := firstn (size - length acc) (arrived (tp_now p3) (tp_line p3))) in *.
    assert (BUF : buf <> []).
    { subst buf. rewrite P3, L1. cbn [arrived]. destruct (fst x <=? tp_now p3) eqn:A; [|lia]. destruct (size - length acc)%nat eqn:Z; [lia|]. discriminate. }
    assert (BL : (length acc + length buf <= size)%nat) by (subst buf; rewrite firstn_length; lia). assert (B1 : (0 < length buf)%nat) by (destruct buf; [congruence|cbn; lia]).
    clearbody buf. clearbody p3. set (p4 := {| tp_now := tp_now p3; tp_line := _; tp_ops := _ |}).
    specialize (IH size p4 (acc ++ buf) ltac:(rewrite app_length; lia) ltac:(rewrite app_length; lia)).
    assert (FA2 : Forall (fun x => fst x <= tp_now p4) (acc ++ buf)).
    { apply Forall_app. split; [|exact T3]. eapply Forall_impl; [|exact FA]. intros y Y. cbn in Y |- *. lia. }
    specialize (IH FA2). assert (L4 : tp_line p4 = r) by exact T2. destruct (tread_loop lag ibt m size None p4 (acc ++ buf)) as [[p' out]|].
    + destruct IH as (b & -> & E & G). exists (buf ++ b). rewrite app_assoc. split; [reflexivity|]. split; [|exact G]. rewrite <- P3, T1, <- L4, E. now rewrite app_assoc.
    + destruct IH as [Q [G|(G & _)]]; [|apply app_eq_nil in G as [_ G]; congruence]. split; [|now left]. rewrite <- P3, T1, <- L4. rewrite app_length in *. lia.
  - apply waits_spec in W as (L & O & N & _ & WF). destruct (WF eq_refl) as (t & D & NT & G). cbn [tick tp_line tp_now] in L, N, G, NT. exists []. rewrite app_nil_r. split; [reflexivity|]. split; [now rewrite L|]. right.
    unfold until in D. destruct acc as [|a acc]; [discriminate D|]. destruct ibt as [i|]; [|discriminate D]. injection D as D. cbn [tick tp_now] in D. exists i. split; [reflexivity|]. rewrite L. destruct (tp_line p) as [|y l]; [exact Logic.I|].
    eapply Forall_impl; [|exact FA]. cbv beta. intros z Z. lia.
  - unfold waits in W. cbn [tick tp_line] in W. destruct (tp_line p) as [|x l].
    + destruct (until ibt None (tick lag p) acc) eqn:U; [discriminate|]. cbn [length]. split; [lia|]. unfold until in U. destruct acc; [auto|]. destruct ibt; [discriminate U|now left].
    + destruct (fst x <=? _); [discriminate|]. destruct (until ibt None (tick lag p) acc); [destruct (fst x <=? _); discriminate|discriminate].
Qed.
(** C101: read(n) on a port whose timeout is None (the server's wait for a first byte; a master after set_timeout(None)): it waits for
    ever only when the line does not bring n bytes (and, with an inter-byte timeout, only when it brings none); when it returns it has
    the next n bytes of the line, or fewer because the inter-byte timeout i passed: the byte after them comes more than i later. *)
Theorem C101_no_timeout : forall lag ibt size p, (forall n, 0 <= lag n) ->
  match tread lag ibt size None p with
  | None => (length (tp_line p) < size)%nat /\ (ibt = None \/ tp_line p = [])
  | Some (p', b) => tp_line p = b ++ tp_line p' /\
      (length b = size \/ exists i, ibt = Some i /\ match tp_line p' with [] => True | y :: _ => Forall (fun x => fst x + i < fst y) b end)
  end.
Proof.
  intros lag ibt size p LAG. unfold tread. pose proof (loop_none lag ibt LAG size size (tick lag p) [] ltac:(cbn; lia) ltac:(cbn; lia) ltac:(constructor)) as H.
  destruct (tread_loop lag ibt size size None (tick lag p) []) as [[p' b]|].
  - destruct H as (b' & E & H). cbn in E. subst b'. exact H.
  - destruct H as [H G]. split; [exact H|]. destruct G as [G|[_ G]]; auto.
Qed.
Example C101_no_timeout_ex : tread no_lag (Some 15) 8 None (port_at 0 [(5, 1); (10, 2); (40, 3)]) = Some ({| tp_now := 25; tp_line := [(40, 3)]; tp_ops := 6%nat |}, [(5, 1); (10, 2)]) /\
  tread no_lag None 3 None (port_at 0 [(5, 1); (10, 2); (40, 3)]) = Some ({| tp_now := 40; tp_line := []; tp_ops := 7%nat |}, [(5, 1); (10, 2); (40, 3)]).
Proof. split; vm_compute; reflexivity. Qed.

Print Assumptions C101_cut.
Print Assumptions C101_conversation.
Print Assumptions C101_master_receives.
Print Assumptions C101_master_short.
Print Assumptions C101_master_silent.
Print Assumptions C101_exchange.
Print Assumptions C101_default_timeouts.
Print Assumptions C101_same_timeout_refuted.
Print Assumptions C101_gap_refuted.
Print Assumptions C101_busy_refuted.
Print Assumptions C101_no_timeout.
