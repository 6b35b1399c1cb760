(** C120: a slave is the Modbus data model.
    Vocabulary: DeviceSpec.v (the reference device), EndSpec.v (round_trip), and the definitions below. *)
From Coq Require Import ZArith Lia ZifyBool ZifyNat.
From Verif Require Import Base BaseFacts PyStruct Spec StructFacts StructMore Defines SlaveModel SlaveSpec SlaveProofs BlockSpec BlockProofs HandlerProofs RequestProofs GeneralProofs SlaveInv SlaveMore AtomicProofs PropSlave.
From Verif Require Import FrameSpec QueryModel DatabankModel MasterModel MasterSpec DbSpec DatabankProofs MasterProofs DecodeProofs EndSpec EndProofs PropDatabank PropMaster DeviceSpec.
Ltac Zify.zify_post_hook ::= Z.div_mod_to_equations.
Open Scope string_scope.
Open Scope list_scope.
Open Scope Z_scope.

(** ** Spec *)
(** what a table shows of a stored value *)
Definition shown (t : btype) (v : Z) : Z := if is_register t then v mod 65536 else if v =? 0 then 0 else 1.
(** the device shows the cells of the slave *)
Definition mirrors (s : slave) (d : device) : Prop :=
  (forall t, dv_areas d t = map (fun b => (b_start b, b_size b)) (blocks s t)) /\
  (forall t b a v, In b (blocks s t) -> cell b a = Some v -> dv_cell d t a = shown t v).
(** four tables of their own, blocks of one table without common addresses, values the registers can hold *)
Definition tidy (s : slave) : Prop :=
  all_tables s /\ (forall t t', same_table s t t' -> t = t') /\ (forall t, disjoint_blocks (blocks s t)) /\ all_fit s.
(** the result of a call as the caller sees it *)
Definition shows_as (r : option (res exec_result)) (y : reply) : Prop :=
  r = match y with Values l => Some (Ok (RTuple l)) | Refused code => Some (Err (ModbusError code)) end.

(** ** Cells *)
Lemma cell_some b a v : wf_block b -> cell b a = Some v -> holds b a.
Proof.
  intros (W1 & W2 & W3) H. unfold cell in H. destruct (a <? b_start b) eqn:E; [discriminate H|]. assert (L : (Z.to_nat (a - b_start b) < length (b_data b))%nat) by (apply nth_error_Some; congruence).
  unfold holds, zlen in *. lia.
Qed.
Lemma first_cover l a n : (exists b, In b l /\ covers b a n) -> exists b l1 l2, serving l a n l1 b l2.
Proof.
  induction l as [|c l IH]; intros (b & I & C); [destruct I|]. assert (D : covers c a n \/ ~ covers c a n) by (unfold covers; lia). destruct D as [D|D].
  - exists c, [], l. split; [reflexivity|]. split; [exact D|]. intros ? [].
  - destruct I as [->|I]; [contradiction|]. destruct IH as (b' & l1 & l2 & E & F & G); [eauto|]. exists b', (c :: l1), l2. split; [cbn; now rewrite E|]. split; [exact F|]. intros x [<-|X]; [exact D|now apply G].
Qed.
Lemma present_iff s d t a n : mirrors s d -> present d t a n = true <-> exists b, In b (blocks s t) /\ covers b a n.
Proof.
  intros [A _]. unfold present. rewrite A, existsb_exists. split.
  - intros (x & I & H). apply in_map_iff in I as (b & <- & I). cbn [fst snd] in H. exists b. split; [exact I|]. unfold covers. lia.
  - intros (b & I & H). exists (b_start b, b_size b). split; [apply in_map_iff; eauto|]. cbn [fst snd]. unfold covers in H. lia.
Qed.
Lemma present_served s d t a n : mirrors s d -> present d t a n = true -> exists b, served_by s t a n b.
Proof. intros M H. apply (present_iff s d t a n M) in H. apply first_cover in H as (b & l1 & l2 & H). exists b, l1, l2. exact H. Qed.
Lemma absent_not_covered s d t a n : mirrors s d -> present d t a n = false -> not_covered s t a n.
Proof. intros M H b I C. assert (X : present d t a n = true) by (apply (present_iff s d t a n M); eauto). congruence. Qed.
Lemma values_cell b a n k : wf_block b -> covers b a n -> (k < Z.to_nat n)%nat -> exists v, nth_error (values_at b a n) k = Some v /\ cell b (a + Z.of_nat k) = Some v.
Proof.
  intros (W1 & W2 & W3) [C1 C2] K. unfold values_at, cell. unfold zlen in W3. destruct (nth_error (b_data b) (Z.to_nat (a - b_start b) + k)) as [v|] eqn:E; [|apply nth_error_None in E; lia].
  exists v. split.
  - rewrite nth_error_firstn by exact K. rewrite nth_error_skipn. exact E.
  - destruct (a + Z.of_nat k <? b_start b) eqn:F; [lia|]. rewrite <- E. f_equal. lia.
Qed.
Lemma shown_block s d t a n b : mirrors s d -> wf_slave s -> In b (blocks s t) -> covers b a n -> 0 <= n -> map (shown t) (values_at b a n) = read_cells d t a n.
Proof.
  intros [_ M] W I C N. assert (WB : wf_block b) by (specialize (W t); rewrite Forall_forall in W; now apply W). pose proof (values_at_length b a n C N ltac:(apply WB)) as L.
  unfold read_cells. apply nth_error_ext. intros k.
  destruct (Nat.lt_ge_cases k (Z.to_nat n)) as [K|K].
  - destruct (values_cell b a n k WB C K) as (v & V1 & V2). rewrite (map_nth_error _ _ _ V1). rewrite (map_nth_error (fun k => dv_cell d t (a + Z.of_nat k)) k (seq 0 (Z.to_nat n)) (d := k)).
    + f_equal. symmetry. now apply (M t b).
    + rewrite nth_error_nth' with (d := 0%nat) by (rewrite seq_length; exact K). now rewrite seq_nth.
  - rewrite (proj2 (nth_error_None _ k)), (proj2 (nth_error_None _ k)); [reflexivity| |]; rewrite map_length; [rewrite seq_length; lia|]. unfold zlen in L. lia.
Qed.
Lemma shown_values s d t a n b : mirrors s d -> wf_slave s -> served_by s t a n b -> 0 <= n -> map (shown t) (values_at b a n) = read_cells d t a n.
Proof. intros M W (l1 & l2 & E & C & _) N. apply (shown_block s d t a n b M W); auto. rewrite E. apply in_elt. Qed.
(** ** Writes *)
Lemma same_type_iff t t' : same_type t t' = true <-> t = t'.
Proof. destruct t, t'; cbn; split; intros; congruence. Qed.
Lemma nth_error_mid {A} (l1 l2 : list A) x y k z : nth_error (l1 ++ y :: l2) k = Some z -> k <> length l1 -> nth_error (l1 ++ x :: l2) k = Some z.
Proof.
  intros H K. destruct (Nat.lt_ge_cases k (length l1)) as [L|L]; [now rewrite nth_error_app1 in * by exact L|].
  rewrite nth_error_app2 in * by exact L. destruct (k - length l1)%nat eqn:E; [lia|exact H].
Qed.
Lemma nth_error_at {A} (l1 l2 : list A) x : nth_error (l1 ++ x :: l2) (length l1) = Some x.
Proof. rewrite nth_error_app2 by lia. now rewrite Nat.sub_diag. Qed.
(** [s'] is [s] with the cells a.. of some block of table [t] replaced *)
Definition changed (s : slave) (t : btype) (a : Z) (vals : list Z) (s' : slave) : Prop :=
  exists l1 b l2, blocks s t = l1 ++ b :: l2 /\ covers b a (zlen vals) /\ blocks s' t = l1 ++ overlay b a vals :: l2 /\ frame s s' t.
Lemma wrote_changed s t a vals s' : wrote s t a vals s' -> changed s t a vals s'.
Proof. intros (l1 & b & l2 & (E & C & _) & E' & F). exists l1, b, l2. auto. Qed.
Lemma block_wf s t l1 b l2 : wf_slave s -> blocks s t = l1 ++ b :: l2 -> wf_block b.
Proof. intros W E. specialize (W t). rewrite E in W. rewrite Forall_forall in W. apply W, in_elt. Qed.
Lemma changed_mirrors s d t a vals s' : wf_slave s -> tidy s -> mirrors s d -> changed s t a vals s' -> mirrors s' (put_cells d t a (map (shown t) vals)).
Proof.
  intros W (_ & DT & DJ & _) [MA MC] (l1 & b & l2 & E & C & E' & (_ & _ & _ & _ & FR)). pose proof (block_wf _ _ _ _ _ W E) as WB.
  assert (OT : forall t', t' <> t -> blocks s' t' = blocks s t') by (intros t' N; apply FR; intros X; apply N; symmetry; now apply DT).
  split.
  - intros t'. cbn [put_cells dv_areas]. rewrite MA. destruct (same_type t t') eqn:T.
    + apply same_type_iff in T. subst t'. rewrite E, E', !map_app. reflexivity.
    + rewrite OT; [reflexivity|]. intros ->. assert (X : same_type t t = true) by (now apply same_type_iff). congruence.
  - intros t' c x v I V. cbn [put_cells dv_cell]. destruct (same_type t t') eqn:T.
    + apply same_type_iff in T. subst t'. cbn [andb]. rewrite zlen_map. rewrite E' in I. apply In_nth_error in I as (k & K). destruct (Nat.eq_dec k (length l1)) as [->|NK].
      * rewrite nth_error_at in K. injection K as <-. destruct ((a <=? x) && (x <? a + zlen vals)) eqn:R.
        -- replace x with (a + (x - a)) in V by lia. rewrite cell_overlay_in in V; [|exact C|apply WB|lia]. apply (map_nth_error (shown t)) in V. now apply nth_error_nth with (d := 0) in V.
        -- rewrite cell_overlay_out in V; [|exact C|apply WB|lia]. apply (MC t b); [|exact V]. rewrite E. apply in_or_app. right. now left.
      * assert (K2 : nth_error (blocks s t) k = Some c) by (rewrite E; eapply nth_error_mid; eauto). assert (K1 : nth_error (blocks s t) (length l1) = Some b) by (rewrite E; apply nth_error_at).
        assert (IC : In c (blocks s t)) by (eapply nth_error_In; eauto). assert (WC : wf_block c) by (specialize (W t); rewrite Forall_forall in W; now apply W).
        assert (HC : holds c x) by (eapply cell_some; eauto). destruct ((a <=? x) && (x <? a + zlen vals)) eqn:R; [|apply (MC t c); assumption].
        exfalso. apply (DJ t k (length l1) c b NK K2 K1 x HC). unfold holds. destruct C. lia.
    + cbn [andb]. apply (MC t' c); [|exact V]. rewrite <- OT; [exact I|]. intros ->. assert (X : same_type t t = true) by (now apply same_type_iff). congruence.
Qed.
Lemma changed_layout s t a vals s' : wf_slave s -> tidy s -> changed s t a vals s' -> same_layout s s'.
Proof.
  intros W (T1 & T2 & T3 & T4) (l1 & b & l2 & E & C & E' & (F1 & F2 & F3 & F4 & F5)). pose proof (block_wf _ _ _ _ _ W E) as WB.
  split; [exact F1|]. split; [exact F2|]. split; [exact F3|]. intros t'. assert (DT : t' = t \/ t' <> t) by (destruct t', t; (left; reflexivity) || (right; discriminate)). destruct DT as [->|N].
  - rewrite E, E'. apply Forall2_app; [|constructor; [apply same_shape_overlay; [apply WB|exact C]|]]; clear; match goal with |- Forall2 _ ?l _ => induction l; constructor; auto using same_shape_refl end.
  - rewrite F5 by (intros X; apply N; symmetry; now apply T2). apply Forall2_same_shape_refl.
Qed.
Lemma changed_tidy s t a vals s' : wf_slave s -> tidy s -> changed s t a vals s' -> Forall (fits (sl_unsigned s)) vals -> tidy s'.
Proof.
  intros W (T1 & T2 & T3 & T4) (l1 & b & l2 & E & C & E' & (F1 & F2 & F3 & F4 & F5)) V. pose proof (block_wf _ _ _ _ _ W E) as WB.
  assert (OT : forall t', t' <> t -> blocks s' t' = blocks s t') by (intros t' N; apply F5; intros X; apply N; symmetry; now apply T2).
  assert (DT : forall t' : btype, t' = t \/ t' <> t) by (intros t'; destruct t', t; (left; reflexivity) || (right; discriminate)).
  split; [|split; [|split]].
  - intros t'. unfold has_table. rewrite F3. apply T1.
  - intros t' t'' X. apply T2. unfold same_table in *. now rewrite F3 in X.
  - intros t'. destruct (DT t') as [->|N]; [|rewrite OT by exact N; apply T3]. apply disjoint_shape with (l := blocks s t); [|apply T3]. rewrite E, E'.
    apply Forall2_app; [|constructor; [apply same_shape_overlay; [apply WB|exact C]|]]; clear; match goal with |- Forall2 _ ?l _ => induction l; constructor; auto using same_shape_refl end.
  - intros t' c v I IV. rewrite F1. destruct (DT t') as [->|N]; [|apply (T4 t' c); [rewrite <- OT by exact N; exact I|exact IV]]. rewrite E' in I. apply in_app_or in I as [I|[<-|I]].
    + apply (T4 t c); [rewrite E; apply in_or_app; now left|exact IV].
    + apply in_overlay in IV as [IV|IV]; [apply (T4 t b); [rewrite E; apply in_or_app; right; now left|exact IV]|]. rewrite Forall_forall in V. now apply V.
    + apply (T4 t c); [rewrite E; apply in_or_app; right; now right|exact IV].
Qed.
Lemma layout_refl s : same_layout s s.
Proof. repeat split. intros t. apply Forall2_same_shape_refl. Qed.
(** ** One call *)
Definition step_ok (p : proto) (last : Z) (d : databank) (u : Z) (c : call) (s : slave) (dev : device) : Prop :=
  let '(d', e) := round_trip p last d u c in
  shows_as (ex_result e) (snd (device_call dev c)) /\ others_same d d' u /\
  exists s', get_slave d' u = Ok s' /\ tidy s' /\ mirrors s' (fst (device_call dev c)) /\ same_layout s s'.
Lemma step_refused p last d u c pdu s dev x code : db_reachable d -> get_slave d u = Ok s -> tidy s -> mirrors s dev -> can_send p last u c -> prescribed c pdu ->
  handle_request s pdu false = (s, Ok [x; code]) -> 128 < x -> device_call dev c = (dev, Refused code) -> step_ok p last d u c s dev.
Proof.
  intros D G TY M CS P H X DC. unfold step_ok. assert (H' : snd (handle_request s pdu false) = Ok [x; code]) by now rewrite H.
  pose proof (C41_end_to_end p last d u c pdu s x code D G CS P H' X) as K. destruct (round_trip p last d u c) as [d' e]. destruct K as (K1 & K2 & _). rewrite DC. cbn [fst snd shows_as].
  split; [exact K1|]. split; [intros v _; apply K2|]. exists s. rewrite K2. auto using layout_refl.
Qed.
Lemma step_wrote p last d u c s dev t a vals l : wf_slave s -> tidy s -> mirrors s dev -> Forall (fits (sl_unsigned s)) vals ->
  device_call dev c = (put_cells dev t a (map (shown t) vals), Values l) ->
  (let '(d1, e1) := round_trip p last d u c in ex_result e1 = Some (Ok (RTuple l)) /\ others_same d d1 u /\ exists s', get_slave d1 u = Ok s' /\ wrote s t a vals s') -> step_ok p last d u c s dev.
Proof.
  intros W TY M V DC K. unfold step_ok. destruct (round_trip p last d u c) as [d1 e1]. destruct K as (K1 & K2 & s' & K3 & K4). rewrite DC. cbn [fst snd shows_as]. split; [exact K1|]. split; [exact K2|].
  exists s'. split; [exact K3|]. apply wrote_changed in K4. split; [now apply (changed_tidy s t a vals)|]. split; [now apply changed_mirrors with (s := s)|]. now apply (changed_layout s t a vals).
Qed.
Lemma tidy_stored s dev t a n b : mirrors s dev -> tidy s -> served_by s t a n b -> stored s t a n (values_at b a n) /\ Forall (fits (sl_unsigned s)) (values_at b a n).
Proof.
  intros M (T1 & _ & _ & T4) H. split; [split; [apply T1|exists b; auto]|]. destruct H as (l1 & l2 & E & _). apply Forall_forall. intros v V. apply (T4 t b); [rewrite E; apply in_or_app; right; now left|].
  unfold values_at in V. rewrite <- (firstn_skipn (Z.to_nat (a - b_start b)) (b_data b)). apply in_or_app. right. rewrite <- (firstn_skipn (Z.to_nat n) (skipn (Z.to_nat (a - b_start b)) (b_data b))). apply in_or_app. now left.
Qed.

Lemma shown_word u v : shown HOLDING_REGISTERS (reg_of_word u (as_word v)) = v mod 65536.
Proof. unfold shown, reg_of_word, as_word. cbn [is_register]. destruct u; [lia|]. destruct (_ <? _) eqn:Q; lia. Qed.
Lemma fits_word u v : fits u (reg_of_word u (as_word v)).
Proof. unfold fits, reg_of_word, as_word. destruct u; [lia|]. destruct (_ <? _) eqn:Q; lia. Qed.
Lemma shown_words u vals : map (shown HOLDING_REGISTERS) (map (fun v => reg_of_word u (as_word v)) vals) = map (fun v => v mod 65536) vals.
Proof. rewrite map_map. apply map_ext. intros v. apply shown_word. Qed.
Lemma fits_words u vals : Forall (fits u) (map (fun v => reg_of_word u (as_word v)) vals).
Proof. apply Forall_map, Forall_forall. intros v _. apply fits_word. Qed.
Lemma fits_bit u v : v = 0 \/ v = 1 -> fits u v.
Proof. unfold fits. destruct u; lia. Qed.
Lemma read_apart dev t a n wa vals : 0 <= n -> a + n <= wa \/ wa + zlen vals <= a -> read_cells (put_cells dev t wa vals) t a n = read_cells dev t a n.
Proof.
  intros N H. unfold read_cells. apply map_ext_in. intros k I. apply in_seq in I. cbn [put_cells dv_cell]. replace ((wa <=? a + Z.of_nat k) && (a + Z.of_nat k <? wa + zlen vals)) with false by lia.
  destruct (same_type t t); cbn [andb]; [|reflexivity]. destruct (wa <=? a + Z.of_nat k) eqn:E1; cbn [andb]; [|reflexivity]. destruct (a + Z.of_nat k <? wa + zlen vals) eqn:E2; [lia|reflexivity].
Qed.
Section Step.
Context (p : proto) (last : Z) (d : databank) (u : Z) (s : slave) (dev : device).
Context (D : db_reachable d) (G : get_slave d u = Ok s) (TY : tidy s) (M : mirrors s dev).
Lemma st_reach : reachable s. Proof. now apply (db_reachable_slave d u s). Qed.
Lemma st_wf : wf_slave s. Proof. apply reachable_wf, st_reach. Qed.
Lemma st_table t : has_table s t. Proof. apply TY. Qed.
Lemma st_regs (holding : bool) a n : can_send p last u (ReadRegs holding a n) -> step_ok p last d u (ReadRegs holding a n) s dev.
Proof.
  intros CS. pose proof CS as ((Ha & Hn) & T & _). set (t := if holding then HOLDING_REGISTERS else ANALOG_INPUTS). set (fc := if holding then 3 else 4).
  assert (R : reg_table fc t) by (unfold fc, t; destruct holding; [left|right]; auto). assert (F : 128 < fc + 128) by (unfold fc; destruct holding; lia).
  destruct (C08_read_registers s fc t a n [] st_reach R (st_table t) Ha Hn) as (_ & E3 & E2). rewrite app_nil_r in E3, E2.
  assert (P : prescribed (ReadRegs holding a n) (fc :: word a ++ word n)) by reflexivity.
  destruct ((1 <=? n) && (n <=? 125)) eqn:N; [|apply (step_refused p last d u _ _ s dev (fc + 128) 3 D G TY M CS P); [apply E3; lia|exact F|cbn [device_call]; unfold checked; now rewrite N]].
  destruct (present dev t a n) eqn:Q; [|apply (step_refused p last d u _ _ s dev (fc + 128) 2 D G TY M CS P); [apply E2; [lia|now apply absent_not_covered with dev]|exact F|cbn [device_call]; unfold checked; fold t; now rewrite N, Q]].
  destruct (present_served s dev t a n M Q) as (b & SB). destruct (tidy_stored s dev t a n b M TY SB) as (ST & FT).
  pose proof (C39_read_registers p last d u holding a n s (values_at b a n) T D G ltac:(lia) Ha ST FT) as K. unfold step_ok. destruct (round_trip p last d u (ReadRegs holding a n)) as [d' e]. destruct K as (K1 & K2).
  cbn [device_call]. unfold checked. fold t. rewrite N, Q. cbn [fst snd]. rewrite <- (shown_values s dev t a n b M st_wf SB) by lia. split; [|split; [intros v _; apply K2|exists s; rewrite K2; auto using layout_refl]].
  rewrite K1. unfold shows_as. replace (map (shown t) (values_at b a n)) with (map as_word (values_at b a n)); [reflexivity|]. apply map_ext. intros v. unfold shown, t. destruct holding; reflexivity.
Qed.
Lemma st_bits (coils : bool) a n : can_send p last u (ReadBits coils a n) -> step_ok p last d u (ReadBits coils a n) s dev.
Proof.
  intros CS. pose proof CS as ((Ha & Hn) & T & _). set (t := if coils then COILS else DISCRETE_INPUTS). set (fc := if coils then 1 else 2).
  assert (R : bit_table fc t) by (unfold fc, t; destruct coils; [left|right]; auto). assert (F : 128 < fc + 128) by (unfold fc; destruct coils; lia).
  destruct (C09_read_bits s fc t a n [] st_reach R (st_table t) Ha Hn) as (_ & E3 & E2). rewrite app_nil_r in E3, E2.
  assert (P : prescribed (ReadBits coils a n) (fc :: word a ++ word n)) by reflexivity.
  destruct ((1 <=? n) && (n <=? 2000)) eqn:N; [|apply (step_refused p last d u _ _ s dev (fc + 128) 3 D G TY M CS P); [apply E3; lia|exact F|cbn [device_call]; unfold checked; now rewrite N]].
  destruct (present dev t a n) eqn:Q; [|apply (step_refused p last d u _ _ s dev (fc + 128) 2 D G TY M CS P); [apply E2; [lia|now apply absent_not_covered with dev]|exact F|cbn [device_call]; unfold checked; fold t; now rewrite N, Q]].
  destruct (present_served s dev t a n M Q) as (b & SB). destruct (tidy_stored s dev t a n b M TY SB) as (ST & FT).
  pose proof (C39_read_bits p last d u coils a n s (values_at b a n) T D G ltac:(lia) Ha ST) as K. unfold step_ok. destruct (round_trip p last d u (ReadBits coils a n)) as [d' e]. destruct K as (K1 & K2).
  cbn [device_call]. unfold checked. fold t. rewrite N, Q. cbn [fst snd]. rewrite <- (shown_values s dev t a n b M st_wf SB) by lia. split; [|split; [intros v _; apply K2|exists s; rewrite K2; auto using layout_refl]].
  rewrite K1. unfold shows_as. replace (map (shown t) (values_at b a n)) with (map as_bit (values_at b a n)); [reflexivity|]. apply map_ext. intros v. unfold shown, t. destruct coils; reflexivity.
Qed.
Lemma st_coil a v : can_send p last u (WriteCoil a v) -> step_ok p last d u (WriteCoil a v) s dev.
Proof.
  intros CS. pose proof CS as (Ha & T & _). cbn [encodable] in Ha. set (w := if v =? 0 then 0 else 65280).
  destruct (C10_write_coil s a w [] st_reach (st_table _) Ha ltac:(unfold w, fits; destruct (v =? 0); lia)) as (_ & _ & _ & E2). rewrite app_nil_r in E2.
  assert (P : prescribed (WriteCoil a v) (5 :: word a ++ word w)) by (cbn [prescribed]; unfold w; now destruct (v =? 0)).
  destruct (present dev COILS a 1) eqn:Q; [|apply (step_refused p last d u _ _ s dev 133 2 D G TY M CS P); [now apply E2, absent_not_covered with dev|lia|cbn [device_call]; unfold checked; cbn [Z.leb andb]; now rewrite Q]].
  destruct (present_served s dev COILS a 1 M Q) as (b & SB). destruct (tidy_stored s dev COILS a 1 b M TY SB) as (ST & _).
  pose proof (C40_coil p last d u a v s T D G Ha (ex_intro _ _ ST)) as K. apply (step_wrote p last d u _ s dev COILS a [as_bit v] [a; if v =? 0 then 0 else 65280] st_wf TY M).
  - constructor; [|constructor]. apply fits_bit. unfold as_bit. destruct (v =? 0); auto.
  - cbn [device_call]. unfold checked. change ((1 <=? 1) && (1 <=? 1)) with true. rewrite Q. cbn [map]. unfold shown, as_bit. cbn [is_register]. now destruct (v =? 0).
  - destruct (round_trip p last d u (WriteCoil a v)) as [d1 e1]. destruct (round_trip _ _ _ _ _) as [d2 e2]. destruct K as (K1 & _ & K2 & _ & K3). auto.
Qed.
Lemma st_reg a v : can_send p last u (WriteReg a v) -> step_ok p last d u (WriteReg a v) s dev.
Proof.
  intros CS. pose proof CS as ((Ha & Hv) & T & _).
  destruct (C11_write_register s a (as_word v) [] st_reach (st_table _) Ha ltac:(unfold fits, as_word; lia)) as (_ & E2). rewrite app_nil_r in E2.
  assert (P : prescribed (WriteReg a v) (6 :: word a ++ word (as_word v))) by (cbn [prescribed]; do 2 f_equal; pose proof (words_mod [v]) as X; cbn [words flat_map map] in X; rewrite !app_nil_r in X; now symmetry).
  destruct (present dev HOLDING_REGISTERS a 1) eqn:Q; [|apply (step_refused p last d u _ _ s dev 134 2 D G TY M CS P); [now apply E2, absent_not_covered with dev|lia|cbn [device_call]; unfold checked; cbn [Z.leb andb]; now rewrite Q]].
  destruct (present_served s dev HOLDING_REGISTERS a 1 M Q) as (b & SB). destruct (tidy_stored s dev HOLDING_REGISTERS a 1 b M TY SB) as (ST & _).
  pose proof (C40_register p last d u a v s T D G Hv Ha (ex_intro _ _ ST)) as K. apply (step_wrote p last d u _ s dev HOLDING_REGISTERS a [reg_of_word (sl_unsigned s) (as_word v)] [a; as_word v] st_wf TY M).
  - constructor; [|constructor]. apply fits_word.
  - cbn [device_call]. unfold checked. change ((1 <=? 1) && (1 <=? 1)) with true. rewrite Q. cbn [map]. now rewrite shown_word.
  - destruct (round_trip p last d u (WriteReg a v)) as [d1 e1]. destruct (round_trip _ _ _ _ _) as [d2 e2]. destruct K as (K1 & _ & K2 & _ & K3). auto.
Qed.

Lemma st_coils a vals : can_send p last u (WriteCoils a vals) -> step_ok p last d u (WriteCoils a vals) s dev.
Proof.
  intros CS. pose proof CS as ((Ha & Hl) & T & _). pose proof (zlen_nonneg vals) as L0. destruct (build_call u (WriteCoils a vals) (conj Ha Hl)) as (pdu & P & B & _). pose proof P as (out & PB & EP).
  assert (LO : zlen out = bytes_for_bits (zlen vals)) by (destruct PB as [PB _]; now rewrite zlen_map in PB).
  assert (BO : bytes out) by (destruct PB as (_ & PB & _); exact PB).
  destruct (C12_write_coils s a (zlen vals) out [] st_reach (st_table _) Ha ltac:(unfold fits; lia) BO) as (_ & E3 & E2).
  destruct ((1 <=? zlen vals) && (zlen vals <=? 1968)) eqn:N; [|apply (step_refused p last d u _ _ s dev 143 3 D G TY M CS P); [rewrite EP; apply E3; lia|lia|cbn [device_call]; unfold checked; now rewrite N]].
  destruct (present dev COILS a (zlen vals)) eqn:Q; [|apply (step_refused p last d u _ _ s dev 143 2 D G TY M CS P); [rewrite EP, LO; apply E2; [lia|now apply absent_not_covered with dev]|lia|cbn [device_call]; unfold checked; now rewrite N, Q]].
  destruct (present_served s dev COILS a _ M Q) as (b & SB). destruct (tidy_stored s dev COILS a _ b M TY SB) as (ST & _).
  pose proof (C40_coils p last d u a vals s T D G ltac:(lia) Ha (ex_intro _ _ ST)) as K. apply (step_wrote p last d u _ s dev COILS a (map on_off vals) [a; zlen vals] st_wf TY M).
  - apply Forall_map, Forall_forall. intros v _. apply fits_bit. unfold on_off. destruct (0 <? v); auto.
  - cbn [device_call]. unfold checked. rewrite N, Q, map_map. do 2 f_equal. apply map_ext. intros v. unfold shown, on_off. cbn [is_register]. now destruct (0 <? v).
  - destruct (round_trip p last d u (WriteCoils a vals)) as [d1 e1]. destruct (round_trip _ _ _ _ _) as [d2 e2]. destruct K as (K1 & _ & K2 & _ & K3). auto.
Qed.
Lemma st_regs16 a vals : can_send p last u (WriteRegs a vals) -> step_ok p last d u (WriteRegs a vals) s dev.
Proof.
  intros CS. pose proof CS as ((Ha & Hl & Hv) & T & _). pose proof (zlen_nonneg vals) as L0. pose proof (eq_refl : prescribed (WriteRegs a vals) (16 :: word a ++ word (zlen vals) ++ 2 * zlen vals :: words vals)) as P.
  destruct (C13_write_registers s a st_reach (st_table _) Ha) as (_ & E3 & E2).
  destruct ((1 <=? zlen vals) && (zlen vals <=? 123)) eqn:N; [|apply (step_refused p last d u _ _ s dev 144 3 D G TY M CS P); [apply E3; [unfold fits|]; lia|lia|cbn [device_call]; unfold checked; now rewrite N]].
  destruct (present dev HOLDING_REGISTERS a (zlen vals)) eqn:Q; [|apply (step_refused p last d u _ _ s dev 144 2 D G TY M CS P); [apply E2; [lia|now apply absent_not_covered with dev]|lia|cbn [device_call]; unfold checked; now rewrite N, Q]].
  destruct (present_served s dev HOLDING_REGISTERS a _ M Q) as (b & SB). destruct (tidy_stored s dev HOLDING_REGISTERS a _ b M TY SB) as (ST & _).
  pose proof (C40_registers p last d u a vals s T D G ltac:(lia) Hv Ha (ex_intro _ _ ST)) as K.
  apply (step_wrote p last d u _ s dev HOLDING_REGISTERS a (map (fun v => reg_of_word (sl_unsigned s) (as_word v)) vals) [a; zlen vals] st_wf TY M).
  - apply fits_words.
  - cbn [device_call]. unfold checked. now rewrite N, Q, shown_words.
  - destruct (round_trip p last d u (WriteRegs a vals)) as [d1 e1]. destruct (round_trip _ _ _ _ _) as [d2 e2]. destruct K as (K1 & _ & K2 & _ & K3). auto.
Qed.
Lemma st_mask a am om : sl_unsigned s = true -> can_send p last u (MaskWrite a am om) -> step_ok p last d u (MaskWrite a am om) s dev.
Proof.
  intros US CS. pose proof CS as ((Ha & Hm & Ho) & T & _). pose proof (eq_refl : prescribed (MaskWrite a am om) (22 :: word a ++ word am ++ word om)) as P.
  destruct (C14_mask_write s a am om [] st_reach (st_table _) Ha Hm Ho) as (_ & E2). rewrite app_nil_r in E2.
  destruct (present dev HOLDING_REGISTERS a 1) eqn:Q; [|apply (step_refused p last d u _ _ s dev 150 2 D G TY M CS P); [now apply E2, absent_not_covered with dev|lia|cbn [device_call]; unfold checked; cbn [Z.leb andb]; now rewrite Q]].
  destruct (present_served s dev HOLDING_REGISTERS a 1 M Q) as (b & SB). destruct (tidy_stored s dev HOLDING_REGISTERS a 1 b M TY SB) as (ST & FT).
  assert (L1 : zlen (values_at b a 1) = 1) by (apply (values_at_zlen s HOLDING_REGISTERS a 1 b st_wf SB); lia).
  destruct (values_at b a 1) as [|old [|? ?]] eqn:VE; [discriminate L1| |exfalso; rewrite !zlen_cons in L1; pose proof (zlen_nonneg l); lia].
  inversion_clear FT as [|? ? FO _]. rewrite US in FO. unfold fits in FO, Hm, Ho.
  assert (CELL : dv_cell dev HOLDING_REGISTERS a = old). { pose proof (shown_values s dev HOLDING_REGISTERS a 1 b M st_wf SB ltac:(lia)) as X. rewrite VE in X. cbn [map] in X. unfold read_cells in X. cbn in X. injection X as X. rewrite Z.add_0_r in X. rewrite <- X. unfold shown. cbn [is_register]. lia. }
  pose proof (C40_mask_write p last d u a am om s old T D G Ha Hm Ho ST) as K.
  assert (NW : forall new, (forall k, 0 <= k -> Z.testbit new k = if Z.testbit am k then Z.testbit old k else Z.testbit om k) -> new = Z.lor (Z.land old am) (Z.land om (Z.lnot am))).
  { intros new H. apply Z.bits_inj'. intros k Hk. rewrite (H k Hk), Z.lor_spec, !Z.land_spec, Z.lnot_spec by exact Hk. destruct (Z.testbit am k), (Z.testbit old k), (Z.testbit om k); reflexivity. }
  set (new := Z.lor (Z.land old am) (Z.land om (Z.lnot am))) in *.
  assert (NR : 0 <= new < 65536).
  { assert (HB : forall x k, 0 <= x < 65536 -> 16 <= k -> Z.testbit x k = false).
    { intros x k X K0. rewrite <- (Z.mod_small x (2 ^ 16)) by (change (2 ^ 16) with 65536; lia). apply Z.mod_pow2_bits_high. lia. }
    assert (E : new = new mod 2 ^ 16). { apply Z.bits_inj'. intros k Hk. destruct (Z.lt_ge_cases k 16) as [L|L]; [now rewrite Z.mod_pow2_bits_low by lia|]. rewrite Z.mod_pow2_bits_high by lia. unfold new. rewrite Z.lor_spec, !Z.land_spec. now rewrite (HB old k FO L), (HB om k Ho L). }
    rewrite E. change (2 ^ 16) with 65536. lia. }
  apply (step_wrote p last d u _ s dev HOLDING_REGISTERS a [new] [a; am; om] st_wf TY M).
  - constructor; [|constructor]. unfold fits. rewrite US. exact NR.
  - cbn [device_call]. unfold checked. change ((1 <=? 1) && (1 <=? 1)) with true. rewrite Q, CELL. fold new. cbn [map]. unfold shown. cbn [is_register]. now rewrite Z.mod_small by lia.
  - destruct (round_trip p last d u (MaskWrite a am om)) as [d1 e1]. destruct K as (K1 & K2 & s' & new' & K3 & K4 & K5). rewrite (NW new' K5) in K4. eauto.
Qed.
Lemma st_read_write a n wa vals : usual (ReadWriteRegs a n wa vals) -> can_send p last u (ReadWriteRegs a n wa vals) -> step_ok p last d u (ReadWriteRegs a n wa vals) s dev.
Proof.
  intros (UL & UA) CS. pose proof CS as ((Ha & Hn & Hwa & Hl & Hv) & T & _). set (H := HOLDING_REGISTERS).
  pose proof (eq_refl : prescribed (ReadWriteRegs a n wa vals) (23 :: word a ++ word n ++ word wa ++ word (zlen vals) ++ 2 * zlen vals :: words vals)) as P.
  destruct (C15_read_write_partial s a wa st_reach (st_table _) Ha Hwa) as (_ & E3 & E2 & _ & E2w). assert (FL : fits true (zlen vals)) by (unfold fits; lia).
  destruct ((1 <=? n) && (n <=? 125)) eqn:N; [|apply (step_refused p last d u _ _ s dev 151 3 D G TY M CS P); [apply E3; auto; lia|lia|cbn [device_call]; unfold checked; now rewrite N]].
  destruct (present dev H a n) eqn:Q; [|apply (step_refused p last d u _ _ s dev 151 2 D G TY M CS P); [apply E2; auto; [lia|now apply absent_not_covered with dev]|lia|cbn [device_call]; unfold checked; fold H; now rewrite N, Q]].
  destruct (present_served s dev H a n M Q) as (b & SB). destruct (tidy_stored s dev H a n b M TY SB) as (ST & FT).
  assert (NW : (1 <=? zlen vals) && (zlen vals <=? 121) = true) by lia.
  destruct (present dev H wa (zlen vals)) eqn:QW; [|apply (step_refused p last d u _ _ s dev 151 2 D G TY M CS P); [apply (E2w n (zlen vals) _ b); auto; [lia|lia|now apply absent_not_covered with dev]|lia|cbn [device_call]; unfold checked; fold H; now rewrite N, Q, NW, QW]].
  destruct (present_served s dev H wa (zlen vals) M QW) as (wb & SW). destruct (tidy_stored s dev H wa (zlen vals) wb M TY SW) as (STW & _).
  pose proof (C40_read_write p last d u a n wa vals s _ T D G Ha Hwa ltac:(lia) ltac:(lia) Hv ST FT (ex_intro _ _ STW)) as K.
  apply (step_wrote p last d u _ s dev H wa (map (fun v => reg_of_word (sl_unsigned s) (as_word v)) vals) (map as_word (values_at b a n)) st_wf TY M).
  - apply fits_words.
  - cbn [device_call]. unfold checked. fold H. rewrite N, Q, NW, QW. unfold H at 3. rewrite shown_words. fold H. rewrite read_apart by (rewrite ?zlen_map; lia). f_equal. f_equal. rewrite <- (shown_values s dev H a n b M st_wf SB) by lia. apply map_ext. reflexivity.
  - exact K.
Qed.
Lemma st_status : can_send p last u ReadStatus -> step_ok p last d u ReadStatus s dev.
Proof.
  intros (E & T & _ & F). destruct (db_reachable_slave d u s D G) as [_ U]. assert (H : handle_request s [7] false = (s, Ok [7; 0])) by reflexivity.
  destruct (round_trip_present p last d u ReadStatus [7] s [7; 0] E eq_refl ltac:(right; vm_compute; discriminate) T U G ltac:(now rewrite H)) as (R1 & _ & R3). unfold step_ok. destruct (round_trip p last d u ReadStatus) as [d' e]. cbn [fst snd] in *. rewrite H in R1. cbn [fst] in R1. subst d'.
  cbn [device_call fst snd]. split; [rewrite R3; reflexivity|]. split; [intros v _; now apply get_slave_put_id|]. exists s. rewrite get_slave_put_same. auto using layout_refl.
Qed.
Lemma st_unsupported c : match c with ReadFiles _ | Diagnostic _ _ | DeviceInfo _ _ => True | _ => False end -> can_send p last u c -> step_ok p last d u c s dev.
Proof.
  intros C CS. pose proof CS as (E & _). destruct (build_call u c E) as (pdu & P & _). destruct (C16_named s (tl pdu)) as (H8 & _ & H20 & H43).
  destruct c; try destruct C; cbn [prescribed] in P; subst pdu; cbn [tl] in *; (eapply step_refused; [exact D|exact G|exact TY|exact M|exact CS|reflexivity| | |reflexivity]); [exact H20| |exact H8| |exact H43|]; lia.
Qed.
(** every usual call *)
Lemma step_all c : usual c -> (sl_unsigned s = true \/ (forall a am om, c <> MaskWrite a am om)) -> can_send p last u c -> step_ok p last d u c s dev.
Proof.
  intros U MK CS. destruct c; try (now apply st_unsupported); auto using st_bits, st_regs, st_coil, st_reg, st_coils, st_regs16, st_status, st_read_write.
  destruct MK as [MK|MK]; [now apply st_mask|]. exfalso. now apply (MK a and_mask or_mask).
Qed.
End Step.

(** ** A session: any number of calls to any units *)
(** the units there are *)
Definition world := Z -> option device.
(** a call to unit u: no answer from a unit that does not exist *)
Definition world_call (w : world) (u : Z) (c : call) : world * option reply :=
  match w u with
  | Some dev => (fun v => if v =? u then Some (fst (device_call dev c)) else w v, Some (snd (device_call dev c)))
  | None => (w, None)
  end.
Fixpoint world_session (w : world) (l : list (Z * call)) : world * list (option reply) :=
  match l with
  | [] => (w, [])
  | (u, c) :: l => let '(w1, r) := world_call w u c in let '(w2, rs) := world_session w1 l in (w2, r :: rs)
  end.
(** one master.execute(...) after the other, all to the server with databank [d] *)
Fixpoint session (p : proto) (last : Z) (d : databank) (l : list (Z * call)) : databank * list (option (res exec_result)) :=
  match l with
  | [] => (d, [])
  | (u, c) :: l => let '(d1, e) := round_trip p last d u c in let '(d2, rs) := session p (ex_last e) d1 l in (d2, ex_result e :: rs)
  end.
(** the databank shows the world: the slaves are the units there are, and each is tidy and shows its device *)
Definition shows (d : databank) (w : world) : Prop :=
  forall v, match w v with Some dev => exists s, get_slave d v = Ok s /\ tidy s /\ mirrors s dev | None => get_slave d v = Err MissingKeyError end.
Definition told (r : option (res exec_result)) (y : option reply) : Prop :=
  match y with Some y => shows_as r y | None => r = Some (Err SocketTimeout) end.
(** the calls of the session: usual, sendable, to unicast addresses, mask writes to unsigned slaves only *)
Definition fine (p : proto) (d : databank) (x : Z * call) : Prop :=
  1 <= fst x <= 255 /\ usual (snd x) /\ (forall last, 0 <= last <= 65535 -> can_send p last (fst x) (snd x)) /\
  (forall s a am om, get_slave d (fst x) = Ok s -> snd x = MaskWrite a am om -> sl_unsigned s = true).

Lemma rt_last p last d u c : can_send p last u c -> 0 <= ex_last (snd (round_trip p last d u c)) <= 65535.
Proof.
  intros (E & T & U & F). destruct (build_call u c E) as (pdu & P & _). destruct (execute_exact p last u c pdu E P (F pdu P) T U) as (h & last' & L & _ & _ & X).
  unfold round_trip, round_trip_args. cbn [snd]. rewrite X. exact L.
Qed.
Lemma rt_reachable p last d u c : db_reachable d -> db_reachable (fst (round_trip p last d u c)).
Proof.
  intros (e & ops & S & E). unfold round_trip, round_trip_args. cbn [fst]. destruct (ex_sent _) as [[request x]|]; [|exists e, ops; auto].
  exists e, (ops ++ [DbRequest p request]). split; [apply Forall_app; split; [exact S|constructor; [exact Logic.I|constructor]]|]. unfold db_run in *. rewrite fold_left_app. cbn [fold_left db_step]. now rewrite <- E.
Qed.
Lemma rt_absent p last d u c : 1 <= u <= 255 -> can_send p last u c -> get_slave d u = Err MissingKeyError ->
  fst (round_trip p last d u c) = d /\ ex_result (snd (round_trip p last d u c)) = Some (Err SocketTimeout).
Proof.
  intros U (E & T & U' & F) G. destruct (build_call u c E) as (pdu & P & _). specialize (F pdu P).
  assert (L : p = RTU \/ zlen pdu <= 65534) by (destruct p; auto). destruct (execute_call p last u c pdu E P L T U') as (i & last' & Pi & SD & _ & X).
  destruct (X (fun request _ => answer d p request)) as (_ & X2 & _ & X4). unfold round_trip, round_trip_args. cbn [fst snd]. rewrite X2.
  pose proof (db_absent d i u pdu SD U G) as DB. rewrite Pi in DB. rewrite DB. split; [reflexivity|]. apply X4. unfold answer. now rewrite DB.
Qed.

(** ** C120 *)
(** The results of a session are those of the world of devices, and the databank shows that world again afterwards. *)
Theorem C120_session_partial : forall p l last d w, 0 <= last <= 65535 -> db_reachable d -> shows d w -> Forall (fine p d) l ->
  Forall2 told (snd (session p last d l)) (snd (world_session w l)) /\ shows (fst (session p last d l)) (fst (world_session w l)).
Proof.
  intros p l. induction l as [|[u c] l IH]; intros last d w T D SH F; [split; [constructor|exact SH]|]. inversion_clear F as [|? ? F1 F2]. destruct F1 as (U & US & CS & MK). cbn [fst snd] in U, US, CS, MK. specialize (CS last T).
  pose proof (rt_last p last d u c CS) as T1. pose proof (rt_reachable p last d u c D) as D1. cbn [session world_session]. unfold world_call. pose proof (SH u) as SU. destruct (w u) as [dev|] eqn:W.
  - destruct SU as (s & G & TY & M). assert (MK' : sl_unsigned s = true \/ (forall a am om, c <> MaskWrite a am om)) by (destruct c; try (right; discriminate); left; eapply MK; eauto).
    pose proof (step_all p last d u s dev D G TY M c US MK' CS) as K. unfold step_ok in K. destruct (round_trip p last d u c) as [d1 e]. destruct K as (K1 & K2 & s' & K3 & K4 & K5 & K6). cbn [fst snd] in *.
    assert (SH1 : shows d1 (fun v => if v =? u then Some (fst (device_call dev c)) else w v)).
    { intros v. destruct (v =? u) eqn:E; [replace v with u by lia; eauto|]. rewrite K2 by lia. apply SH. }
    assert (F1 : Forall (fine p d1) l).
    { eapply Forall_impl; [|exact F2]. intros [u' c'] (A1 & A2 & A3 & A4). cbn [fst snd] in *. split; [exact A1|]. split; [exact A2|]. split; [exact A3|]. cbn [fst snd]. intros s1 a am om G1 C1.
      destruct (Z.eq_dec u' u) as [->|NE]; [|rewrite K2 in G1 by exact NE; eapply A4; eauto]. rewrite K3 in G1. injection G1 as <-. rewrite (proj1 K6). eapply A4; eauto. }
    destruct (IH (ex_last e) d1 _ T1 D1 SH1 F1) as (I1 & I2). destruct (session p (ex_last e) d1 l) as [d2 rs]. destruct (world_session _ l) as [w2 ys]. cbn [fst snd] in *. split; [constructor; [exact K1|exact I1]|exact I2].
  - destruct (rt_absent p last d u c U CS SU) as (R1 & R2). destruct (round_trip p last d u c) as [d1 e]. cbn [fst snd] in *. subst d1.
    destruct (IH (ex_last e) d w T1 D SH F2) as (I1 & I2). destruct (session p (ex_last e) d l) as [d2 rs]. destruct (world_session w l) as [w2 ys]. cbn [fst snd] in *. split; [constructor; [exact R2|exact I1]|exact I2].
Qed.
(** Every tidy slave shows a device. *)
Definition device_of (s : slave) : device :=
  {| dv_areas := fun t => map (fun b => (b_start b, b_size b)) (blocks s t);
     dv_cell := fun t a => match flat_map (fun b => match cell b a with Some v => [v] | None => [] end) (blocks s t) with v :: _ => shown t v | [] => 0 end |}.
Lemma only_here l a v b k : Forall wf_block l -> disjoint_blocks l -> nth_error l k = Some b -> cell b a = Some v ->
  exists rest, flat_map (fun b => match cell b a with Some v => [v] | None => [] end) l = v :: rest.
Proof.
  revert k. induction l as [|c l IH]; intros k W DJ K V; [destruct k; discriminate K|]. inversion_clear W as [|? ? Wc Wl]. destruct k as [|k]; cbn [nth_error] in K.
  - injection K as ->. cbn [flat_map]. rewrite V. eexists. reflexivity.
  - cbn [flat_map]. destruct (cell c a) as [v'|] eqn:C; [exfalso|].
    + apply (DJ 0%nat (S k) c b ltac:(discriminate) eq_refl K a); [now apply (cell_some c a v')|]. apply (cell_some b a v); [|exact V]. rewrite Forall_forall in Wl. apply Wl. eapply nth_error_In; eauto.
    + cbn [app]. apply (IH k Wl); auto. intros i j x y N I J. apply (DJ (S i) (S j) x y); auto.
Qed.
Lemma device_of_mirrors s : wf_slave s -> tidy s -> mirrors s (device_of s).
Proof.
  intros W (_ & _ & DJ & _). split; [reflexivity|]. intros t b a v I V. apply In_nth_error in I as (k & K). cbn [device_of dv_cell]. destruct (only_here (blocks s t) a v b k (W t) (DJ t) K V) as (rest & ->). reflexivity.
Qed.
(** the world a databank shows *)
Definition world_of (d : databank) : world := fun v => match get_slave d v with Ok s => Some (device_of s) | Err _ => None end.
Lemma world_of_shows d : db_reachable d -> (forall v s, get_slave d v = Ok s -> tidy s) -> shows d (world_of d).
Proof.
  intros D T v. unfold world_of. destruct (get_slave d v) as [s|e] eqn:G.
  - exists s. split; [reflexivity|]. split; [eapply T; eauto|]. apply device_of_mirrors; [|eapply T; eauto]. apply reachable_wf. now apply (db_reachable_slave d v s).
  - unfold get_slave in G. destruct (assoc _ _ _); [discriminate G|]. now injection G as <-.
Qed.
(** The statement without a world: the results are those of the devices seen in the databank at the start. *)
Theorem C120_from_databank_partial : forall p l last d, 0 <= last <= 65535 -> db_reachable d -> (forall v s, get_slave d v = Ok s -> tidy s) -> Forall (fine p d) l ->
  Forall2 told (snd (session p last d l)) (snd (world_session (world_of d) l)) /\ shows (fst (session p last d l)) (fst (world_session (world_of d) l)).
Proof. intros p l last d T D H F. apply C120_session_partial; auto. now apply world_of_shows. Qed.

(** ** Examples: demo_db has the units 3 (unsigned), 9 (signed) and 12 (no blocks) *)
Lemma single_block l : (length l <= 1)%nat -> disjoint_blocks l.
Proof.
  intros L i j x y N I J. assert (i < length l)%nat by (apply nth_error_Some; congruence). assert (j < length l)%nat by (apply nth_error_Some; congruence). lia.
Qed.
Lemma tidy_zero s : (forall t, get4 (sl_alias s) t = Some t) -> (forall t, (length (blocks s t) <= 1)%nat) -> (forall t b v, In b (blocks s t) -> In v (b_data b) -> v = 0) -> tidy s.
Proof.
  intros A L Z0. split; [intros t; unfold has_table; now rewrite A|]. split; [intros t t' X; unfold same_table in X; rewrite !A in X; congruence|]. split; [intros t; apply single_block, L|].
  intros t b v I V. rewrite (Z0 t b v I V). unfold fits. destruct (sl_unsigned s); lia.
Qed.
Lemma demo_tidy : forall v s, get_slave demo_db v = Ok s -> tidy s.
Proof.
  intros v s G. unfold get_slave in G. destruct (assoc Z.eqb v (db_slaves demo_db)) as [s0|] eqn:A; [|discriminate G]. injection G as ->. apply zassoc_in in A. vm_compute in A.
  repeat (destruct A as [A|A]; [injection A as _ <-; apply tidy_zero; [intros []; reflexivity|intros []; vm_compute; lia|
    intros [] b x I V; vm_compute in I; repeat (destruct I as [<-|I]; [vm_compute in V; repeat (destruct V as [<-|V]; [reflexivity|]); destruct V|]); destruct I]|]). destruct A.
Qed.
Lemma fine_intro p d u c pdu : 1 <= u <= 255 -> usual c -> encodable c -> prescribed c pdu -> zlen pdu <= 65534 ->
  (forall s a am om, get_slave d u = Ok s -> c = MaskWrite a am om -> sl_unsigned s = true) -> fine p d (u, c).
Proof.
  intros U US E P L MK. split; [exact U|]. split; [exact US|]. split; [|exact MK]. intros last T. split; [exact E|]. split; [exact T|]. split; [cbn [fst]; lia|]. intros pdu' P'. rewrite (prescribed_unique c _ _ P' P). now apply framable_small.
Qed.
Definition demo_calls : list (Z * call) :=
  [(9, WriteRegs 102 [-5; 7]); (9, ReadRegs true 101 4); (3, MaskWrite 104 65280 18); (3, ReadWriteRegs 104 1 108 [1; 2]); (3, ReadRegs true 108 3); (77, ReadStatus); (9, ReadBits true 19 1); (12, WriteCoil 0 1); (3, Diagnostic 0 [1; 2])].
Example C120_ex : Forall (fine TCP demo_db) demo_calls /\
  snd (world_session (world_of demo_db) demo_calls) =
    [Some (Values [102; 2]); Some (Values [0; 65531; 7; 0]); Some (Values [104; 65280; 18]); Some (Values [18]); Some (Refused 2); None; Some (Values [0]); Some (Refused 2); Some (Refused 1)] /\
  snd (session TCP 65535 demo_db demo_calls) =
    [Some (Ok (RTuple [102; 2])); Some (Ok (RTuple [0; 65531; 7; 0])); Some (Ok (RTuple [104; 65280; 18])); Some (Ok (RTuple [18])); Some (Err (ModbusError 2)); Some (Err SocketTimeout);
     Some (Ok (RTuple [0])); Some (Err (ModbusError 2)); Some (Err (ModbusError 1))].
Proof.
  split; [|split; vm_compute; reflexivity]. unfold demo_calls.
  repeat (constructor; [eapply fine_intro; [lia|cbn [usual]; try exact Logic.I; change (zlen [1; 2]) with 2; lia|cbn [encodable]; unfold fits, bytes, is_byte, zlen, reg_value; cbn [length Z.of_nat]; repeat constructor; lia|reflexivity|vm_compute; discriminate|
    intros s a am om G C; try discriminate C; vm_compute in G; injection G as <-; reflexivity]|]). constructor.
Qed.
(** ** The calls left out are left out for a reason *)
(** a combined read and write of one register: the protocol says the write comes first, the slave reads first *)
Theorem C120_overlap_refuted : ex_result (snd (round_trip TCP 0 demo_db 3 (ReadWriteRegs 100 1 100 [9]))) = Some (Ok (RTuple [0])) /\
  snd (world_call (world_of demo_db) 3 (ReadWriteRegs 100 1 100 [9])) = Some (Values [9]).
Proof. split; vm_compute; reflexivity. Qed.
(** more than 121 values in a combined read and write: the protocol says exception 3, the slave does not count so *)
Theorem C120_limit_refuted : ex_result (snd (round_trip TCP 0 demo_db 3 (ReadWriteRegs 100 1 102 (repeat 1 122)))) = Some (Err (ModbusError 2)) /\
  snd (world_call (world_of demo_db) 3 (ReadWriteRegs 100 1 102 (repeat 1 122))) = Some (Refused 3).
Proof. split; vm_compute; reflexivity. Qed.
(** a mask write to a signed slave: the register can no longer be read *)
Theorem C120_signed_refuted : snd (session TCP 0 demo_db [(9, MaskWrite 100 0 40000); (9, ReadRegs true 100 1)]) = [Some (Ok (RTuple [100; 0; 40000])); Some (Err ModbusInvalidResponseError)] /\
  snd (world_session (world_of demo_db) [(9, MaskWrite 100 0 40000); (9, ReadRegs true 100 1)]) = [Some (Values [100; 0; 40000]); Some (Values [40000])].
Proof. split; vm_compute; reflexivity. Qed.

Print Assumptions C120_session_partial.
Print Assumptions C120_from_databank_partial.
Print Assumptions C120_overlap_refuted.
Print Assumptions C120_limit_refuted.
Print Assumptions C120_signed_refuted.
