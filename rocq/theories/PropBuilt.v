(** C128: a slave is, for every request a master can make, the device of BuiltSpec.v.
    Vocabulary: BuiltSpec.v (the device), EndSpec.v (round_trip), PropDevice.v (mirrors, shows_as, session) and the definitions below. *)
From Coq Require Import ZArith Lia ZifyBool ZifyNat.
From Verif Require Import Base BaseFacts PyStruct Spec StructFacts StructMore Defines SlaveModel SlaveSpec SlaveProofs BlockSpec BlockProofs HandlerProofs RequestProofs GeneralProofs SlaveInv SlaveMore AtomicProofs PropSlave.
From Verif Require Import FrameSpec QueryModel DatabankModel MasterModel MasterSpec DbSpec DatabankProofs MasterProofs DecodeProofs EndSpec EndProofs PropDatabank PropMaster DeviceSpec PropDevice BuiltSpec.
Ltac Zify.zify_post_hook ::= Z.div_mod_to_equations.
Open Scope string_scope.
Open Scope list_scope.
Open Scope Z_scope.

(** ** Spec *)
(** four tables of their own, blocks of one table without common addresses; nothing is said about the values *)
Definition plain (s : slave) : Prop := all_tables s /\ (forall t t', same_table s t t' -> t = t') /\ (forall t, disjoint_blocks (blocks s t)).
(** the device shows the cells of the slave; its odd cells are the registers whose number does not fit *)
Definition pictures (s : slave) (b : built) : Prop :=
  mirrors s (bt_device b) /\ bt_signed b = negb (sl_unsigned s) /\
  (forall t bl a v, In bl (blocks s t) -> cell bl a = Some v -> is_register t = true -> (bt_odd b t a = false <-> fits (sl_unsigned s) v)).
Definition ends_as (r : option (res exec_result)) (o : outcome) : Prop :=
  match o with Says y => shows_as r y | Fails => r = Some (Err ModbusInvalidResponseError) end.
(** the databank shows the works *)
Definition exhibits (d : databank) (w : works) : Prop :=
  forall v, match w v with Some b => exists s, get_slave d v = Ok s /\ plain s /\ pictures s b | None => get_slave d v = Err MissingKeyError end.
Definition told_as (r : option (res exec_result)) (o : option outcome) : Prop :=
  match o with Some o => ends_as r o | None => r = Some (Err SocketTimeout) end.
(** a call of a named function, to a unit, that can be sent *)
Definition askable (p : proto) (x : Z * call) : Prop :=
  1 <= fst x <= 255 /\ (forall pdu, snd x <> Raw pdu) /\ (forall last, 0 <= last <= 65535 -> can_send p last (fst x) (snd x)).

(** ** Writes *)
Lemma changed_mirrors' s d t a vals s' : wf_slave s -> plain s -> mirrors s d -> changed s t a vals s' -> mirrors s' (put_cells d t a (map (shown t) vals)).
Proof.
  intros W (_ & DT & DJ) [MA MC] (l1 & b & l2 & E & C & E' & (_ & _ & _ & _ & FR)). pose proof (block_wf _ _ _ _ _ W E) as WB.
  assert (OT : forall t', t' <> t -> blocks s' t' = blocks s t') by (intros t' N; apply FR; intros X; apply N; symmetry; now apply DT).
  split.
  - intros t'. cbn [put_cells dv_areas]. rewrite MA. destruct (same_type t t') eqn:T.
    + apply same_type_iff in T. subst t'. rewrite E, E', !map_app. reflexivity.
    + rewrite OT; [reflexivity|]. intros ->. assert (X : same_type t t = true) by (now apply same_type_iff). congruence.
  - intros t' c x v I V. cbn [put_cells dv_cell]. destruct (same_type t t') eqn:T.
    + apply same_type_iff in T. subst t'. cbn [andb]. rewrite zlen_map. rewrite E' in I. apply In_nth_error in I as (k & K). destruct (Nat.eq_dec k (length l1)) as [->|NK].
      * rewrite nth_error_at in K. injection K as <-. destruct ((a <=? x) && (x <? a + zlen vals)) eqn:R.
        -- replace x with (a + (x - a)) in V by lia. rewrite cell_overlay_in in V; [|exact C|apply WB|lia]. apply (map_nth_error (shown t)) in V. now apply nth_error_nth with (d := 0) in V.
        -- rewrite cell_overlay_out in V; [|exact C|apply WB|lia]. apply (MC t b); [|exact V]. rewrite E. apply in_or_app. right. now left.
      * assert (K2 : nth_error (blocks s t) k = Some c) by (rewrite E; eapply nth_error_mid; eauto). assert (K1 : nth_error (blocks s t) (length l1) = Some b) by (rewrite E; apply nth_error_at).
        assert (IC : In c (blocks s t)) by (eapply nth_error_In; eauto). assert (WC : wf_block c) by (specialize (W t); rewrite Forall_forall in W; now apply W).
        assert (HC : holds c x) by (eapply cell_some; eauto). destruct ((a <=? x) && (x <? a + zlen vals)) eqn:R; [|apply (MC t c); assumption].
        exfalso. apply (DJ t k (length l1) c b NK K2 K1 x HC). unfold holds. destruct C. lia.
    + cbn [andb]. apply (MC t' c); [|exact V]. rewrite <- OT; [exact I|]. intros ->. assert (X : same_type t t = true) by (now apply same_type_iff). congruence.
Qed.
(** where a cell of the slave afterwards comes from *)
Lemma changed_cells s t a vals s' : wf_slave s -> plain s -> changed s t a vals s' ->
  forall t' c x v, In c (blocks s' t') -> cell c x = Some v ->
    (same_type t t' && (a <=? x) && (x <? a + zlen vals) = true /\ In v vals) \/
    (same_type t t' && (a <=? x) && (x <? a + zlen vals) = false /\ exists c0, In c0 (blocks s t') /\ cell c0 x = Some v).
Proof.
  intros W (_ & DT & DJ) (l1 & b & l2 & E & C & E' & (_ & _ & _ & _ & FR)) t' c x v I V. pose proof (block_wf _ _ _ _ _ W E) as WB.
  assert (OT : forall t', t' <> t -> blocks s' t' = blocks s t') by (intros t0 N; apply FR; intros X; apply N; symmetry; now apply DT).
  destruct (same_type t t') eqn:T; cbn [andb].
  - apply same_type_iff in T. subst t'. rewrite E' in I. apply In_nth_error in I as (k & K). destruct (Nat.eq_dec k (length l1)) as [->|NK].
    + rewrite nth_error_at in K. injection K as <-. destruct ((a <=? x) && (x <? a + zlen vals)) eqn:R.
      * left. split; [reflexivity|]. replace x with (a + (x - a)) in V by lia. rewrite cell_overlay_in in V; [|exact C|apply WB|lia]. eapply nth_error_In; eauto.
      * right. split; [reflexivity|]. rewrite cell_overlay_out in V; [|exact C|apply WB|lia]. exists b. split; [rewrite E; apply in_elt|exact V].
    + right. assert (K2 : nth_error (blocks s t) k = Some c) by (rewrite E; eapply nth_error_mid; eauto). assert (K1 : nth_error (blocks s t) (length l1) = Some b) by (rewrite E; apply nth_error_at).
      assert (IC : In c (blocks s t)) by (eapply nth_error_In; eauto). assert (WC : wf_block c) by (specialize (W t); rewrite Forall_forall in W; now apply W).
      assert (HC : holds c x) by (eapply cell_some; eauto). split; [|eauto]. destruct ((a <=? x) && (x <? a + zlen vals)) eqn:R; [|reflexivity].
      exfalso. apply (DJ t k (length l1) c b NK K2 K1 x HC). unfold holds. destruct C. lia.
  - right. split; [reflexivity|]. exists c. split; [|exact V]. rewrite <- OT; [exact I|]. intros ->. assert (X : same_type t t = true) by (now apply same_type_iff). congruence.
Qed.
Lemma changed_plain s t a vals s' : wf_slave s -> plain s -> changed s t a vals s' -> plain s'.
Proof.
  intros W (T1 & T2 & T3) (l1 & b & l2 & E & C & E' & (F1 & F2 & F3 & F4 & F5)). pose proof (block_wf _ _ _ _ _ W E) as WB.
  assert (OT : forall t', t' <> t -> blocks s' t' = blocks s t') by (intros t' N; apply F5; intros X; apply N; symmetry; now apply T2).
  assert (DT : forall t' : btype, t' = t \/ t' <> t) by (intros t'; destruct t', t; (left; reflexivity) || (right; discriminate)).
  split; [|split].
  - intros t'. unfold has_table. rewrite F3. apply T1.
  - intros t' t'' X. apply T2. unfold same_table in *. now rewrite F3 in X.
  - intros t'. destruct (DT t') as [->|N]; [|rewrite OT by exact N; apply T3]. apply disjoint_shape with (l := blocks s t); [|apply T3]. rewrite E, E'.
    apply Forall2_app; [|constructor; [apply same_shape_overlay; [apply WB|exact C]|]]; clear; match goal with |- Forall2 _ ?l _ => induction l; constructor; auto using same_shape_refl end.
Qed.
Lemma changed_layout' s t a vals s' : wf_slave s -> plain s -> changed s t a vals s' -> same_layout s s'.
Proof.
  intros W (T1 & T2 & T3) (l1 & b & l2 & E & C & E' & (F1 & F2 & F3 & F4 & F5)). pose proof (block_wf _ _ _ _ _ W E) as WB.
  split; [exact F1|]. split; [exact F2|]. split; [exact F3|]. intros t'. assert (DT : t' = t \/ t' <> t) by (destruct t', t; (left; reflexivity) || (right; discriminate)). destruct DT as [->|N].
  - rewrite E, E'. apply Forall2_app; [|constructor; [apply same_shape_overlay; [apply WB|exact C]|]]; clear; match goal with |- Forall2 _ ?l _ => induction l; constructor; auto using same_shape_refl end.
  - rewrite F5 by (intros X; apply N; symmetry; now apply T2). apply Forall2_same_shape_refl.
Qed.
Lemma wrote_pictures s b t a vals s' odd : wf_slave s -> plain s -> pictures s b -> wrote s t a vals s' ->
  (is_register t = true -> forall v, In v vals -> (odd = false <-> fits (sl_unsigned s) v)) -> plain s' /\ pictures s' (store b t a (map (shown t) vals) odd).
Proof.
  intros W P (M & S & O) WR F. apply wrote_changed in WR. split; [now apply (changed_plain s t a vals)|]. split; [now apply (changed_mirrors' s)|].
  assert (U : sl_unsigned s' = sl_unsigned s) by (destruct WR as (l1 & b0 & l2 & _ & _ & _ & (F1 & _)); exact F1).
  split; [cbn [store bt_signed]; now rewrite U|]. intros t' c x v I V R. rewrite U. cbn [store bt_odd]. rewrite zlen_map.
  destruct (changed_cells s t a vals s' W P WR t' c x v I V) as [(Q & I')|(Q & c0 & I0 & V0)]; rewrite Q; [|now apply (O t' c0)].
  assert (T : same_type t t' = true) by (destruct (same_type t t'); [reflexivity|discriminate Q]). apply same_type_iff in T. subst t'. now apply F.
Qed.
Lemma odd_cells s b t a n bl : wf_slave s -> pictures s b -> is_register t = true -> In bl (blocks s t) -> covers bl a n -> 0 <= n ->
  (odd_in b t a n = false <-> Forall (fits (sl_unsigned s)) (values_at bl a n)).
Proof.
  intros W (_ & _ & O) R I C N. assert (WB : wf_block bl) by (specialize (W t); rewrite Forall_forall in W; now apply W). pose proof (values_at_length bl a n C N ltac:(apply WB)) as L.
  assert (E : odd_in b t a n = false <-> forall k, (k < Z.to_nat n)%nat -> bt_odd b t (a + Z.of_nat k) = false).
  { unfold odd_in. split.
    - intros H k K. destruct (bt_odd b t (a + Z.of_nat k)) eqn:Q; [|reflexivity]. rewrite <- H. symmetry. apply existsb_exists. exists k. split; [apply in_seq; lia|exact Q].
    - intros H. destruct (existsb _ _) eqn:Q; [|reflexivity]. apply existsb_exists in Q as (k & K & Q). apply in_seq in K. rewrite H in Q by lia. discriminate Q. }
  rewrite E. split.
  - intros H. apply Forall_forall. intros v V. apply In_nth_error in V as (k & K). assert (KL : (k < Z.to_nat n)%nat) by (assert ((k < length (values_at bl a n))%nat) by (apply nth_error_Some; congruence); unfold zlen in L; lia).
    destruct (values_cell bl a n k WB C KL) as (v' & V1 & V2). assert (v' = v) by congruence. subst v'. apply (O t bl (a + Z.of_nat k) v I V2 R). now apply H.
  - intros H k K. destruct (values_cell bl a n k WB C K) as (v & V1 & V2). apply (O t bl _ v I V2 R). rewrite Forall_forall in H. apply H. eapply nth_error_In; eauto.
Qed.

(** ** One call *)
Definition step_as (p : proto) (last : Z) (d : databank) (u : Z) (c : call) (s : slave) (b : built) : Prop :=
  let '(d', e) := round_trip p last d u c in
  ends_as (ex_result e) (snd (built_call b c)) /\ others_same d d' u /\
  exists s', get_slave d' u = Ok s' /\ plain s' /\ pictures s' (fst (built_call b c)) /\ same_layout s s'.
Lemma as_refused p last d u c pdu s b x code : db_reachable d -> get_slave d u = Ok s -> plain s -> pictures s b -> can_send p last u c -> prescribed c pdu ->
  handle_request s pdu false = (s, Ok [x; code]) -> 128 < x -> built_call b c = (b, Says (Refused code)) -> step_as p last d u c s b.
Proof.
  intros D G P M CS PR H X DC. unfold step_as. assert (H' : snd (handle_request s pdu false) = Ok [x; code]) by now rewrite H.
  pose proof (C41_end_to_end p last d u c pdu s x code D G CS PR H' X) as K. destruct (round_trip p last d u c) as [d' e]. destruct K as (K1 & K2 & _). rewrite DC. cbn [fst snd ends_as shows_as].
  split; [exact K1|]. split; [intros v _; apply K2|]. exists s. rewrite K2. auto using layout_refl.
Qed.
Lemma too_short h x y : parse_response h [x; y] = Err ModbusInvalidResponseError.
Proof. destruct h; reflexivity. Qed.
Lemma as_fails p last d u c pdu s b : db_reachable d -> get_slave d u = Ok s -> plain s -> pictures s b -> can_send p last u c -> prescribed c pdu ->
  handle_request s pdu false = (s, Err StructError) -> (exists fc rest, pdu = fc :: rest /\ 0 <= fc < 128) -> built_call b c = (b, Fails) -> step_as p last d u c s b.
Proof.
  intros D G P M (E & T & U' & F) PR H (fc & rest & -> & FC) DC. destruct (db_reachable_slave d u s D G) as [_ U]. unfold step_as, round_trip, round_trip_args.
  destruct (execute_exact p last u c _ E PR (F _ PR) T U') as (h & last' & _ & SD & _ & X). rewrite X. cbn [ex_sent ex_result fst snd].
  assert (Q : p = proto_of (ids_for p last)) by (now destruct p).
  assert (DB : db_handle_request d p (on_wire (ids_for p last) u (fc :: rest)) = (put_slave d u s, Ok (Some [fc + 128; 4]))).
  { rewrite Q at 1. rewrite (db_present d (ids_for p last) u _ s SD U G), H. cbn [fst snd db_catch]. unfold failure_response. cbn [py_slice]. rewrite unpack_fc. cbn [bind]. rewrite pack_BB.
    replace (byte_b (fc + 128)) with true by (unfold byte_b; lia). reflexivity. }
  unfold answer. rewrite DB. cbn [fst snd sent bind]. rewrite too_short, DC. cbn [fst snd ends_as]. split; [reflexivity|]. split; [intros v _; now apply get_slave_put_id|]. exists s. rewrite get_slave_put_same. auto using layout_refl.
Qed.
Lemma as_wrote p last d u c s b t a vals l odd : wf_slave s -> plain s -> pictures s b ->
  (is_register t = true -> forall v, In v vals -> (odd = false <-> fits (sl_unsigned s) v)) ->
  built_call b c = (store b t a (map (shown t) vals) odd, Says (Values l)) ->
  (let '(d1, e1) := round_trip p last d u c in ex_result e1 = Some (Ok (RTuple l)) /\ others_same d d1 u /\ exists s', get_slave d1 u = Ok s' /\ wrote s t a vals s') -> step_as p last d u c s b.
Proof.
  intros W P M V DC K. unfold step_as. destruct (round_trip p last d u c) as [d1 e1]. destruct K as (K1 & K2 & s' & K3 & K4). rewrite DC. cbn [fst snd ends_as shows_as]. split; [exact K1|]. split; [exact K2|].
  exists s'. split; [exact K3|]. destruct (wrote_pictures s b t a vals s' odd W P M K4 V) as (Q1 & Q2). split; [exact Q1|]. split; [exact Q2|]. apply (changed_layout' s t a vals); auto. now apply wrote_changed.
Qed.
Section Step.
Context (p : proto) (last : Z) (d : databank) (u : Z) (s : slave) (b : built).
Context (D : db_reachable d) (G : get_slave d u = Ok s) (P : plain s) (M : pictures s b).
Let dev := bt_device b.
Lemma bs_reach : reachable s. Proof. now apply (db_reachable_slave d u s). Qed.
Lemma bs_wf : wf_slave s. Proof. apply reachable_wf, bs_reach. Qed.
Lemma bs_table t : has_table s t. Proof. apply P. Qed.
Lemma bs_m : mirrors s dev. Proof. apply M. Qed.
Lemma bs_stored t a n bl : served_by s t a n bl -> stored s t a n (values_at bl a n).
Proof. intros H. split; [apply bs_table|eauto]. Qed.
Lemma bs_odd t a n bl : is_register t = true -> served_by s t a n bl -> 0 <= n -> (odd_in b t a n = false <-> Forall (fits (sl_unsigned s)) (values_at bl a n)).
Proof. intros R (l1 & l2 & E & C & _) N. apply (odd_cells s b t a n bl bs_wf M R); [rewrite E; apply in_elt|exact C|exact N]. Qed.
Lemma bs_unodd t a n bl : is_register t = true -> served_by s t a n bl -> 0 <= n -> odd_in b t a n = true -> ~ Forall (fits (sl_unsigned s)) (values_at bl a n).
Proof. intros R S N O F. apply (bs_odd t a n bl R S N) in F. congruence. Qed.
Lemma odd_false v : fits (sl_unsigned s) v -> (false = false <-> fits (sl_unsigned s) v). Proof. tauto. Qed.
Lemma bs_regs (holding : bool) a n : can_send p last u (ReadRegs holding a n) -> step_as p last d u (ReadRegs holding a n) s b.
Proof.
  intros CS. pose proof CS as ((Ha & Hn) & T & _). set (t := if holding then HOLDING_REGISTERS else ANALOG_INPUTS). set (fc := if holding then 3 else 4).
  assert (R : reg_table fc t) by (unfold fc, t; destruct holding; [left|right]; auto). assert (F : 128 < fc + 128) by (unfold fc; destruct holding; lia). assert (IR : is_register t = true) by (unfold t; now destruct holding).
  destruct (C08_read_registers s fc t a n [] bs_reach R (bs_table t) Ha Hn) as (_ & E3 & E2). rewrite app_nil_r in E3, E2.
  assert (PR : prescribed (ReadRegs holding a n) (fc :: word a ++ word n)) by reflexivity.
  destruct ((1 <=? n) && (n <=? 125)) eqn:N; [|apply (as_refused p last d u _ _ s b (fc + 128) 3 D G P M CS PR); [apply E3; lia|exact F|cbn [built_call]; unfold guard; now rewrite N]].
  destruct (present dev t a n) eqn:Q; [|apply (as_refused p last d u _ _ s b (fc + 128) 2 D G P M CS PR); [apply E2; [lia|now apply absent_not_covered with dev, Q; apply bs_m]|exact F|cbn [built_call]; unfold guard; fold dev t; now rewrite N, Q]].
  destruct (present_served s dev t a n bs_m Q) as (bl & SB).
  destruct (odd_in b t a n) eqn:O.
  - apply (as_fails p last d u _ (fc :: word a ++ word n) s b D G P M CS PR).
    + rewrite <- (app_nil_r (word n)). apply (hr_err s fc _ (fun s pdu => (s, read_registers s t pdu))); [now apply reg_table_map| |discriminate|reflexivity].
      cbn beta. rewrite (read_registers_unfit s t fc a n bl); auto; [apply bs_table|lia|apply (bs_unodd t a n bl IR SB); [lia|exact O]].
    + exists fc. eexists. split; [reflexivity|]. unfold fc. destruct holding; lia.
    + cbn [built_call]. unfold guard. fold dev t. now rewrite N, Q, O.
  - apply (bs_odd t a n bl IR SB) in O; [|lia]. pose proof (C39_read_registers p last d u holding a n s (values_at bl a n) T D G ltac:(lia) Ha (bs_stored _ _ _ _ SB) O) as K.
    pose proof (proj2 (bs_odd t a n bl IR SB ltac:(lia)) O) as O'. unfold step_as. destruct (round_trip p last d u (ReadRegs holding a n)) as [d' e]. destruct K as (K1 & K2).
    cbn [built_call]. unfold guard. fold dev t. rewrite N, Q, O'. cbn [fst snd ends_as]. rewrite <- (shown_values s dev t a n bl bs_m bs_wf SB) by lia. split; [|split; [intros v _; apply K2|exists s; rewrite K2; auto using layout_refl]].
    rewrite K1. unfold shows_as. replace (map (shown t) (values_at bl a n)) with (map as_word (values_at bl a n)); [reflexivity|]. apply map_ext. intros v. unfold shown, t. destruct holding; reflexivity.
Qed.
Lemma bs_bits (coils : bool) a n : can_send p last u (ReadBits coils a n) -> step_as p last d u (ReadBits coils a n) s b.
Proof.
  intros CS. pose proof CS as ((Ha & Hn) & T & _). set (t := if coils then COILS else DISCRETE_INPUTS). set (fc := if coils then 1 else 2).
  assert (R : bit_table fc t) by (unfold fc, t; destruct coils; [left|right]; auto). assert (F : 128 < fc + 128) by (unfold fc; destruct coils; lia).
  destruct (C09_read_bits s fc t a n [] bs_reach R (bs_table t) Ha Hn) as (_ & E3 & E2). rewrite app_nil_r in E3, E2.
  assert (PR : prescribed (ReadBits coils a n) (fc :: word a ++ word n)) by reflexivity.
  destruct ((1 <=? n) && (n <=? 2000)) eqn:N; [|apply (as_refused p last d u _ _ s b (fc + 128) 3 D G P M CS PR); [apply E3; lia|exact F|cbn [built_call]; unfold guard; now rewrite N]].
  destruct (present dev t a n) eqn:Q; [|apply (as_refused p last d u _ _ s b (fc + 128) 2 D G P M CS PR); [apply E2; [lia|now apply absent_not_covered with dev, Q; apply bs_m]|exact F|cbn [built_call]; unfold guard; fold dev t; now rewrite N, Q]].
  destruct (present_served s dev t a n bs_m Q) as (bl & SB).
  pose proof (C39_read_bits p last d u coils a n s (values_at bl a n) T D G ltac:(lia) Ha (bs_stored _ _ _ _ SB)) as K. unfold step_as. destruct (round_trip p last d u (ReadBits coils a n)) as [d' e]. destruct K as (K1 & K2).
  cbn [built_call]. unfold guard. fold dev t. rewrite N, Q. cbn [fst snd ends_as]. rewrite <- (shown_values s dev t a n bl bs_m bs_wf SB) by lia. split; [|split; [intros v _; apply K2|exists s; rewrite K2; auto using layout_refl]].
  rewrite K1. unfold shows_as. replace (map (shown t) (values_at bl a n)) with (map as_bit (values_at bl a n)); [reflexivity|]. apply map_ext. intros v. unfold shown, t. destruct coils; reflexivity.
Qed.
Lemma bs_coil a v : can_send p last u (WriteCoil a v) -> step_as p last d u (WriteCoil a v) s b.
Proof.
  intros CS. pose proof CS as (Ha & T & _). cbn [encodable] in Ha. set (w := if v =? 0 then 0 else 65280).
  destruct (C10_write_coil s a w [] bs_reach (bs_table _) Ha ltac:(unfold w, fits; destruct (v =? 0); lia)) as (_ & _ & _ & E2). rewrite app_nil_r in E2.
  assert (PR : prescribed (WriteCoil a v) (5 :: word a ++ word w)) by (cbn [prescribed]; unfold w; now destruct (v =? 0)).
  destruct (present dev COILS a 1) eqn:Q; [|apply (as_refused p last d u _ _ s b 133 2 D G P M CS PR); [apply E2; now apply absent_not_covered with dev, Q; apply bs_m|lia|cbn [built_call]; unfold guard; fold dev; cbn [Z.leb andb]; now rewrite Q]].
  destruct (present_served s dev COILS a 1 bs_m Q) as (bl & SB).
  pose proof (C40_coil p last d u a v s T D G Ha (ex_intro _ _ (bs_stored _ _ _ _ SB))) as K. apply (as_wrote p last d u _ s b COILS a [as_bit v] [a; if v =? 0 then 0 else 65280] false bs_wf P M).
  - discriminate.
  - cbn [built_call]. unfold guard. fold dev. change ((1 <=? 1) && (1 <=? 1)) with true. rewrite Q. cbn [map]. unfold shown, as_bit. cbn [is_register]. now destruct (v =? 0).
  - destruct (round_trip p last d u (WriteCoil a v)) as [d1 e1]. destruct (round_trip _ _ _ _ _) as [d2 e2]. destruct K as (K1 & _ & K2 & _ & K3). auto.
Qed.
Lemma bs_reg a v : can_send p last u (WriteReg a v) -> step_as p last d u (WriteReg a v) s b.
Proof.
  intros CS. pose proof CS as ((Ha & Hv) & T & _).
  destruct (C11_write_register s a (as_word v) [] bs_reach (bs_table _) Ha ltac:(unfold fits, as_word; lia)) as (_ & E2). rewrite app_nil_r in E2.
  assert (PR : prescribed (WriteReg a v) (6 :: word a ++ word (as_word v))) by (cbn [prescribed]; do 2 f_equal; pose proof (words_mod [v]) as X; cbn [words flat_map map] in X; rewrite !app_nil_r in X; now symmetry).
  destruct (present dev HOLDING_REGISTERS a 1) eqn:Q; [|apply (as_refused p last d u _ _ s b 134 2 D G P M CS PR); [apply E2; now apply absent_not_covered with dev, Q; apply bs_m|lia|cbn [built_call]; unfold guard; fold dev; cbn [Z.leb andb]; now rewrite Q]].
  destruct (present_served s dev HOLDING_REGISTERS a 1 bs_m Q) as (bl & SB).
  pose proof (C40_register p last d u a v s T D G Hv Ha (ex_intro _ _ (bs_stored _ _ _ _ SB))) as K. apply (as_wrote p last d u _ s b HOLDING_REGISTERS a [reg_of_word (sl_unsigned s) (as_word v)] [a; as_word v] false bs_wf P M).
  - intros _ x [<-|[]]. apply odd_false, fits_word.
  - cbn [built_call]. unfold guard. fold dev. change ((1 <=? 1) && (1 <=? 1)) with true. rewrite Q. cbn [map]. now rewrite shown_word.
  - destruct (round_trip p last d u (WriteReg a v)) as [d1 e1]. destruct (round_trip _ _ _ _ _) as [d2 e2]. destruct K as (K1 & _ & K2 & _ & K3). auto.
Qed.
Lemma bs_coils a vals : can_send p last u (WriteCoils a vals) -> step_as p last d u (WriteCoils a vals) s b.
Proof.
  intros CS. pose proof CS as ((Ha & Hl) & T & _). pose proof (zlen_nonneg vals) as L0. destruct (build_call u (WriteCoils a vals) (conj Ha Hl)) as (pdu & PR & B & _). pose proof PR as (out & PB & EP).
  assert (LO : zlen out = bytes_for_bits (zlen vals)) by (destruct PB as [PB _]; now rewrite zlen_map in PB).
  assert (BO : bytes out) by (destruct PB as (_ & PB & _); exact PB).
  destruct (C12_write_coils s a (zlen vals) out [] bs_reach (bs_table _) Ha ltac:(unfold fits; lia) BO) as (_ & E3 & E2).
  destruct ((1 <=? zlen vals) && (zlen vals <=? 1968)) eqn:N; [|apply (as_refused p last d u _ _ s b 143 3 D G P M CS PR); [rewrite EP; apply E3; lia|lia|cbn [built_call]; unfold guard; now rewrite N]].
  destruct (present dev COILS a (zlen vals)) eqn:Q; [|apply (as_refused p last d u _ _ s b 143 2 D G P M CS PR); [rewrite EP, LO; apply E2; [lia|now apply absent_not_covered with dev, Q; apply bs_m]|lia|cbn [built_call]; unfold guard; fold dev; now rewrite N, Q]].
  destruct (present_served s dev COILS a _ bs_m Q) as (bl & SB).
  pose proof (C40_coils p last d u a vals s T D G ltac:(lia) Ha (ex_intro _ _ (bs_stored _ _ _ _ SB))) as K. apply (as_wrote p last d u _ s b COILS a (map on_off vals) [a; zlen vals] false bs_wf P M).
  - discriminate.
  - cbn [built_call]. unfold guard. fold dev. rewrite N, Q, map_map. do 2 f_equal. apply map_ext. intros v. unfold shown, on_off. cbn [is_register]. now destruct (0 <? v).
  - destruct (round_trip p last d u (WriteCoils a vals)) as [d1 e1]. destruct (round_trip _ _ _ _ _) as [d2 e2]. destruct K as (K1 & _ & K2 & _ & K3). auto.
Qed.
Lemma words_not_odd vals x : In x (map (fun v => reg_of_word (sl_unsigned s) (as_word v)) vals) -> (false = false <-> fits (sl_unsigned s) x).
Proof. intros I. apply odd_false. pose proof (fits_words (sl_unsigned s) vals) as F. rewrite Forall_forall in F. now apply F. Qed.
Lemma bs_regs16 a vals : can_send p last u (WriteRegs a vals) -> step_as p last d u (WriteRegs a vals) s b.
Proof.
  intros CS. pose proof CS as ((Ha & Hl & Hv) & T & _). pose proof (zlen_nonneg vals) as L0. pose proof (eq_refl : prescribed (WriteRegs a vals) (16 :: word a ++ word (zlen vals) ++ 2 * zlen vals :: words vals)) as PR.
  destruct (C13_write_registers s a bs_reach (bs_table _) Ha) as (_ & E3 & E2).
  destruct ((1 <=? zlen vals) && (zlen vals <=? 123)) eqn:N; [|apply (as_refused p last d u _ _ s b 144 3 D G P M CS PR); [apply E3; [unfold fits|]; lia|lia|cbn [built_call]; unfold guard; now rewrite N]].
  destruct (present dev HOLDING_REGISTERS a (zlen vals)) eqn:Q; [|apply (as_refused p last d u _ _ s b 144 2 D G P M CS PR); [apply E2; [lia|now apply absent_not_covered with dev, Q; apply bs_m]|lia|cbn [built_call]; unfold guard; fold dev; now rewrite N, Q]].
  destruct (present_served s dev HOLDING_REGISTERS a _ bs_m Q) as (bl & SB).
  pose proof (C40_registers p last d u a vals s T D G ltac:(lia) Hv Ha (ex_intro _ _ (bs_stored _ _ _ _ SB))) as K.
  apply (as_wrote p last d u _ s b HOLDING_REGISTERS a (map (fun v => reg_of_word (sl_unsigned s) (as_word v)) vals) [a; zlen vals] false bs_wf P M).
  - intros _ x. apply words_not_odd.
  - cbn [built_call]. unfold guard. fold dev. now rewrite N, Q, shown_words.
  - destruct (round_trip p last d u (WriteRegs a vals)) as [d1 e1]. destruct (round_trip _ _ _ _ _) as [d2 e2]. destruct K as (K1 & _ & K2 & _ & K3). auto.
Qed.
Lemma mask_small old am om : 0 <= am < 65536 -> 0 <= om < 65536 ->
  Z.lor (Z.land (old mod 65536) am) (Z.land om (Z.lnot am)) = Z.lor (Z.land old am) (Z.land om (Z.lnot am)) /\ 0 <= Z.lor (Z.land old am) (Z.land om (Z.lnot am)) < 65536.
Proof.
  intros A O. assert (HB : forall x k, 0 <= x < 65536 -> 16 <= k -> Z.testbit x k = false).
  { intros x k X K0. rewrite <- (Z.mod_small x (2 ^ 16)) by (change (2 ^ 16) with 65536; lia). apply Z.mod_pow2_bits_high. lia. }
  set (new := Z.lor (Z.land old am) (Z.land om (Z.lnot am))).
  assert (E : new = new mod 2 ^ 16). { apply Z.bits_inj'. intros k Hk. destruct (Z.lt_ge_cases k 16) as [L|L]; [now rewrite Z.mod_pow2_bits_low by lia|]. rewrite Z.mod_pow2_bits_high by lia. unfold new.
    rewrite Z.lor_spec, !Z.land_spec. rewrite (HB am k A L), (HB om k O L). now rewrite andb_false_r. }
  split.
  - unfold new. apply Z.bits_inj'. intros k Hk. rewrite !Z.lor_spec, !Z.land_spec. f_equal. change 65536 with (2 ^ 16). destruct (Z.lt_ge_cases k 16) as [L|L]; [now rewrite Z.mod_pow2_bits_low by lia|].
    rewrite (HB am k A L). now rewrite !andb_false_r.
  - rewrite E. change (2 ^ 16) with 65536. lia.
Qed.
Lemma bs_mask a am om : can_send p last u (MaskWrite a am om) -> step_as p last d u (MaskWrite a am om) s b.
Proof.
  intros CS. pose proof CS as ((Ha & Hm & Ho) & T & _). pose proof (eq_refl : prescribed (MaskWrite a am om) (22 :: word a ++ word am ++ word om)) as PR.
  destruct (C14_mask_write s a am om [] bs_reach (bs_table _) Ha Hm Ho) as (_ & E2). rewrite app_nil_r in E2.
  destruct (present dev HOLDING_REGISTERS a 1) eqn:Q; [|apply (as_refused p last d u _ _ s b 150 2 D G P M CS PR); [apply E2; now apply absent_not_covered with dev, Q; apply bs_m|lia|cbn [built_call]; unfold guard; fold dev; cbn [Z.leb andb]; now rewrite Q]].
  destruct (present_served s dev HOLDING_REGISTERS a 1 bs_m Q) as (bl & SB). pose proof (bs_stored _ _ _ _ SB) as ST.
  assert (L1 : zlen (values_at bl a 1) = 1) by (apply (values_at_zlen s HOLDING_REGISTERS a 1 bl bs_wf SB); lia).
  destruct (values_at bl a 1) as [|old [|? ?]] eqn:VE; [discriminate L1| |exfalso; rewrite !zlen_cons in L1; pose proof (zlen_nonneg l); lia].
  unfold fits in Hm, Ho.
  assert (CELL : dv_cell dev HOLDING_REGISTERS a = old mod 65536). { pose proof (shown_values s dev HOLDING_REGISTERS a 1 bl bs_m bs_wf SB ltac:(lia)) as X. rewrite VE in X. cbn [map] in X. unfold read_cells in X. cbn in X. injection X as X. rewrite Z.add_0_r in X. now rewrite <- X. }
  pose proof (C40_mask_write p last d u a am om s old T D G Ha Hm Ho ST) as K.
  assert (NW : forall new, (forall k, 0 <= k -> Z.testbit new k = if Z.testbit am k then Z.testbit old k else Z.testbit om k) -> new = Z.lor (Z.land old am) (Z.land om (Z.lnot am))).
  { intros new H. apply Z.bits_inj'. intros k Hk. rewrite (H k Hk), Z.lor_spec, !Z.land_spec, Z.lnot_spec by exact Hk. destruct (Z.testbit am k), (Z.testbit old k), (Z.testbit om k); reflexivity. }
  destruct (mask_small old am om ltac:(lia) ltac:(lia)) as (MS & NR). set (new := Z.lor (Z.land old am) (Z.land om (Z.lnot am))) in *.
  apply (as_wrote p last d u _ s b HOLDING_REGISTERS a [new] [a; am; om] (bt_signed b && (32768 <=? new)) bs_wf P M).
  - intros _ x [<-|[]]. destruct M as (_ & SG & _). rewrite SG. unfold fits. destruct (sl_unsigned s); cbn [negb andb]; split; intros; lia.
  - cbn [built_call]. unfold guard. fold dev. change ((1 <=? 1) && (1 <=? 1)) with true. rewrite Q, CELL, MS. cbn [map]. unfold shown. cbn [is_register]. now rewrite (Z.mod_small new) by lia.
  - destruct (round_trip p last d u (MaskWrite a am om)) as [d1 e1]. destruct K as (K1 & K2 & s' & new' & K3 & K4 & K5). rewrite (NW new' K5) in K4. eauto.
Qed.
Lemma read_write_unfit ra rq wa wq bc data rb :
  fits true ra -> fits true wa -> fits true wq -> 1 <= rq <= 125 -> served_by s HOLDING_REGISTERS ra rq rb -> ~ Forall (fits (sl_unsigned s)) (values_at rb ra rq) ->
  handle_request s (23 :: word ra ++ word rq ++ word wa ++ word wq ++ bc :: data) false = (s, Err StructError).
Proof.
  intros H1 H2 H3 H4 (r1 & r2 & Hr) Hf. eapply (hr_err s 23); [reflexivity| |discriminate|reflexivity].
  unfold read_write_multiple_registers. rewrite unpack5_head by (auto; unfold fits; lia).
  destruct ((rq <=? 0) || (125 <? rq)) eqn:E; [lia|].
  rewrite (gbo_served _ _ _ _ _ _ _ (bs_table _) Hr). rewrite values_at_slice; [|apply Hr|lia].
  rewrite pack_B_ok by (unfold is_byte; lia). cbn [bind]. now rewrite pack_regs_loop_err.
Qed.
Lemma bs_read_write a n wa vals : can_send p last u (ReadWriteRegs a n wa vals) -> step_as p last d u (ReadWriteRegs a n wa vals) s b.
Proof.
  intros CS. pose proof CS as ((Ha & Hn & Hwa & Hl & Hv) & T & _). set (H := HOLDING_REGISTERS). pose proof (zlen_nonneg vals) as L0.
  pose proof (eq_refl : prescribed (ReadWriteRegs a n wa vals) (23 :: word a ++ word n ++ word wa ++ word (zlen vals) ++ 2 * zlen vals :: words vals)) as PR.
  destruct (C15_read_write_partial s a wa bs_reach (bs_table _) Ha Hwa) as (_ & E3 & E2 & E3w & E2w). assert (FL : fits true (zlen vals)) by (unfold fits; lia).
  destruct ((1 <=? n) && (n <=? 125)) eqn:N; [|apply (as_refused p last d u _ _ s b 151 3 D G P M CS PR); [apply E3; auto; lia|lia|cbn [built_call]; unfold guard; now rewrite N]].
  destruct (present dev H a n) eqn:Q; [|apply (as_refused p last d u _ _ s b 151 2 D G P M CS PR); [apply E2; auto; [lia|now apply absent_not_covered with dev, Q; apply bs_m]|lia|cbn [built_call]; unfold guard; fold H dev; now rewrite N, Q]].
  destruct (present_served s dev H a n bs_m Q) as (bl & SB).
  destruct (odd_in b H a n) eqn:O.
  { apply (as_fails p last d u _ _ s b D G P M CS PR).
    - apply read_write_unfit with bl; auto; [lia|]. apply (bs_unodd H a n bl eq_refl SB); [lia|exact O].
    - do 2 eexists. split; [reflexivity|lia].
    - cbn [built_call]. unfold guard. fold H dev. now rewrite N, Q, O. }
  pose proof (proj1 (bs_odd H a n bl eq_refl SB ltac:(lia)) O) as FT.
  destruct ((1 <=? zlen vals) && (zlen vals <=? 123)) eqn:NW; [|apply (as_refused p last d u _ _ s b 151 3 D G P M CS PR); [apply (E3w n (zlen vals) _ _ bl); auto; lia|lia|cbn [built_call]; unfold guard; fold H dev; now rewrite N, Q, O, NW]].
  destruct (present dev H wa (zlen vals)) eqn:QW; [|apply (as_refused p last d u _ _ s b 151 2 D G P M CS PR); [apply (E2w n (zlen vals) _ bl); auto; [lia|lia|now apply absent_not_covered with dev, QW; apply bs_m]|lia|cbn [built_call]; unfold guard; fold H dev; now rewrite N, Q, O, NW, QW]].
  destruct (present_served s dev H wa (zlen vals) bs_m QW) as (wb & SW).
  pose proof (C40_read_write p last d u a n wa vals s _ T D G Ha Hwa ltac:(lia) ltac:(lia) Hv (bs_stored _ _ _ _ SB) FT (ex_intro _ _ (bs_stored _ _ _ _ SW))) as K.
  apply (as_wrote p last d u _ s b H wa (map (fun v => reg_of_word (sl_unsigned s) (as_word v)) vals) (map as_word (values_at bl a n)) false bs_wf P M).
  - intros _ x. apply words_not_odd.
  - cbn [built_call]. unfold guard. fold H dev. rewrite N, Q, O, NW, QW. unfold H at 3. rewrite shown_words. fold H. do 3 f_equal. rewrite <- (shown_values s dev H a n bl bs_m bs_wf SB) by lia. apply map_ext. reflexivity.
  - exact K.
Qed.
Lemma bs_status : can_send p last u ReadStatus -> step_as p last d u ReadStatus s b.
Proof.
  intros (E & T & _ & F). destruct (db_reachable_slave d u s D G) as [_ U]. assert (H : handle_request s [7] false = (s, Ok [7; 0])) by reflexivity.
  destruct (round_trip_present p last d u ReadStatus [7] s [7; 0] E eq_refl ltac:(right; vm_compute; discriminate) T U G ltac:(now rewrite H)) as (R1 & _ & R3). unfold step_as. destruct (round_trip p last d u ReadStatus) as [d' e]. cbn [fst snd] in *. rewrite H in R1. cbn [fst] in R1. subst d'.
  cbn [built_call fst snd ends_as]. split; [rewrite R3; reflexivity|]. split; [intros v _; now apply get_slave_put_id|]. exists s. rewrite get_slave_put_same. auto using layout_refl.
Qed.
Lemma bs_unsupported c : match c with ReadFiles _ | Diagnostic _ _ | DeviceInfo _ _ => True | _ => False end -> can_send p last u c -> step_as p last d u c s b.
Proof.
  intros C CS. pose proof CS as (E & _). destruct (build_call u c E) as (pdu & PR & _). destruct (C16_named s (tl pdu)) as (H8 & _ & H20 & H43).
  destruct c; try destruct C; cbn [prescribed] in PR; subst pdu; cbn [tl] in *; (eapply as_refused; [exact D|exact G|exact P|exact M|exact CS|reflexivity| | |reflexivity]); [exact H20| |exact H8| |exact H43|]; lia.
Qed.
Lemma bs_all c : (forall pdu, c <> Raw pdu) -> can_send p last u c -> step_as p last d u c s b.
Proof.
  intros NR CS. destruct c; try (now apply bs_unsupported); auto using bs_bits, bs_regs, bs_coil, bs_reg, bs_coils, bs_regs16, bs_status, bs_read_write, bs_mask.
  exfalso. eapply NR. reflexivity.
Qed.
End Step.

(** ** C128 *)
(** The results of a session are those of the works, and the databank exhibits those works again afterwards. No value, no slave and no
    named function is excepted. *)
Theorem C128_session : forall p l last d w, 0 <= last <= 65535 -> db_reachable d -> exhibits d w -> Forall (askable p) l ->
  Forall2 told_as (snd (session p last d l)) (snd (works_session w l)) /\ exhibits (fst (session p last d l)) (fst (works_session w l)).
Proof.
  intros p l. induction l as [|[u c] l IH]; intros last d w T D SH F; [split; [constructor|exact SH]|]. inversion_clear F as [|? ? F1 F2]. destruct F1 as (U & NR & CS). cbn [fst snd] in U, NR, CS. specialize (CS last T).
  pose proof (rt_last p last d u c CS) as T1. pose proof (rt_reachable p last d u c D) as D1. cbn [session works_session]. unfold works_call. pose proof (SH u) as SU. destruct (w u) as [b|] eqn:W.
  - destruct SU as (s & G & P & M). pose proof (bs_all p last d u s b D G P M c NR CS) as K. unfold step_as in K. destruct (round_trip p last d u c) as [d1 e]. destruct K as (K1 & K2 & s' & K3 & K4 & K5 & _). cbn [fst snd] in *.
    assert (SH1 : exhibits d1 (fun v => if v =? u then Some (fst (built_call b c)) else w v)).
    { intros v. destruct (v =? u) eqn:E; [replace v with u by lia; eauto|]. rewrite K2 by lia. apply SH. }
    destruct (IH (ex_last e) d1 _ T1 D1 SH1 F2) as (I1 & I2). destruct (session p (ex_last e) d1 l) as [d2 rs]. destruct (works_session _ l) as [w2 ys]. cbn [fst snd] in *. split; [constructor; [exact K1|exact I1]|exact I2].
  - destruct (rt_absent p last d u c U CS SU) as (R1 & R2). destruct (round_trip p last d u c) as [d1 e]. cbn [fst snd] in *. subst d1.
    destruct (IH (ex_last e) d w T1 D SH F2) as (I1 & I2). destruct (session p (ex_last e) d l) as [d2 rs]. destruct (works_session w l) as [w2 ys]. cbn [fst snd] in *. split; [constructor; [exact R2|exact I1]|exact I2].
Qed.
(** Every plain slave shows a device, so every databank of plain slaves exhibits works. *)
Definition built_of (s : slave) : built :=
  {| bt_device := device_of s; bt_signed := negb (sl_unsigned s);
     bt_odd := fun t a => existsb (fun b => match cell b a with Some v => negb (fits_b (sl_unsigned s) v) | None => false end) (blocks s t) |}.
Definition works_of (d : databank) : works := fun v => match get_slave d v with Ok s => Some (built_of s) | Err _ => None end.
Lemma one_cell l a x y v v' : Forall wf_block l -> disjoint_blocks l -> In x l -> In y l -> cell x a = Some v -> cell y a = Some v' -> v = v'.
Proof.
  intros W DJ X Y V V'. rewrite Forall_forall in W. assert (HX : holds x a) by (eapply cell_some; eauto). assert (HY : holds y a) by (eapply cell_some; eauto).
  apply In_nth_error in X as (i & I). apply In_nth_error in Y as (j & J). destruct (Nat.eq_dec i j) as [->|N]; [congruence|]. exfalso. now apply (DJ i j x y N I J a).
Qed.
Lemma built_of_pictures s : wf_slave s -> plain s -> pictures s (built_of s).
Proof.
  intros W (T1 & T2 & DJ). split; [|split].
  - split; [reflexivity|]. intros t b a v I V. apply In_nth_error in I as (k & K). cbn [built_of bt_device device_of dv_cell]. destruct (only_here (blocks s t) a v b k (W t) (DJ t) K V) as (rest & ->). reflexivity.
  - reflexivity.
  - intros t bl a v I V R. cbn [built_of bt_odd]. rewrite <- (fits_b_iff (sl_unsigned s) v). split.
    + intros H. destruct (fits_b (sl_unsigned s) v) eqn:F; [reflexivity|]. rewrite <- H. apply existsb_exists. exists bl. split; [exact I|]. now rewrite V, F.
    + intros F. destruct (existsb _ _) eqn:Q; [|reflexivity]. apply existsb_exists in Q as (y & Y & Q). destruct (cell y a) as [v'|] eqn:V'; [|discriminate Q].
      rewrite <- (one_cell _ a bl y v v' (W t) (DJ t) I Y V V'), F in Q. discriminate Q.
Qed.
Theorem C128_from_databank : forall p l last d, 0 <= last <= 65535 -> db_reachable d -> (forall v s, get_slave d v = Ok s -> plain s) -> Forall (askable p) l ->
  Forall2 told_as (snd (session p last d l)) (snd (works_session (works_of d) l)) /\ exhibits (fst (session p last d l)) (fst (works_session (works_of d) l)).
Proof.
  intros p l last d T D H F. apply C128_session; auto. intros v. unfold works_of. destruct (get_slave d v) as [s|e] eqn:G.
  - exists s. split; [reflexivity|]. split; [eapply H; eauto|]. apply built_of_pictures; [|eapply H; eauto]. apply reachable_wf. now apply (db_reachable_slave d v s).
  - unfold get_slave in G. destruct (assoc _ _ _); [discriminate G|]. now injection G as <-.
Qed.
(** Where this device differs from the one of the protocol: only in function 23, for mask writes to signed slaves, and at odd cells. *)
Theorem C128_standard : forall b c, (forall t a, bt_odd b t a = false) -> usual c -> (bt_signed b = false \/ forall a am om, c <> MaskWrite a am om) ->
  snd (built_call b c) = Says (snd (device_call (bt_device b) c)) /\ (forall t a, bt_odd (fst (built_call b c)) t a = false) /\
  dv_areas (bt_device (fst (built_call b c))) = dv_areas (fst (device_call (bt_device b) c)) /\
  forall t a, dv_cell (bt_device (fst (built_call b c))) t a = dv_cell (fst (device_call (bt_device b) c)) t a.
Proof.
  intros b c O US SG. assert (OI : forall t a n, odd_in b t a n = false).
  { intros t a n. unfold odd_in. destruct (existsb _ _) eqn:Q; [|reflexivity]. apply existsb_exists in Q as (k & _ & Q). rewrite O in Q. discriminate Q. }
  assert (OS : forall t a vals t' x, bt_odd (store b t a vals false) t' x = false) by (intros; cbn [store bt_odd]; rewrite O; now destruct (_ && _)).
  destruct c as [coils a n|holding a n|subs|a v|a v|a am om|a vals|a vals| |sub data|a n wa vals|code object|pdu]; cbn [built_call device_call]; unfold guard, checked; rewrite ?OI.
  6: { destruct SG as [->|SG]; [|exfalso; eapply SG; reflexivity]. cbn [andb]. repeat match goal with |- context [if ?x then _ else _] => destruct x end; cbn [fst snd store bt_device]; auto. }
  10: { destruct US as (L & A). replace ((1 <=? zlen vals) && (zlen vals <=? 123)) with true by lia. replace ((1 <=? zlen vals) && (zlen vals <=? 121)) with true by lia.
       destruct ((1 <=? n) && (n <=? 125)) eqn:N; cbn [fst snd]; auto. destruct (present _ _ a n); cbn [fst snd]; auto. destruct (present _ _ wa _); cbn [fst snd]; auto.
       rewrite read_apart by (rewrite ?zlen_map; lia). cbn [store bt_device]. auto. }
  all: try (destruct US; fail).
  all: try (repeat match goal with |- context [if ?x then _ else _] => destruct x end; cbn [fst snd store bt_device]; auto; fail).
Qed.

(** ** Examples *)
Lemma askable_intro p u c pdu : 1 <= u <= 255 -> (forall q, c <> Raw q) -> encodable c -> prescribed c pdu -> zlen pdu <= 65534 -> askable p (u, c).
Proof.
  intros U NR E P L. split; [exact U|]. split; [exact NR|]. intros last T. split; [exact E|]. split; [exact T|]. split; [cbn [fst]; lia|]. intros pdu' P'. rewrite (prescribed_unique c _ _ P' P). now apply framable_small.
Qed.
(** the three calls C120 had to leave out, and how a register of a signed slave breaks and is mended *)
Definition odd_calls : list (Z * call) :=
  [(9, MaskWrite 100 0 40000); (9, ReadRegs true 100 1); (9, ReadRegs true 101 1); (9, ReadWriteRegs 100 1 101 [5]); (9, MaskWrite 100 32767 0); (9, ReadRegs true 100 2); (9, MaskWrite 101 0 65535); (9, WriteReg 101 (-1)); (9, ReadRegs true 101 1);
   (3, ReadWriteRegs 100 1 100 [9]); (3, ReadRegs true 100 1); (3, ReadWriteRegs 100 1 102 (repeat 1 122)); (3, ReadWriteRegs 100 1 102 (repeat 1 124)); (77, ReadStatus)].
Example C128_ex : (forall v s, get_slave demo_db v = Ok s -> plain s) /\ Forall (askable TCP) odd_calls /\
  snd (works_session (works_of demo_db) odd_calls) =
    [Some (Says (Values [100; 0; 40000])); Some Fails; Some (Says (Values [0])); Some Fails; Some (Says (Values [100; 32767; 0])); Some (Says (Values [7232; 0])); Some (Says (Values [101; 0; 65535])); Some (Says (Values [101; 65535])); Some (Says (Values [65535]));
     Some (Says (Values [0])); Some (Says (Values [9])); Some (Says (Refused 2)); Some (Says (Refused 3)); None].
Proof.
  split; [intros v s G; destruct (demo_tidy v s G) as (A & B & C & _); exact (conj A (conj B C))|]. split; [|vm_compute; reflexivity]. unfold odd_calls.
  repeat (constructor; [eapply askable_intro; [lia|discriminate|cbn [encodable]; unfold fits, bytes, is_byte, zlen, reg_value; cbn [length Z.of_nat repeat]; repeat constructor; lia|reflexivity|vm_compute; discriminate]|]). constructor.
Qed.

Print Assumptions C128_session.
Print Assumptions C128_from_databank.
Print Assumptions C128_standard.
