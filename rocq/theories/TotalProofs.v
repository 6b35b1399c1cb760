(** Well-formed requests are always answered (or silently executed when broadcast). *)
From Coq Require Import Lia ZifyBool ZifyNat.
From Verif Require Export AtomicProofs.
Ltac Zify.zify_post_hook ::= Z.div_mod_to_equations.

Lemma slice_head2 x a b c d l : unpack2 ">HH" (py_slice (x :: a :: b :: c :: d :: l) 1 5) = Ok (a * 256 + b, c * 256 + d).
Proof. rewrite py_slice_nonneg by lia. change (Z.to_nat (5 - 1)) with 4%nat. change (Z.to_nat 1) with 1%nat. cbn [skipn firstn]. unfold unpack2. now rewrite unpack_HH. Qed.
Lemma slice_head2r s x a b c d l : exists v, unpack2 (if sl_unsigned s then ">HH" else ">Hh") (py_slice (x :: a :: b :: c :: d :: l) 1 5) = Ok (a * 256 + b, v).
Proof.
  rewrite py_slice_nonneg by lia. change (Z.to_nat (5 - 1)) with 4%nat. change (Z.to_nat 1) with 1%nat. cbn [skipn firstn]. unfold unpack2.
  destruct (sl_unsigned s); [rewrite unpack_HH|rewrite unpack_Hh]; eexists; reflexivity.
Qed.
Lemma slice_head3 x a b c d e l : unpack3 ">HHB" (py_slice (x :: a :: b :: c :: d :: e :: l) 1 6) = Ok (a * 256 + b, c * 256 + d, e).
Proof. rewrite py_slice_nonneg by lia. change (Z.to_nat (6 - 1)) with 5%nat. change (Z.to_nat 1) with 1%nat. cbn [skipn firstn]. unfold unpack3. now rewrite unpack_HHB. Qed.
Lemma slice_head3h x a b c d e f l : unpack3 ">HHH" (py_slice (x :: a :: b :: c :: d :: e :: f :: l) 1 7) = Ok (a * 256 + b, c * 256 + d, e * 256 + f).
Proof. rewrite py_slice_nonneg by lia. change (Z.to_nat (7 - 1)) with 6%nat. change (Z.to_nat 1) with 1%nat. cbn [skipn firstn]. unfold unpack3. now rewrite unpack_HHH. Qed.
Lemma slice_head5 x a b c d e f g h i l : unpack5 ">HHHHB" (py_slice (x :: a :: b :: c :: d :: e :: f :: g :: h :: i :: l) 1 10)
  = Ok (a * 256 + b, c * 256 + d, e * 256 + f, g * 256 + h, i).
Proof. rewrite py_slice_nonneg by lia. change (Z.to_nat (10 - 1)) with 9%nat. change (Z.to_nat 1) with 1%nat. cbn [skipn firstn]. unfold unpack5. now rewrite unpack_HHHHB. Qed.

Definition answers (r : res (list Z)) : Prop :=
  (exists resp, r = Ok resp) \/ (exists c, r = Err (ModbusError c) /\ is_byte c).
Lemma answers_ok x : answers (Ok x). Proof. left; eauto. Qed.
Lemma answers_err c : is_byte c -> answers (Err (ModbusError c)). Proof. right; eauto. Qed.
Ltac merr := apply answers_err; unfold is_byte, ILLEGAL_DATA_VALUE, ILLEGAL_DATA_ADDRESS; lia.

Ltac long l n := match n with O => idtac | S ?m => destruct l as [|? l]; [rewrite ?zlen_cons in *; change (@zlen Z []) with 0 in *; lia|]; long l m end.
Ltac gbo s t a q Ht := destruct (gbo_inv s t a q _ eq_refl) as [[_ Habs]|[[-> _]|(l1 & blk & l2 & _ & Hs & ->)]];
  [exfalso; exact (Habs Ht)|merr|].

Lemma values_fit s t b a n : all_fit s -> In b (blocks s t) -> Forall (fits (sl_unsigned s)) (py_slice (b_data b) a n).
Proof.
  intros Hf Hb. apply Forall_forall. intros v Hv. apply (Hf t b v Hb). unfold py_slice in Hv.
  rewrite <- (firstn_skipn (Z.to_nat (slice_bound (zlen (b_data b)) a)) (b_data b)). apply in_app_iff. right.
  set (k := Z.to_nat (_ - _)) in Hv. rewrite <- (firstn_skipn k). apply in_app_iff. now left.
Qed.

(** [reads]: storable registers are needed only by the requests that read registers *)
Lemma fn_total s fc f rest :
  wf_slave s -> all_tables s -> (In fc [3; 4; 23] -> all_fit s) -> well_formed (fc :: rest) ->
  fn_code_map fc = Some f -> answers (snd (f s (fc :: rest))).
Proof.
  intros Hw Ht Hfit (Hby & _ & _ & Hlen & Hco). cbn [hd] in Hlen.
  unfold fn_code_map, READ_COILS, READ_DISCRETE_INPUTS, READ_INPUT_REGISTERS, READ_HOLDING_REGISTERS,
    READ_EXCEPTION_STATUS, WRITE_SINGLE_COIL, WRITE_SINGLE_REGISTER, WRITE_MULTIPLE_COILS,
    WRITE_MULTIPLE_REGISTERS, MASK_WRITE_REGISTER, READ_WRITE_MULTIPLE_REGISTERS.
  assert (HD : forall t, fc = 1 \/ fc = 2 -> answers (read_digital s t (fc :: rest))).
  { intros t Hfc. assert (L : 5 <= zlen (fc :: rest)) by (destruct Hfc; subst fc; exact Hlen).
    long rest 4%nat. unfold read_digital. rewrite slice_head2. cbn [bind].
    destruct ((_ <=? 0) || (2000 <? _)) eqn:E; [merr|].
    match goal with |- context [get_block_and_offset s t ?a ?q] => set (aa := a) in *; set (qq := q) in *; gbo s t aa qq (Ht t) end.
    cbn [bind]. rewrite bit_byte_count_spec by lia. unfold bytes_for_bits. rewrite pack_B_ok by (unfold is_byte; lia). cbn [bind].
    edestruct (pack_bits_loop_ok s) with (p := @nil Z) as (out & Ho & _); [|rewrite Ho; apply answers_ok]. cbn. lia. }
  assert (HR : forall t, fc = 3 \/ fc = 4 -> answers (read_registers s t (fc :: rest))).
  { intros t Hfc. assert (Hf : all_fit s) by (apply Hfit; destruct Hfc; subst fc; cbn; auto).
    assert (L : 5 <= zlen (fc :: rest)) by (destruct Hfc; subst fc; exact Hlen).
    long rest 4%nat. unfold read_registers. rewrite slice_head2. cbn [bind].
    destruct ((_ <=? 0) || (125 <? _)) eqn:E; [merr|].
    match goal with |- context [get_block_and_offset s t ?a ?q] => set (aa := a) in *; set (qq := q) in *; gbo s t aa qq (Ht t) end.
    cbn [bind]. rewrite pack_B_ok by (unfold is_byte; lia). cbn [bind].
    rewrite pack_regs_loop_ok; [apply answers_ok|]. destruct Hs as (Hb & _). apply (values_fit s t); [exact Hf|]. rewrite Hb. apply in_elt. }
  repeat (match goal with |- (if ?x =? ?y then _ else _) = _ -> _ => destruct (x =? y) eqn:?Efc end;
    [intros H; injection H as <-; cbv beta|]); try discriminate; cbn [snd].
  1,2: apply HD; lia.
  1,2: apply HR; lia.
  - apply answers_ok.
  - assert (fc = 5) as -> by lia. cbn [fixed_length] in Hlen. long rest 4%nat. unfold write_single_coil. rewrite slice_head2.
    match goal with |- context [get_block_and_offset s COILS ?a 1] => set (aa := a) in *; gbo s COILS aa 1 (Ht COILS) end.
    destruct (wf_served _ _ _ _ _ _ _ Hw Hs) as (Hb1 & Hb2 & Hb3). destruct Hs as (_ & [Hc1 Hc2] & _).
    destruct (_ =? 0); [|destruct (_ =? 65280); [|merr]]; rewrite py_set_in by lia; apply answers_ok.
  - assert (fc = 6) as -> by lia. cbn [fixed_length] in Hlen. long rest 4%nat. unfold write_single_register.
    match goal with |- context [py_slice (?x :: ?a :: ?b :: ?c :: ?d :: ?l) 1 5] => destruct (slice_head2r s x a b c d l) as [v ->] end.
    match goal with |- context [get_block_and_offset s HOLDING_REGISTERS ?a 1] => set (aa := a) in *; gbo s HOLDING_REGISTERS aa 1 (Ht HOLDING_REGISTERS) end.
    destruct (wf_served _ _ _ _ _ _ _ Hw Hs) as (Hb1 & Hb2 & Hb3). destruct Hs as (_ & [Hc1 Hc2] & _).
    rewrite py_set_in by lia. apply answers_ok.
  - assert (fc = 15) as -> by lia. cbn [fixed_length] in Hlen.
    unfold write_multiple_coils. destruct (unpack3 ">HHB" _) as [[[a q] bc]|e] eqn:E3.
    2:{ exfalso. long rest 5%nat. rewrite slice_head3 in E3. discriminate. }
    destruct ((q <=? 0) || (1968 <? q) || negb (bc =? bit_byte_count q)) eqn:E; [merr|].
    gbo s COILS a q (Ht COILS).
    apply unpack3_inv in E3 as (_ & Ha & Hq & Hbc). unfold complete in Hco. cbn [hd] in Hco. destruct Hco as [Hl1 Hl2].
    destruct (wf_served _ _ _ _ _ _ _ Hw Hs) as (Hb1 & Hb2 & Hb3). destruct Hs as (_ & [Hc1 Hc2] & _).
    assert (Hbb : bit_byte_count q = bytes_for_bits q /\ bc = bit_byte_count q).
    { split; [|lia]. unfold bit_byte_count, bytes_for_bits. destruct (0 <? q mod 8) eqn:Em; lia. }
    destruct Hbb as [Hbb1 Hbb2]. unfold bytes_for_bits in Hbb1.
    destruct (write_bits_outer_complete s (15 :: rest) (a - b_start blk) q (Z.to_nat bc) 0 (b_data blk)) as (d & Hd); try lia.
    replace (Z.min q (8 * 0)) with 0 in Hd by lia. rewrite Hd. cbn [snd].
    pose proof (be16_range _ 1 Hby). pose proof (be16_range _ 3 Hby). rewrite pack_HH by (unfold fits; lia). apply answers_ok.
  - assert (fc = 16) as -> by lia. cbn [fixed_length] in Hlen.
    unfold write_multiple_registers. destruct (unpack3 ">HHB" _) as [[[a q] bc]|e] eqn:E3.
    2:{ exfalso. long rest 5%nat. rewrite slice_head3 in E3. discriminate. }
    destruct ((q <=? 0) || (123 <? q) || negb (bc =? q * 2)) eqn:E; [merr|].
    gbo s HOLDING_REGISTERS a q (Ht HOLDING_REGISTERS).
    apply unpack3_inv in E3 as (_ & Ha & Hq & Hbc). unfold complete in Hco. cbn [hd] in Hco. destruct Hco as [Hl1 Hl2].
    destruct (wf_served _ _ _ _ _ _ _ Hw Hs) as (Hb1 & Hb2 & Hb3). destruct Hs as (_ & [Hc1 Hc2] & _).
    destruct (write_regs_loop_complete s (16 :: rest) 6 (a - b_start blk) (Z.to_nat q) 0 (b_data blk)) as (d & Hd); try lia.
    rewrite Hd. cbn [snd].
    pose proof (be16_range _ 1 Hby). pose proof (be16_range _ 3 Hby). rewrite pack_HH by (unfold fits; lia). apply answers_ok.
  - assert (fc = 22) as -> by lia. cbn [fixed_length] in Hlen. long rest 6%nat. unfold mask_write_register. rewrite slice_head3h.
    match goal with |- context [get_block_and_offset s HOLDING_REGISTERS ?a 1] => set (aa := a) in *; gbo s HOLDING_REGISTERS aa 1 (Ht HOLDING_REGISTERS) end.
    destruct (wf_served _ _ _ _ _ _ _ Hw Hs) as (Hb1 & Hb2 & Hb3). destruct Hs as (_ & [Hc1 Hc2] & _).
    destruct (py_get_in (b_data blk) (aa - b_start blk)) as (old & _ & ->); [lia|]. cbv zeta. rewrite py_set_in by lia. apply answers_ok.
  - assert (fc = 23) as -> by lia. cbn [fixed_length] in Hlen.
    unfold read_write_multiple_registers. destruct (unpack5 ">HHHHB" _) as [[[[[ra rq] wa] wq] bc]|e] eqn:E5.
    2:{ exfalso. long rest 9%nat. rewrite slice_head5 in E5. discriminate. }
    destruct ((rq <=? 0) || (125 <? rq)) eqn:Erq; [merr|].
    destruct (gbo_inv s HOLDING_REGISTERS ra rq _ eq_refl) as [[_ Habs]|[[-> _]|(k1 & rblk & k2 & _ & Hrs & ->)]];
      [exfalso; exact (Habs (Ht _))|merr|].
    rewrite pack_B_ok by (unfold is_byte; lia). cbn [bind].
    rewrite pack_regs_loop_ok.
    2:{ destruct Hrs as (Hb & _). apply (values_fit s HOLDING_REGISTERS); [apply Hfit; cbn; auto|]. rewrite Hb. apply in_elt. }
    destruct ((wq <=? 0) || (123 <? wq) || negb (bc =? wq * 2)) eqn:E; [merr|].
    gbo s HOLDING_REGISTERS wa wq (Ht HOLDING_REGISTERS).
    apply unpack5_inv in E5 as (_ & _ & _ & _ & Hwq & Hbc). unfold complete in Hco. cbn [hd] in Hco. destruct Hco as [Hl1 Hl2].
    destruct (wf_served _ _ _ _ _ _ _ Hw Hs) as (Hb1 & Hb2 & Hb3). destruct Hs as (_ & [Hc1 Hc2] & _).
    destruct (write_regs_loop_complete s (23 :: rest) 10 (wa - b_start blk) (Z.to_nat wq) 0 (b_data blk)) as (d & Hd); try lia.
    rewrite Hd. apply answers_ok.
Qed.

Lemma hr_total s pdu bc :
  wf_slave s -> all_tables s -> (In (hd 0 pdu) [3; 4; 23] -> all_fit s) -> well_formed pdu ->
  (exists r, snd (handle_request s pdu bc) = Ok r) \/
  (bc = true /\ In (hd 0 pdu) [1; 2; 3; 4] /\ handle_request s pdu bc = (s, Err ModbusInvalidRequestError)).
Proof.
  intros Hw Ht Hf Hwf. destruct pdu as [|fc rest]; [destruct Hwf as (_ & H & _); congruence|]. cbn [hd] in *.
  unfold handle_request. rewrite unpack_fc. pose proof Hwf as (Hby & _ & Hfc & _). cbn [hd] in Hfc.
  assert (Bfc : is_byte fc) by now inversion Hby. unfold is_byte in Bfc.
  destruct (fn_code_map fc) as [f|] eqn:Ef.
  - destruct (bc && cant_be_broadcasted fc) eqn:E.
    + right. apply andb_true_iff in E as [-> E]. split; [reflexivity|]. split; [|reflexivity].
      unfold cant_be_broadcasted, READ_COILS, READ_DISCRETE_INPUTS, READ_INPUT_REGISTERS, READ_HOLDING_REGISTERS in E. cbn. lia.
    + left. pose proof (fn_total s fc f rest Hw Ht Hf Hwf Ef) as Ha.
      destruct (fn_effect s fc rest f Hw Ef) as (t & a & n & He & _).
      pose proof (fun x => he_ok _ _ _ _ _ _ _ He x) as Hne.
      destruct (f s (fc :: rest)) as [s' r]. cbn [snd] in Ha, Hne. destruct Ha as [[resp ->]|(c & -> & Hc)].
      * specialize (Hne resp eq_refl). destruct resp as [|x resp]; [congruence|].
        destruct bc; [eexists; reflexivity|]. rewrite pack_B_ok by (unfold is_byte; lia). eexists; reflexivity.
      * cbn [snd catch_modbus_error]. rewrite pack_BB. apply byte_b_iff in Hc. rewrite Hc.
        replace (byte_b (fc + 128)) with true by (unfold byte_b; lia). eexists; reflexivity.
  - left. cbn [snd catch_modbus_error]. rewrite pack_BB.
    replace (byte_b (fc + 128)) with true by (unfold byte_b; lia). eexists; reflexivity.
Qed.
