(** Exactly which requests are not answered properly (completes C16, C26, C28, C29, C61).
    Vocabulary: SlaveSpec.v, DbSpec.v and the definitions below. *)
From Coq Require Import ZArith Lia ZifyBool ZifyNat.
From Verif Require Import Base BaseFacts PyStruct Spec StructFacts StructMore Defines SlaveModel SlaveSpec SlaveProofs HandlerProofs RequestProofs GeneralProofs SlaveInv TotalProofs PropSlave.
From Verif Require Import CrcSpec FrameSpec QueryModel DatabankModel DbSpec DatabankProofs PropDatabank PropExact.
Ltac Zify.zify_post_hook ::= Z.div_mod_to_equations.
Open Scope string_scope.
Open Scope list_scope.
Open Scope Z_scope.

(** ** Spec *)
Definition in_a_block (s : slave) (t : btype) (a n : Z) : Prop := exists b, In b (blocks s t) /\ covers b a n.
(** a write that could be carried out, but carries fewer bytes than it announces *)
Definition wants_more (s : slave) (pdu : list Z) : Prop :=
  match hd 0 pdu with
  | 15 => 1 <= be16 pdu 3 <= 1968 /\ nth 5 pdu 0 = bytes_for_bits (be16 pdu 3) /\ in_a_block s COILS (be16 pdu 1) (be16 pdu 3) /\ zlen pdu < 6 + nth 5 pdu 0
  | 16 => 1 <= be16 pdu 3 <= 123 /\ nth 5 pdu 0 = 2 * be16 pdu 3 /\ in_a_block s HOLDING_REGISTERS (be16 pdu 1) (be16 pdu 3) /\ zlen pdu < 6 + nth 5 pdu 0
  | 23 => 1 <= be16 pdu 3 <= 125 /\ in_a_block s HOLDING_REGISTERS (be16 pdu 1) (be16 pdu 3) /\ 1 <= be16 pdu 7 <= 123 /\ nth 9 pdu 0 = 2 * be16 pdu 7 /\ in_a_block s HOLDING_REGISTERS (be16 pdu 5) (be16 pdu 7) /\ zlen pdu < 10 + nth 9 pdu 0
  | _ => False
  end.
(** a request that makes the slave raise: no function code, one that leaves no room for the exception flag, shorter than its fixed part, or a write as above *)
Definition bad (s : slave) (pdu : list Z) : Prop :=
  pdu = [] \/ 128 <= hd 0 pdu \/ zlen pdu < fixed_length (hd 0 pdu) \/ wants_more s pdu.

Lemma fn_answers s fc f rest :
  wf_slave s -> all_tables s -> (In fc [3; 4; 23] -> all_fit s) -> bytes (fc :: rest) -> fixed_length fc <= zlen (fc :: rest) -> ~ wants_more s (fc :: rest) ->
  fn_code_map fc = Some f -> answers (snd (f s (fc :: rest))).
Proof.
  intros Hw Ht Hfit Hby Hlen Hco.
  unfold fn_code_map, READ_COILS, READ_DISCRETE_INPUTS, READ_INPUT_REGISTERS, READ_HOLDING_REGISTERS,
    READ_EXCEPTION_STATUS, WRITE_SINGLE_COIL, WRITE_SINGLE_REGISTER, WRITE_MULTIPLE_COILS,
    WRITE_MULTIPLE_REGISTERS, MASK_WRITE_REGISTER, READ_WRITE_MULTIPLE_REGISTERS.
  assert (HD : forall t, fc = 1 \/ fc = 2 -> answers (read_digital s t (fc :: rest))).
  { intros t Hfc. assert (L : 5 <= zlen (fc :: rest)) by (destruct Hfc; subst fc; exact Hlen).
    long rest 4%nat. unfold read_digital. rewrite slice_head2. cbn [bind].
    destruct ((_ <=? 0) || (2000 <? _)) eqn:E; [merr|].
    match goal with |- context [get_block_and_offset s t ?a ?q] => set (aa := a) in *; set (qq := q) in *; gbo s t aa qq (Ht t) end.
    cbn [bind]. rewrite bit_byte_count_spec by lia. unfold bytes_for_bits. rewrite pack_B_ok by (unfold is_byte; lia). cbn [bind].
    edestruct (pack_bits_loop_ok s) with (p := @nil Z) as (out & Ho & _); [|rewrite Ho; apply answers_ok]. cbn. lia. }
  assert (HR : forall t, fc = 3 \/ fc = 4 -> answers (read_registers s t (fc :: rest))).
  { intros t Hfc. assert (Hf : all_fit s) by (apply Hfit; destruct Hfc; subst fc; cbn; auto).
    assert (L : 5 <= zlen (fc :: rest)) by (destruct Hfc; subst fc; exact Hlen).
    long rest 4%nat. unfold read_registers. rewrite slice_head2. cbn [bind].
    destruct ((_ <=? 0) || (125 <? _)) eqn:E; [merr|].
    match goal with |- context [get_block_and_offset s t ?a ?q] => set (aa := a) in *; set (qq := q) in *; gbo s t aa qq (Ht t) end.
    cbn [bind]. rewrite pack_B_ok by (unfold is_byte; lia). cbn [bind].
    rewrite pack_regs_loop_ok; [apply answers_ok|]. destruct Hs as (Hb & _). apply (values_fit s t); [exact Hf|]. rewrite Hb. apply in_elt. }
  repeat (match goal with |- (if ?x =? ?y then _ else _) = _ -> _ => destruct (x =? y) eqn:?Efc end;
    [intros H; injection H as <-; cbv beta|]); try discriminate; cbn [snd].
  1,2: apply HD; lia.
  1,2: apply HR; lia.
  - apply answers_ok.
  - assert (fc = 5) as -> by lia. cbn [fixed_length] in Hlen. long rest 4%nat. unfold write_single_coil. rewrite slice_head2.
    match goal with |- context [get_block_and_offset s COILS ?a 1] => set (aa := a) in *; gbo s COILS aa 1 (Ht COILS) end.
    destruct (wf_served _ _ _ _ _ _ _ Hw Hs) as (Hb1 & Hb2 & Hb3). destruct Hs as (_ & [Hc1 Hc2] & _).
    destruct (_ =? 0); [|destruct (_ =? 65280); [|merr]]; rewrite py_set_in by lia; apply answers_ok.
  - assert (fc = 6) as -> by lia. cbn [fixed_length] in Hlen. long rest 4%nat. unfold write_single_register.
    match goal with |- context [py_slice (?x :: ?a :: ?b :: ?c :: ?d :: ?l) 1 5] => destruct (slice_head2r s x a b c d l) as [v ->] end.
    match goal with |- context [get_block_and_offset s HOLDING_REGISTERS ?a 1] => set (aa := a) in *; gbo s HOLDING_REGISTERS aa 1 (Ht HOLDING_REGISTERS) end.
    destruct (wf_served _ _ _ _ _ _ _ Hw Hs) as (Hb1 & Hb2 & Hb3). destruct Hs as (_ & [Hc1 Hc2] & _).
    rewrite py_set_in by lia. apply answers_ok.
  - assert (fc = 15) as -> by lia. cbn [fixed_length] in Hlen.
    unfold write_multiple_coils. destruct (unpack3 ">HHB" _) as [[[a q] bc]|e] eqn:E3.
    2:{ exfalso. long rest 5%nat. rewrite slice_head3 in E3. discriminate. }
    destruct ((q <=? 0) || (1968 <? q) || negb (bc =? bit_byte_count q)) eqn:E; [merr|].
    gbo s COILS a q (Ht COILS).
    apply unpack3_inv in E3 as (_ & Ha & Hq & Hbc). unfold wants_more in Hco. cbn [hd] in Hco.
    assert (Hbs : bit_byte_count q = bytes_for_bits q) by (apply bit_byte_count_spec; lia).
    assert (Hl2 : 6 + nth 5 (15 :: rest) 0 <= zlen (15 :: rest)).
    { apply Z.nlt_ge. intros Hlt. apply Hco. rewrite <- Ha, <- Hq. split; [lia|]. split; [rewrite <- Hbs, <- Hbc; lia|]. split; [|exact Hlt]. exists blk. destruct Hs as (Hs1 & Hs2 & _). split; [rewrite Hs1; apply in_elt|exact Hs2]. }
    assert (Hl1 : 6 <= zlen (15 :: rest)) by exact Hlen.
    destruct (wf_served _ _ _ _ _ _ _ Hw Hs) as (Hb1 & Hb2 & Hb3). destruct Hs as (_ & [Hc1 Hc2] & _).
    assert (Hbb : bit_byte_count q = bytes_for_bits q /\ bc = bit_byte_count q).
    { split; [|lia]. unfold bit_byte_count, bytes_for_bits. destruct (0 <? q mod 8) eqn:Em; lia. }
    destruct Hbb as [Hbb1 Hbb2]. unfold bytes_for_bits in Hbb1.
    destruct (write_bits_outer_complete s (15 :: rest) (a - b_start blk) q (Z.to_nat bc) 0 (b_data blk)) as (d & Hd); try lia.
    replace (Z.min q (8 * 0)) with 0 in Hd by lia. rewrite Hd. cbn [snd].
    pose proof (be16_range _ 1 Hby). pose proof (be16_range _ 3 Hby). rewrite pack_HH by (unfold fits; lia). apply answers_ok.
  - assert (fc = 16) as -> by lia. cbn [fixed_length] in Hlen.
    unfold write_multiple_registers. destruct (unpack3 ">HHB" _) as [[[a q] bc]|e] eqn:E3.
    2:{ exfalso. long rest 5%nat. rewrite slice_head3 in E3. discriminate. }
    destruct ((q <=? 0) || (123 <? q) || negb (bc =? q * 2)) eqn:E; [merr|].
    gbo s HOLDING_REGISTERS a q (Ht HOLDING_REGISTERS).
    apply unpack3_inv in E3 as (_ & Ha & Hq & Hbc). unfold wants_more in Hco. cbn [hd] in Hco.
    assert (Hl2 : 6 + nth 5 (16 :: rest) 0 <= zlen (16 :: rest)).
    { apply Z.nlt_ge. intros Hlt. apply Hco. rewrite <- Ha, <- Hq. split; [lia|]. split; [rewrite <- Hbc; lia|]. split; [|exact Hlt]. exists blk. destruct Hs as (Hs1 & Hs2 & _). split; [rewrite Hs1; apply in_elt|exact Hs2]. }
    assert (Hl1 : 6 <= zlen (16 :: rest)) by exact Hlen.
    destruct (wf_served _ _ _ _ _ _ _ Hw Hs) as (Hb1 & Hb2 & Hb3). destruct Hs as (_ & [Hc1 Hc2] & _).
    destruct (write_regs_loop_complete s (16 :: rest) 6 (a - b_start blk) (Z.to_nat q) 0 (b_data blk)) as (d & Hd); try lia.
    rewrite Hd. cbn [snd].
    pose proof (be16_range _ 1 Hby). pose proof (be16_range _ 3 Hby). rewrite pack_HH by (unfold fits; lia). apply answers_ok.
  - assert (fc = 22) as -> by lia. cbn [fixed_length] in Hlen. long rest 6%nat. unfold mask_write_register. rewrite slice_head3h.
    match goal with |- context [get_block_and_offset s HOLDING_REGISTERS ?a 1] => set (aa := a) in *; gbo s HOLDING_REGISTERS aa 1 (Ht HOLDING_REGISTERS) end.
    destruct (wf_served _ _ _ _ _ _ _ Hw Hs) as (Hb1 & Hb2 & Hb3). destruct Hs as (_ & [Hc1 Hc2] & _).
    destruct (py_get_in (b_data blk) (aa - b_start blk)) as (old & _ & ->); [lia|]. cbv zeta. rewrite py_set_in by lia. apply answers_ok.
  - assert (fc = 23) as -> by lia. cbn [fixed_length] in Hlen.
    unfold read_write_multiple_registers. destruct (unpack5 ">HHHHB" _) as [[[[[ra rq] wa] wq] bc]|e] eqn:E5.
    2:{ exfalso. long rest 9%nat. rewrite slice_head5 in E5. discriminate. }
    destruct ((rq <=? 0) || (125 <? rq)) eqn:Erq; [merr|].
    destruct (gbo_inv s HOLDING_REGISTERS ra rq _ eq_refl) as [[_ Habs]|[[-> _]|(k1 & rblk & k2 & _ & Hrs & ->)]];
      [exfalso; exact (Habs (Ht _))|merr|].
    rewrite pack_B_ok by (unfold is_byte; lia). cbn [bind].
    rewrite pack_regs_loop_ok.
    2:{ destruct Hrs as (Hb & _). apply (values_fit s HOLDING_REGISTERS); [apply Hfit; cbn; auto|]. rewrite Hb. apply in_elt. }
    destruct ((wq <=? 0) || (123 <? wq) || negb (bc =? wq * 2)) eqn:E; [merr|].
    gbo s HOLDING_REGISTERS wa wq (Ht HOLDING_REGISTERS).
    apply unpack5_inv in E5 as (_ & Hra & Hrq & Hwa & Hwq & Hbc). unfold wants_more in Hco. cbn [hd] in Hco.
    assert (Hl2 : 10 + nth 9 (23 :: rest) 0 <= zlen (23 :: rest)).
    { apply Z.nlt_ge. intros Hlt. apply Hco. rewrite <- Hra, <- Hrq, <- Hwa, <- Hwq. split; [lia|]. split; [exists rblk; destruct Hrs as (Hs1 & Hs2 & _); split; [rewrite Hs1; apply in_elt|exact Hs2]|].
      split; [lia|]. split; [rewrite <- Hbc; lia|]. split; [|exact Hlt]. exists blk. destruct Hs as (Hs1 & Hs2 & _). split; [rewrite Hs1; apply in_elt|exact Hs2]. }
    assert (Hl1 : 10 <= zlen (23 :: rest)) by exact Hlen.
    destruct (wf_served _ _ _ _ _ _ _ Hw Hs) as (Hb1 & Hb2 & Hb3). destruct Hs as (_ & [Hc1 Hc2] & _).
    destruct (write_regs_loop_complete s (23 :: rest) 10 (wa - b_start blk) (Z.to_nat wq) 0 (b_data blk)) as (d & Hd); try lia.
    rewrite Hd. apply answers_ok.
Qed.

(** ** the other direction *)
Lemma two_bytes a b : is_byte a -> is_byte b -> [a; b] = word (a * 256 + b) /\ fits true (a * 256 + b).
Proof. intros A B. unfold is_byte in *. split; [unfold word; f_equal; [lia|f_equal; lia]|unfold fits; lia]. Qed.
Lemma some_words d : bytes d -> exists ws odd, d = words ws ++ odd /\ zlen odd <= 1 /\ Forall (fits true) ws /\ 2 * zlen ws <= zlen d.
Proof.
  intros B. assert (H : length (firstn (2 * (length d / 2)) d) = (2 * (length d / 2))%nat) by (rewrite firstn_length; lia).
  destruct (words_of_bytes (firstn (2 * (length d / 2)) d) (length d / 2)) as (l & L & F & E); [|exact H|].
  - rewrite <- (firstn_skipn (2 * (length d / 2)) d) in B. now apply bytes_app_inv in B.
  - exists l, (skipn (2 * (length d / 2)) d). split; [now rewrite <- E, firstn_skipn|]. split; [unfold zlen; rewrite skipn_length; lia|]. split; [exact F|unfold zlen; lia].
Qed.
Lemma served_of s t a n : in_a_block s t a n -> exists b, served_by s t a n b.
Proof.
  intros (b & I & C). unfold served_by. induction (blocks s t) as [|x l IH]; [destruct I|].
  assert (D : covers x a n \/ ~ covers x a n) by (unfold covers; lia). destruct D as [D|D].
  - exists x, [], l. split; [reflexivity|]. split; [exact D|]. intros b' [].
  - destruct I as [->|I]; [congruence|]. destruct (IH I) as (b1 & l1 & l2 & S1 & S2 & S3). exists b1, (x :: l1), l2. split; [cbn; congruence|]. split; [exact S2|]. intros b' [<-|Hb]; [exact D|now apply S3].
Qed.
Lemma values_of s t a n b : all_fit s -> served_by s t a n b -> Forall (fits (sl_unsigned s)) (values_at b a n).
Proof.
  intros F (l1 & l2 & S1 & _). apply Forall_forall. intros v V. apply (F t b v); [rewrite S1; apply in_elt|]. unfold values_at in V. set (k := Z.to_nat (a - b_start b)) in *.
  rewrite <- (firstn_skipn k (b_data b)). apply in_app_iff. right. rewrite <- (firstn_skipn (Z.to_nat n)). apply in_app_iff. now left.
Qed.
Lemma short_unpack f pf pdu b : parse_fmt f = Ok pf -> (1 < b) -> zlen pdu < b -> items_size (pf_items pf) = Z.to_nat (b - 1) -> unpack f (py_slice pdu 1 b) = Err StructError.
Proof. intros P B L I. apply (unpack_len_err _ pf); [exact P|]. rewrite I. pose proof (short_slice pdu 1 b ltac:(lia) L ltac:(lia)). lia. Qed.
Lemma hr_short s fc rest bc : 0 <= fc < 128 -> zlen (fc :: rest) < fixed_length fc -> (bc = false \/ ~ In fc [1; 2; 3; 4]) -> handle_request s (fc :: rest) bc = (s, Err StructError).
Proof.
  intros R L NB. assert (C : forall x, fc = x -> bc && cant_be_broadcasted fc = false).
  { intros x _. destruct bc; [|reflexivity]. destruct NB as [NB|NB]; [discriminate|]. cbn [In] in NB. unfold cant_be_broadcasted, READ_COILS, READ_DISCRETE_INPUTS, READ_INPUT_REGISTERS, READ_HOLDING_REGISTERS. lia. }
  assert (W : In fc [1; 2; 3; 4; 5; 6; 15; 16; 22; 23]).
  { cbn [In]. unfold fixed_length in L. rewrite zlen_cons in L. pose proof (zlen_nonneg rest). destruct fc as [|p|]; [lia| |lia]. do 5 (destruct p as [p|p|]; try lia). }
  assert (U2 : zlen (fc :: rest) < 5 -> unpack2 ">HH" (py_slice (fc :: rest) 1 5) = Err StructError) by (intros L5; unfold unpack2; erewrite (short_unpack ">HH"); [reflexivity|reflexivity|lia|exact L5|reflexivity]).
  assert (U2h : zlen (fc :: rest) < 5 -> unpack2 ">Hh" (py_slice (fc :: rest) 1 5) = Err StructError) by (intros L5; unfold unpack2; erewrite (short_unpack ">Hh"); [reflexivity|reflexivity|lia|exact L5|reflexivity]).
  assert (U3 : zlen (fc :: rest) < 6 -> unpack3 ">HHB" (py_slice (fc :: rest) 1 6) = Err StructError) by (intros L5; unfold unpack3; erewrite (short_unpack ">HHB"); [reflexivity|reflexivity|lia|exact L5|reflexivity]).
  assert (U3h : zlen (fc :: rest) < 7 -> unpack3 ">HHH" (py_slice (fc :: rest) 1 7) = Err StructError) by (intros L5; unfold unpack3; erewrite (short_unpack ">HHH"); [reflexivity|reflexivity|lia|exact L5|reflexivity]).
  assert (U5 : zlen (fc :: rest) < 10 -> unpack5 ">HHHHB" (py_slice (fc :: rest) 1 10) = Err StructError) by (intros L5; unfold unpack5; erewrite (short_unpack ">HHHHB"); [reflexivity|reflexivity|lia|exact L5|reflexivity]).
  cbn [In] in W. specialize (C fc eq_refl).
  repeat (destruct W as [W|W]; [subst fc; (eapply hr_err; [reflexivity| |discriminate|exact C]); cbn [fixed_length] in L|]); [| | | | | | | | | |destruct W]; cbv beta.
  1,2: unfold read_digital; rewrite U2 by exact L; reflexivity.
  1,2: unfold read_registers; rewrite U2 by exact L; reflexivity.
  - unfold write_single_coil. rewrite U2 by exact L. reflexivity.
  - unfold write_single_register. destruct (sl_unsigned s); [rewrite U2 by exact L|rewrite U2h by exact L]; reflexivity.
  - unfold write_multiple_coils. rewrite U3 by exact L. reflexivity.
  - unfold write_multiple_registers. rewrite U3 by exact L. reflexivity.
  - unfold mask_write_register. rewrite U3h by exact L. reflexivity.
  - unfold read_write_multiple_registers. rewrite U5 by exact L. reflexivity.
Qed.
Ltac byte_facts B := repeat match type of B with bytes (_ :: _) => let H := fresh "By" in inversion B as [|? ? H B']; subst; clear B; rename B' into B end.
Lemma hr_wants_more s pdu bc : reachable s -> all_tables s -> (hd 0 pdu = 23 -> all_fit s) -> bytes pdu -> fixed_length (hd 0 pdu) <= zlen pdu -> wants_more s pdu -> exists s', handle_request s pdu bc = (s', Err StructError).
Proof.
  intros R Ht Hf B L W. destruct pdu as [|fc rest]; [destruct W|]. cbn [hd] in *.
  assert (K : fc = 15 \/ fc = 16 \/ fc = 23).
  { unfold wants_more in W. cbn [hd] in W. destruct fc as [|p|p]; [tauto| |tauto]. do 5 (destruct p as [p|p|]; try tauto). }
  destruct K as [-> | [-> | ->]]; cbn [fixed_length] in L; cbn [wants_more hd] in W.
  - long rest 5%nat. rename rest into data. rename z into a1, z0 into a2, z1 into n1, z2 into n2, z3 into k. unfold be16 in W. cbn [nth] in W. destruct W as (W1 & W2 & W3 & W4).
    inversion_clear B as [|? ? _ B0]. inversion_clear B0 as [|? ? Y1 B1]. inversion_clear B1 as [|? ? Y2 B2]. inversion_clear B2 as [|? ? Y3 B3]. inversion_clear B3 as [|? ? Y4 B4]. inversion_clear B4 as [|? ? Y5 B5].
    destruct (two_bytes a1 a2 Y1 Y2) as [E1 F1]. destruct (two_bytes n1 n2 Y3 Y4) as [E2 F2]. set (a := a1 * 256 + a2) in *. set (n := n1 * 256 + n2) in *. clearbody a n.
    destruct (C18_truncated_coils s a n data bc R (Ht COILS) F1 W1 B5) as (s' & E & _); [rewrite !zlen_cons in W4; lia|now apply served_of|]. exists s'. rewrite <- E, W2, <- E1, <- E2. reflexivity.
  - long rest 5%nat. rename rest into data. rename z into a1, z0 into a2, z1 into n1, z2 into n2, z3 into k. unfold be16 in W. cbn [nth] in W. destruct W as (W1 & W2 & W3 & W4).
    inversion_clear B as [|? ? _ B0]. inversion_clear B0 as [|? ? Y1 B1]. inversion_clear B1 as [|? ? Y2 B2]. inversion_clear B2 as [|? ? Y3 B3]. inversion_clear B3 as [|? ? Y4 B4]. inversion_clear B4 as [|? ? Y5 B5].
    destruct (two_bytes a1 a2 Y1 Y2) as [E1 F1]. destruct (two_bytes n1 n2 Y3 Y4) as [E2 F2]. set (a := a1 * 256 + a2) in *. set (n := n1 * 256 + n2) in *. clearbody a n.
    destruct (some_words data B5) as (ws & odd & -> & O1 & O2 & O3).
    destruct (C18_truncated_registers s a n ws odd bc R (Ht HOLDING_REGISTERS) F1 W1 O2) as (s' & E & _); [rewrite !zlen_cons in W4; lia|exact O1|now apply served_of|]. exists s'. rewrite <- E, W2, <- E1, <- E2. reflexivity.
  - long rest 9%nat. rename rest into data. rename z into a1, z0 into a2, z1 into n1, z2 into n2, z3 into c1, z4 into c2, z5 into m1, z6 into m2, z7 into k. unfold be16 in W. cbn [nth] in W. destruct W as (W1 & W2 & W3 & W4 & W5 & W6).
    inversion_clear B as [|? ? _ B0]. inversion_clear B0 as [|? ? Y1 B1]. inversion_clear B1 as [|? ? Y2 B2]. inversion_clear B2 as [|? ? Y3 B3]. inversion_clear B3 as [|? ? Y4 B4]. inversion_clear B4 as [|? ? Y5 B5].
    inversion_clear B5 as [|? ? Y6 B6]. inversion_clear B6 as [|? ? Y7 B7]. inversion_clear B7 as [|? ? Y8 B8]. inversion_clear B8 as [|? ? Y9 B9].
    destruct (two_bytes a1 a2 Y1 Y2) as [E1 F1]. destruct (two_bytes n1 n2 Y3 Y4) as [E2 F2]. destruct (two_bytes c1 c2 Y5 Y6) as [E3 F3]. destruct (two_bytes m1 m2 Y7 Y8) as [E4 F4].
    set (a := a1 * 256 + a2) in *. set (n := n1 * 256 + n2) in *. set (c := c1 * 256 + c2) in *. set (m := m1 * 256 + m2) in *. clearbody a n c m.
    destruct (some_words data B9) as (ws & odd & -> & O1 & O2 & O3). destruct (served_of _ _ _ _ W2) as (rb & RB).
    destruct (C18_truncated_read_write s a n c m ws odd rb R (Ht HOLDING_REGISTERS) F1 F3 W1 W3 O2) as (s' & E & _); [rewrite !zlen_cons in W6; lia|exact O1|exact RB|apply (values_of s HOLDING_REGISTERS); auto|now apply served_of|].
    assert (E' : handle_request s (23 :: a1 :: a2 :: n1 :: n2 :: c1 :: c2 :: m1 :: m2 :: k :: words ws ++ odd) false = (s', Err StructError)) by (rewrite <- E, W4, <- E1, <- E2, <- E3, <- E4; reflexivity).
    exists s'. destruct bc; [|exact E']. unfold handle_request in E' |- *. rewrite unpack_fc in *. change (fn_code_map 23) with (Some read_write_multiple_registers) in *. change (true && cant_be_broadcasted 23) with false. change (false && cant_be_broadcasted 23) with false in E'. cbn iota in *.
    destruct (read_write_multiple_registers s _) as [s1 [r1|e1]]; [destruct r1 as [|x1 r1]; [exact E'|]; rewrite pack_B_ok in E' by (unfold is_byte; lia); cbn [bind] in E'; congruence|]. destruct e1; try exact E'; cbn [catch_modbus_error] in *; destruct (pack ">BB" _); cbn in *; congruence.
Qed.
Lemma in_a_block_dec s t a n : in_a_block s t a n \/ ~ in_a_block s t a n.
Proof.
  unfold in_a_block. induction (blocks s t) as [|x l IH]; [right; intros (b & [] & _)|]. assert (D : covers x a n \/ ~ covers x a n) by (unfold covers; lia).
  destruct D as [D|D]; [left; exists x; split; [now left|exact D]|]. destruct IH as [(b & I1 & I2)|IH]; [left; exists b; split; [now right|exact I2]|]. right. intros (b & [<-|I1] & I2); [exact (D I2)|apply IH; eauto].
Qed.
Lemma bad_dec s pdu : bad s pdu \/ ~ bad s pdu.
Proof.
  unfold bad. destruct pdu as [|fc rest]; [left; now left|]. assert (N : fc :: rest <> []) by discriminate. set (pdu := fc :: rest) in *. clearbody pdu.
  assert (W : wants_more s pdu \/ ~ wants_more s pdu).
  { unfold wants_more. pose proof (in_a_block_dec s COILS (be16 pdu 1) (be16 pdu 3)). pose proof (in_a_block_dec s HOLDING_REGISTERS (be16 pdu 1) (be16 pdu 3)). pose proof (in_a_block_dec s HOLDING_REGISTERS (be16 pdu 5) (be16 pdu 7)).
    assert (D : forall A B : Prop, A \/ ~ A -> B \/ ~ B -> (A /\ B) \/ ~ (A /\ B)) by (clear; tauto).
    assert (E : forall a b, a < b \/ ~ a < b) by (clear; intros; lia). assert (F : forall a b, a <= b \/ ~ a <= b) by (clear; intros; lia). assert (Q : forall a b : Z, a = b \/ a <> b) by (clear; intros; lia).
    destruct (hd 0 pdu) as [|p|p]; try (right; intros []; fail). do 5 (try (destruct p as [p|p|]; try (right; intros []; fail))).
    all: repeat (assumption || apply E || apply F || apply Q || apply D). }
  assert (A : 128 <= hd 0 pdu \/ ~ 128 <= hd 0 pdu) by lia. assert (B : zlen pdu < fixed_length (hd 0 pdu) \/ ~ zlen pdu < fixed_length (hd 0 pdu)) by lia. tauto.
Qed.
Lemma hr_bad s pdu bc : reachable s -> all_tables s -> (hd 0 pdu = 23 -> all_fit s) -> bytes pdu -> (bc = false \/ ~ In (hd 0 pdu) [1; 2; 3; 4]) -> bad s pdu -> exists s', handle_request s pdu bc = (s', Err StructError).
Proof.
  intros R Ht Hf B NB [-> | H]; [exists s; apply hr_nil|]. destruct pdu as [|fc rest]; [exists s; apply hr_nil|]. cbn [hd] in *. assert (Bf : is_byte fc) by now inversion B. unfold is_byte in Bf.
  destruct (Z.le_gt_cases 128 fc) as [G|G]; [exists s; apply C16_refuted; lia|]. destruct H as [H|H]; [lia|]. destruct (Z.lt_ge_cases (zlen (fc :: rest)) (fixed_length fc)) as [S0|S0]; [exists s; apply hr_short; auto; lia|].
  destruct H as [H|H]; [lia|]. now apply hr_wants_more.
Qed.
Lemma hr_good s pdu bc : reachable s -> all_tables s -> (In (hd 0 pdu) [3; 4; 23] -> all_fit s) -> bytes pdu -> (bc = false \/ ~ In (hd 0 pdu) [1; 2; 3; 4]) -> ~ bad s pdu -> exists r, snd (handle_request s pdu bc) = Ok r.
Proof.
  intros R Ht Hf Hby NB Hn. apply reachable_wf in R as Hw. destruct pdu as [|fc rest]; [exfalso; apply Hn; now left|]. unfold bad in Hn. cbn [hd] in *.
  unfold handle_request. rewrite unpack_fc. assert (Bfc : is_byte fc) by now inversion Hby. unfold is_byte in Bfc. assert (Hfc : fc < 128) by (apply Z.nle_gt; tauto).
  destruct (fn_code_map fc) as [f|] eqn:Ef.
  - assert (C : bc && cant_be_broadcasted fc = false).
    { destruct bc; [|reflexivity]. destruct NB as [NB|NB]; [discriminate|]. cbn [In] in NB. unfold cant_be_broadcasted, READ_COILS, READ_DISCRETE_INPUTS, READ_INPUT_REGISTERS, READ_HOLDING_REGISTERS. lia. }
    rewrite C. assert (Ha : answers (snd (f s (fc :: rest)))) by (apply (fn_answers s fc f rest); auto; [apply Z.nlt_ge; tauto|tauto]).
    destruct (fn_effect s fc rest f Hw Ef) as (t & a & n & He & _). pose proof (fun x => he_ok _ _ _ _ _ _ _ He x) as Hne.
    destruct (f s (fc :: rest)) as [s' r]. cbn [snd] in Ha, Hne. destruct Ha as [[resp ->]|(c & -> & Hc)].
    + specialize (Hne resp eq_refl). destruct resp as [|x resp]; [congruence|]. destruct bc; [eexists; reflexivity|]. rewrite pack_B_ok by (unfold is_byte; lia). eexists; reflexivity.
    + cbn [snd catch_modbus_error]. rewrite pack_BB. apply byte_b_iff in Hc. rewrite Hc. replace (byte_b (fc + 128)) with true by (unfold byte_b; lia). eexists; reflexivity.
  - cbn [snd catch_modbus_error]. rewrite pack_BB. replace (byte_b (fc + 128)) with true by (unfold byte_b; lia). eexists; reflexivity.
Qed.

(* ------------------------------------------------------------------ C16, C61 *)
(** A slave raises (struct.error) exactly on the bad requests; every other one it answers, with its function code, or with the exception flag and a code from 1 to 3. *)
Theorem C61_exact : forall s pdu, reachable s -> all_tables s -> all_fit s -> bytes pdu ->
  (snd (handle_request s pdu false) = Err StructError <-> bad s pdu) /\
  (~ bad s pdu -> exists fc resp, snd (handle_request s pdu false) = Ok (fc :: resp) /\ (fc = hd 0 pdu \/ (fc = hd 0 pdu + 128 /\ exists c, resp = [c] /\ 1 <= c <= 3))).
Proof.
  intros s pdu R A F B. assert (G : ~ bad s pdu -> exists r, snd (handle_request s pdu false) = Ok r) by (intros N; apply hr_good; auto). split.
  - split; [|intros H; destruct (hr_bad s pdu false R A ltac:(auto) B ltac:(now left) H) as (s' & ->); reflexivity].
    intros H. destruct (bad_dec s pdu) as [D|D]; [exact D|]. destruct (G D) as (r & E). congruence.
  - intros N. destruct (G N) as (r & Hr). destruct pdu as [|fc rest]; [exfalso; apply N; now left|]. assert (Hf : fc < 128) by (apply Z.nle_gt; intros H; apply N; right; now left). cbn [hd] in *.
    assert (Bf : is_byte fc) by now inversion B. unfold is_byte in Bf.
    destruct (handle_request s (fc :: rest) false) as [s' r'] eqn:E. cbn [snd] in Hr. subst r'. destruct (C23_response_shape s fc rest false s' r B E) as (_ & _ & [[_ X]|[X|X]]); [discriminate| |].
    + destruct r as [|x resp]; cbn [hd] in X.
      * exfalso. assert (E0 : fc = 0) by lia. subst fc. rewrite C16_unsupported_partial in E by (unfold supported; cbn; lia). discriminate.
      * subst x. exists fc, resp. split; [reflexivity|]. now left.
    + destruct r as [|x resp]; cbn [hd] in X; [lia|]. subst x. exists (fc + 128), resp. split; [reflexivity|]. right. split; [reflexivity|].
      destruct (C17_exception_means_unchanged s _ false s' (fc + 128) resp R E ltac:(lia)) as (_ & fc' & r' & c & _ & _ & -> & Hc). exists c. split; [reflexivity|]. lia.
Qed.
(* ------------------------------------------------------------------ C28 *)
(** What a databank answers to a frame for a present slave: the slave's answer in a frame, except for the bad requests, which get two raw bytes that no master accepts (or, for
    function codes from 128, an exception out of handle_request). *)
Theorem C28_exact : forall d i u pdu s, db_reachable d -> sendable i pdu -> 1 <= u <= 255 -> get_slave d u = Ok s -> all_tables s -> all_fit s ->
  let out := snd (db_handle_request d (proto_of i) (on_wire i u pdu)) in
  (~ bad s pdu -> exists rpdu, snd (handle_request s pdu false) = Ok rpdu /\ out = Ok (Some (on_wire i u rpdu))) /\
  (bad s pdu -> 128 <= hd 0 pdu -> out = Err StructError) /\
  (bad s pdu -> hd 0 pdu < 128 -> exists raw, out = Ok (Some [raw; 4]) /\ forall h, exists e, parse_response h [raw; 4] = Err e).
Proof.
  intros d i u pdu s D S U G A F out. unfold out. rewrite (db_present d i u pdu s S U G). cbn [snd]. destruct (db_reachable_slave d u s D G) as [R _]. pose proof (proj1 S) as B. split; [|split].
  - intros N. destruct (hr_good s pdu false R A ltac:(auto) B ltac:(now left) N) as (r & E). rewrite E. eauto.
  - intros N L. destruct (hr_bad s pdu false R A ltac:(auto) B ltac:(now left) N) as (s' & ->). cbn [snd db_catch]. destruct pdu as [|fc rest]; [cbn in L; lia|]. now apply (failure_err _ fc rest).
  - intros N L. destruct (hr_bad s pdu false R A ltac:(auto) B ltac:(now left) N) as (s' & ->). cbn [snd db_catch]. rewrite failure_ok by assumption. eexists. split; [reflexivity|]. intros [a|hd]; eexists; reflexivity.
Qed.
(* ------------------------------------------------------------------ C26 *)
Lemma loop_bad pdu : forall l, (forall k s, In (k, s) l -> (exists r, snd (handle_request s pdu true) = Ok r) \/ snd (handle_request s pdu true) = Err StructError) ->
  (snd (broadcast_loop l pdu) = Ok tt /\ forall k s, In (k, s) l -> snd (handle_request s pdu true) <> Err StructError) \/
  (snd (broadcast_loop l pdu) = Err StructError /\ exists k s, In (k, s) l /\ snd (handle_request s pdu true) = Err StructError).
Proof.
  induction l as [|[k s] l IH]; intros H; [left; split; [reflexivity|intros k s []]|]. cbn [broadcast_loop]. pose proof (H k s (or_introl eq_refl)) as H0.
  destruct (handle_request s pdu true) as [s' r] eqn:E. cbn [snd] in H0. destruct H0 as [(x & ->)| ->].
  - destruct (IH (fun k s I => H k s (or_intror I))) as [[I1 I2]|[I1 (k1 & s1 & I2 & I3)]].
    + left. destruct (broadcast_loop l pdu) as [t' r']. split; [exact I1|]. intros k1 s1 [[= <- <-]|I0]; [rewrite E; discriminate|now apply (I2 k1)].
    + right. destruct (broadcast_loop l pdu) as [t' r']. split; [exact I1|]. exists k1, s1. split; [now right|exact I3].
  - right. split; [reflexivity|]. exists k, s. split; [now left|now rewrite E].
Qed.
(** A broadcast write (or any other broadcast that is not a plain read) is answered - with two raw bytes - exactly when it is bad for one of the slaves. *)
Theorem C26_exact : forall d i pdu, db_reachable d -> sendable i pdu -> hd 0 pdu < 128 -> ~ In (hd 0 pdu) [1; 2; 3; 4] -> (forall u s, get_slave d u = Ok s -> all_tables s /\ (hd 0 pdu = 23 -> all_fit s)) ->
  exists r, snd (db_handle_request d (proto_of i) (on_wire i 0 pdu)) = Ok r /\ (sent r <> None <-> exists u s, get_slave d u = Ok s /\ bad s pdu) /\ (sent r = None \/ exists raw, sent r = Some [raw; 4]).
Proof.
  intros d i pdu D S L N H. rewrite db_broadcast by exact S. cbn [snd]. pose proof (proj1 S) as B. apply db_reachable_inv in D as (D1 & D2 & D3).
  assert (K : forall k s, In (k, s) (db_slaves d) -> get_slave d k = Ok s /\ reachable s).
  { intros k s I. split; [unfold get_slave; now rewrite (zassoc_nodup k s)|]. rewrite Forall_forall in D3. apply (D3 (k, s) I). }
  assert (F : forall k s, In (k, s) (db_slaves d) -> (~ bad s pdu /\ exists r, snd (handle_request s pdu true) = Ok r) \/ (bad s pdu /\ snd (handle_request s pdu true) = Err StructError)).
  { intros k s I. destruct (K k s I) as [G R]. destruct (H k s G) as [T F]. destruct (bad_dec s pdu) as [Q|Q]; [right; split; [exact Q|]|left; split; [exact Q|]].
    - destruct (hr_bad s pdu true R T F B ltac:(now right) Q) as (s' & ->). reflexivity.
    - apply hr_good; auto. intros Q3. apply F. cbn [In] in Q3, N. lia. }
  destruct (loop_bad pdu (db_slaves d)) as [[I1 I2]|[I1 (k & s & I2 & I3)]].
  - intros k s I. destruct (F k s I) as [[_ F1]|[_ F1]]; [now left|now right].
  - rewrite I1. exists None. split; [reflexivity|]. split; [|now left]. split; [intros Q; now destruct Q|]. intros (u & s & G & Q). exfalso. unfold get_slave in G. destruct (assoc Z.eqb u (db_slaves d)) eqn:E; [|discriminate]. injection G as ->.
    apply zassoc_in in E. destruct (F u s E) as [[F1 _]|[_ F1]]; [contradiction|]. now apply (I2 u s).
  - rewrite I1. cbn [db_catch]. rewrite failure_ok by assumption. eexists. split; [reflexivity|]. split; [|right; eexists; reflexivity]. split; [|cbn; discriminate]. intros _. destruct (K k s I2) as [G _]. exists k, s. split; [exact G|].
    destruct (F k s I2) as [[_ (r & F1)]|[F1 _]]; [congruence|exact F1].
Qed.
(* ------------------------------------------------------------------ C29 *)
Lemma on_wire_unit i u pdu : bytes (on_wire i u pdu) -> is_byte u.
Proof.
  destruct i as [[t p]|]; cbn [on_wire]; intros B.
  - unfold tcp_frame in B. repeat (apply bytes_app_inv in B; destruct B as [_ B]). now inversion B.
  - unfold sealed in B. apply bytes_app_inv in B. destruct B as [B _]. now inversion B.
Qed.
(** Databank.handle_request raises exactly on frames with a function code from 128 up, for a slave that is there (or broadcast to at least one). *)
Theorem C29_exact : forall d p request, bytes request ->
  ((exists e, snd (db_handle_request d p request) = Err e) <->
   exists i u pdu, request = on_wire i u pdu /\ proto_of i = p /\ sendable i pdu /\ 128 <= hd 0 pdu /\ (if u =? 0 then db_slaves d <> [] else exists s, get_slave d u = Ok s)).
Proof.
  intros d p request B. split.
  - intros (e & E). unfold db_handle_request in E. destruct (parse_request p request) as [[[h u] pdu]|x] eqn:P.
    2:{ cbn [snd] in E. destruct (db_catch_ok x []) as (r & Q); [constructor|cbn; lia|]. congruence. }
    destruct (parse_inv p request h u pdu B P) as (i & Hp & Hu & Sp & -> & _). exists i, u, pdu. split; [reflexivity|]. split; [exact Hp|]. split; [exact Sp|]. pose proof (proj1 Sp) as Bp.
    destruct (Z.le_gt_cases 128 (hd 0 pdu)) as [L|L].
    + split; [exact L|]. destruct (u =? 0) eqn:U0.
      * intros Q. rewrite Q in E. cbn in E. discriminate.
      * destruct (get_slave d u) as [s|x] eqn:G; [eauto|]. exfalso. unfold get_slave in G. destruct (assoc Z.eqb u (db_slaves d)); [discriminate|]. injection G as <-. destruct (db_error_on_missing d); discriminate.
    + exfalso. destruct (u =? 0).
      * destruct (broadcast_loop _ _) as [l [r|x]]; cbn [snd] in E; [discriminate|]. destruct (db_catch_ok x pdu Bp L) as (r & Q). congruence.
      * destruct (get_slave d u) as [s|x].
        -- destruct (handle_request s pdu false) as [s' r]. destruct (_ <- r ;; _) as [v|x]; cbn [snd] in E; [discriminate|]. destruct (db_catch_ok x pdu Bp L) as (r1 & Q). congruence.
        -- destruct (db_catch_ok x pdu Bp L) as (r1 & Q). destruct x; cbn [snd] in E; try congruence. destruct (db_error_on_missing d); cbn [snd] in E; congruence.
  - intros (i & u & pdu & -> & <- & S & L & Q). pose proof (proj1 S) as Bp. destruct pdu as [|fc rest]; [cbn in L; lia|]. cbn [hd] in L. assert (Bf : is_byte fc) by now inversion Bp. unfold is_byte in Bf.
    destruct (u =? 0) eqn:U0.
    + assert (u = 0) by lia. subst u. rewrite db_broadcast by exact S. cbn [snd]. destruct (db_slaves d) as [|[k s] l]; [congruence|]. cbn [broadcast_loop]. rewrite C16_refuted by lia. cbn [fst snd db_catch]. rewrite (failure_err _ fc rest eq_refl L). eauto.
    + destruct Q as (s & G). assert (Un : 1 <= u <= 255).
      { destruct (Z.eq_dec u 0); [lia|]. pose proof (on_wire_unit i u (fc :: rest) B) as W. unfold is_byte in W. lia. }
      rewrite (db_present d i u _ s S Un G). cbn [snd]. rewrite C16_refuted by lia. cbn [snd db_catch]. rewrite (failure_err _ fc rest eq_refl L). eauto.
Qed.
(** The hypotheses are met (demo_db with C28_ex and C61_ex); a two-register write missing a byte is bad inside the block, not bad (exception 2) outside, and not bad when complete; an odd function code with junk behind it is answered; code 200 is not. *)
Example C28_exact_ex : exists s, get_slave demo_db 9 = Ok s /\ reachable s /\ all_tables s /\ all_fit s /\
  bad s ([16; 0; 100; 0; 2; 4] ++ [1; 2; 3]) /\ ~ bad s ([16; 0; 100; 0; 2; 4] ++ [1; 2; 3; 4]) /\ ~ bad s ([16; 1; 100; 0; 2; 4] ++ [1; 2; 3]) /\ ~ bad s [43; 14] /\ bad s [200; 1] /\
  snd (db_handle_request demo_db RTU (on_wire None 9 ([16; 0; 100; 0; 2; 4] ++ [1; 2; 3]))) = Ok (Some [144; 4]).
Proof.
  destruct C28_ex as (_ & s & G & A & F). exists s. destruct (db_reachable_slave demo_db 9 s demo_db_reachable G) as [R _].
  assert (E : bad s ([16; 0; 100; 0; 2; 4] ++ [1; 2; 3]) /\ ~ bad s ([16; 1; 100; 0; 2; 4] ++ [1; 2; 3])).
  { revert G. intros G. injection G as <-. split.
    - right. right. right. cbn. split; [lia|]. split; [reflexivity|]. split; [|reflexivity]. eexists. split; [left; reflexivity|]. vm_compute. split; discriminate.
    - intros [B|[B|[B|B]]]; [discriminate|cbn in B; lia|discriminate|]. cbn in B. destruct B as (_ & _ & (b & [<-|[]] & C) & _). vm_compute in C. destruct C as [_ C]. now apply C. }
  repeat match goal with |- _ /\ _ => split end; try tauto.
  - intros [B|[B|[B|B]]]; [discriminate|cbn in B; lia|discriminate|]. cbn in B. destruct B as (_ & _ & _ & B). discriminate B.
  - intros [B|[B|[B|B]]]; [discriminate|cbn in B; lia|discriminate|exact B].
  - right. left. cbn. lia.
Qed.

Print Assumptions C61_exact.
Print Assumptions C28_exact.
Print Assumptions C26_exact.
Print Assumptions C29_exact.
