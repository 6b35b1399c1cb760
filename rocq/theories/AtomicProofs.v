(** Atomicity of complete requests (C18), and the bridge lemmas from reachable
    states to the invariant. *)
From Verif Require Export SlaveMore.

Lemma fresh_inv s : fresh s -> inv s.
Proof. intros []; [apply inv_new|now apply inv_new_mem]. Qed.
Lemma reachable_inv s : reachable s -> inv s.
Proof. intros (s0 & ops & Hf & ->). apply run_inv. now apply fresh_inv. Qed.
Lemma reachable_wf s : reachable s -> wf_slave s.
Proof. intros H. apply inv_wf_slave. now apply reachable_inv. Qed.

Lemma slice2_length (pdu : list Z) i : 0 <= i -> i + 2 <= zlen pdu -> length (py_slice pdu i (2 + i)) = 2%nat.
Proof.
  intros H1 H2. apply zlen_length. rewrite py_slice_length by lia. lia.
Qed.
Lemma unpack1_len f n sg b :
  parse_fmt f = Ok {| pf_little := false; pf_items := [FInt n sg] |} -> length b = n ->
  exists v, unpack1 f b = Ok v.
Proof.
  intros Hp Hl. destruct (unpack1_single f n sg b Hp) as [H|[H _]]; [|eauto].
  unfold unpack1 in H. rewrite (unpack_len_ok f _ b Hp) in H; [|cbn; lia].
  cbn in H. discriminate.
Qed.
Lemma write_regs_loop_complete s pdu base off n : forall i data,
  0 <= i -> 0 <= base -> 0 <= off -> base + 2 * (i + Z.of_nat n) <= zlen pdu -> off + i + Z.of_nat n <= zlen data ->
  exists d, write_regs_loop (fmtH s) pdu base off n i data = (d, Ok tt).
Proof.
  induction n as [|n IH]; intros i data Hi Hb Ho Hp Hd; cbn [write_regs_loop]; [eauto|].
  destruct (fmtH_parse s) as [sg Hsg].
  destruct (unpack1_len _ 2 sg (py_slice pdu (base + 2 * i) (base + 2 + 2 * i)) Hsg) as [v ->].
  { replace (base + 2 + 2 * i) with (2 + (base + 2 * i)) by lia. apply slice2_length; lia. }
  rewrite py_set_in by lia. apply IH; try lia. rewrite list_upd_zlen. lia.
Qed.
Lemma write_bits_inner_complete bv offset i q fuel : forall j count data,
  0 <= offset -> 0 <= i -> 0 <= j -> count = 8 * i + j -> j + Z.of_nat fuel = 8 -> count <= q ->
  offset + q <= zlen data ->
  exists d, write_bits_inner fuel bv (offset + i * 8) j count q data = (d, Ok (Z.min q (8 * i + 8))) /\ zlen d = zlen data.
Proof.
  induction fuel as [|fuel IH]; intros j count data H1 H2 H3 H4 H5 H6 H7; cbn [write_bits_inner].
  - exists data. split; [|reflexivity]. f_equal. f_equal. lia.
  - destruct (q <=? count) eqn:E.
    + exists data. split; [|reflexivity]. f_equal. f_equal. lia.
    + rewrite py_set_in by lia.
      destruct (IH (j + 1) (count + 1) (list_upd data (Z.to_nat (offset + i * 8 + j))
        (if Z.land bv (Z.shiftl 1 j) =? 0 then 0 else 1))) as (d & Hd1 & Hd2); try lia.
      { rewrite list_upd_zlen. lia. }
      exists d. split; [exact Hd1|]. now rewrite Hd2, list_upd_zlen.
Qed.
Lemma write_bits_outer_complete s pdu offset q n : forall i data,
  0 <= offset -> 0 <= i -> 6 + i + Z.of_nat n <= zlen pdu -> q <= 8 * (i + Z.of_nat n) -> offset + q <= zlen data -> 0 <= q ->
  exists d, write_bits_outer n (fmtB s) pdu offset i (Z.min q (8 * i)) q data = (d, Ok q).
Proof.
  induction n as [|n IH]; intros i data H1 H2 H3 H4 H5 H6; cbn [write_bits_outer].
  - exists data. f_equal. f_equal. lia.
  - destruct (q <=? Z.min q (8 * i)) eqn:E.
    + exists data. f_equal. f_equal. lia.
    + destruct (fmtB_parse s) as [sg Hsg].
      destruct (unpack1_len _ 1 sg (py_slice pdu (6 + i) (7 + i)) Hsg) as [v ->].
      { apply zlen_length. rewrite py_slice_length by lia. lia. }
      destruct (write_bits_inner_complete v offset i q 8 0 (Z.min q (8 * i)) data) as (d & -> & Hd); try lia.
      replace (8 * i + 8) with (8 * (i + 1)) by lia. apply IH; lia.
Qed.

Lemma be16_range pdu i : bytes pdu -> 0 <= be16 pdu i < 65536.
Proof.
  intros Hby. unfold be16. assert (Hn : forall k, 0 <= nth k pdu 0 < 256).
  { intros k. destruct (Nat.lt_ge_cases k (length pdu)) as [Hk|Hk].
    - unfold bytes in Hby. rewrite Forall_forall in Hby. apply Hby. now apply nth_In.
    - rewrite nth_overflow by assumption. lia. }
  pose proof (Hn i). pose proof (Hn (S i)). lia.
Qed.

Lemma fn_atomic s fc f rest :
  wf_slave s -> bytes (fc :: rest) -> complete (fc :: rest) -> fn_code_map fc = Some f ->
  fst (f s (fc :: rest)) = s \/ exists r, snd (f s (fc :: rest)) = Ok r.
Proof.
  intros Hw Hby Hco. unfold fn_code_map, READ_COILS, READ_DISCRETE_INPUTS, READ_INPUT_REGISTERS, READ_HOLDING_REGISTERS,
    READ_EXCEPTION_STATUS, WRITE_SINGLE_COIL, WRITE_SINGLE_REGISTER, WRITE_MULTIPLE_COILS,
    WRITE_MULTIPLE_REGISTERS, MASK_WRITE_REGISTER, READ_WRITE_MULTIPLE_REGISTERS.
  repeat (match goal with |- (if ?x =? ?y then _ else _) = _ -> _ => destruct (x =? y) eqn:?Efc end;
    [intros H; injection H as <-; cbv beta|]); try discriminate.
  1,2,3,4,5: left; reflexivity.
  - unfold write_single_coil. destruct (unpack2 ">HH" _) as [[a q]|e]; [|left; reflexivity].
    destruct (get_block_and_offset _ _ _ _) as [[[i b] o]|e]; [|left; reflexivity].
    destruct (q =? 0); [|destruct (q =? 65280)]; [| |left; reflexivity];
      (destruct (py_set _ _ _) as [d|e]; [right; eexists; reflexivity|left; reflexivity]).
  - unfold write_single_register. destruct (unpack2 _ _) as [[a q]|e]; [|left; reflexivity].
    destruct (get_block_and_offset _ _ _ _) as [[[i b] o]|e]; [|left; reflexivity].
    destruct (py_set _ _ _) as [d|e]; [right; eexists; reflexivity|left; reflexivity].
  - assert (fc = 15) as -> by lia. unfold complete in Hco. cbn [hd] in Hco. destruct Hco as [Hl1 Hl2].
    unfold write_multiple_coils.
    destruct (unpack3 ">HHB" _) as [[[a q] bc]|e] eqn:E3; [|left; reflexivity].
    apply unpack3_inv in E3 as (_ & Ha & Hq & Hbc).
    destruct ((q <=? 0) || (1968 <? q) || negb (bc =? bit_byte_count q)) eqn:E; [left; reflexivity|].
    destruct (gbo_inv s COILS a q _ eq_refl) as [[-> _]|[[-> _]|(l1 & b & l2 & Ht & Hs & ->)]]; try (left; reflexivity).
    destruct (wf_served _ _ _ _ _ _ _ Hw Hs) as (Hb1 & Hb2 & Hb3). destruct Hs as (_ & [Hc1 Hc2] & _).
    assert (Hbb : bit_byte_count q = bytes_for_bits q /\ bc = bit_byte_count q).
    { split; [|lia]. unfold bit_byte_count, bytes_for_bits. destruct (0 <? q mod 8) eqn:Em; lia. }
    destruct Hbb as [Hbb1 Hbb2]. unfold bytes_for_bits in Hbb1.
    destruct (write_bits_outer_complete s (15 :: rest) (a - b_start b) q (Z.to_nat bc) 0 (b_data b)) as (d & Hd); try lia.
    replace (Z.min q (8 * 0)) with 0 in Hd by lia. rewrite Hd. right.
    pose proof (be16_range _ 1 Hby). pose proof (be16_range _ 3 Hby).
    exists (word a ++ word q). cbn [snd]. apply pack_HH; unfold fits; lia.
  - assert (fc = 16) as -> by lia. unfold complete in Hco. cbn [hd] in Hco. destruct Hco as [Hl1 Hl2].
    unfold write_multiple_registers.
    destruct (unpack3 ">HHB" _) as [[[a q] bc]|e] eqn:E3; [|left; reflexivity].
    apply unpack3_inv in E3 as (_ & Ha & Hq & Hbc).
    destruct ((q <=? 0) || (123 <? q) || negb (bc =? q * 2)) eqn:E; [left; reflexivity|].
    destruct (gbo_inv s HOLDING_REGISTERS a q _ eq_refl) as [[-> _]|[[-> _]|(l1 & b & l2 & Ht & Hs & ->)]]; try (left; reflexivity).
    destruct (wf_served _ _ _ _ _ _ _ Hw Hs) as (Hb1 & Hb2 & Hb3). destruct Hs as (_ & [Hc1 Hc2] & _).
    destruct (write_regs_loop_complete s (16 :: rest) 6 (a - b_start b) (Z.to_nat q) 0 (b_data b)) as (d & Hd); try lia.
    rewrite Hd. right.
    pose proof (be16_range _ 1 Hby). pose proof (be16_range _ 3 Hby).
    exists (word a ++ word q). cbn [snd]. apply pack_HH; unfold fits; lia.
  - unfold mask_write_register. destruct (unpack3 ">HHH" _) as [[[a am] om]|e]; [|left; reflexivity].
    destruct (get_block_and_offset _ _ _ _) as [[[i b] o]|e]; [|left; reflexivity].
    destruct (py_get _ _) as [old|e]; [|left; reflexivity].
    destruct (py_set _ _ _) as [d|e]; [right; eexists; reflexivity|left; reflexivity].
  - assert (fc = 23) as -> by lia. unfold complete in Hco. cbn [hd] in Hco. destruct Hco as [Hl1 Hl2].
    unfold read_write_multiple_registers.
    destruct (unpack5 ">HHHHB" _) as [[[[[ra rq] wa] wq] bc]|e] eqn:E5; [|left; reflexivity].
    apply unpack5_inv in E5 as (_ & _ & _ & _ & Hwq & Hbc).
    destruct ((rq <=? 0) || (125 <? rq)); [left; reflexivity|].
    destruct (get_block_and_offset _ _ ra _) as [[[i c] o]|e]; [|left; reflexivity].
    destruct (header <- _ ;; _) as [resp|e]; [|left; reflexivity].
    destruct ((wq <=? 0) || (123 <? wq) || negb (bc =? wq * 2)) eqn:E; [left; reflexivity|].
    destruct (gbo_inv s HOLDING_REGISTERS wa wq _ eq_refl) as [[-> _]|[[-> _]|(l1 & b & l2 & Ht & Hs & ->)]]; try (left; reflexivity).
    destruct (wf_served _ _ _ _ _ _ _ Hw Hs) as (Hb1 & Hb2 & Hb3). destruct Hs as (_ & [Hc1 Hc2] & _).
    destruct (write_regs_loop_complete s (23 :: rest) 10 (wa - b_start b) (Z.to_nat wq) 0 (b_data b)) as (d & Hd); try lia.
    rewrite Hd. right. exists resp. reflexivity.
Qed.

Lemma hr_atomic s pdu bc :
  wf_slave s -> bytes pdu -> complete pdu ->
  fst (handle_request s pdu bc) = s \/ positive pdu bc (snd (handle_request s pdu bc)).
Proof.
  intros Hw Hby Hco. destruct pdu as [|fc rest]; [left; reflexivity|].
  unfold handle_request. rewrite unpack_fc.
  destruct (fn_code_map fc) as [f|] eqn:Ef; [|left; reflexivity].
  destruct (bc && cant_be_broadcasted fc); [left; reflexivity|].
  destruct (fn_atomic s fc f rest Hw Hby Hco Ef) as [H|[r H]].
  - left. destruct (f s (fc :: rest)) as [s' r]. cbn [fst] in H. subst s'. destruct r as [[|x l]|e]; [| |]; try reflexivity.
    now destruct bc.
  - destruct (fn_effect s fc rest f Hw Ef) as (t & a & n & He & _).
    pose proof (he_ok _ _ _ _ _ _ _ He _ H) as Hne.
    destruct (f s (fc :: rest)) as [s' r']. cbn [snd] in H. subst r'. destruct r as [|x l]; [congruence|].
    right. destruct bc; [reflexivity|]. cbn [snd positive hd].
    pose proof (fn_code_map_range _ _ Ef). rewrite pack_B_ok by (unfold is_byte; lia). cbn [bind]. eexists. reflexivity.
Qed.

(** every single-cell write and every read request is complete *)
Lemma names_block_denotes s name t l1 b l2 : names_block s name t l1 b l2 -> denotes s name t b.
Proof.
  intros (st & Ha & Ht & Hb & <- & Hf). split; [exact Ha|]. exists l1, l2. auto.
Qed.
Lemma denotes_names_block s name t b : inv s -> denotes s name t b -> exists l1 l2, names_block s name t l1 b l2.
Proof.
  intros Hi (Ha & l1 & l2 & Hb & Hf). exists l1, l2, (b_start b). split; [exact Ha|]. split; [|auto].
  apply (assoc_in _ string_eqb_spec) in Ha. exact (inv_tables _ Hi _ _ _ Ha).
Qed.
Lemma inside_iff s name a n : inv s -> inside s name a n <-> in_named_block s name a n.
Proof.
  intros Hi. split.
  - intros (t & b & Hd & Hc). apply (denotes_names_block _ _ _ _ Hi) in Hd as (l1 & l2 & Hnb). exists t, l1, b, l2. auto.
  - intros (t & l1 & b & l2 & Hnb & Hc). exists t, b. split; [eapply names_block_denotes; eauto|exact Hc].
Qed.
