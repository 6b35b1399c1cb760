(** What happens exactly where C18 and C21 fail: truncated write requests, and mask writes on signed slaves.
    Vocabulary: Spec.v, SlaveSpec.v (serving, overlay, frame, served_by, wrote) and [wrote_part] below. *)
From Coq Require Import ZArith Lia ZifyBool ZifyNat.
Ltac Zify.zify_post_hook ::= Z.div_mod_to_equations.
From Verif Require Import Base BaseFacts PyStruct Defines Spec SlaveModel StructFacts SlaveSpec SlaveProofs HandlerProofs RequestProofs GeneralProofs BlockSpec AtomicProofs.
Open Scope string_scope.
Open Scope list_scope.
Open Scope Z_scope.

(** Spec: in the block that serves the [n] items at [a], exactly the cells a, a+1, ... are replaced by [vals]; nothing else is different. *)
Definition wrote_part (s : slave) (t : btype) (a n : Z) (vals : list Z) (s' : slave) : Prop :=
  exists l1 b l2, serving (blocks s t) a n l1 b l2 /\ blocks s' t = l1 ++ overlay b a vals :: l2 /\ frame s s' t.
Lemma put_part s t a n vals l1 b l2 : has_table s t -> serving (blocks s t) a n l1 b l2 ->
  wrote_part s t a n vals (put_block_data s t (length l1) b (set_cells (b_data b) (Z.to_nat (a - b_start b)) vals)).
Proof.
  intros Ht Hs. pose proof Hs as (E & (C & _) & _). rewrite <- overlay_set_cells by exact C. exists l1, b, l2. split; [exact Hs|].
  rewrite (put_block_data_blocks s t l1 b l2) by auto. split; [rewrite blocks_mem_set by (auto; reflexivity); reflexivity|now apply mem_set_frame].
Qed.
Lemma regs_loop_split fmt pdu base off n2 : forall n1 i data,
  write_regs_loop fmt pdu base off (n1 + n2) i data =
  let '(d, r) := write_regs_loop fmt pdu base off n1 i data in
  match r with Err e => (d, Err e) | Ok _ => write_regs_loop fmt pdu base off n2 (i + Z.of_nat n1) d end.
Proof.
  induction n1 as [|n1 IH]; intros i data; cbn [Nat.add write_regs_loop]; [now rewrite Z.add_0_r|].
  destruct (unpack1 _ _) as [v|e]; [|reflexivity]. destruct (py_set _ _ _) as [d|e]; [|reflexivity]. rewrite IH. replace (i + 1 + Z.of_nat n1) with (i + Z.of_nat (S n1)) by lia. reflexivity.
Qed.
Lemma short_slice (pdu : list Z) a b : 0 <= a <= b -> zlen pdu < b -> a < b -> (length (py_slice pdu a b) < Z.to_nat (b - a))%nat.
Proof. intros H1 H2 H3. rewrite py_slice_nonneg by lia. rewrite firstn_length, skipn_length. unfold zlen in H2. lia. Qed.
Lemma unpack1_short f sg n b : parse_fmt f = Ok {| pf_little := false; pf_items := [FInt n sg] |} -> (length b < n)%nat -> unpack1 f b = Err StructError.
Proof. intros P L. unfold unpack1. rewrite (unpack_len_err _ _ _ P); [reflexivity|]. cbn. lia. Qed.
Lemma regs_loop_truncated s (pre ws odd d0 : list Z) base off m : Forall (fits true) ws -> zlen pre = base -> 0 <= off -> zlen odd <= 1 ->
  (Z.to_nat off + length ws <= length d0)%nat ->
  write_regs_loop (fmtH s) (pre ++ words ws ++ odd) base off (length ws + S m) 0 d0
  = (set_cells d0 (Z.to_nat off) (map (reg_of_word (sl_unsigned s)) ws), Err StructError).
Proof.
  intros W P O D L. rewrite regs_loop_split. pose proof (write_regs_loop_ok s pre ws odd base off d0 [] W) as HL.
  rewrite set_cells_nil in HL. change (zlen (@nil Z)) with 0 in HL. pose proof (zlen_nonneg pre). rewrite HL by (cbn [length]; lia). cbn [write_regs_loop app].
  destruct (fmtH_parse s) as [sg HP]. rewrite (unpack1_short _ sg 2); [reflexivity|exact HP|].
  assert (LW : zlen (words ws) = 2 * zlen ws) by (clear; unfold words; induction ws as [|w ws IH]; [reflexivity|cbn [flat_map]; rewrite zlen_app, IH, zlen_cons; change (zlen (word w)) with 2; lia]).
  replace 2%nat with (Z.to_nat (base + 2 + 2 * (0 + Z.of_nat (length ws)) - (base + 2 * (0 + Z.of_nat (length ws))))) by lia.
  apply short_slice; rewrite ?zlen_app; unfold zlen in *; lia.
Qed.

(** C18: a request for FC16 that carries fewer registers than it announces stores those it carries, in order, and then raises; so does a
    broadcast. [odd] is a last half register. *)
Theorem C18_truncated_registers : forall s a n ws odd broadcast,
  reachable s -> has_table s HOLDING_REGISTERS -> fits true a -> 1 <= n <= 123 -> Forall (fits true) ws -> zlen ws < n -> zlen odd <= 1 ->
  (exists b, served_by s HOLDING_REGISTERS a n b) ->
  exists s', handle_request s (16 :: word a ++ word n ++ 2 * n :: words ws ++ odd) broadcast = (s', Err StructError) /\
    wrote_part s HOLDING_REGISTERS a n (map (reg_of_word (sl_unsigned s)) ws) s'.
Proof.
  intros s a n ws odd bc Hw Ht Ha Hn Hws Hl Ho (b & l1 & l2 & Hs). apply reachable_wf in Hw.
  pose proof (wf_served _ _ _ _ _ _ _ Hw Hs) as (H1 & H2 & H3). pose proof Hs as (_ & (H4 & H5) & _).
  eexists. split; [|eapply put_part; [exact Ht|exact Hs]]. eapply hr_err; [reflexivity| |discriminate|destruct bc; reflexivity].
  unfold write_multiple_registers. rewrite unpack3_head by (auto; unfold fits; lia).
  destruct ((n <=? 0) || (123 <? n) || negb (2 * n =? n * 2)) eqn:E; [lia|]. rewrite (gbo_served _ _ _ _ _ _ _ Ht Hs).
  replace (16 :: word a ++ word n ++ 2 * n :: words ws ++ odd) with ((16 :: word a ++ word n ++ [2 * n]) ++ words ws ++ odd) by (cbn [app]; now rewrite <- !app_assoc).
  replace (Z.to_nat n) with (length ws + S (Z.to_nat n - length ws - 1))%nat by (unfold zlen in *; lia).
  rewrite regs_loop_truncated; try assumption; try reflexivity; [lia|unfold zlen in *; lia].
Qed.
(** FC23: the same, after the registers to read have been read. *)
Theorem C18_truncated_read_write : forall s ra rq wa n ws odd rb,
  reachable s -> has_table s HOLDING_REGISTERS -> fits true ra -> fits true wa -> 1 <= rq <= 125 -> 1 <= n <= 123 -> Forall (fits true) ws -> zlen ws < n -> zlen odd <= 1 ->
  served_by s HOLDING_REGISTERS ra rq rb -> Forall (fits (sl_unsigned s)) (values_at rb ra rq) -> (exists b, served_by s HOLDING_REGISTERS wa n b) ->
  exists s', handle_request s (23 :: word ra ++ word rq ++ word wa ++ word n ++ 2 * n :: words ws ++ odd) false = (s', Err StructError) /\
    wrote_part s HOLDING_REGISTERS wa n (map (reg_of_word (sl_unsigned s)) ws) s'.
Proof.
  intros s ra rq wa n ws odd rb Hw Ht Ha Hwa Hrq Hn Hws Hl Ho (r1 & r2 & Hr) Hfit (b & l1 & l2 & Hs). apply reachable_wf in Hw.
  pose proof (wf_served _ _ _ _ _ _ _ Hw Hs) as (H1 & H2 & H3). pose proof Hs as (_ & (H4 & H5) & _).
  eexists. split; [|eapply put_part; [exact Ht|exact Hs]]. eapply hr_err; [reflexivity| |discriminate|reflexivity].
  unfold read_write_multiple_registers. rewrite unpack5_head by (auto; unfold fits; lia). destruct ((rq <=? 0) || (125 <? rq)) eqn:E; [lia|].
  rewrite (gbo_served _ _ _ _ _ _ _ Ht Hr). rewrite values_at_slice; [|apply Hr|lia]. rewrite pack_B_ok by (unfold is_byte; lia). cbn [bind].
  rewrite pack_regs_loop_ok by assumption. cbn [app]. destruct ((n <=? 0) || (123 <? n) || negb (2 * n =? n * 2)) eqn:E2; [lia|]. rewrite (gbo_served _ _ _ _ _ _ _ Ht Hs).
  replace (23 :: word ra ++ word rq ++ word wa ++ word n ++ 2 * n :: words ws ++ odd) with ((23 :: word ra ++ word rq ++ word wa ++ word n ++ [2 * n]) ++ words ws ++ odd) by (cbn [app]; now rewrite <- !app_assoc).
  replace (Z.to_nat n) with (length ws + S (Z.to_nat n - length ws - 1))%nat by (unfold zlen in *; lia).
  rewrite regs_loop_truncated; try assumption; try reflexivity; [lia|unfold zlen in *; lia].
Qed.
(** FC15 with fewer bytes than the coils need: eight coils are stored for each byte it carries. *)
Lemma bits_outer_truncated s (data pre d0 : list Z) off q : bytes data -> 0 <= off -> 0 <= q -> off + q <= zlen d0 -> zlen pre = 6 ->
  forall n m, (length data < n + Z.to_nat m)%nat -> 0 <= m <= zlen data -> 8 * zlen data < q ->
  write_bits_outer n (fmtB s) (pre ++ data) off m (8 * m) q (set_cells d0 (Z.to_nat off) (bits_of data (Z.to_nat (8 * m))))
  = (set_cells d0 (Z.to_nat off) (bits_of data (Z.to_nat (8 * zlen data))), Err StructError).
Proof.
  intros Hby Ho Hq Hlen Hpre. induction n as [|n IH]; intros m Hn Hm Hd; [unfold zlen in *; lia|]. cbn [write_bits_outer]. replace (q <=? 8 * m) with false by lia.
  destruct (Z.eq_dec m (zlen data)) as [-> | Hne].
  - destruct (fmtB_parse s) as [sg HP]. rewrite (unpack1_short _ sg 1); [reflexivity|exact HP|].
    replace 1%nat with (Z.to_nat (7 + zlen data - (6 + zlen data))) by lia. apply short_slice; rewrite ?zlen_app; lia.
  - replace (py_slice (pre ++ data) (6 + m) (7 + m)) with [nth (Z.to_nat m) data 0].
    2:{ rewrite py_slice_nonneg by lia. replace (Z.to_nat (7 + m - (6 + m))) with 1%nat by lia. unfold zlen in Hpre, Hm, Hne.
        rewrite skipn_app. rewrite (skipn_all2 pre) by lia. cbn [app]. replace (Z.to_nat (6 + m) - length pre)%nat with (Z.to_nat m) by lia.
        assert (Hml : (Z.to_nat m < length data)%nat) by lia. clear - Hml. revert Hml. generalize (Z.to_nat m) as k.
        induction data as [|x data IH]; intros k Hk; [cbn in Hk; lia|]. destruct k as [|k]; [reflexivity|]. cbn [skipn nth length]. cbn in Hk. rewrite IH by lia. reflexivity. }
    assert (Hb : is_byte (nth (Z.to_nat m) data 0)). { unfold bytes in Hby. rewrite Forall_forall in Hby. apply Hby. apply nth_In. unfold zlen in *. lia. }
    destruct (unpack1_fmtB s _ Hb) as (v & -> & Hv). rewrite (write_bits_inner_ok data d0 off q v m Ho 8 0 (8 * m)) by (auto; lia).
    replace (Z.min q (8 * m + 8)) with (8 * (m + 1)) by lia. apply IH; lia.
Qed.
Theorem C18_truncated_coils : forall s a n data broadcast,
  reachable s -> has_table s COILS -> fits true a -> 1 <= n <= 1968 -> bytes data -> zlen data < bytes_for_bits n -> (exists b, served_by s COILS a n b) ->
  exists s', handle_request s (15 :: word a ++ word n ++ bytes_for_bits n :: data) broadcast = (s', Err StructError) /\
    wrote_part s COILS a n (bits_of data (Z.to_nat (8 * zlen data))) s'.
Proof.
  intros s a n data bc Hw Ht Ha Hn Hby Hd (b & l1 & l2 & Hs). apply reachable_wf in Hw.
  pose proof (wf_served _ _ _ _ _ _ _ Hw Hs) as (H1 & H2 & H3). pose proof Hs as (_ & (H4 & H5) & _).
  eexists. split; [|eapply put_part; [exact Ht|exact Hs]]. eapply hr_err; [reflexivity| |discriminate|destruct bc; reflexivity].
  unfold write_multiple_coils. rewrite unpack3_head by (auto; unfold fits; lia). rewrite bit_byte_count_spec by lia.
  destruct ((n <=? 0) || (1968 <? n) || negb (bytes_for_bits n =? bytes_for_bits n)) eqn:E; [lia|]. rewrite (gbo_served _ _ _ _ _ _ _ Ht Hs).
  replace (15 :: word a ++ word n ++ bytes_for_bits n :: data) with ((15 :: word a ++ word n ++ [bytes_for_bits n]) ++ data) by (cbn [app]; now rewrite <- !app_assoc).
  pose proof (bits_outer_truncated s data (15 :: word a ++ word n ++ [bytes_for_bits n]) (b_data b) (a - b_start b) n Hby ltac:(lia) ltac:(lia) ltac:(lia) eq_refl (Z.to_nat (bytes_for_bits n)) 0) as HL.
  change (8 * 0) with 0 in HL. change (bits_of data (Z.to_nat 0)) with (@nil Z) in HL. rewrite set_cells_nil in HL. unfold bytes_for_bits in *. pose proof (zlen_nonneg data).
  rewrite HL; [reflexivity| | |]; unfold zlen in *; lia.
Qed.
Definition demo : slave := slave_run (new_slave true None) [OpAddBlock "r" 3 100 10; OpAddBlock "c" 1 0 40; OpSetValues "r" 100 (SvSeq [1; 2; 3; 4; 5; 6]); OpSetValues "c" 0 (SvSeq (repeat 1 30))].
Example C18_ex_truncated :
  (let '(s, r) := handle_request demo (16 :: word 101 ++ word 4 ++ 8 :: words [50; 60] ++ [7]) false in r = Err StructError /\ get_values s "r" 100 6 = Ok [1; 50; 60; 4; 5; 6]) /\
  (let '(s, r) := handle_request demo (15 :: word 2 ++ word 20 ++ bytes_for_bits 20 :: [170]) true in r = Err StructError /\ get_values s "c" 0 12 = Ok [1; 1; 0; 1; 0; 1; 0; 1; 0; 1; 1; 1]).
Proof. vm_compute. auto. Qed.

(** C21: on a signed slave a mask write stores the unsigned word; so afterwards the register can be read iff bit 15 of it is clear. *)
Theorem C21_mask_exact : forall s a and_mask or_mask rest b old,
  reachable s -> has_table s HOLDING_REGISTERS -> fits true a -> fits true and_mask -> fits true or_mask -> served_by s HOLDING_REGISTERS a 1 b -> cell b a = Some old ->
  exists s' v, handle_request s (22 :: word a ++ word and_mask ++ word or_mask ++ rest) false = (s', Ok (22 :: word a ++ word and_mask ++ word or_mask ++ rest)) /\
    wrote s HOLDING_REGISTERS a [v] s' /\ 0 <= v <= 65535 /\
    (forall k, 0 <= k < 16 -> Z.testbit v k = if Z.testbit and_mask k then Z.testbit old k else Z.testbit or_mask k) /\
    (sl_unsigned s = false -> (fits false v <-> Z.testbit v 15 = false)).
Proof.
  intros s a am om rest b old Hw Ht Ha Hm Ho Hs Hc. apply reachable_wf in Hw. destruct (hr_mask_write s a am om rest b Hw Ht Ha Hm Ho Hs) as (s' & old' & C & H & W).
  assert (old' = old) by congruence. subst old'. exists s'. eexists. split; [exact H|]. split; [exact W|]. set (v := Z.lor _ _).
  assert (TB : forall k, 0 <= k -> Z.testbit v k = if Z.testbit am k then Z.testbit old k else Z.testbit om k).
  { intros k Hk. unfold v. rewrite Z.lor_spec, !Z.land_spec, Z.lnot_spec by lia. destruct (Z.testbit am k), (Z.testbit old k), (Z.testbit om k); reflexivity. }
  assert (HB : forall x k, fits true x -> 16 <= k -> Z.testbit x k = false).
  { intros x k [X1 X2] K. rewrite <- (Z.mod_small x (2 ^ 16)) by (cbn; lia). apply Z.mod_pow2_bits_high. lia. }
  assert (VM : v = v mod 2 ^ 16).
  { apply Z.bits_inj'. intros k Hk. destruct (Z_lt_le_dec k 16) as [K|K]; [now rewrite Z.mod_pow2_bits_low by lia|]. rewrite Z.mod_pow2_bits_high by lia. rewrite TB by lia.
    rewrite (HB am k Hm K), (HB om k Ho K). reflexivity. }
  assert (R : 0 <= v <= 65535) by (rewrite VM; pose proof (Z.mod_pos_bound v (2 ^ 16) ltac:(lia)); change (2 ^ 16) with 65536 in *; lia).
  split; [exact R|]. split; [intros k Hk; apply TB; lia|]. intros _. unfold fits. rewrite Z.testbit_false by lia. change (2 ^ 15) with 32768. lia.
Qed.
Example C21_ex_mask : let s := slave_run (new_slave false None) [OpAddBlock "r" 3 100 2; OpSetValues "r" 100 (SvNum (-2))] in
  (let '(s1, r) := handle_request s (22 :: word 100 ++ word 65535 ++ word 0) false in get_values s1 "r" 100 1 = Ok [65534] /\ snd (handle_request s1 (3 :: word 100 ++ word 1) false) = Err StructError) /\
  (let '(s1, r) := handle_request s (22 :: word 100 ++ word 255 ++ word 0) false in get_values s1 "r" 100 1 = Ok [254] /\ snd (handle_request s1 (3 :: word 100 ++ word 1) false) = Ok [3; 2; 0; 254]).
Proof. vm_compute. auto. Qed.

Print Assumptions C18_truncated_registers.
Print Assumptions C18_truncated_read_write.
Print Assumptions C18_truncated_coils.
Print Assumptions C21_mask_exact.
