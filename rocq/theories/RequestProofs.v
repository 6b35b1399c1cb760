(** Functional characterisation of Slave.handle_request, function code by
    function code. *)
From Verif Require Export HandlerProofs.

Lemma unpack_fc fc r : unpack1 ">B" (py_slice (fc :: r) 0 1) = Ok fc.
Proof.
  rewrite py_slice_nonneg by lia. cbn [skipn]. change (Z.to_nat (1 - 0)) with 1%nat.
  change (Z.to_nat 0) with O. cbn [skipn firstn]. unfold unpack1. rewrite unpack_B. reflexivity.
Qed.

Lemma fn_code_map_range fc f : fn_code_map fc = Some f -> 1 <= fc <= 23.
Proof.
  unfold fn_code_map. intros H.
  repeat match type of H with
  | (if ?x =? ?y then _ else _) = _ => let E := fresh in destruct (x =? y) eqn:E; [clear H|]
  end; try discriminate;
  unfold READ_COILS, READ_DISCRETE_INPUTS, READ_INPUT_REGISTERS, READ_HOLDING_REGISTERS,
    READ_EXCEPTION_STATUS, WRITE_SINGLE_COIL, WRITE_SINGLE_REGISTER, WRITE_MULTIPLE_COILS,
    WRITE_MULTIPLE_REGISTERS, MASK_WRITE_REGISTER, READ_WRITE_MULTIPLE_REGISTERS in *; lia.
Qed.

Lemma hr_ok s fc r f s' resp :
  fn_code_map fc = Some f -> f s (fc :: r) = (s', Ok resp) -> resp <> [] ->
  handle_request s (fc :: r) false = (s', Ok (fc :: resp)).
Proof.
  intros Hf He Hn. unfold handle_request. rewrite unpack_fc, Hf. cbn [andb]. rewrite He.
  destruct resp as [|x resp]; [congruence|].
  rewrite pack_B_ok; [reflexivity|]. apply fn_code_map_range in Hf. unfold is_byte. lia.
Qed.
Lemma hr_merr s fc r f s' c :
  fn_code_map fc = Some f -> f s (fc :: r) = (s', Err (ModbusError c)) -> is_byte c ->
  handle_request s (fc :: r) false = (s', Ok [fc + 128; c]).
Proof.
  intros Hf He Hc. unfold handle_request. rewrite unpack_fc, Hf. cbn [andb]. rewrite He.
  cbn [catch_modbus_error]. rewrite pack_BB.
  apply fn_code_map_range in Hf. apply byte_b_iff in Hc. rewrite Hc.
  replace (byte_b (fc + 128)) with true by (unfold byte_b; lia). reflexivity.
Qed.
Lemma hr_err s fc r f s' e bc :
  fn_code_map fc = Some f -> f s (fc :: r) = (s', Err e) -> (forall c, e <> ModbusError c) ->
  (bc && cant_be_broadcasted fc = false) ->
  handle_request s (fc :: r) bc = (s', Err e).
Proof.
  intros Hf He Hn Hb. unfold handle_request. rewrite unpack_fc, Hf, Hb, He.
  destruct e; try reflexivity. exfalso. eapply Hn. reflexivity.
Qed.
Lemma hr_broadcast_ok s fc r f s' resp :
  fn_code_map fc = Some f -> cant_be_broadcasted fc = false ->
  f s (fc :: r) = (s', Ok resp) -> resp <> [] ->
  handle_request s (fc :: r) true = (s', Ok []).
Proof.
  intros Hf Hb He Hn. unfold handle_request. rewrite unpack_fc, Hf, Hb. cbn [andb]. rewrite He.
  destruct resp as [|x resp]; [congruence|]. reflexivity.
Qed.

Lemma unpack2_head fc a q rest :
  fits true a -> fits true q ->
  unpack2 ">HH" (py_slice (fc :: word a ++ word q ++ rest) 1 5) = Ok (a, q).
Proof.
  unfold fits. intros Ha Hq. unfold word. cbn [app].
  rewrite py_slice_nonneg by lia. change (Z.to_nat (5 - 1)) with 4%nat. change (Z.to_nat 1) with 1%nat.
  cbn [skipn firstn]. unfold unpack2. rewrite unpack_HH. cbn [bind].
  rewrite !word_join by lia. reflexivity.
Qed.
Lemma unpack3_head fc a q bc rest :
  fits true a -> fits true q ->
  unpack3 ">HHB" (py_slice (fc :: word a ++ word q ++ bc :: rest) 1 6) = Ok (a, q, bc).
Proof.
  unfold fits. intros Ha Hq. unfold word. cbn [app].
  rewrite py_slice_nonneg by lia. change (Z.to_nat (6 - 1)) with 5%nat. change (Z.to_nat 1) with 1%nat.
  cbn [skipn firstn]. unfold unpack3. rewrite unpack_HHB. cbn [bind].
  rewrite !word_join by lia. reflexivity.
Qed.

(** ** FC3 / FC4 *)
Lemma read_registers_ok s t fc a n b rest :
  has_table s t -> fits true a -> 1 <= n <= 125 ->
  served_by s t a n b -> Forall (fits (sl_unsigned s)) (values_at b a n) ->
  read_registers s t (fc :: word a ++ word n ++ rest) = Ok (2 * n :: words (values_at b a n)).
Proof.
  intros Ht Ha Hn (l1 & l2 & Hs) Hf. unfold read_registers.
  rewrite unpack2_head by (auto; unfold fits; lia). cbn [bind].
  destruct ((n <=? 0) || (125 <? n)) eqn:E; [lia|].
  rewrite (gbo_served _ _ _ _ _ _ _ Ht Hs). cbn [bind].
  rewrite values_at_slice; [|apply Hs|lia].
  rewrite pack_B_ok by (unfold is_byte; lia). cbn [bind].
  rewrite pack_regs_loop_ok by assumption. reflexivity.
Qed.
Lemma read_registers_count s t fc a n rest :
  fits true a -> fits true n -> ~ (1 <= n <= 125) ->
  read_registers s t (fc :: word a ++ word n ++ rest) = Err (ModbusError 3).
Proof.
  intros Ha Hn Hb. unfold read_registers. rewrite unpack2_head by assumption. cbn [bind].
  destruct ((n <=? 0) || (125 <? n)) eqn:E; [reflexivity|lia].
Qed.
Lemma read_registers_addr s t fc a n rest :
  has_table s t -> fits true a -> 1 <= n <= 125 -> not_covered s t a n ->
  read_registers s t (fc :: word a ++ word n ++ rest) = Err (ModbusError 2).
Proof.
  intros Ht Ha Hn Hb. unfold read_registers. rewrite unpack2_head by (auto; unfold fits; lia). cbn [bind].
  destruct ((n <=? 0) || (125 <? n)) eqn:E; [lia|].
  rewrite gbo_not_covered by assumption. reflexivity.
Qed.
Lemma read_registers_unfit s t fc a n b rest :
  has_table s t -> fits true a -> 1 <= n <= 125 ->
  served_by s t a n b -> ~ Forall (fits (sl_unsigned s)) (values_at b a n) ->
  read_registers s t (fc :: word a ++ word n ++ rest) = Err StructError.
Proof.
  intros Ht Ha Hn (l1 & l2 & Hs) Hf. unfold read_registers.
  rewrite unpack2_head by (auto; unfold fits; lia). cbn [bind].
  destruct ((n <=? 0) || (125 <? n)) eqn:E; [lia|].
  rewrite (gbo_served _ _ _ _ _ _ _ Ht Hs). cbn [bind].
  rewrite values_at_slice; [|apply Hs|lia].
  rewrite pack_B_ok by (unfold is_byte; lia). cbn [bind].
  now apply pack_regs_loop_err.
Qed.

(** The table a reading or writing function code works on. *)

Lemma reg_table_map fc t : reg_table fc t ->
  fn_code_map fc = Some (fun s p => (s, read_registers s t p)).
Proof. intros []; reflexivity. Qed.
Lemma bit_table_map fc t : bit_table fc t ->
  fn_code_map fc = Some (fun s p => (s, read_digital s t p)).
Proof. intros []; reflexivity. Qed.

Lemma is_byte_small c : 0 <= c < 256 -> is_byte c.
Proof. auto. Qed.

Lemma hr_read_registers s fc t a n b rest :
  reg_table fc t -> has_table s t -> fits true a -> 1 <= n <= 125 ->
  served_by s t a n b -> Forall (fits (sl_unsigned s)) (values_at b a n) ->
  handle_request s (fc :: word a ++ word n ++ rest) false
  = (s, Ok (fc :: 2 * n :: words (values_at b a n))).
Proof.
  intros Hfc Ht Ha Hn Hs Hf. eapply hr_ok; [apply reg_table_map; exact Hfc| |discriminate].
  cbn beta. f_equal. now apply read_registers_ok.
Qed.
Lemma hr_read_registers_count s fc t a n rest :
  reg_table fc t -> fits true a -> fits true n -> ~ (1 <= n <= 125) ->
  handle_request s (fc :: word a ++ word n ++ rest) false = (s, Ok [fc + 128; 3]).
Proof.
  intros Hfc Ha Hn Hb. eapply hr_merr; [apply reg_table_map; exact Hfc| |apply is_byte_small; lia].
  cbn beta. f_equal. now apply read_registers_count.
Qed.
Lemma hr_read_registers_addr s fc t a n rest :
  reg_table fc t -> has_table s t -> fits true a -> 1 <= n <= 125 -> not_covered s t a n ->
  handle_request s (fc :: word a ++ word n ++ rest) false = (s, Ok [fc + 128; 2]).
Proof.
  intros Hfc Ht Ha Hn Hb. eapply hr_merr; [apply reg_table_map; exact Hfc| |apply is_byte_small; lia].
  cbn beta. f_equal. now apply read_registers_addr.
Qed.

(** ** FC1 / FC2 *)
Lemma bit_byte_count_spec n : 0 <= n -> bit_byte_count n = bytes_for_bits n.
Proof. unfold bit_byte_count, bytes_for_bits. intros H. destruct (0 <? n mod 8) eqn:E; lia. Qed.

Lemma read_digital_ok s t fc a n b rest :
  has_table s t -> fits true a -> 1 <= n <= 2000 -> served_by s t a n b ->
  exists out, read_digital s t (fc :: word a ++ word n ++ rest) = Ok (bytes_for_bits n :: out) /\
              packs_bits (values_at b a n) out.
Proof.
  intros Ht Ha Hn (l1 & l2 & Hs). unfold read_digital.
  rewrite unpack2_head by (auto; unfold fits; lia). cbn [bind].
  destruct ((n <=? 0) || (2000 <? n)) eqn:E; [lia|].
  rewrite (gbo_served _ _ _ _ _ _ _ Ht Hs). cbn [bind].
  rewrite values_at_slice; [|apply Hs|lia].
  rewrite bit_byte_count_spec by lia.
  rewrite pack_B_ok by (unfold is_byte, bytes_for_bits; lia). cbn [bind].
  destruct (pack_bits_loop_ok s (values_at b a n) [] [bytes_for_bits n]) as (out & Ho & Hp); [reflexivity|].
  exists out. split; [exact Ho|exact Hp].
Qed.
Lemma read_digital_count s t fc a n rest :
  fits true a -> fits true n -> ~ (1 <= n <= 2000) ->
  read_digital s t (fc :: word a ++ word n ++ rest) = Err (ModbusError 3).
Proof.
  intros Ha Hn Hb. unfold read_digital. rewrite unpack2_head by assumption. cbn [bind].
  destruct ((n <=? 0) || (2000 <? n)) eqn:E; [reflexivity|lia].
Qed.
Lemma read_digital_addr s t fc a n rest :
  has_table s t -> fits true a -> 1 <= n <= 2000 -> not_covered s t a n ->
  read_digital s t (fc :: word a ++ word n ++ rest) = Err (ModbusError 2).
Proof.
  intros Ht Ha Hn Hb. unfold read_digital. rewrite unpack2_head by (auto; unfold fits; lia). cbn [bind].
  destruct ((n <=? 0) || (2000 <? n)) eqn:E; [lia|].
  rewrite gbo_not_covered by assumption. reflexivity.
Qed.
Lemma hr_read_digital s fc t a n b rest :
  bit_table fc t -> has_table s t -> fits true a -> 1 <= n <= 2000 -> served_by s t a n b ->
  exists out, handle_request s (fc :: word a ++ word n ++ rest) false
              = (s, Ok (fc :: bytes_for_bits n :: out)) /\ packs_bits (values_at b a n) out.
Proof.
  intros Hfc Ht Ha Hn Hs. destruct (read_digital_ok s t fc a n b rest) as (out & Ho & Hp); auto.
  exists out. split; [|assumption]. eapply hr_ok; [apply bit_table_map; exact Hfc| |discriminate].
  cbn beta. now rewrite Ho.
Qed.
Lemma hr_read_digital_count s fc t a n rest :
  bit_table fc t -> fits true a -> fits true n -> ~ (1 <= n <= 2000) ->
  handle_request s (fc :: word a ++ word n ++ rest) false = (s, Ok [fc + 128; 3]).
Proof.
  intros Hfc Ha Hn Hb. eapply hr_merr; [apply bit_table_map; exact Hfc| |apply is_byte_small; lia].
  cbn beta. f_equal. now apply read_digital_count.
Qed.
Lemma hr_read_digital_addr s fc t a n rest :
  bit_table fc t -> has_table s t -> fits true a -> 1 <= n <= 2000 -> not_covered s t a n ->
  handle_request s (fc :: word a ++ word n ++ rest) false = (s, Ok [fc + 128; 2]).
Proof.
  intros Hfc Ht Ha Hn Hb. eapply hr_merr; [apply bit_table_map; exact Hfc| |apply is_byte_small; lia].
  cbn beta. f_equal. now apply read_digital_addr.
Qed.

(** ** single writes *)
Lemma py_from_cons (x : Z) l : py_from (x :: l) 1 = l.
Proof. rewrite py_from_nonneg by lia. reflexivity. Qed.

Lemma wf_served s t a n l1 b l2 :
  wf_slave s -> serving (blocks s t) a n l1 b l2 -> wf_block b.
Proof.
  intros Hw (Hb & _). specialize (Hw t). rewrite Hb in Hw.
  rewrite Forall_forall in Hw. apply Hw. apply in_elt.
Qed.

Lemma put_one s t a v l1 b l2 :
  wf_slave s -> has_table s t -> serving (blocks s t) a 1 l1 b l2 ->
  exists d, py_set (b_data b) (a - b_start b) v = Ok d /\
            wrote s t a [v] (put_block_data s t (length l1) b d).
Proof.
  intros Hw Ht Hs. pose proof (wf_served _ _ _ _ _ _ _ Hw Hs) as (H1 & H2 & H3).
  pose proof Hs as (_ & (H4 & H5) & _).
  rewrite py_set_in by lia. eexists. split; [reflexivity|].
  rewrite <- (overlay_upd b a (Z.to_nat (a - b_start b)) v) by (unfold zlen in H3; lia).
  now apply put_wrote with (l2 := l2).
Qed.

Lemma hr_write_register s a w rest :
  wf_slave s -> has_table s HOLDING_REGISTERS -> fits true a -> fits true w ->
  (exists b, served_by s HOLDING_REGISTERS a 1 b) ->
  exists s', handle_request s (6 :: word a ++ word w ++ rest) false
             = (s', Ok (6 :: word a ++ word w ++ rest)) /\
             wrote s HOLDING_REGISTERS a [reg_of_word (sl_unsigned s) w] s'.
Proof.
  intros Hw Ht Ha Hv (b & l1 & l2 & Hs).
  destruct (put_one s HOLDING_REGISTERS a (reg_of_word (sl_unsigned s) w) l1 b l2 Hw Ht Hs) as (d & Hd & Hwr).
  eexists. split; [|exact Hwr].
  eapply hr_ok; [reflexivity| |discriminate].
  unfold write_single_register.
  assert (Hu : unpack2 (if sl_unsigned s then ">HH" else ">Hh")
                 (py_slice (6 :: word a ++ word w ++ rest) 1 5) = Ok (a, reg_of_word (sl_unsigned s) w)).
  { unfold fits in *. unfold word. cbn [app].
    rewrite py_slice_nonneg by lia. change (Z.to_nat (5 - 1)) with 4%nat. change (Z.to_nat 1) with 1%nat.
    cbn [skipn firstn]. unfold unpack2.
    destruct (sl_unsigned s); [rewrite unpack_HH|rewrite unpack_Hh]; cbn [bind];
      rewrite !word_join by lia; reflexivity. }
  rewrite Hu. rewrite (gbo_served _ _ _ _ _ _ _ Ht Hs). rewrite Hd. now rewrite py_from_cons.
Qed.
Lemma hr_write_register_addr s a w rest :
  has_table s HOLDING_REGISTERS -> fits true a -> fits true w ->
  not_covered s HOLDING_REGISTERS a 1 ->
  handle_request s (6 :: word a ++ word w ++ rest) false = (s, Ok [134; 2]).
Proof.
  intros Ht Ha Hv Hn. eapply (hr_merr s 6); [reflexivity| |apply is_byte_small; lia].
  unfold write_single_register.
  assert (Hu : unpack2 (if sl_unsigned s then ">HH" else ">Hh")
                 (py_slice (6 :: word a ++ word w ++ rest) 1 5) = Ok (a, reg_of_word (sl_unsigned s) w)).
  { unfold fits in *. unfold word. cbn [app].
    rewrite py_slice_nonneg by lia. change (Z.to_nat (5 - 1)) with 4%nat. change (Z.to_nat 1) with 1%nat.
    cbn [skipn firstn]. unfold unpack2.
    destruct (sl_unsigned s); [rewrite unpack_HH|rewrite unpack_Hh]; cbn [bind];
      rewrite !word_join by lia; reflexivity. }
  rewrite Hu. rewrite gbo_not_covered by assumption. reflexivity.
Qed.

Lemma hr_write_coil s a w rest :
  wf_slave s -> has_table s COILS -> fits true a -> w = 0 \/ w = 65280 ->
  (exists b, served_by s COILS a 1 b) ->
  exists s', handle_request s (5 :: word a ++ word w ++ rest) false
             = (s', Ok (5 :: word a ++ word w ++ rest)) /\
             wrote s COILS a [if w =? 0 then 0 else 1] s'.
Proof.
  intros Hw Ht Ha Hv (b & l1 & l2 & Hs).
  destruct (put_one s COILS a (if w =? 0 then 0 else 1) l1 b l2 Hw Ht Hs) as (d & Hd & Hwr).
  eexists. split; [|exact Hwr].
  eapply hr_ok; [reflexivity| |discriminate].
  unfold write_single_coil.
  rewrite unpack2_head by (auto; unfold fits; lia).
  rewrite (gbo_served _ _ _ _ _ _ _ Ht Hs).
  destruct Hv as [-> | ->].
  - change (0 =? 0) with true in *. cbn iota in *. rewrite Hd. now rewrite py_from_cons.
  - change (65280 =? 0) with false in *. change (65280 =? 65280) with true. cbn iota in *.
    rewrite Hd. now rewrite py_from_cons.
Qed.
Lemma hr_write_coil_addr s a w rest :
  has_table s COILS -> fits true a -> fits true w -> not_covered s COILS a 1 ->
  handle_request s (5 :: word a ++ word w ++ rest) false = (s, Ok [133; 2]).
Proof.
  intros Ht Ha Hv Hn. eapply (hr_merr s 5); [reflexivity| |apply is_byte_small; lia].
  unfold write_single_coil. rewrite unpack2_head by assumption.
  rewrite gbo_not_covered by assumption. reflexivity.
Qed.
Lemma hr_write_coil_value s a w rest :
  has_table s COILS -> fits true a -> fits true w -> w <> 0 -> w <> 65280 ->
  (exists b, served_by s COILS a 1 b) ->
  handle_request s (5 :: word a ++ word w ++ rest) false = (s, Ok [133; 3]).
Proof.
  intros Ht Ha Hv H0 H1 (b & l1 & l2 & Hs).
  eapply (hr_merr s 5); [reflexivity| |apply is_byte_small; lia].
  unfold write_single_coil. rewrite unpack2_head by assumption.
  rewrite (gbo_served _ _ _ _ _ _ _ Ht Hs).
  destruct (w =? 0) eqn:E0; [lia|]. destruct (w =? 65280) eqn:E1; [lia|]. reflexivity.
Qed.

(** ** FC22 *)
Lemma hr_mask_write s a am om rest b :
  wf_slave s -> has_table s HOLDING_REGISTERS -> fits true a -> fits true am -> fits true om ->
  served_by s HOLDING_REGISTERS a 1 b ->
  exists s' old, cell b a = Some old /\
    handle_request s (22 :: word a ++ word am ++ word om ++ rest) false
    = (s', Ok (22 :: word a ++ word am ++ word om ++ rest)) /\
    wrote s HOLDING_REGISTERS a [Z.lor (Z.land old am) (Z.land om (Z.lnot am))] s'.
Proof.
  intros Hw Ht Ha Hm Ho (l1 & l2 & Hs).
  pose proof (wf_served _ _ _ _ _ _ _ Hw Hs) as (H1 & H2 & H3).
  pose proof Hs as (_ & (H4 & H5) & _).
  destruct (py_get_in (b_data b) (a - b_start b)) as (old & Hold & Hget); [lia|].
  destruct (put_one s HOLDING_REGISTERS a (Z.lor (Z.land old am) (Z.land om (Z.lnot am))) l1 b l2 Hw Ht Hs)
    as (d & Hd & Hwr).
  eexists. exists old. split; [|split; [|exact Hwr]].
  - unfold cell. destruct (a <? b_start b) eqn:E; [lia|]. exact Hold.
  - eapply hr_ok; [reflexivity| |discriminate].
    unfold mask_write_register.
    assert (Hu : unpack3 ">HHH" (py_slice (22 :: word a ++ word am ++ word om ++ rest) 1 7) = Ok (a, am, om)).
    { unfold fits in *. unfold word. cbn [app].
      rewrite py_slice_nonneg by lia. change (Z.to_nat (7 - 1)) with 6%nat. change (Z.to_nat 1) with 1%nat.
      cbn [skipn firstn]. unfold unpack3. rewrite unpack_HHH. cbn [bind].
      rewrite !word_join by lia; reflexivity. }
    rewrite Hu. rewrite (gbo_served _ _ _ _ _ _ _ Ht Hs). rewrite Hget. rewrite Hd. now rewrite py_from_cons.
Qed.
Lemma hr_mask_write_addr s a am om rest :
  has_table s HOLDING_REGISTERS -> fits true a -> fits true am -> fits true om ->
  not_covered s HOLDING_REGISTERS a 1 ->
  handle_request s (22 :: word a ++ word am ++ word om ++ rest) false = (s, Ok [150; 2]).
Proof.
  intros Ht Ha Hm Ho Hn. eapply (hr_merr s 22); [reflexivity| |apply is_byte_small; lia].
  unfold mask_write_register.
  assert (Hu : unpack3 ">HHH" (py_slice (22 :: word a ++ word am ++ word om ++ rest) 1 7) = Ok (a, am, om)).
  { unfold fits in *. unfold word. cbn [app].
    rewrite py_slice_nonneg by lia. change (Z.to_nat (7 - 1)) with 6%nat. change (Z.to_nat 1) with 1%nat.
    cbn [skipn firstn]. unfold unpack3. rewrite unpack_HHH. cbn [bind].
    rewrite !word_join by lia; reflexivity. }
  rewrite Hu. rewrite gbo_not_covered by assumption. reflexivity.
Qed.

(** ** FC16 *)
Lemma put_cells s t a vals l1 b l2 :
  has_table s t -> serving (blocks s t) a (zlen vals) l1 b l2 ->
  wrote s t a vals (put_block_data s t (length l1) b (set_cells (b_data b) (Z.to_nat (a - b_start b)) vals)).
Proof.
  intros Ht Hs. rewrite <- overlay_set_cells by apply Hs. now apply put_wrote with (l2 := l2).
Qed.

Lemma write_multiple_registers_ok s fc a ws rest l1 b l2 :
  wf_slave s -> has_table s HOLDING_REGISTERS -> fits true a -> 1 <= zlen ws <= 123 ->
  Forall (fits true) ws -> serving (blocks s HOLDING_REGISTERS) a (zlen ws) l1 b l2 ->
  write_multiple_registers s (fc :: word a ++ word (zlen ws) ++ 2 * zlen ws :: words ws ++ rest)
  = (put_block_data s HOLDING_REGISTERS (length l1) b
       (set_cells (b_data b) (Z.to_nat (a - b_start b)) (map (reg_of_word (sl_unsigned s)) ws)),
     Ok (word a ++ word (zlen ws))).
Proof.
  intros Hw Ht Ha Hn Hws Hs.
  pose proof (wf_served _ _ _ _ _ _ _ Hw Hs) as (H1 & H2 & H3).
  pose proof Hs as (_ & (H4 & H5) & _).
  unfold write_multiple_registers.
  rewrite unpack3_head by (auto; unfold fits; lia).
  destruct ((zlen ws <=? 0) || (123 <? zlen ws) || negb (2 * zlen ws =? zlen ws * 2)) eqn:E; [lia|].
  rewrite (gbo_served _ _ _ _ _ _ _ Ht Hs).
  replace (fc :: word a ++ word (zlen ws) ++ 2 * zlen ws :: words ws ++ rest)
    with ((fc :: word a ++ word (zlen ws) ++ [2 * zlen ws]) ++ words ws ++ rest)
    by (cbn [app]; now rewrite <- !app_assoc).
  replace (Z.to_nat (zlen ws)) with (length ws) by (unfold zlen; lia).
  pose proof (write_regs_loop_ok s (fc :: word a ++ word (zlen ws) ++ [2 * zlen ws]) ws rest 6
                (a - b_start b) (b_data b) [] Hws) as HL.
  rewrite set_cells_nil in HL. change (zlen (@nil Z)) with 0 in HL. rewrite HL.
  - rewrite pack_HH by (auto; unfold fits; lia). reflexivity.
  - reflexivity.
  - lia.
  - lia.
  - cbn [length]. unfold zlen in *. lia.
Qed.

Lemma hr_write_registers s a ws rest :
  wf_slave s -> has_table s HOLDING_REGISTERS -> fits true a -> 1 <= zlen ws <= 123 ->
  Forall (fits true) ws -> (exists b, served_by s HOLDING_REGISTERS a (zlen ws) b) ->
  exists s',
    handle_request s (16 :: word a ++ word (zlen ws) ++ 2 * zlen ws :: words ws ++ rest) false
    = (s', Ok (16 :: word a ++ word (zlen ws))) /\
    wrote s HOLDING_REGISTERS a (map (reg_of_word (sl_unsigned s)) ws) s'.
Proof.
  intros Hw Ht Ha Hn Hws (b & l1 & l2 & Hs). eexists. split.
  - eapply hr_ok; [reflexivity| |].
    + eapply write_multiple_registers_ok; eauto.
    + discriminate.
  - eapply put_cells; [assumption|].
    replace (zlen (map (reg_of_word (sl_unsigned s)) ws)) with (zlen ws)
      by (unfold zlen; now rewrite map_length). eassumption.
Qed.
Lemma hr_write_registers_count s a n bc data :
  fits true a -> fits true n -> ~ (1 <= n <= 123 /\ bc = 2 * n) ->
  handle_request s (16 :: word a ++ word n ++ bc :: data) false = (s, Ok [144; 3]).
Proof.
  intros Ha Hn Hb. eapply (hr_merr s 16); [reflexivity| |apply is_byte_small; lia].
  unfold write_multiple_registers. rewrite unpack3_head by assumption.
  destruct ((n <=? 0) || (123 <? n) || negb (bc =? n * 2)) eqn:E; [reflexivity|lia].
Qed.
Lemma hr_write_registers_addr s a n data :
  has_table s HOLDING_REGISTERS -> fits true a -> 1 <= n <= 123 -> not_covered s HOLDING_REGISTERS a n ->
  handle_request s (16 :: word a ++ word n ++ 2 * n :: data) false = (s, Ok [144; 2]).
Proof.
  intros Ht Ha Hn Hb. eapply (hr_merr s 16); [reflexivity| |apply is_byte_small; lia].
  unfold write_multiple_registers. rewrite unpack3_head by (auto; unfold fits; lia).
  destruct ((n <=? 0) || (123 <? n) || negb (2 * n =? n * 2)) eqn:E; [lia|].
  rewrite gbo_not_covered by assumption. reflexivity.
Qed.

(** ** FC15 *)
Lemma hr_write_coils s a n data rest :
  wf_slave s -> has_table s COILS -> fits true a -> 1 <= n <= 1968 ->
  bytes data -> zlen data = bytes_for_bits n -> (exists b, served_by s COILS a n b) ->
  exists s',
    handle_request s (15 :: word a ++ word n ++ zlen data :: data ++ rest) false
    = (s', Ok (15 :: word a ++ word n)) /\
    wrote s COILS a (bits_of data (Z.to_nat n)) s'.
Proof.
  intros Hw Ht Ha Hn Hby Hd (b & l1 & l2 & Hs).
  pose proof (wf_served _ _ _ _ _ _ _ Hw Hs) as (H1 & H2 & H3).
  pose proof Hs as (_ & (H4 & H5) & _).
  eexists. split.
  - eapply hr_ok; [reflexivity| |].
    + unfold write_multiple_coils.
      rewrite unpack3_head by (auto; unfold fits; lia).
      destruct ((n <=? 0) || (1968 <? n) || negb (zlen data =? bit_byte_count n)) eqn:E.
      { rewrite bit_byte_count_spec in E by lia. lia. }
      rewrite (gbo_served _ _ _ _ _ _ _ Ht Hs).
      replace (15 :: word a ++ word n ++ zlen data :: data ++ rest)
        with ((15 :: word a ++ word n ++ [zlen data]) ++ data ++ rest)
        by (cbn [app]; now rewrite <- !app_assoc).
      pose proof (write_bits_outer_ok s data (15 :: word a ++ word n ++ [zlen data]) rest (b_data b)
                    (a - b_start b) n Hby) as HL.
      specialize (HL ltac:(lia) ltac:(lia) ltac:(lia) eq_refl (Z.to_nat (zlen data)) 0).
      change (8 * 0) with 0 in HL. rewrite Z.min_r in HL by lia.
      change (bits_of data (Z.to_nat 0)) with (@nil Z) in HL. rewrite set_cells_nil in HL.
      rewrite HL.
      * rewrite pack_HH by (auto; unfold fits; lia). reflexivity.
      * unfold zlen. lia.
      * lia.
      * unfold bytes_for_bits in Hd. lia.
    + discriminate.
  - apply put_cells with (l2 := l2); [assumption|].
    replace (zlen (bits_of data (Z.to_nat n))) with n; [exact Hs|].
    unfold zlen. rewrite bits_of_length. lia.
Qed.
Lemma hr_write_coils_count s a n bc data :
  fits true a -> fits true n -> ~ (1 <= n <= 1968 /\ bc = bytes_for_bits n) ->
  handle_request s (15 :: word a ++ word n ++ bc :: data) false = (s, Ok [143; 3]).
Proof.
  intros Ha Hn Hb. eapply (hr_merr s 15); [reflexivity| |apply is_byte_small; lia].
  unfold write_multiple_coils. rewrite unpack3_head by assumption.
  unfold fits in Hn. rewrite bit_byte_count_spec by lia.
  destruct ((n <=? 0) || (1968 <? n) || negb (bc =? bytes_for_bits n)) eqn:E; [reflexivity|lia].
Qed.
Lemma hr_write_coils_addr s a n data :
  has_table s COILS -> fits true a -> 1 <= n <= 1968 -> not_covered s COILS a n ->
  handle_request s (15 :: word a ++ word n ++ bytes_for_bits n :: data) false = (s, Ok [143; 2]).
Proof.
  intros Ht Ha Hn Hb. eapply (hr_merr s 15); [reflexivity| |apply is_byte_small; lia].
  unfold write_multiple_coils. rewrite unpack3_head by (auto; unfold fits; lia).
  rewrite bit_byte_count_spec by lia.
  destruct ((n <=? 0) || (1968 <? n) || negb (bytes_for_bits n =? bytes_for_bits n)) eqn:E; [lia|].
  rewrite gbo_not_covered by assumption. reflexivity.
Qed.

(** ** FC23 *)
Lemma unpack5_head fc ra rq wa wq bc rest :
  fits true ra -> fits true rq -> fits true wa -> fits true wq ->
  unpack5 ">HHHHB" (py_slice (fc :: word ra ++ word rq ++ word wa ++ word wq ++ bc :: rest) 1 10)
  = Ok (ra, rq, wa, wq, bc).
Proof.
  unfold fits. intros H1 H2 H3 H4. unfold word. cbn [app].
  rewrite py_slice_nonneg by lia. change (Z.to_nat (10 - 1)) with 9%nat. change (Z.to_nat 1) with 1%nat.
  cbn [skipn firstn]. unfold unpack5. rewrite unpack_HHHHB. cbn [bind].
  rewrite !word_join by lia. reflexivity.
Qed.
Lemma hr_read_write s ra rq wa ws rest rb :
  wf_slave s -> has_table s HOLDING_REGISTERS -> fits true ra -> fits true wa ->
  1 <= rq <= 125 -> 1 <= zlen ws <= 123 -> Forall (fits true) ws ->
  served_by s HOLDING_REGISTERS ra rq rb -> Forall (fits (sl_unsigned s)) (values_at rb ra rq) ->
  (exists b, served_by s HOLDING_REGISTERS wa (zlen ws) b) ->
  exists s',
    handle_request s (23 :: word ra ++ word rq ++ word wa ++ word (zlen ws)
                        ++ 2 * zlen ws :: words ws ++ rest) false
    = (s', Ok (23 :: 2 * rq :: words (values_at rb ra rq))) /\
    wrote s HOLDING_REGISTERS wa (map (reg_of_word (sl_unsigned s)) ws) s'.
Proof.
  intros Hw Ht Ha Hwa Hrq Hn Hws (r1 & r2 & Hr) Hfit (b & l1 & l2 & Hs).
  pose proof (wf_served _ _ _ _ _ _ _ Hw Hs) as (H1 & H2 & H3).
  pose proof Hs as (_ & (H4 & H5) & _).
  eexists. split.
  - eapply hr_ok; [reflexivity| |discriminate].
    unfold read_write_multiple_registers.
    rewrite unpack5_head by (auto; unfold fits; lia).
    destruct ((rq <=? 0) || (125 <? rq)) eqn:E; [lia|].
    rewrite (gbo_served _ _ _ _ _ _ _ Ht Hr).
    rewrite values_at_slice; [|apply Hr|lia].
    rewrite pack_B_ok by (unfold is_byte; lia). cbn [bind].
    rewrite pack_regs_loop_ok by assumption. cbn [app].
    destruct ((zlen ws <=? 0) || (123 <? zlen ws) || negb (2 * zlen ws =? zlen ws * 2)) eqn:E2; [lia|].
    rewrite (gbo_served _ _ _ _ _ _ _ Ht Hs).
    replace (23 :: word ra ++ word rq ++ word wa ++ word (zlen ws) ++ 2 * zlen ws :: words ws ++ rest)
      with ((23 :: word ra ++ word rq ++ word wa ++ word (zlen ws) ++ [2 * zlen ws]) ++ words ws ++ rest)
      by (cbn [app]; now rewrite <- !app_assoc).
    replace (Z.to_nat (zlen ws)) with (length ws) by (unfold zlen; lia).
    pose proof (write_regs_loop_ok s (23 :: word ra ++ word rq ++ word wa ++ word (zlen ws) ++ [2 * zlen ws])
                  ws rest 10 (wa - b_start b) (b_data b) [] Hws) as HL.
    rewrite set_cells_nil in HL. change (zlen (@nil Z)) with 0 in HL. rewrite HL.
    + reflexivity.
    + reflexivity.
    + lia.
    + lia.
    + cbn [length]. unfold zlen in *. lia.
  - cbn [app]. apply put_cells with (l2 := l2); [assumption|].
    replace (zlen (map (reg_of_word (sl_unsigned s)) ws)) with (zlen ws)
      by (unfold zlen; now rewrite map_length). exact Hs.
Qed.
Lemma hr_read_write_rcount s ra rq wa wq bc data :
  fits true ra -> fits true rq -> fits true wa -> fits true wq -> ~ (1 <= rq <= 125) ->
  handle_request s (23 :: word ra ++ word rq ++ word wa ++ word wq ++ bc :: data) false = (s, Ok [151; 3]).
Proof.
  intros H1 H2 H3 H4 Hb. eapply (hr_merr s 23); [reflexivity| |apply is_byte_small; lia].
  unfold read_write_multiple_registers. rewrite unpack5_head by assumption.
  destruct ((rq <=? 0) || (125 <? rq)) eqn:E; [reflexivity|lia].
Qed.
Lemma hr_read_write_raddr s ra rq wa wq bc data :
  has_table s HOLDING_REGISTERS ->
  fits true ra -> fits true wa -> fits true wq -> 1 <= rq <= 125 -> not_covered s HOLDING_REGISTERS ra rq ->
  handle_request s (23 :: word ra ++ word rq ++ word wa ++ word wq ++ bc :: data) false = (s, Ok [151; 2]).
Proof.
  intros Ht H1 H2 H3 H4 Hb. eapply (hr_merr s 23); [reflexivity| |apply is_byte_small; lia].
  unfold read_write_multiple_registers. rewrite unpack5_head by (auto; unfold fits; lia).
  destruct ((rq <=? 0) || (125 <? rq)) eqn:E; [lia|].
  rewrite gbo_not_covered by assumption. reflexivity.
Qed.
Lemma hr_read_write_wcount s ra rq wa wq bc data rb :
  has_table s HOLDING_REGISTERS ->
  fits true ra -> fits true wa -> fits true wq -> 1 <= rq <= 125 ->
  served_by s HOLDING_REGISTERS ra rq rb -> Forall (fits (sl_unsigned s)) (values_at rb ra rq) ->
  ~ (1 <= wq <= 123 /\ bc = 2 * wq) ->
  handle_request s (23 :: word ra ++ word rq ++ word wa ++ word wq ++ bc :: data) false = (s, Ok [151; 3]).
Proof.
  intros Ht H1 H2 H3 H4 (r1 & r2 & Hr) Hf Hb. eapply (hr_merr s 23); [reflexivity| |apply is_byte_small; lia].
  unfold read_write_multiple_registers. rewrite unpack5_head by (auto; unfold fits; lia).
  destruct ((rq <=? 0) || (125 <? rq)) eqn:E; [lia|].
  rewrite (gbo_served _ _ _ _ _ _ _ Ht Hr). rewrite values_at_slice; [|apply Hr|lia].
  rewrite pack_B_ok by (unfold is_byte; lia). cbn [bind].
  rewrite pack_regs_loop_ok by assumption.
  destruct ((wq <=? 0) || (123 <? wq) || negb (bc =? wq * 2)) eqn:E2; [reflexivity|lia].
Qed.
Lemma hr_read_write_waddr s ra rq wa wq data rb :
  has_table s HOLDING_REGISTERS ->
  fits true ra -> fits true wa -> 1 <= rq <= 125 -> 1 <= wq <= 123 ->
  served_by s HOLDING_REGISTERS ra rq rb -> Forall (fits (sl_unsigned s)) (values_at rb ra rq) ->
  not_covered s HOLDING_REGISTERS wa wq ->
  handle_request s (23 :: word ra ++ word rq ++ word wa ++ word wq ++ 2 * wq :: data) false = (s, Ok [151; 2]).
Proof.
  intros Ht H1 H2 H4 H5 (r1 & r2 & Hr) Hf Hb. eapply (hr_merr s 23); [reflexivity| |apply is_byte_small; lia].
  unfold read_write_multiple_registers. rewrite unpack5_head by (auto; unfold fits; lia).
  destruct ((rq <=? 0) || (125 <? rq)) eqn:E; [lia|].
  rewrite (gbo_served _ _ _ _ _ _ _ Ht Hr). rewrite values_at_slice; [|apply Hr|lia].
  rewrite pack_B_ok by (unfold is_byte; lia). cbn [bind].
  rewrite pack_regs_loop_ok by assumption.
  destruct ((wq <=? 0) || (123 <? wq) || negb (2 * wq =? wq * 2)) eqn:E2; [lia|].
  rewrite gbo_not_covered by assumption. reflexivity.
Qed.
