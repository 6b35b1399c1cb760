From Coq Require Import Lia ZifyBool ZifyNat.
From Verif Require Import Base BaseFacts CrcSpec UtilsModel.
Ltac Zify.zify_post_hook ::= Z.div_mod_to_equations.

(** ** The shift is linear and injective on 16-bit values *)
Lemma crc_shift_alt r : crc_shift r = Z.lxor (Z.shiftr r 1) (if Z.odd r then 0xA001 else 0).
Proof. unfold crc_shift. destruct (Z.odd r); [reflexivity|now rewrite Z.lxor_0_r]. Qed.

Lemma odd_lxor a b : Z.odd (Z.lxor a b) = xorb (Z.odd a) (Z.odd b).
Proof. rewrite <- !Z.bit0_odd. apply Z.lxor_spec. Qed.

Lemma lxor_swap a b c d : Z.lxor (Z.lxor a b) (Z.lxor c d) = Z.lxor (Z.lxor a c) (Z.lxor b d).
Proof. rewrite !Z.lxor_assoc. f_equal. rewrite <- !Z.lxor_assoc. f_equal. apply Z.lxor_comm. Qed.

Lemma crc_shift_lxor a b : crc_shift (Z.lxor a b) = Z.lxor (crc_shift a) (crc_shift b).
Proof.
  rewrite !crc_shift_alt, Z.shiftr_lxor, odd_lxor, lxor_swap. f_equal.
  destruct (Z.odd a), (Z.odd b); reflexivity.
Qed.

Definition w16 (r : Z) : Prop := 0 <= r < 65536.

Lemma bits_lt_iff n a : 0 <= n -> 0 <= a -> (a < 2 ^ n <-> forall i, n <= i -> Z.testbit a i = false).
Proof.
  intros Hn Ha. split; intros H.
  - intros i Hi. destruct (Z.eq_dec a 0) as [->|Hz]; [apply Z.bits_0|].
    apply Z.bits_above_log2; [lia|]. apply Z.log2_lt_pow2 in H; lia.
  - destruct (Z.eq_dec a 0) as [->|Hz]; [now apply Z.pow_pos_nonneg|].
    apply Z.log2_lt_pow2; [lia|]. destruct (Z.lt_ge_cases (Z.log2 a) n) as [L|L]; [exact L|].
    specialize (H _ L). rewrite Z.bit_log2 in H; [discriminate|lia].
Qed.

Lemma lxor_lt n a b : 0 <= n -> 0 <= a < 2 ^ n -> 0 <= b < 2 ^ n -> 0 <= Z.lxor a b < 2 ^ n.
Proof.
  intros Hn [A1 A2] [B1 B2]. assert (P : 0 <= Z.lxor a b) by (apply Z.lxor_nonneg; tauto).
  split; [exact P|]. apply bits_lt_iff; auto. intros i Hi.
  rewrite Z.lxor_spec, (proj1 (bits_lt_iff n a Hn A1) A2 i Hi), (proj1 (bits_lt_iff n b Hn B1) B2 i Hi). reflexivity.
Qed.

Lemma w16_lxor a b : w16 a -> w16 b -> w16 (Z.lxor a b).
Proof. intros. apply (lxor_lt 16); auto; lia. Qed.

Lemma shiftr1 r : Z.shiftr r 1 = r / 2.
Proof. now rewrite Z.shiftr_div_pow2. Qed.

Lemma w16_shift r : w16 r -> w16 (crc_shift r).
Proof.
  intros H. rewrite crc_shift_alt. apply w16_lxor; unfold w16 in *; [rewrite shiftr1; lia|].
  destruct (Z.odd r); lia.
Qed.

Lemma crc_shift_0 r : w16 r -> crc_shift r = 0 -> r = 0.
Proof.
  unfold w16. intros H E. rewrite crc_shift_alt in E. apply Z.lxor_eq in E. rewrite shiftr1 in E.
  destruct (Z.odd r) eqn:O; [lia|]. pose proof (Z.div_mod r 2). rewrite Zmod_odd, O in *. lia.
Qed.

Definition shifts (n : nat) (r : Z) : Z := Nat.iter n crc_shift r.

Lemma crc_step_shifts r c : crc_step r c = shifts 8 (Z.lxor r c).
Proof. reflexivity. Qed.
Lemma shifts_S n r : shifts (S n) r = crc_shift (shifts n r).
Proof. reflexivity. Qed.
Lemma shifts_S' n r : shifts (S n) r = shifts n (crc_shift r).
Proof. induction n as [|n IH]; [reflexivity|]. rewrite shifts_S, IH. reflexivity. Qed.
Lemma shifts_add n m r : shifts (n + m) r = shifts n (shifts m r).
Proof. induction n as [|n IH]; [reflexivity|]. cbn [Nat.add]. now rewrite !shifts_S, IH. Qed.
Lemma shifts_lxor n a b : shifts n (Z.lxor a b) = Z.lxor (shifts n a) (shifts n b).
Proof. induction n as [|n IH]; [reflexivity|]. now rewrite !shifts_S, IH, crc_shift_lxor. Qed.
Lemma shifts_0 n : shifts n 0 = 0.
Proof. induction n as [|n IH]; [reflexivity|]. now rewrite shifts_S, IH. Qed.
Lemma shifts_w16 n r : w16 r -> w16 (shifts n r).
Proof. intros H. induction n as [|n IH]; [exact H|]. rewrite shifts_S. now apply w16_shift. Qed.
Lemma shifts_inj0 n r : w16 r -> shifts n r = 0 -> r = 0.
Proof.
  induction n as [|n IH]; intros H E; [exact E|]. apply IH; [exact H|].
  apply crc_shift_0; [now apply shifts_w16|exact E].
Qed.

(** shifting out zeros only shifts *)
Lemma shifts_even n m : shifts n (m * 2 ^ Z.of_nat n) = m.
Proof.
  revert m. induction n as [|n IH]; intros m; [cbn; lia|].
  rewrite shifts_S'. replace (m * 2 ^ Z.of_nat (S n)) with (2 * (m * 2 ^ Z.of_nat n)).
  2:{ rewrite Nat2Z.inj_succ, Z.pow_succ_r; lia. }
  rewrite crc_shift_alt, Z.odd_mul. cbn [Z.odd andb]. rewrite Z.lxor_0_r, shiftr1.
  rewrite (Z.mul_comm 2), Z.div_mul by lia. apply IH.
Qed.

(** ** The table *)
Lemma table_ok : forallb (fun i => Z.eqb (nth i crc16_table 0) (shifts 8 (Z.of_nat i))) (seq 0 256) = true.
Proof. vm_compute. reflexivity. Qed.
Lemma table_nth y : 0 <= y < 256 -> nth (Z.to_nat y) crc16_table 0 = shifts 8 y.
Proof.
  intros H. pose proof (proj1 (forallb_forall _ _) table_ok (Z.to_nat y)) as E. cbn beta in E.
  rewrite Z2Nat.id in E by lia. apply Z.eqb_eq, E, in_seq. lia.
Qed.

Lemma land_255 y : Z.land y 255 = y mod 256.
Proof. change 255 with (Z.ones 8). now rewrite Z.land_ones. Qed.

Lemma crc_byte_step crc c : is_byte c -> crc_byte crc c = crc_step crc c.
Proof.
  intros Hc. rewrite crc_step_shifts. unfold crc_byte.
  rewrite land_255, table_nth by (apply Z.mod_pos_bound; lia).
  rewrite (Z.lxor_comm c crc). set (y := Z.lxor crc c).
  assert (E : y = Z.lxor (y / 256 * 2 ^ Z.of_nat 8) (y mod 256)).
  { apply Z.bits_inj'. intros i Hi. rewrite Z.lxor_spec.
    change 256 with (2 ^ 8). change (Z.of_nat 8) with 8.
    rewrite <- Z.shiftr_div_pow2, <- Z.shiftl_mul_pow2 by lia.
    destruct (Z.lt_ge_cases i 8) as [L|L].
    - rewrite Z.shiftl_spec_low, Z.mod_pow2_bits_low by lia. now rewrite xorb_false_l.
    - rewrite Z.shiftl_spec, Z.mod_pow2_bits_high, Z.shiftr_spec by lia.
      rewrite xorb_false_r. f_equal. lia. }
  assert (E2 : shifts 8 y = Z.lxor (y / 256) (shifts 8 (y mod 256))).
  { rewrite E at 1. now rewrite shifts_lxor, shifts_even. }
  rewrite E2. f_equal. unfold y. change 256 with (2 ^ 8). rewrite <- Z.shiftr_div_pow2, Z.shiftr_lxor by lia.
  assert (Z0 : Z.shiftr c 8 = 0) by (rewrite Z.shiftr_div_pow2 by lia; apply Z.div_small; exact Hc).
  now rewrite Z0, Z.lxor_0_r.
Qed.

Lemma fold_crc data : bytes data -> forall r, fold_left crc_byte data r = fold_left crc_step data r.
Proof.
  induction 1 as [|c l Hc Hl IH]; intros r; [reflexivity|].
  cbn [fold_left]. now rewrite crc_byte_step, IH.
Qed.

Lemma w16_byte c : is_byte c -> w16 c.
Proof. unfold is_byte, w16. lia. Qed.
Lemma crc_step_w16 r c : w16 r -> is_byte c -> w16 (crc_step r c).
Proof. intros H Hc. apply (shifts_w16 8), w16_lxor; auto using w16_byte. Qed.
Lemma fold_step_w16 data : bytes data -> forall r, w16 r -> w16 (fold_left crc_step data r).
Proof. induction 1 as [|c l Hc Hl IH]; intros r H; [exact H|]. cbn [fold_left]. apply IH. now apply crc_step_w16. Qed.
Lemma crc16_w16 data : bytes data -> w16 (crc16_modbus data).
Proof. intros H. apply fold_step_w16; [exact H|]. unfold w16. lia. Qed.

Lemma swap_bytes_w16 c : w16 c -> swap_bytes c = (c mod 256) * 256 + c / 256.
Proof.
  unfold w16, swap_bytes. intros H. rewrite !land_255, Z.shiftr_div_pow2, Z.shiftl_mul_pow2 by lia.
  change (2 ^ 8) with 256. lia.
Qed.

Lemma calculate_crc_spec data : bytes data ->
  calculate_crc data = (crc16_modbus data mod 256) * 256 + crc16_modbus data / 256.
Proof.
  intros H. unfold calculate_crc. rewrite fold_crc by exact H.
  apply (swap_bytes_w16 (crc16_modbus data)). now apply crc16_w16.
Qed.

(** ** Bit-serial view *)
Definition feed (r : Z) (b : bool) : Z := crc_shift (Z.lxor r (Z.b2z b)).
Definition feeds (r : Z) (l : list bool) : Z := fold_left feed l r.

Lemma feeds_app r l1 l2 : feeds r (l1 ++ l2) = feeds (feeds r l1) l2.
Proof. apply fold_left_app. Qed.

(** value of a little-endian bit string *)
Fixpoint val (l : list bool) : Z :=
  match l with [] => 0 | b :: t => Z.lxor (Z.b2z b) (Z.shiftl (val t) 1) end.

Lemma shift_shl x : crc_shift (Z.shiftl x 1) = x.
Proof. rewrite Z.shiftl_mul_pow2 by lia. apply (shifts_even 1). Qed.

Lemma feeds_val l r : feeds r l = shifts (length l) (Z.lxor r (val l)).
Proof.
  revert r. induction l as [|b t IH]; intros r.
  - cbn. now rewrite Z.lxor_0_r.
  - change (feeds r (b :: t)) with (feeds (feed r b) t). rewrite IH. cbn [length val]. rewrite shifts_S'.
    f_equal. unfold feed. now rewrite <- Z.lxor_assoc, (crc_shift_lxor (Z.lxor r (Z.b2z b))), shift_shl.
Qed.

Lemma feeds_w16 l r : w16 r -> w16 (feeds r l).
Proof.
  revert r. induction l as [|b t IH]; intros r H; [exact H|].
  apply (IH (feed r b)), w16_shift, w16_lxor; auto. unfold w16. destruct b; cbn; lia.
Qed.

Definition byte_bits (c : Z) : list bool := map (fun k => Z.testbit c (Z.of_nat k)) (seq 0 8).
Definition frame_bits (l : list Z) : list bool := flat_map byte_bits l.

Lemma byte_bits_val_all : forallb (fun i => Z.eqb (val (byte_bits (Z.of_nat i))) (Z.of_nat i)) (seq 0 256) = true.
Proof. vm_compute. reflexivity. Qed.
Lemma byte_bits_val c : is_byte c -> val (byte_bits c) = c.
Proof.
  intros H. pose proof (proj1 (forallb_forall _ _) byte_bits_val_all (Z.to_nat c)) as E. cbn beta in E.
  unfold is_byte in H. rewrite Z2Nat.id in E by lia. apply Z.eqb_eq, E, in_seq. lia.
Qed.
Lemma byte_bits_length c : length (byte_bits c) = 8%nat.
Proof. reflexivity. Qed.
Lemma frame_bits_length l : length (frame_bits l) = (8 * length l)%nat.
Proof. induction l as [|c t IH]; [reflexivity|]. unfold frame_bits in *. cbn [flat_map length]. rewrite app_length, byte_bits_length, IH. lia. Qed.

Lemma feeds_byte r c : is_byte c -> feeds r (byte_bits c) = crc_step r c.
Proof. intros H. rewrite feeds_val, byte_bits_length, byte_bits_val by exact H. reflexivity. Qed.
Lemma feeds_frame l r : bytes l -> feeds r (frame_bits l) = fold_left crc_step l r.
Proof.
  intros H. revert r. induction H as [|c t Hc Ht IH]; intros r; [reflexivity|].
  cbn [fold_left]. unfold frame_bits. cbn [flat_map]. rewrite feeds_app, feeds_byte by exact Hc. apply IH.
Qed.

(** ** The residue of a sealed frame is zero, and only of a sealed frame *)
Lemma two_steps c a b : w16 c -> is_byte a -> is_byte b ->
  (crc_step (crc_step c a) b = 0 <-> a = c mod 256 /\ b = c / 256).
Proof.
  intros Hc Ha Hb.
  assert (E : crc_step (crc_step c a) b = shifts 16 (Z.lxor c (b * 2 ^ Z.of_nat 8 + a))).
  { assert (X : b * 2 ^ Z.of_nat 8 + a = Z.lxor (b * 2 ^ Z.of_nat 8) a).
    { apply Z.add_nocarry_lxor. apply Z.bits_inj'. intros i Hi. rewrite Z.land_spec, Z.bits_0.
      change (2 ^ Z.of_nat 8) with (2 ^ 8). rewrite <- Z.shiftl_mul_pow2 by lia.
      destruct (Z.lt_ge_cases i 8) as [L|L]; [now rewrite Z.shiftl_spec_low|].
      unfold is_byte in Ha. rewrite (proj1 (bits_lt_iff 8 a ltac:(lia) ltac:(lia)) ltac:(lia) i L). apply andb_false_r. }
    rewrite X, !crc_step_shifts. change 16%nat with (8 + 8)%nat. rewrite shifts_add. f_equal.
    rewrite (Z.lxor_comm (b * _)), <- Z.lxor_assoc, (shifts_lxor 8 (Z.lxor c a)), (shifts_even 8). reflexivity. }
  rewrite E. unfold is_byte, w16 in *. change (2 ^ Z.of_nat 8) with 256.
  split.
  - intros H. apply shifts_inj0 in H; [|apply w16_lxor; unfold w16; lia].
    apply Z.lxor_eq in H. lia.
  - intros [-> ->]. replace (c / 256 * 256 + c mod 256) with c by lia. now rewrite Z.lxor_nilpotent, shifts_0.
Qed.

Lemma residue data a b : bytes data -> is_byte a -> is_byte b ->
  (feeds 65535 (frame_bits (data ++ [a; b])) = 0 <-> [a; b] = crc_bytes data).
Proof.
  intros H Ha Hb. rewrite feeds_frame by (apply bytes_app; [exact H|repeat constructor; tauto || apply Ha || apply Hb]).
  rewrite fold_left_app. cbn [fold_left]. fold (crc16_modbus data).
  rewrite two_steps by (auto; now apply crc16_w16). unfold crc_bytes. split; [now intros [-> ->]|].
  intros E. injection E as -> ->. now split.
Qed.

(** ** Linearity in the message *)
Fixpoint xor_bits (l1 l2 : list bool) : list bool :=
  match l1, l2 with x :: a, y :: b => xorb x y :: xor_bits a b | _, _ => [] end.

Lemma feeds_xor l1 l2 r1 r2 : length l1 = length l2 ->
  feeds (Z.lxor r1 r2) (xor_bits l1 l2) = Z.lxor (feeds r1 l1) (feeds r2 l2).
Proof.
  revert l2 r1 r2. induction l1 as [|x a IH]; intros [|y b] r1 r2 E; try discriminate; [reflexivity|].
  cbn [xor_bits].
  change (feeds (feed (Z.lxor r1 r2) (xorb x y)) (xor_bits a b) = Z.lxor (feeds (feed r1 x) a) (feeds (feed r2 y) b)).
  rewrite <- IH by (cbn in E; lia). f_equal. unfold feed. rewrite <- crc_shift_lxor, lxor_swap. f_equal. f_equal.
  destruct x, y; reflexivity.
Qed.

Lemma xor_bits_length l1 l2 : length l1 = length l2 -> length (xor_bits l1 l2) = length l1.
Proof. revert l2. induction l1 as [|x a IH]; intros [|y b] E; try discriminate; [reflexivity|]. cbn. now rewrite IH by (cbn in E; lia). Qed.

Lemma xor_bits_nth l1 l2 k : length l1 = length l2 ->
  nth k (xor_bits l1 l2) false = xorb (nth k l1 false) (nth k l2 false).
Proof.
  revert l2 k. induction l1 as [|x a IH]; intros [|y b] k E; try discriminate.
  - now destruct k.
  - destruct k; cbn; [reflexivity|]. apply IH. cbn in E. lia.
Qed.

Lemma frame_bits_nth l k : nth k (frame_bits l) false = wire_bit l k.
Proof.
  unfold wire_bit. revert k. induction l as [|c t IH]; intros k.
  - cbn [frame_bits flat_map]. destruct (k / 8)%nat; cbn; [destruct k|]; rewrite ?Z.bits_0; try reflexivity; now destruct k.
  - unfold frame_bits. cbn [flat_map]. destruct (Nat.lt_ge_cases k 8) as [L|L].
    + rewrite app_nth1 by (rewrite byte_bits_length; exact L).
      rewrite Nat.div_small, Nat.mod_small by exact L. cbn [nth].
      do 8 (destruct k as [|k]; [reflexivity|]). lia.
    + rewrite app_nth2, byte_bits_length by (rewrite byte_bits_length; exact L).
      assert (E : (k = (k - 8) + 1 * 8)%nat) by lia.
      rewrite (IH (k - 8)%nat : nth (k - 8) (flat_map byte_bits t) false = _).
      rewrite E at 3 4. rewrite Nat.div_add, Nat.mod_add by lia. rewrite (Nat.add_comm _ 1). reflexivity.
Qed.

(** ** Positions of the set bits *)
Definition ones (l : list bool) : list nat := filter (fun k => nth k l false) (seq 0 (length l)).

Lemma flipped_ones f g : length f = length g ->
  flipped f g = ones (xor_bits (frame_bits f) (frame_bits g)).
Proof.
  intros E. assert (E2 : length (frame_bits f) = length (frame_bits g)) by (rewrite !frame_bits_length; lia).
  unfold flipped, ones. rewrite xor_bits_length, frame_bits_length by exact E2.
  apply filter_ext. intros k. now rewrite xor_bits_nth, !frame_bits_nth.
Qed.

Lemma filter_map_S (p : nat -> bool) l : filter p (map S l) = map S (filter (fun k => p (S k)) l).
Proof. induction l as [|x t IH]; [reflexivity|]. cbn. rewrite IH. now destruct (p (S x)). Qed.

Lemma ones_cons b l : ones (b :: l) = (if b then [0%nat] else []) ++ map S (ones l).
Proof.
  unfold ones. cbn [length seq filter nth]. rewrite <- seq_shift, filter_map_S. cbn [nth]. now destruct b.
Qed.

Lemma ones_in l i : In i (ones l) <-> (i < length l)%nat /\ nth i l false = true.
Proof. unfold ones. rewrite filter_In, in_seq. split; intros [H1 H2]; (split; [lia|exact H2]). Qed.

Lemma ones_app_zeros k l : ones (repeat false k ++ l) = map (Nat.add k) (ones l).
Proof.
  induction k as [|k IH]; cbn [repeat app]; [now rewrite map_id|].
  rewrite ones_cons, IH, map_map. reflexivity.
Qed.

Lemma ones_nil l : ones l = [] -> l = repeat false (length l).
Proof.
  induction l as [|b t IH]; intros E; [reflexivity|]. rewrite ones_cons in E. destruct b; [discriminate|].
  cbn. rewrite <- IH; [reflexivity|]. now destruct (ones t).
Qed.

Lemma feeds_zeros n r : feeds r (repeat false n) = shifts n r.
Proof.
  rewrite feeds_val, repeat_length. f_equal. rewrite <- (Z.lxor_0_r r) at 2. f_equal.
  induction n as [|n IH]; [reflexivity|]. cbn [repeat val Z.b2z]. now rewrite IH.
Qed.

(** ** Odd errors *)
Fixpoint parity (n : nat) (x : Z) : bool :=
  match n with O => false | S m => xorb (Z.odd x) (parity m (Z.shiftr x 1)) end.
Lemma parity_lxor n x y : parity n (Z.lxor x y) = xorb (parity n x) (parity n y).
Proof.
  revert x y. induction n as [|n IH]; intros x y; [reflexivity|]. cbn [parity].
  rewrite Z.shiftr_lxor, IH, odd_lxor. now destruct (Z.odd x), (Z.odd y), (parity n _), (parity n _).
Qed.
Lemma parity_0 n : parity n 0 = false.
Proof. induction n as [|n IH]; [reflexivity|]. cbn [parity]. now rewrite Z.shiftr_0_l, IH. Qed.
Lemma parity_enough n x : 0 <= x < 2 ^ Z.of_nat n -> parity (S n) x = parity n x.
Proof.
  revert x. induction n as [|n IH]; intros x H.
  - assert (x = 0) by (cbn in H; lia). subst x. reflexivity.
  - cbn [parity] in *. f_equal. apply IH. rewrite shiftr1.
    rewrite Nat2Z.inj_succ, Z.pow_succ_r in H by lia. lia.
Qed.
Lemma parity_shift r : w16 r -> parity 16 (crc_shift r) = parity 16 r.
Proof.
  intros H. rewrite crc_shift_alt, parity_lxor.
  assert (E : parity 16 r = xorb (Z.odd r) (parity 16 (Z.shiftr r 1))).
  { rewrite <- (parity_enough 16 r) by exact H. reflexivity. }
  rewrite E. destruct (Z.odd r); [|rewrite parity_0; now destruct (parity _ _)].
  replace (parity 16 40961) with true by reflexivity. now destruct (parity _ _).
Qed.
Lemma parity_feeds l r : w16 r -> parity 16 (feeds r l) = xorb (parity 16 r) (Nat.odd (length (ones l))).
Proof.
  revert r. induction l as [|b t IH]; intros r H; [now rewrite xorb_false_r|].
  change (feeds r (b :: t)) with (feeds (feed r b) t).
  assert (Hb : w16 (Z.b2z b)) by (unfold w16; destruct b; cbn; lia).
  rewrite IH by (apply w16_shift, w16_lxor; auto).
  unfold feed. rewrite parity_shift by (apply w16_lxor; auto). rewrite parity_lxor, ones_cons, app_length, map_length.
  replace (parity 16 (Z.b2z b)) with b by now destruct b.
  destruct b; cbn [length Nat.add]; rewrite ?Nat.odd_succ, <- ?Nat.negb_odd.
  - destruct (parity 16 r), (Nat.odd _); reflexivity.
  - now rewrite xorb_false_r.
Qed.

Lemma odd_feeds l : Nat.odd (length (ones l)) = true -> feeds 0 l <> 0.
Proof. intros O E. pose proof (parity_feeds l 0 ltac:(unfold w16; lia)) as P. rewrite E, O in P. discriminate P. Qed.

(** ** Bursts *)
Lemma val_bound l : 0 <= val l < 2 ^ Z.of_nat (length l).
Proof.
  induction l as [|b t IH]; [cbn; lia|]. cbn [val length]. rewrite Nat2Z.inj_succ, Z.pow_succ_r by lia.
  assert (X : Z.lxor (Z.b2z b) (Z.shiftl (val t) 1) = 2 * val t + Z.b2z b).
  { rewrite Z.shiftl_mul_pow2 by lia. change (2 ^ 1) with 2. rewrite (Z.mul_comm _ 2), Z.lxor_comm.
    symmetry. apply Z.add_nocarry_lxor. destruct b; cbn [Z.b2z]; [|apply Z.land_0_r].
    change 1 with (Z.ones 1). rewrite Z.land_ones by lia. change (2 ^ 1) with 2. lia. }
  rewrite X. destruct b; cbn [Z.b2z]; lia.
Qed.
Lemma val_0 l : val l = 0 -> ones l = [].
Proof.
  induction l as [|b t IH]; intros E; [reflexivity|]. cbn [val] in E. apply Z.lxor_eq in E.
  rewrite Z.shiftl_mul_pow2 in E by lia. change (2 ^ 1) with 2 in E.
  rewrite ones_cons. destruct b; cbn [Z.b2z] in E; [lia|]. now rewrite IH by lia.
Qed.

Lemma zeros_ext l : (forall i, nth i l false = false) -> l = repeat false (length l).
Proof.
  induction l as [|b t IH]; intros H; [reflexivity|]. cbn. pose proof (H 0%nat) as H0. cbn in H0. subst b.
  f_equal. apply IH. intros i. apply (H (S i)).
Qed.

Lemma burst_feeds l k : ones l <> [] -> (forall i, In i (ones l) -> (k <= i < k + 16)%nat) -> feeds 0 l <> 0.
Proof.
  intros Hne Hw E.
  assert (Z0 : forall i, (i < k)%nat -> nth i l false = false).
  { intros i Hi. destruct (nth i l false) eqn:N; [|reflexivity].
    destruct (Nat.lt_ge_cases i (length l)) as [L|L]; [|now rewrite nth_overflow in N].
    specialize (Hw i ltac:(apply ones_in; tauto)). lia. }
  assert (Z1 : forall i, (k + 16 <= i)%nat -> nth i l false = false).
  { intros i Hi. destruct (nth i l false) eqn:N; [|reflexivity].
    destruct (Nat.lt_ge_cases i (length l)) as [L|L]; [|now rewrite nth_overflow in N].
    specialize (Hw i ltac:(apply ones_in; tauto)). lia. }
  set (a := firstn k l) in *. set (w := firstn 16 (skipn k l)). set (z := skipn 16 (skipn k l)).
  assert (Hl : l = a ++ w ++ z) by (unfold a, w, z; now rewrite !firstn_skipn).
  assert (Ha : a = repeat false (length a)).
  { apply zeros_ext. intros i. unfold a. destruct (Nat.lt_ge_cases i k) as [L|L].
    - destruct (Nat.lt_ge_cases i (length l)) as [L2|L2].
      + rewrite <- (firstn_skipn k l) in Z0. specialize (Z0 i L). rewrite app_nth1 in Z0; [exact Z0|].
        rewrite firstn_length. lia.
      + apply nth_overflow. rewrite firstn_length. lia.
    - apply nth_overflow. rewrite firstn_length. lia. }
  assert (Hz : z = repeat false (length z)).
  { apply zeros_ext. intros i. destruct (Nat.lt_ge_cases i (length z)) as [L|L]; [|now apply nth_overflow].
    assert (La : length a = k /\ length w = 16%nat).
    { unfold a, w, z in *. rewrite !skipn_length in L. rewrite !firstn_length, skipn_length. lia. }
    specialize (Z1 (k + (16 + i))%nat ltac:(lia)). rewrite Hl in Z1. destruct La as [La Lw].
    rewrite app_nth2, La in Z1 by lia. rewrite app_nth2 in Z1 by lia. rewrite Lw in Z1.
    now replace (k + (16 + i) - k - 16)%nat with i in Z1 by lia. }
  assert (Lw : (length w <= 16)%nat) by (unfold w; rewrite firstn_length; lia).
  rewrite Hl, !feeds_app in E. rewrite Ha, feeds_zeros, shifts_0, Hz, feeds_zeros in E.
  apply shifts_inj0 in E; [|apply feeds_w16; unfold w16; lia].
  rewrite feeds_val, Z.lxor_0_l in E.
  apply shifts_inj0 in E.
  2:{ pose proof (val_bound w). assert (2 ^ Z.of_nat (length w) <= 2 ^ 16) by (apply Z.pow_le_mono_r; lia). unfold w16. lia. }
  apply val_0, ones_nil in E. apply Hne. rewrite Hl, Ha, E, Hz, <- !repeat_app.
  set (m := (_ + (_ + _))%nat). clear. clearbody m. induction m as [|m IH]; [reflexivity|].
  cbn [repeat]. now rewrite ones_cons, IH.
Qed.

(** ** Double errors: the register returns to 1 only after 32767 shifts *)
Fixpoint no_return (n : nat) (r : Z) : bool :=
  match n with O => true | S m => let r' := crc_shift r in if r' =? 1 then false else no_return m r' end.
Lemma no_return_ok n r d : no_return n r = true -> (1 <= d <= n)%nat -> shifts d r <> 1.
Proof.
  revert r d. induction n as [|n IH]; intros r d H Hd; [lia|]. cbn [no_return] in H.
  destruct (crc_shift r =? 1) eqn:E; [discriminate|]. apply Z.eqb_neq in E.
  destruct d as [|d]; [lia|]. rewrite shifts_S'. destruct d as [|d]; [exact E|]. apply IH; [exact H|lia].
Qed.
(* 32766 shifts; the number is kept in Z *)
Lemma no_return_32766 : no_return (Z.to_nat 32766) 1 = true.
Proof. vm_compute. reflexivity. Qed.

Lemma first_one l a t : ones l = a :: t -> exists l', l = repeat false a ++ true :: l' /\ t = map (Nat.add (S a)) (ones l').
Proof.
  revert a t. induction l as [|b l IH]; intros a t E; [discriminate|]. rewrite ones_cons in E. destruct b.
  - injection E as <- <-. exists l. split; [reflexivity|]. apply map_ext. reflexivity.
  - destruct (ones l) as [|x u] eqn:O; [discriminate|]. cbn in E. injection E as <- <-.
    destruct (IH x u eq_refl) as (l' & -> & ->). exists l'. split; [reflexivity|]. now rewrite map_map.
Qed.

Lemma double_feeds l : length (ones l) = 2%nat -> (length l <= Z.to_nat 32767)%nat -> feeds 0 l <> 0.
Proof.
  intros L2 Ln E. destruct (ones l) as [|a [|b [|]]] eqn:O; try discriminate.
  destruct (first_one l a [b] O) as (l1 & -> & Eb). destruct (ones l1) as [|c [|]] eqn:O1; try discriminate.
  destruct (first_one l1 c [] O1) as (l2 & -> & E2). symmetry in E2. apply map_eq_nil, ones_nil in E2.
  rewrite feeds_app, feeds_zeros, shifts_0 in E.
  change (feeds 0 (true :: repeat false c ++ true :: l2)) with (feeds (crc_shift 1) (repeat false c ++ true :: l2)) in E.
  rewrite feeds_app, feeds_zeros, <- shifts_S' in E.
  change (feeds (shifts (S c) 1) (true :: l2)) with (feeds (feed (shifts (S c) 1) true) l2) in E.
  assert (W1 : w16 1) by (unfold w16; lia).
  rewrite E2, feeds_zeros in E. apply shifts_inj0 in E.
  2:{ apply w16_shift, w16_lxor; [now apply shifts_w16|exact W1]. }
  apply crc_shift_0 in E; [|apply w16_lxor; [now apply shifts_w16|exact W1]].
  apply Z.lxor_eq in E. cbn [Z.b2z] in E. revert E. apply (no_return_ok _ _ _ no_return_32766).
  rewrite app_length, repeat_length in Ln. cbn [length] in Ln. rewrite app_length, repeat_length in Ln. cbn [length] in Ln. lia.
Qed.
