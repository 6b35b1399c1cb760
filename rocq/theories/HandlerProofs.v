(** Lemmas about the loops of the request handlers. *)
From Verif Require Export SlaveProofs.

(** ** registers *)
Lemma pack_fmtH s v :
  pack (fmtH s) [v] = if fits_b (sl_unsigned s) v then Ok (word v) else Err StructError.
Proof. unfold fmtH. destruct (sl_unsigned s); [apply pack_H|apply pack_h]. Qed.

Lemma pack_regs_loop_ok s vals resp :
  Forall (fits (sl_unsigned s)) vals ->
  pack_regs_loop (fmtH s) vals resp = Ok (resp ++ words vals).
Proof.
  intros H. revert resp. induction H as [|v vals Hv Hvs IH]; intros resp; cbn [pack_regs_loop].
  - now rewrite app_nil_r.
  - rewrite pack_fmtH. apply fits_b_iff in Hv. rewrite Hv. cbn [bind].
    rewrite IH. cbn [words flat_map]. now rewrite app_assoc.
Qed.
Lemma pack_regs_loop_err s vals resp :
  ~ Forall (fits (sl_unsigned s)) vals ->
  pack_regs_loop (fmtH s) vals resp = Err StructError.
Proof.
  revert resp. induction vals as [|v vals IH]; intros resp H; cbn [pack_regs_loop].
  - exfalso. apply H. constructor.
  - rewrite pack_fmtH. destruct (fits_b (sl_unsigned s) v) eqn:E; cbn [bind]; [|reflexivity].
    apply IH. intros Hf. apply H. constructor; [now apply fits_b_iff|assumption].
Qed.
Lemma fits_all_dec u vals : Forall (fits u) vals \/ ~ Forall (fits u) vals.
Proof.
  induction vals as [|v vals [IH|IH]].
  - left. constructor.
  - destruct (fits_b u v) eqn:E.
    + left. constructor; [now apply fits_b_iff|assumption].
    + right. intros H. inversion H; subst. apply fits_b_iff in H2. congruence.
  - right. intros H. inversion H; subst. contradiction.
Qed.

(** ** bits *)
Definition bitz (x : Z) : Z := if x =? 0 then 0 else 1.
Fixpoint bits_val (l : list Z) : Z :=
  match l with [] => 0 | x :: t => bitz x + 2 * bits_val t end.

Lemma bitz_range x : 0 <= bitz x <= 1.
Proof. unfold bitz. destruct (x =? 0); lia. Qed.
Lemma bits_val_range l : 0 <= bits_val l < 2 ^ zlen l.
Proof.
  induction l as [|x l IH].
  - cbn. lia.
  - rewrite zlen_cons. cbn [bits_val]. pose proof (bitz_range x). pose proof (zlen_nonneg l).
    rewrite Z.pow_add_r by lia. lia.
Qed.
Lemma bits_val_app l x : bits_val (l ++ [x]) = bits_val l + bitz x * 2 ^ zlen l.
Proof.
  induction l as [|y l IH].
  - cbn [app bits_val]. change (zlen []) with 0. lia.
  - cbn [app bits_val]. rewrite zlen_cons, IH. pose proof (zlen_nonneg l).
    rewrite Z.pow_add_r by lia. lia.
Qed.
Lemma bits_val_testbit l k :
  0 <= k -> Z.testbit (bits_val l) k = negb (nth (Z.to_nat k) l 0 =? 0).
Proof.
  revert k. induction l as [|x l IH]; intros k Hk; cbn [bits_val].
  - rewrite Z.testbit_0_l. now destruct (Z.to_nat k).
  - assert (Hb : bitz x = 0 /\ (x =? 0) = true \/ bitz x = 1 /\ (x =? 0) = false)
      by (unfold bitz; destruct (x =? 0); auto).
    destruct (Z.eq_dec k 0) as [->|Hk0].
    + change (Z.to_nat 0) with O. cbn [nth].
      destruct Hb as [[-> ->]|[-> ->]].
      * rewrite Z.add_0_l. apply Z.testbit_even_0.
      * rewrite Z.add_comm. apply Z.testbit_odd_0.
    + replace k with (Z.succ (k - 1)) by lia.
      replace (Z.to_nat (Z.succ (k - 1))) with (S (Z.to_nat (k - 1))) by lia. cbn [nth].
      rewrite <- IH by lia.
      destruct Hb as [[-> _]|[-> _]].
      * rewrite Z.add_0_l. apply Z.testbit_even_succ. lia.
      * rewrite Z.add_comm. apply Z.testbit_odd_succ. lia.
Qed.

Lemma packs_bits_nil : packs_bits [] [].
Proof.
  split; [reflexivity|]. split; [constructor|]. intros k Hk. cbn in Hk. lia.
Qed.
Lemma packs_bits_last p :
  0 < zlen p < 8 -> packs_bits p [bits_val p].
Proof.
  intros Hp. pose proof (bits_val_range p) as Hr.
  assert (Hlt : 2 ^ zlen p <= 2 ^ 7) by (apply Z.pow_le_mono_r; lia).
  change (2 ^ 7) with 128 in Hlt.
  split; [|split].
  - unfold bytes_for_bits. change (zlen [bits_val p]) with 1. lia.
  - constructor; [unfold is_byte; lia|constructor].
  - change (zlen [bits_val p]) with 1. intros k Hk.
    replace (k / 8) with 0 by lia. replace (k mod 8) with k by lia.
    change (Z.to_nat 0) with O. cbn [nth]. apply bits_val_testbit. lia.
Qed.
Lemma packs_bits_cons8 p vals out :
  zlen p = 8 -> packs_bits vals out -> packs_bits (p ++ vals) (bits_val p :: out).
Proof.
  intros Hp (Hlen & Hby & Hb). pose proof (bits_val_range p) as Hr. rewrite Hp in Hr.
  change (2 ^ 8) with 256 in Hr. split; [|split].
  - rewrite zlen_cons, zlen_app, Hp, Hlen. unfold bytes_for_bits. lia.
  - constructor; [unfold is_byte; lia|exact Hby].
  - rewrite zlen_cons. intros k Hk. destruct (Z.lt_ge_cases k 8) as [H8|H8].
    + replace (k / 8) with 0 by lia. replace (k mod 8) with k by lia.
      change (Z.to_nat 0) with O. cbn [nth]. rewrite bits_val_testbit by lia.
      rewrite app_nth1 by (unfold zlen in Hp; lia). reflexivity.
    + replace (k / 8) with ((k - 8) / 8 + 1) by lia.
      replace (k mod 8) with ((k - 8) mod 8) by lia.
      replace (Z.to_nat ((k - 8) / 8 + 1)) with (S (Z.to_nat ((k - 8) / 8))) by lia.
      cbn [nth]. rewrite Hb by lia.
      rewrite app_nth2 by (unfold zlen in Hp; lia). unfold zlen in Hp.
      do 3 f_equal. lia.
Qed.

Lemma pack_last_fmtB s v : 0 <= v < 128 -> pack (fmtB s) [v] = Ok [v].
Proof.
  intros H. unfold fmtB. destruct (sl_unsigned s).
  - apply pack_B_ok. unfold is_byte. lia.
  - rewrite pack_sb. destruct ((-128 <=? v) && (v <? 128)) eqn:E; [|lia].
    now rewrite Z.mod_small by lia.
Qed.

Lemma pack_bits_loop_ok s vals p resp :
  zlen p < 8 ->
  exists out, pack_bits_loop vals (zlen p) (bits_val p) resp (fmtB s) = Ok (resp ++ out) /\
              packs_bits (p ++ vals) out.
Proof.
  revert p resp. induction vals as [|x vals IH]; intros p resp Hp; cbn [pack_bits_loop].
  - pose proof (zlen_nonneg p). rewrite app_nil_r. destruct (0 <? zlen p) eqn:E.
    + pose proof (bits_val_range p) as Hr.
      assert (Hlt : 2 ^ zlen p <= 2 ^ 7) by (apply Z.pow_le_mono_r; lia).
      change (2 ^ 7) with 128 in Hlt.
      rewrite pack_last_fmtB by lia. cbn [bind].
      exists [bits_val p]. split; [reflexivity|]. apply packs_bits_last. lia.
    + assert (p = []) as -> by (destruct p; [reflexivity|rewrite zlen_cons in *; pose proof (zlen_nonneg p); lia]).
      exists []. rewrite app_nil_r. split; [reflexivity|]. apply packs_bits_nil.
  - pose proof (zlen_nonneg p) as Hp0.
    assert (Hbv : (if x =? 0 then bits_val p else bits_val p + Z.shiftl 1 (zlen p)) = bits_val (p ++ [x])).
    { rewrite bits_val_app. unfold bitz. rewrite Z.shiftl_mul_pow2 by lia. destruct (x =? 0); lia. }
    rewrite Hbv. replace (p ++ x :: vals) with ((p ++ [x]) ++ vals) by now rewrite <- app_assoc.
    assert (Hl : zlen (p ++ [x]) = zlen p + 1) by (rewrite zlen_app; reflexivity).
    destruct (7 <=? zlen p) eqn:E.
    + assert (H8 : zlen (p ++ [x]) = 8) by lia.
      pose proof (bits_val_range (p ++ [x])) as Hr. rewrite H8 in Hr. change (2 ^ 8) with 256 in Hr.
      rewrite pack_B_ok by (unfold is_byte; lia). cbn [bind].
      destruct (IH [] (resp ++ [bits_val (p ++ [x])])) as (out & Hout & Hpk); [reflexivity|].
      change (zlen []) with 0 in Hout. cbn [bits_val app] in Hout, Hpk.
      exists (bits_val (p ++ [x]) :: out). rewrite Hout. split.
      * now rewrite <- app_assoc.
      * now apply packs_bits_cons8.
    + rewrite <- Hl. destruct (IH (p ++ [x]) resp) as (out & Hout & Hpk); [lia|].
      exists out. split; assumption.
Qed.

Lemma testbit_high b n k : 0 <= b < 2 ^ n -> 0 <= n <= k -> Z.testbit b k = false.
Proof.
  intros Hb Hn. rewrite <- (Z.mod_small b (2 ^ n)) by assumption.
  apply Z.mod_pow2_bits_high. lia.
Qed.

Lemma packs_bits_unique vals o1 o2 : packs_bits vals o1 -> packs_bits vals o2 -> o1 = o2.
Proof.
  intros (L1 & B1 & T1) (L2 & B2 & T2).
  assert (HL : zlen o1 = zlen o2) by lia.
  apply nth_error_ext. intros i.
  destruct (Nat.lt_ge_cases i (length o1)) as [Hi|Hi].
  - assert (Hi2 : (i < length o2)%nat) by (unfold zlen in HL; lia).
    rewrite (nth_error_nth' o1 0 Hi), (nth_error_nth' o2 0 Hi2). f_equal.
    assert (Hb1 : is_byte (nth i o1 0)).
    { unfold bytes in B1. rewrite Forall_forall in B1. apply B1. now apply nth_In. }
    assert (Hb2 : is_byte (nth i o2 0)).
    { unfold bytes in B2. rewrite Forall_forall in B2. apply B2. now apply nth_In. }
    apply Z.bits_inj'. intros k Hk. destruct (Z.lt_ge_cases k 8) as [H8|H8].
    + specialize (T1 (8 * Z.of_nat i + k)). specialize (T2 (8 * Z.of_nat i + k)).
      replace ((8 * Z.of_nat i + k) / 8) with (Z.of_nat i) in T1, T2 by lia.
      replace ((8 * Z.of_nat i + k) mod 8) with k in T1, T2 by lia.
      rewrite Nat2Z.id in T1, T2. unfold zlen in *. rewrite T1, T2 by lia. reflexivity.
    + unfold is_byte in *. change 256 with (2 ^ 8) in *.
      rewrite (testbit_high (nth i o1 0) 8), (testbit_high (nth i o2 0) 8); auto; lia.
  - rewrite (proj2 (nth_error_None o1 i)) by lia.
    rewrite (proj2 (nth_error_None o2 i)) by (unfold zlen in HL; lia). reflexivity.
Qed.

(** ** cell updates *)
Definition set_cells (d : list Z) (off : nat) (vals : list Z) : list Z :=
  firstn off d ++ vals ++ skipn (off + length vals) d.

Lemma set_cells_nil d off : set_cells d off [] = d.
Proof. unfold set_cells. cbn [length app]. rewrite Nat.add_0_r. apply firstn_skipn. Qed.
Lemma set_cells_length d off vals :
  (off + length vals <= length d)%nat -> length (set_cells d off vals) = length d.
Proof. intros H. unfold set_cells. rewrite !app_length, firstn_length, skipn_length. lia. Qed.
Lemma set_cells_snoc d off vals v :
  (off + length vals < length d)%nat ->
  list_upd (set_cells d off vals) (off + length vals) v = set_cells d off (vals ++ [v]).
Proof.
  intros H. unfold set_cells. rewrite app_length. cbn [length].
  assert (E : exists y, skipn (off + length vals) d = y :: skipn (off + (length vals + 1)) d).
  { remember (off + length vals)%nat as k. replace (off + (length vals + 1))%nat with (S k) by lia.
    clear Heqk. revert k H. induction d as [|x d IH]; intros k H; [cbn in H; lia|].
    destruct k as [|k]; [exists x; reflexivity|]. cbn in H.
    destruct (IH k) as [y Hy]; [lia|]. exists y. exact Hy. }
  destruct E as [y ->].
  rewrite app_assoc.
  replace (off + length vals)%nat with (length (firstn off d ++ vals))
    by (rewrite app_length, firstn_length; lia).
  rewrite list_upd_app_r. now rewrite <- !app_assoc.
Qed.
Lemma overlay_set_cells b a vals :
  b_start b <= a ->
  b_data (overlay b a vals) = set_cells (b_data b) (Z.to_nat (a - b_start b)) vals.
Proof.
  intros H. unfold overlay, set_cells. cbn [b_data]. do 3 f_equal. unfold zlen. lia.
Qed.

(** the register writing loop *)
Lemma unpack1_fmtH_word s v :
  fits true v -> unpack1 (fmtH s) (word v) = Ok (reg_of_word (sl_unsigned s) v).
Proof.
  intros H. unfold unpack1, fmtH, word, fits in *.
  assert (E : ((v / 256) mod 256) * 256 + v mod 256 = v) by lia.
  destruct (sl_unsigned s); [rewrite unpack_H|rewrite unpack_h]; cbn [bind]; now rewrite E.
Qed.

Lemma py_slice_skip {A} (pdu pre : list A) base d rest :
  pdu = pre ++ d ++ rest -> zlen pre = base ->
  py_slice pdu base (base + zlen d) = d.
Proof.
  intros -> <-. rewrite py_slice_nonneg by (pose proof (zlen_nonneg pre); pose proof (zlen_nonneg d); lia).
  unfold zlen. rewrite !Nat2Z.id. rewrite skipn_app, skipn_all, Nat.sub_diag, app_nil_l. cbn [skipn].
  replace (Z.to_nat (Z.of_nat (length pre) + Z.of_nat (length d) - Z.of_nat (length pre))) with (length d) by lia.
  rewrite firstn_app, firstn_all, Nat.sub_diag. cbn [firstn]. apply app_nil_r.
Qed.

Lemma write_regs_loop_ok s (pre ws rest : list Z) base off (d0 done : list Z) :
  Forall (fits true) ws -> zlen pre = base + 2 * zlen done ->
  0 <= off -> 0 <= base -> (Z.to_nat off + length done + length ws <= length d0)%nat ->
  write_regs_loop (fmtH s) (pre ++ words ws ++ rest) base off (length ws) (zlen done)
    (set_cells d0 (Z.to_nat off) done)
  = (set_cells d0 (Z.to_nat off) (done ++ map (reg_of_word (sl_unsigned s)) ws), Ok tt).
Proof.
  intros Hws. revert pre done. induction Hws as [|w ws Hw Hws IH]; intros pre done Hpre Ho Hb Hlen.
  - cbn [length write_regs_loop map]. now rewrite app_nil_r.
  - cbn [length write_regs_loop].
    replace (base + 2 + 2 * zlen done) with (base + 2 * zlen done + zlen (word w))
      by (change (zlen (word w)) with 2; lia).
    rewrite (py_slice_skip _ pre (base + 2 * zlen done) (word w) (words ws ++ rest));
      [|cbn [words flat_map]; now rewrite <- app_assoc|exact Hpre].
    rewrite unpack1_fmtH_word by exact Hw.
    cbn [length] in Hlen.
    rewrite py_set_in.
    2:{ unfold zlen. rewrite set_cells_length by lia. lia. }
    replace (Z.to_nat (off + zlen done)) with (Z.to_nat off + length done)%nat by (unfold zlen; lia).
    rewrite set_cells_snoc by lia.
    set (v := reg_of_word (sl_unsigned s) w).
    replace (zlen done + 1) with (zlen (done ++ [v])) by (rewrite zlen_app; reflexivity).
    replace (pre ++ words (w :: ws) ++ rest) with ((pre ++ word w) ++ words ws ++ rest)
      by (cbn [words flat_map]; now rewrite <- !app_assoc).
    rewrite IH.
    + cbn [map]. now rewrite <- app_assoc.
    + rewrite !zlen_app. change (zlen (word w)) with 2. change (zlen [v]) with 1. lia.
    + lia.
    + lia.
    + rewrite app_length. cbn [length]. lia.
Qed.

(** whatever the PDU, the loop writes a prefix of the range; errors are StructError *)
Lemma unpack_err f pf b e : parse_fmt f = Ok pf -> unpack f b = Err e -> e = StructError.
Proof.
  intros Hp. unfold unpack. rewrite Hp. cbn [bind]. destruct (_ =? _)%nat; congruence.
Qed.
Lemma fmtH_parse s : exists sg, parse_fmt (fmtH s) = Ok {| pf_little := false; pf_items := [FInt 2 sg] |}.
Proof. unfold fmtH. destruct (sl_unsigned s); eexists; reflexivity. Qed.
Lemma fmtB_parse s : exists sg, parse_fmt (fmtB s) = Ok {| pf_little := false; pf_items := [FInt 1 sg] |}.
Proof. unfold fmtB. destruct (sl_unsigned s); eexists; reflexivity. Qed.
Lemma unpack1_single f n sg b :
  parse_fmt f = Ok {| pf_little := false; pf_items := [FInt n sg] |} ->
  unpack1 f b = Err StructError \/
  (unpack1 f b = Ok (unpack_int n sg false (firstn n b)) /\ length b = n).
Proof.
  intros Hp. unfold unpack1, unpack. rewrite Hp. cbn [bind pf_items pf_little].
  destruct (length b =? items_size [FInt n sg])%nat eqn:E; cbn [bind unpack_items]; [right|left; auto].
  split; [reflexivity|]. apply Nat.eqb_eq in E. cbn in E. lia.
Qed.

Lemma unpack1_fmtH_fits s b v :
  bytes b -> unpack1 (fmtH s) b = Ok v -> fits (sl_unsigned s) v.
Proof.
  intros Hb H. unfold unpack1, fmtH in H.
  assert (Hl : length b = 2%nat).
  { destruct (Nat.eq_dec (length b) 2) as [E|E]; [exact E|].
    destruct (sl_unsigned s);
      (erewrite unpack_len_err in H; [discriminate|reflexivity|exact E]). }
  destruct b as [|x [|y [|z b]]]; try discriminate.
  inversion Hb as [|? ? Hx Hb']; subst. inversion Hb' as [|? ? Hy _]; subst.
  unfold is_byte in *.
  destruct (sl_unsigned s).
  - rewrite unpack_H in H. cbn [bind] in H. injection H as <-. unfold fits. lia.
  - rewrite unpack_h in H. cbn [bind] in H. injection H as <-. apply (reg_of_word_fits false). lia.
Qed.

Lemma write_regs_loop_any s pdu base off n (d0 done : list Z) :
  0 <= off -> (Z.to_nat off + length done + n <= length d0)%nat ->
  exists vals r, (length vals <= n)%nat /\
    write_regs_loop (fmtH s) pdu base off n (zlen done) (set_cells d0 (Z.to_nat off) done)
    = (set_cells d0 (Z.to_nat off) (done ++ vals), r) /\
    (r = Ok tt /\ length vals = n \/ r = Err StructError) /\
    (bytes pdu -> Forall (fits (sl_unsigned s)) vals).
Proof.
  intros Ho. revert done. induction n as [|n IH]; intros done Hlen; cbn [write_regs_loop].
  - exists [], (Ok tt). rewrite app_nil_r. repeat split; auto.
  - destruct (fmtH_parse s) as [sg Hp].
    set (sl := py_slice pdu (base + 2 * zlen done) (base + 2 + 2 * zlen done)).
    assert (Hfit : bytes pdu -> forall v, unpack1 (fmtH s) sl = Ok v -> fits (sl_unsigned s) v).
    { intros Hby v. apply unpack1_fmtH_fits. now apply bytes_py_slice. }
    destruct (unpack1_single _ _ _ sl Hp) as [E|[E _]]; rewrite E.
    + exists [], (Err StructError). rewrite app_nil_r. cbn [length]. repeat split; auto. lia.
    + set (v := unpack_int 2 sg false _).
      rewrite py_set_in.
      2:{ unfold zlen. rewrite set_cells_length by lia. lia. }
      replace (Z.to_nat (off + zlen done)) with (Z.to_nat off + length done)%nat by (unfold zlen; lia).
      rewrite set_cells_snoc by lia.
      replace (zlen done + 1) with (zlen (done ++ [v])) by (rewrite zlen_app; reflexivity).
      destruct (IH (done ++ [v])) as (vals & r & Hl & Hr & Hc & Hf).
      { rewrite app_length. cbn [length]. lia. }
      exists (v :: vals), r. rewrite Hr. rewrite <- app_assoc. cbn [length app].
      split; [lia|]. split; [reflexivity|]. split.
      * destruct Hc as [[-> <-]| ->]; auto.
      * intros Hby. constructor; [apply Hfit; assumption|auto].
Qed.

(** ** writing coils *)
(** bit k of a byte string, least significant bit first *)
Lemma bits_of_length data n : length (bits_of data n) = n.
Proof. unfold bits_of. now rewrite map_length, seq_length. Qed.
Lemma bits_of_S data n : bits_of data (S n) = bits_of data n ++ [bit_of data (Z.of_nat n)].
Proof. unfold bits_of. rewrite seq_S, map_app. reflexivity. Qed.

Lemma land_bit_test v j : 0 <= j -> (Z.land v (Z.shiftl 1 j) =? 0) = negb (Z.testbit v j).
Proof.
  intros Hj. assert (E : Z.land v (Z.shiftl 1 j) = if Z.testbit v j then 2 ^ j else 0).
  { apply Z.bits_inj'. intros k Hk. rewrite Z.land_spec.
    rewrite Z.shiftl_1_l. destruct (Z.eq_dec j k) as [<-|Hn].
    - rewrite Z.pow2_bits_true by lia. rewrite andb_true_r.
      destruct (Z.testbit v j) eqn:Ev; [now rewrite Z.pow2_bits_true by lia|now rewrite Z.testbit_0_l].
    - rewrite Z.pow2_bits_false by lia. rewrite andb_false_r.
      destruct (Z.testbit v j); [now rewrite Z.pow2_bits_false by lia|now rewrite Z.testbit_0_l]. }
  rewrite E. destruct (Z.testbit v j); [|reflexivity].
  pose proof (Z.pow_pos_nonneg 2 j). destruct (2 ^ j =? 0) eqn:E0; lia.
Qed.

Lemma unpack1_fmtB s b :
  is_byte b -> exists v, unpack1 (fmtB s) [b] = Ok v /\ (forall j, 0 <= j < 8 -> Z.testbit v j = Z.testbit b j).
Proof.
  unfold is_byte. intros Hb. unfold unpack1, fmtB. destruct (sl_unsigned s).
  - rewrite unpack_B. cbn [bind]. exists b. auto.
  - rewrite unpack_sb. cbn [bind]. destruct (128 <=? b) eqn:E.
    + exists (b - 256). split; [reflexivity|]. intros j Hj.
      rewrite <- (Z.mod_pow2_bits_low (b - 256) 8) by lia.
      replace ((b - 256) mod 2 ^ 8) with b; [reflexivity|]. change (2 ^ 8) with 256. lia.
    + exists b. auto.
Qed.

Lemma write_bits_inner_ok (data d0 : list Z) off q byte_value m :
  0 <= off -> forall fuel j count,
  count = 8 * m + j -> 0 <= j -> j + Z.of_nat fuel = 8 -> 0 <= m -> 0 <= q ->
  (forall i, 0 <= i < 8 -> Z.testbit byte_value i = Z.testbit (nth (Z.to_nat m) data 0) i) ->
  off + q <= zlen d0 -> count <= q ->
  write_bits_inner fuel byte_value (off + m * 8) j count q
    (set_cells d0 (Z.to_nat off) (bits_of data (Z.to_nat count)))
  = (set_cells d0 (Z.to_nat off) (bits_of data (Z.to_nat (Z.min q (8 * m + 8)))), Ok (Z.min q (8 * m + 8))).
Proof.
  intros Ho. induction fuel as [|fuel IH]; intros j count Hc Hj Hf Hm Hq Hbits Hlen Hcq;
    cbn [write_bits_inner].
  - replace (Z.min q (8 * m + 8)) with count by lia. reflexivity.
  - destruct (q <=? count) eqn:E.
    + replace (Z.min q (8 * m + 8)) with count by lia. reflexivity.
    + unfold zlen in Hlen.
      rewrite py_set_in.
      2:{ unfold zlen. rewrite set_cells_length by (rewrite bits_of_length; lia). lia. }
      rewrite land_bit_test by lia. rewrite Hbits by lia.
      replace (Z.to_nat (off + m * 8 + j)) with (Z.to_nat off + length (bits_of data (Z.to_nat count)))%nat
        by (rewrite bits_of_length; lia).
      rewrite set_cells_snoc by (rewrite bits_of_length; lia).
      replace (if negb (Z.testbit (nth (Z.to_nat m) data 0) j) then 0 else 1)
        with (bit_of data (Z.of_nat (Z.to_nat count))).
      2:{ unfold bit_of. replace (Z.of_nat (Z.to_nat count) / 8) with m by lia.
          replace (Z.of_nat (Z.to_nat count) mod 8) with j by lia.
          now destruct (Z.testbit _ j). }
      rewrite <- bits_of_S. replace (S (Z.to_nat count)) with (Z.to_nat (count + 1)) by lia.
      apply IH; auto; lia.
Qed.

Lemma write_bits_outer_ok s (data pre rest d0 : list Z) off q :
  bytes data -> 0 <= off -> 0 <= q -> off + q <= zlen d0 -> zlen pre = 6 ->
  forall n m, (n + Z.to_nat m = length data)%nat -> 0 <= m -> q <= 8 * zlen data ->
  write_bits_outer n (fmtB s) (pre ++ data ++ rest) off m (Z.min q (8 * m)) q
    (set_cells d0 (Z.to_nat off) (bits_of data (Z.to_nat (Z.min q (8 * m)))))
  = (set_cells d0 (Z.to_nat off) (bits_of data (Z.to_nat q)), Ok q).
Proof.
  intros Hby Ho Hq Hlen Hpre. induction n as [|n IH]; intros m Hn Hm Hd; cbn [write_bits_outer].
  - unfold zlen in Hd. replace (Z.min q (8 * m)) with q by lia. reflexivity.
  - destruct (q <=? Z.min q (8 * m)) eqn:E.
    + replace (Z.min q (8 * m)) with q by lia. reflexivity.
    + assert (Hmq : Z.min q (8 * m) = 8 * m) by lia. rewrite Hmq.
      assert (Hml : (Z.to_nat m < length data)%nat) by lia.
      replace (py_slice (pre ++ data ++ rest) (6 + m) (7 + m)) with [nth (Z.to_nat m) data 0].
      2:{ rewrite py_slice_nonneg by lia.
          replace (Z.to_nat (7 + m - (6 + m))) with 1%nat by lia.
          unfold zlen in Hpre.
          rewrite skipn_app. rewrite (skipn_all2 pre) by lia. cbn [app].
          replace (Z.to_nat (6 + m) - length pre)%nat with (Z.to_nat m) by lia.
          rewrite skipn_app. clear - Hml. revert Hml. generalize (Z.to_nat m) as k.
          induction data as [|x data IH]; intros k Hk; [cbn in Hk; lia|].
          destruct k as [|k]; [reflexivity|]. cbn [skipn nth length]. cbn in Hk.
          rewrite IH by lia. reflexivity. }
      assert (Hb : is_byte (nth (Z.to_nat m) data 0)).
      { unfold bytes in Hby. rewrite Forall_forall in Hby. apply Hby. now apply nth_In. }
      destruct (unpack1_fmtB s _ Hb) as (v & -> & Hv).
      rewrite (write_bits_inner_ok data d0 off q v m Ho 8 0 (8 * m)) by (auto; lia).
      replace (8 * m + 8) with (8 * (m + 1)) by lia.
      apply IH; lia.
Qed.

Lemma write_bits_inner_any (d0 : list Z) off q byte_value : 
  0 <= off -> 0 <= q -> off + q <= zlen d0 -> forall fuel pos j count done,
  zlen done = count -> pos + j = off + count ->
  exists vals c, write_bits_inner fuel byte_value pos j count q (set_cells d0 (Z.to_nat off) done)
    = (set_cells d0 (Z.to_nat off) (done ++ vals), Ok c) /\
    zlen (done ++ vals) = c /\ (count <= q -> c <= q) /\ (c = q \/ q <= count \/ c = count + Z.of_nat fuel) /\
    Forall (fun v => v = 0 \/ v = 1) vals.
Proof.
  intros Ho Hq Hlen. induction fuel as [|fuel IH]; intros pos j count done Hc Hp; cbn [write_bits_inner].
  - exists [], count. rewrite app_nil_r. repeat split; auto. right; right. lia.
  - destruct (q <=? count) eqn:E.
    + exists [], count. rewrite app_nil_r. repeat split; auto. right; left. lia.
    + unfold zlen in *.
      rewrite py_set_in.
      2:{ unfold zlen. rewrite set_cells_length by lia. lia. }
      replace (Z.to_nat (pos + j)) with (Z.to_nat off + length done)%nat by lia.
      rewrite set_cells_snoc by lia.
      set (v := if Z.land byte_value (Z.shiftl 1 j) =? 0 then 0 else 1).
      destruct (IH pos (j + 1) (count + 1) (done ++ [v])) as (vals & c & Hr & Hl & Hcq & Hd & Hb).
      { rewrite app_length. cbn [length]. lia. }
      { lia. }
      exists (v :: vals), c. rewrite Hr. rewrite <- app_assoc in *. cbn [app] in *.
      split; [reflexivity|]. split; [exact Hl|]. split; [lia|].
      rewrite app_length in Hl. cbn [length] in Hl. split; [lia|].
      constructor; [|exact Hb]. unfold v. destruct (_ =? 0); auto.
Qed.

Lemma write_bits_outer_any s pdu (d0 : list Z) off q :
  0 <= off -> 0 <= q -> off + q <= zlen d0 -> forall n m done,
  (zlen done = 8 * m \/ zlen done = q) -> zlen done <= q ->
  exists vals r, write_bits_outer n (fmtB s) pdu off m (zlen done) q (set_cells d0 (Z.to_nat off) done)
    = (set_cells d0 (Z.to_nat off) (done ++ vals), r) /\
    zlen (done ++ vals) <= q /\
    (r = Ok (zlen (done ++ vals)) /\
       (zlen (done ++ vals) = q \/ zlen (done ++ vals) = 8 * (m + Z.of_nat n)) \/ r = Err StructError) /\
    Forall (fun v => v = 0 \/ v = 1) vals.
Proof.
  intros Ho Hq Hlen. induction n as [|n IH]; intros m done Hm Hd; cbn [write_bits_outer].
  - exists [], (Ok (zlen done)). rewrite app_nil_r. repeat split; auto. left. split; [auto|]. lia.
  - destruct (q <=? zlen done) eqn:E.
    + exists [], (Ok (zlen done)). rewrite app_nil_r. repeat split; auto. left. split; auto. lia.
    + destruct (fmtB_parse s) as [sg Hp].
      destruct (unpack1_single _ _ _ (py_slice pdu (6 + m) (7 + m)) Hp) as [Eu|[Eu _]]; rewrite Eu.
      * exists [], (Err StructError). rewrite app_nil_r. auto.
      * destruct (write_bits_inner_any d0 off q (unpack_int 1 sg false (firstn 1 (py_slice pdu (6 + m) (7 + m))))
                    Ho Hq Hlen 8 (off + m * 8) 0 (zlen done) done eq_refl) as (vals & c & -> & Hc & Hcq & Hf & Hb1).
        { lia. }
        subst c. destruct (IH (m + 1) (done ++ vals)) as (vals' & r & -> & Hle & Hr & Hb2).
        { lia. } { lia. }
        exists (vals ++ vals'), r. rewrite <- !app_assoc in *. split; [reflexivity|]. split; [exact Hle|].
        split; [|apply Forall_app; auto].
        destruct Hr as [[-> Hr]| ->]; [|auto]. left. split; [reflexivity|]. lia.
Qed.
