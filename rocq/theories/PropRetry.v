(** C110: a request may be repeated. *)
From Verif Require Import Base PyStruct Defines SlaveModel BaseFacts StructFacts SlaveSpec SlaveProofs HandlerProofs RequestProofs GeneralProofs SlaveInv BlockSpec AtomicProofs QueryModel DatabankModel DbSpec DatabankProofs.
From Coq Require Import Lia.
Open Scope string_scope. Open Scope list_scope. Open Scope Z_scope.

Lemma py_set_again (d d1 : list Z) i v : 0 <= i -> py_set d i v = Ok d1 -> i < zlen d /\ d1 = list_upd d (Z.to_nat i) v.
Proof. intros H. unfold py_set. destruct (i <? 0) eqn:E; [lia|]. destruct (_ || _) eqn:Q; [discriminate|]. intros [= <-]. split; [lia|reflexivity]. Qed.
Lemma py_set_same (e : list Z) i v : 0 <= i < zlen e -> nth_error e (Z.to_nat i) = Some v -> py_set e i v = Ok e.
Proof. intros H N. rewrite py_set_in by exact H. now rewrite list_upd_self. Qed.
Lemma py_set_err (d e : list Z) i v x : zlen d = zlen e -> py_set d i v = Err x -> py_set e i v = Err x.
Proof. unfold py_set. intros ->. destruct (_ || _); [auto|discriminate]. Qed.

(** the loop writes from off + i on only, and repeating it on what it produced changes nothing *)
Lemma regs_below fmt pdu base off : forall n i d, 0 <= off + i ->
  zlen (fst (write_regs_loop fmt pdu base off n i d)) = zlen d /\
  forall k, Z.of_nat k < off + i -> nth_error (fst (write_regs_loop fmt pdu base off n i d)) k = nth_error d k.
Proof.
  induction n as [|n IH]; intros i d H; [split; reflexivity|]. cbn [write_regs_loop]. destruct (unpack1 _ _) as [v|]; [|split; reflexivity].
  destruct (py_set d (off + i) v) as [d1|] eqn:P; [|split; reflexivity]. destruct (py_set_again _ _ _ _ H P) as (L & ->).
  destruct (IH (i + 1) (list_upd d (Z.to_nat (off + i)) v)) as (I1 & I2); [lia|]. split; [rewrite I1; apply list_upd_zlen|].
  intros k K. rewrite I2 by lia. apply list_upd_other. lia.
Qed.
Lemma regs_again fmt pdu base off : forall n i d d' r, 0 <= off + i -> write_regs_loop fmt pdu base off n i d = (d', r) -> write_regs_loop fmt pdu base off n i d' = (d', r).
Proof.
  induction n as [|n IH]; intros i d d' r H E; [cbn in *; congruence|]. cbn [write_regs_loop] in *. destruct (unpack1 _ _) as [v|]; [|congruence].
  destruct (py_set d (off + i) v) as [d1|x] eqn:P.
  - destruct (py_set_again _ _ _ _ H P) as (L & ->). destruct (regs_below fmt pdu base off n (i + 1) (list_upd d (Z.to_nat (off + i)) v)) as (B1 & B2); [lia|].
    rewrite E in B1, B2. cbn [fst] in *. rewrite list_upd_zlen in B1. rewrite py_set_same; [eapply IH; [lia|exact E]|lia|].
    rewrite B2 by lia. apply list_upd_same. unfold zlen in L. lia.
  - injection E as <- <-. now rewrite P.
Qed.
Lemma inner_below bv pos q : forall m j count d, 0 <= pos + j ->
  zlen (fst (write_bits_inner m bv pos j count q d)) = zlen d /\
  forall k, Z.of_nat k < pos + j -> nth_error (fst (write_bits_inner m bv pos j count q d)) k = nth_error d k.
Proof.
  induction m as [|m IH]; intros j count d H; [split; reflexivity|]. cbn [write_bits_inner]. destruct (q <=? count); [split; reflexivity|].
  set (v := if Z.land bv (Z.shiftl 1 j) =? 0 then 0 else 1). clearbody v.
  destruct (py_set d (pos + j) v) as [d1|] eqn:P; [|split; reflexivity]. destruct (py_set_again _ _ _ _ H P) as (L & ->).
  destruct (IH (j + 1) (count + 1) (list_upd d (Z.to_nat (pos + j)) v)) as (I1 & I2); [lia|]. split; [rewrite I1; apply list_upd_zlen|].
  intros k K. rewrite I2 by lia. apply list_upd_other. lia.
Qed.
Lemma inner_again bv pos q : forall m j count d d1 r e, 0 <= pos + j -> write_bits_inner m bv pos j count q d = (d1, r) ->
  zlen e = zlen d -> (forall k, pos + j <= Z.of_nat k < pos + j + Z.of_nat m -> nth_error e k = nth_error d1 k) -> write_bits_inner m bv pos j count q e = (e, r).
Proof.
  induction m as [|m IH]; intros j count d d1 r e H E Le A; [cbn in *; congruence|]. cbn [write_bits_inner] in *. destruct (q <=? count); [congruence|].
  set (v := if Z.land bv (Z.shiftl 1 j) =? 0 then 0 else 1) in *. clearbody v. destruct (py_set d (pos + j) v) as [d2|x] eqn:P.
  - destruct (py_set_again _ _ _ _ H P) as (L & ->). destruct (inner_below bv pos q m (j + 1) (count + 1) (list_upd d (Z.to_nat (pos + j)) v)) as (B1 & B2); [lia|].
    rewrite E in B1, B2. cbn [fst] in *. rewrite list_upd_zlen in B1. rewrite py_set_same.
    + eapply IH; [lia|exact E|rewrite list_upd_zlen; exact Le|]. intros k K. apply A. lia.
    + lia.
    + rewrite A by lia. rewrite B2 by lia. apply list_upd_same. unfold zlen in L. lia.
  - injection E as _ <-. now rewrite (py_set_err d e _ _ x).
Qed.
Lemma outer_below fmt pdu off q : forall n i count d, 0 <= off + i * 8 ->
  zlen (fst (write_bits_outer n fmt pdu off i count q d)) = zlen d /\
  forall k, Z.of_nat k < off + i * 8 -> nth_error (fst (write_bits_outer n fmt pdu off i count q d)) k = nth_error d k.
Proof.
  induction n as [|n IH]; intros i count d H; [split; reflexivity|]. cbn [write_bits_outer]. destruct (q <=? count); [split; reflexivity|].
  destruct (unpack1 _ _) as [bv|]; [|split; reflexivity]. destruct (inner_below bv (off + i * 8) q 8 0 count d) as (B1 & B2); [lia|].
  destruct (write_bits_inner 8 bv (off + i * 8) 0 count q d) as [d1 [c|e]]; cbn [fst] in *.
  - destruct (IH (i + 1) c d1) as (I1 & I2); [lia|]. split; [congruence|]. intros k K. rewrite I2 by lia. apply B2. lia.
  - split; [exact B1|]. intros k K. apply B2. lia.
Qed.
Lemma outer_again fmt pdu off q : forall n i count d d' r, 0 <= off + i * 8 -> write_bits_outer n fmt pdu off i count q d = (d', r) -> write_bits_outer n fmt pdu off i count q d' = (d', r).
Proof.
  induction n as [|n IH]; intros i count d d' r H E; [cbn in *; congruence|]. cbn [write_bits_outer] in *. destruct (q <=? count); [congruence|].
  destruct (unpack1 _ _) as [bv|]; [|congruence]. destruct (inner_below bv (off + i * 8) q 8 0 count d) as (B1 & B2); [lia|].
  destruct (write_bits_inner 8 bv (off + i * 8) 0 count q d) as [d1 [c|e]] eqn:I; cbn [fst] in *.
  - destruct (outer_below fmt pdu off q n (i + 1) c d1) as (O1 & O2); [lia|]. rewrite E in O1, O2. cbn [fst] in *.
    rewrite (inner_again bv (off + i * 8) q 8 0 count d d1 (Ok c) d'); [eapply IH; [lia|exact E]|lia|exact I|congruence|]. intros k K. apply O2. lia.
  - injection E as <- <-. rewrite (inner_again bv (off + i * 8) q 8 0 count d d1 (Err e) d1); [reflexivity|lia|exact I|exact B1|reflexivity].
Qed.

(** the slave after a write *)
Lemma put_again s t i b d a n : wf_slave s -> get_block_and_offset s t a n = Ok (i, b, a - b_start b) -> length d = length (b_data b) ->
  get_block_and_offset (put_block_data s t i b d) t a n = Ok (i, with_data b d, a - b_start b) /\
  put_block_data (put_block_data s t i b d) t i (with_data b d) d = put_block_data s t i b d /\
  sl_unsigned (put_block_data s t i b d) = sl_unsigned s.
Proof.
  intros Hw G L. destruct (gbo_inv s t a n _ G) as [(X & _)|[(X & _)|(l1 & b' & l2 & Ht & Hs & X)]]; [discriminate|discriminate|]. injection X as -> -> _.
  pose proof Hs as (Hb & (C1 & C2) & Hn). rewrite (put_block_data_blocks s t l1 b' l2) by assumption.
  assert (Ht' : has_table (mem_set s t (l1 ++ with_data b' d :: l2)) t) by (unfold has_table; rewrite mem_set_alias; exact Ht).
  assert (Hb' : blocks (mem_set s t (l1 ++ with_data b' d :: l2)) t = l1 ++ with_data b' d :: l2) by (apply blocks_mem_set; [exact Ht|reflexivity]).
  split; [|split].
  - change (a - b_start b') with (a - b_start (with_data b' d)). apply gbo_served with l2; [exact Ht'|]. split; [exact Hb'|]. split; [split; assumption|exact Hn].
  - rewrite (put_block_data_blocks _ t l1 (with_data b' d) l2) by assumption. unfold mem_set. unfold has_table in Ht. destruct (get4 (sl_alias s) t) as [r|] eqn:A; [|congruence].
    cbn [sl_alias sl_unsigned sl_names sl_lists]. rewrite A. f_equal. destruct (sl_lists s), r; reflexivity.
  - apply mem_set_unsigned.
Qed.

Lemma one_again s t i b off a v d : wf_slave s -> get_block_and_offset s t a 1 = Ok (i, b, off) -> py_set (b_data b) off v = Ok d ->
  let s' := put_block_data s t i b d in
  get_block_and_offset s' t a 1 = Ok (i, with_data b d, off) /\ py_get d off = Ok v /\ py_set d off v = Ok d /\ put_block_data s' t i (with_data b d) d = s' /\ sl_unsigned s' = sl_unsigned s.
Proof.
  intros Hw G P s'. assert (E : off = a - b_start b /\ 0 <= off < zlen (b_data b)).
  { destruct (gbo_inv _ t a 1 _ G) as [(X & _)|[(X & _)|(l1 & b' & l2 & Ht & (Hb & (C1 & C2) & _) & X)]]; [discriminate X|discriminate X|]. injection X as -> -> ->. split; [reflexivity|].
    assert (W : zlen (b_data b') = b_size b'). { eapply (proj1 (Forall_forall _ _) (Hw t)). rewrite Hb. apply in_or_app. right. now left. } lia. }
  destruct E as (E & R). rewrite py_set_in in P by exact R. injection P as <-.
  assert (L : length (list_upd (b_data b) (Z.to_nat off) v) = length (b_data b)) by apply list_upd_length.
  rewrite E in G. destruct (put_again s t i b _ a 1 Hw G L) as (A & B & C). rewrite <- E in A. split; [exact A|].
  assert (N : nth_error (list_upd (b_data b) (Z.to_nat off) v) (Z.to_nat off) = Some v) by (apply list_upd_same; unfold zlen in R; lia).
  split; [|split; [|split; [exact B|exact C]]].
  - apply py_get_nth; [lia|exact N].
  - apply py_set_same; [unfold zlen in *; rewrite L; exact R|exact N].
Qed.

Lemma many_again s t i b off a n d : wf_slave s -> get_block_and_offset s t a n = Ok (i, b, off) -> zlen d = zlen (b_data b) ->
  let s' := put_block_data s t i b d in
  0 <= off /\ get_block_and_offset s' t a n = Ok (i, with_data b d, off) /\ put_block_data s' t i (with_data b d) d = s' /\ sl_unsigned s' = sl_unsigned s.
Proof.
  intros Hw G L s'. assert (E : off = a - b_start b /\ 0 <= off).
  { destruct (gbo_inv _ t a n _ G) as [(X & _)|[(X & _)|(l1 & b' & l2 & Ht & (Hb & (C1 & C2) & _) & X)]]; [discriminate X|discriminate X|]. injection X as -> -> ->. split; [reflexivity|lia]. }
  destruct E as (E & R). rewrite E in G. destruct (put_again s t i b d a n Hw G) as (A & B & C); [unfold zlen in L; lia|]. rewrite <- E in A. now repeat split.
Qed.
Lemma gbo_nonneg s t a n i b off : get_block_and_offset s t a n = Ok (i, b, off) -> 0 <= off.
Proof.
  intros G. destruct (gbo_inv _ t a n _ G) as [(X & _)|[(X & _)|(l1 & b' & l2 & Ht & (Hb & (C1 & C2) & _) & X)]]; [discriminate X|discriminate X|]. injection X as -> -> ->. lia.
Qed.

Ltac hop := match goal with
  | H : (?s, _) = (_, _) |- _ => injection H as <- <-
  end.
Lemma wsc_again s pdu s' r : wf_slave s -> write_single_coil s pdu = (s', r) -> write_single_coil s' pdu = (s', r).
Proof.
  intros Hw H. unfold write_single_coil in *. destruct (unpack2 _ _) as [[a v]|]; [|hop; reflexivity].
  destruct (get_block_and_offset s COILS a 1) as [[[i b] off]|] eqn:G; [|hop; now rewrite G].
  destruct (v =? 0); [|destruct (v =? 65280); [|hop; now rewrite G]];
  (destruct (py_set (b_data b) off _) as [d|] eqn:P; [|hop; now rewrite G, P]); hop;
  destruct (one_again _ _ _ _ _ _ _ _ Hw G P) as (A & _ & C & D & _); rewrite A; cbn [with_data b_data] in *; rewrite C; now rewrite D.
Qed.
Lemma wsr_again s pdu s' r : wf_slave s -> write_single_register s pdu = (s', r) -> write_single_register s' pdu = (s', r).
Proof.
  intros Hw H. unfold write_single_register in *. destruct (unpack2 _ (py_slice pdu 1 5)) as [[a v]|] eqn:U; [|hop; now rewrite U].
  destruct (get_block_and_offset s HOLDING_REGISTERS a 1) as [[[i b] off]|] eqn:G; [|hop; now rewrite U, G].
  (destruct (py_set (b_data b) off _) as [d|] eqn:P; [|hop; now rewrite U, G, P]); hop;
  destruct (one_again _ _ _ _ _ _ _ _ Hw G P) as (A & _ & C & D & E). rewrite E, U, A; cbn [with_data b_data] in *; rewrite C; now rewrite D.
Qed.
Lemma mask_twice x m o : let f y := Z.lor (Z.land y m) (Z.land o (Z.lnot m)) in f (f x) = f x.
Proof.
  intros f. unfold f. apply Z.bits_inj'. intros k K. rewrite !Z.lor_spec, !Z.land_spec, !Z.lor_spec, !Z.land_spec, !Z.lnot_spec by exact K.
  destruct (Z.testbit x k), (Z.testbit m k), (Z.testbit o k); reflexivity.
Qed.
Lemma mwr_again s pdu s' r : wf_slave s -> mask_write_register s pdu = (s', r) -> mask_write_register s' pdu = (s', r).
Proof.
  intros Hw H. unfold mask_write_register in *. destruct (unpack3 _ (py_slice pdu 1 7)) as [[[a m] o]|]; [|hop; reflexivity].
  destruct (get_block_and_offset s HOLDING_REGISTERS a 1) as [[[i b] off]|] eqn:G; [|hop; now rewrite G].
  destruct (py_get (b_data b) off) as [x|] eqn:Q; [|hop; now rewrite G, Q].
  (destruct (py_set (b_data b) off _) as [d|] eqn:P; [|hop; now rewrite G, Q, P]); hop;
  destruct (one_again _ _ _ _ _ _ _ _ Hw G P) as (A & B & C & D & E). rewrite A; cbn [with_data b_data] in *. rewrite B, (mask_twice x m o), C. now rewrite D.
Qed.
Lemma wmr_again s pdu s' r : wf_slave s -> write_multiple_registers s pdu = (s', r) -> write_multiple_registers s' pdu = (s', r).
Proof.
  intros Hw H. unfold write_multiple_registers in *. destruct (unpack3 _ (py_slice pdu 1 6)) as [[[a q] bc]|]; [|hop; reflexivity].
  destruct (_ || _ || _); [hop; reflexivity|].
  destruct (get_block_and_offset s HOLDING_REGISTERS a q) as [[[i b] off]|] eqn:G; [|hop; now rewrite G]. pose proof (gbo_nonneg _ _ _ _ _ _ _ G) as O.
  destruct (write_regs_loop _ _ _ _ _ _ _) as [d w] eqn:W. assert (L : zlen d = zlen (b_data b)).
  { destruct (regs_below (fmtH s) pdu 6 off (Z.to_nat q) 0 (b_data b)) as (L & _); [lia|]. now rewrite W in L. }
  destruct (many_again _ _ _ _ _ _ _ _ Hw G L) as (_ & A & D & E). apply regs_again in W; [|lia]. unfold fmtH in *.
  assert (S' : s' = put_block_data s HOLDING_REGISTERS i b d) by (destruct w; congruence). rewrite S' in *. rewrite A, E. cbn [with_data b_data]. rewrite W, D. exact H.
Qed.
Lemma wmc_again s pdu s' r : wf_slave s -> write_multiple_coils s pdu = (s', r) -> write_multiple_coils s' pdu = (s', r).
Proof.
  intros Hw H. unfold write_multiple_coils in *. destruct (unpack3 _ (py_slice pdu 1 6)) as [[[a q] bc]|]; [|hop; reflexivity].
  destruct (_ || _ || _); [hop; reflexivity|].
  destruct (get_block_and_offset s COILS a q) as [[[i b] off]|] eqn:G; [|hop; now rewrite G]. pose proof (gbo_nonneg _ _ _ _ _ _ _ G) as O.
  destruct (write_bits_outer _ _ _ _ _ _ _ _) as [d w] eqn:W. assert (L : zlen d = zlen (b_data b)).
  { destruct (outer_below (fmtB s) pdu off q (Z.to_nat bc) 0 0 (b_data b)) as (L & _); [lia|]. now rewrite W in L. }
  destruct (many_again _ _ _ _ _ _ _ _ Hw G L) as (_ & A & D & E). apply outer_again in W; [|lia]. unfold fmtB in *.
  assert (S' : s' = put_block_data s COILS i b d) by (destruct w; congruence). rewrite S' in *. rewrite A, E. cbn [with_data b_data]. rewrite W, D. exact H.
Qed.

Lemma regs_cells s pdu base off : bytes pdu -> 0 <= base -> 0 <= off -> forall n i d k v, 0 <= i -> nth_error (fst (write_regs_loop (fmtH s) pdu base off n i d)) k = Some v ->
  nth_error d k = Some v \/ fits (sl_unsigned s) v.
Proof.
  intros B Bs O. induction n as [|n IH]; intros i d k v I H; [now left|]. cbn [write_regs_loop] in H. destruct (unpack1 _ _) as [w|] eqn:U; [|now left].
  destruct (py_set d (off + i) w) as [d1|] eqn:P; [|now left]. apply py_set_again in P as (L & ->); [|lia]. apply IH in H; [|lia]. destruct H as [H|H]; [|now right].
  destruct (Nat.eq_dec k (Z.to_nat (off + i))) as [->|N].
  - rewrite list_upd_same in H by (unfold zlen in L; lia). injection H as ->. right. eapply unpack1_fmtH_fits; [|exact U]. now apply bytes_py_slice.
  - left. now rewrite list_upd_other in H by congruence.
Qed.
Lemma find_put b d l2 a n j x o : forall l1 i, find_block (l1 ++ b :: l2) a n i = Some (j, x, o) ->
  exists d', find_block (l1 ++ with_data b d :: l2) a n i = Some (j, with_data x d', o) /\ (d' = b_data x \/ x = b /\ d' = d).
Proof.
  assert (W : forall y, with_data y (b_data y) = y) by (now intros []).
  induction l1 as [|c l1 IH]; intros i H; cbn [List.app find_block] in *.
  - cbn [with_data b_start b_size]. destruct (_ && _).
    + injection H as <- <- <-. exists d. auto.
    + exists (b_data x). rewrite W. auto.
  - destruct (_ && _); [|now apply IH]. injection H as <- <- <-. exists (b_data c). rewrite W. auto.
Qed.
Lemma gbo_put s t i b off a n d ra rn j x o : get_block_and_offset s t a n = Ok (i, b, off) -> get_block_and_offset s t ra rn = Ok (j, x, o) ->
  exists d', get_block_and_offset (put_block_data s t i b d) t ra rn = Ok (j, with_data x d', o) /\ (d' = b_data x \/ x = b /\ d' = d).
Proof.
  intros G R. destruct (gbo_inv _ t a n _ G) as [(X & _)|[(X & _)|(l1 & b' & l2 & Ht & (Hb & _) & X)]]; [discriminate X|discriminate X|]. injection X as -> -> _.
  rewrite (put_block_data_blocks s t l1 b' l2) by assumption. unfold get_block_and_offset in *. rewrite mem_get_ok in R by exact Ht. cbn [bind] in R. rewrite Hb in R.
  destruct (find_block _ _ _ _) as [[[j1 x1] o1]|] eqn:F; [|discriminate R]. injection R as -> -> ->. apply find_put with (d := d) in F as (d' & F & Q). exists d'. split; [|exact Q].
  rewrite mem_get_ok by (unfold has_table; rewrite mem_set_alias; exact Ht). cbn [bind]. rewrite blocks_mem_set by (try exact Ht; reflexivity). now rewrite F.
Qed.
Lemma rw_again s pdu s' r : wf_slave s -> bytes pdu -> read_write_multiple_registers s pdu = (s', r) ->
  match r with Err _ => read_write_multiple_registers s' pdu = (s', r) | Ok resp => exists resp', read_write_multiple_registers s' pdu = (s', Ok resp') /\ zlen resp' = zlen resp end.
Proof.
  intros Hw B H. unfold read_write_multiple_registers in *. destruct (unpack5 _ (py_slice pdu 1 10)) as [[[[[ra rq] wa] wq] bc]|]; [|hop; reflexivity].
  destruct ((rq <=? 0) || _) eqn:Q1; [hop; reflexivity|].
  destruct (get_block_and_offset s HOLDING_REGISTERS ra rq) as [[[j x] o]|] eqn:GR; [|hop; now rewrite GR].
  assert (Pk : pack ">B" [2 * rq] = Ok [2 * rq]) by (apply pack_B_ok; unfold is_byte; lia). rewrite Pk in *. cbn [bind] in *.
  destruct (pack_regs_loop _ _ _) as [resp|] eqn:PR; [|hop; rewrite GR, PR; reflexivity].
  destruct ((wq <=? 0) || _ || _) eqn:Q2; [hop; rewrite GR, PR; reflexivity|].
  destruct (get_block_and_offset s HOLDING_REGISTERS wa wq) as [[[i b] off]|] eqn:G; [|hop; now rewrite GR, PR, G]. pose proof (gbo_nonneg _ _ _ _ _ _ _ G) as O.
  destruct (write_regs_loop _ _ _ _ _ _ _) as [d w] eqn:W. assert (L : zlen d = zlen (b_data b)).
  { destruct (regs_below (fmtH s) pdu 10 off (Z.to_nat wq) 0 (b_data b)) as (L & _); [lia|]. now rewrite W in L. }
  assert (Ce : forall k v, nth_error d k = Some v -> nth_error (b_data b) k = Some v \/ fits (sl_unsigned s) v).
  { intros k v K. apply (regs_cells s pdu 10 off B ltac:(lia) O (Z.to_nat wq) 0 (b_data b)); [lia|]. now rewrite W. }
  destruct (many_again _ _ _ _ _ _ _ _ Hw G L) as (_ & A & D & E). pose proof W as W1. apply regs_again in W1; [|lia].
  destruct (gbo_put s HOLDING_REGISTERS i b off wa wq d ra rq j x o G GR) as (d' & R' & Dd).
  assert (S' : s' = put_block_data s HOLDING_REGISTERS i b d) by (destruct w; congruence). rewrite S' in *. rewrite R'. cbn [with_data b_data].
  assert (Fv : Forall (fits (sl_unsigned s)) (py_slice (b_data x) o (o + rq))). { destruct (fits_all_dec (sl_unsigned s) (py_slice (b_data x) o (o + rq))) as [F|F]; [exact F|]. now rewrite pack_regs_loop_err in PR. }
  pose proof (gbo_nonneg _ _ _ _ _ _ _ GR) as Oo.
  assert (Fv' : Forall (fits (sl_unsigned s)) (py_slice d' o (o + rq))).
  { destruct Dd as [-> | (-> & ->)]; [exact Fv|]. apply Forall_forall. intros v K. apply In_nth_error in K as (k & K). rewrite py_slice_nonneg in K by lia.
    assert (Kn : (k < Z.to_nat (o + rq - o))%nat). { apply Nat.lt_le_trans with (length (firstn (Z.to_nat (o + rq - o)) (skipn (Z.to_nat o) d))); [apply nth_error_Some; congruence|rewrite firstn_length; lia]. }
    rewrite nth_error_firstn, nth_error_skipn in K by exact Kn. destruct (Ce _ _ K) as [C|C]; [|exact C].
    eapply (proj1 (Forall_forall _ _) Fv). rewrite py_slice_nonneg by lia. apply nth_error_In with k. now rewrite nth_error_firstn, nth_error_skipn by exact Kn. }
  assert (Ls : length (py_slice d' o (o + rq)) = length (py_slice (b_data x) o (o + rq))).
  { destruct Dd as [-> | (-> & ->)]; [reflexivity|]. rewrite !py_slice_nonneg by lia. rewrite !firstn_length, !skipn_length. unfold zlen in L. lia. }
  rewrite pack_regs_loop_ok in PR by exact Fv. injection PR as <-. unfold fmtH in *. rewrite E. fold (fmtH s) in *.
  rewrite pack_regs_loop_ok by exact Fv'. cbn [bind]. rewrite A. cbn [with_data b_data]. rewrite W1, D. 
  destruct w as [u|e]; injection H as <-.
  - eexists. split; [reflexivity|]. unfold zlen. cbn [List.app length]. rewrite !words_length, Ls. reflexivity.
  - reflexivity.
Qed.

Lemma map_again fc f s pdu s' r : wf_slave s -> bytes pdu -> fn_code_map fc = Some f -> f s pdu = (s', r) ->
  f s' pdu = (s', r) \/ fc = 23 /\ exists a b, r = Ok a /\ f s' pdu = (s', Ok b) /\ zlen a = zlen b.
Proof.
  intros Hw B M H. unfold fn_code_map in M.
  repeat match type of M with (if fc =? ?k then _ else _) = _ => destruct (fc =? k) eqn:?; [injection M as <-|] end; [..|discriminate M].
  1-5: injection H as <- <-; now left.
  - left. now apply wsc_again with s.
  - left. now apply wsr_again with s.
  - left. now apply wmc_again with s.
  - left. now apply wmr_again with s.
  - left. now apply mwr_again with s.
  - apply rw_again in H; [|exact Hw|exact B]. destruct r as [a|]; [|now left]. destruct H as (b & H & L). right. split; [now apply Z.eqb_eq|]. exists a, b. auto.
Qed.
Lemma hr_again s pdu bc s' r : wf_slave s -> bytes pdu -> handle_request s pdu bc = (s', r) ->
  exists r', handle_request s' pdu bc = (s', r') /\ (r' = r \/ hd 0 pdu = 23 /\ bc = false /\ exists a b, r = Ok a /\ r' = Ok b /\ zlen a = zlen b).
Proof.
  intros Hw B H. unfold handle_request in *. destruct pdu as [|fc rest]; [exists r; split; [|now left]; injection H as <- <-; reflexivity|].
  rewrite unpack_fc in *. destruct (fn_code_map fc) as [f|] eqn:F; [|exists r; split; [|now left]; injection H as <- <-; reflexivity].
  destruct (bc && cant_be_broadcasted fc); [exists r; split; [|now left]; injection H as <- <-; reflexivity|].
  destruct (f s (fc :: rest)) as [s1 r1] eqn:E. assert (s' = s1) as -> by (destruct r1 as [[|]|]; [congruence|destruct bc; congruence|congruence]).
  destruct (map_again fc f s _ s1 r1 Hw B F E) as [M|(-> & a & b & -> & M & L)]; rewrite M.
  - exists r. split; [exact H|now left].
  - destruct a as [|a0 a], b as [|b0 b]; [exists r; auto|unfold zlen in L; discriminate L|unfold zlen in L; discriminate L|].
    destruct bc; [exists r; auto|]. change (pack ">B" [23]) with (@Ok (list Z) [23]) in *. cbn [bind] in *. injection H as <-. eexists. split; [reflexivity|]. right. split; [reflexivity|]. split; [reflexivity|]. eexists _, _. repeat split.
    unfold zlen in *. cbn [List.app length] in *. lia.
Qed.

(** A slave that gets a request a second time directly after the first changes nothing any more and answers as the first time;
    the response to read/write multiple registers has the same length, and the registers in it are those after the write. *)
Theorem C110_again : forall s pdu bc s' r, reachable s -> bytes pdu -> handle_request s pdu bc = (s', r) ->
  exists r', handle_request s' pdu bc = (s', r') /\
    (r' = r \/ hd 0 pdu = READ_WRITE_MULTIPLE_REGISTERS /\ bc = false /\ exists a b, r = Ok a /\ r' = Ok b /\ zlen a = zlen b).
Proof. intros s pdu bc s' r R B H. apply hr_again with (s := s); [now apply reachable_wf|exact B|exact H]. Qed.

Lemma bcast_again pdu : bytes pdu -> forall l l' r, Forall (fun x => wf_slave (snd x)) l -> broadcast_loop l pdu = (l', r) -> broadcast_loop l' pdu = (l', r).
Proof.
  intros B. induction l as [|(k, s) l IH]; intros l' r W H; [injection H as <- <-; reflexivity|]. cbn [broadcast_loop] in H. inversion_clear W as [|? ? W1 W2]. cbn [snd] in W1.
  destruct (SlaveModel.handle_request s pdu true) as [s1 r1] eqn:E. destruct (hr_again s pdu true s1 r1 W1 B E) as (r2 & E2 & [-> | (_ & X & _)]); [|discriminate X].
  destruct r1 as [y|e].
  - destruct (broadcast_loop l pdu) as [l1 q] eqn:Q. injection H as <- <-. cbn [broadcast_loop]. rewrite E2. now rewrite (IH l1 q W2 eq_refl).
  - injection H as <- <-. cbn [broadcast_loop]. now rewrite E2.
Qed.
Lemma zput_twice {V} k (v : V) l : assoc_put Z.eqb k v (assoc_put Z.eqb k v l) = assoc_put Z.eqb k v l.
Proof. induction l as [|(a, w) l IH]; cbn [assoc_put]; [now rewrite Z.eqb_refl|]. destruct (k =? a) eqn:E; cbn [assoc_put]; rewrite E; [reflexivity|now rewrite IH]. Qed.
(** The same for a frame that reaches the databank twice: unicast or broadcast, valid or not. *)
Theorem C110_frame : forall d p request d' r, db_reachable d -> bytes request -> db_handle_request d p request = (d', r) ->
  exists r', db_handle_request d' p request = (d', r') /\
    (r' = r \/ exists h u pdu, parse_request p request = Ok (h, u, pdu) /\ u <> 0 /\ hd 0 pdu = READ_WRITE_MULTIPLE_REGISTERS).
Proof.
  intros d p request d' r D B H. unfold db_handle_request in *. destruct (parse_request p request) as [[[h u] pdu]|e] eqn:P; [|injection H as <- <-; exists (db_catch e []); auto].
  assert (Bp : bytes pdu). { destruct (parse_inv p request h u pdu B P) as (i & _ & _ & Sb & _). apply Sb. }
  destruct (u =? 0) eqn:U.
  - destruct (broadcast_loop _ _) as [l q] eqn:L. apply bcast_again in L; [|exact Bp|]. 
    + assert (d' = with_slaves d l) as -> by (destruct q; congruence). cbn [with_slaves db_slaves]. rewrite L. exists r. split; [|now left]. destruct q; injection H as <-; reflexivity.
    + apply Forall_forall. intros (k, s) I. apply db_reachable_inv in D as (_ & _ & D3). rewrite Forall_forall in D3. apply D3 in I. now apply reachable_wf.
  - destruct (get_slave d u) as [s|e] eqn:G.
    2:{ pose proof (get_slave_err _ _ _ G) as ->. exists r. split; [|now left]. destruct (db_error_on_missing d) eqn:M; injection H as <- <-; rewrite G, M; reflexivity. }
    destruct (SlaveModel.handle_request s pdu false) as [s' q] eqn:E. assert (d' = put_slave d u s') as -> by (destruct (bind _ _); congruence).
    destruct (db_reachable_slave _ _ _ D G) as (Rs & _). destruct (C110_again s pdu false s' q Rs Bp E) as (q' & E' & V).
    rewrite get_slave_put_same, E'. assert (put_slave (put_slave d u s') u s' = put_slave d u s') as -> by (unfold put_slave, with_slaves; cbn [db_slaves db_error_on_missing]; now rewrite zput_twice).
    destruct V as [-> | (V & _)]; [|destruct (bind q' _); (eexists; split; [reflexivity|right; exists h, u, pdu; repeat split; [lia|exact V]])].
    exists r. split; [|now left]. destruct (bind _ _); congruence.
Qed.

(** The response to a repeated read/write multiple registers is not always the first one: it contains the registers as the first one left them. *)
Theorem C110_refuted : exists s pdu s' a b, reachable s /\ bytes pdu /\ handle_request s pdu false = (s', Ok a) /\ handle_request s' pdu false = (s', Ok b) /\ a <> b.
Proof.
  exists (slave_run (new_slave true None) [OpAddBlock "r" 3 0 10]), [23; 0; 0; 0; 1; 0; 0; 0; 1; 2; 0; 7]. eexists _, _, _.
  split; [exists (new_slave true None), [OpAddBlock "r" 3 0 10]; split; [constructor|reflexivity]|].
  split; [repeat constructor; lia|]. split; [vm_compute; reflexivity|]. split; [vm_compute; reflexivity|]. discriminate.
Qed.
(** A request that comes again after another write was made does undo that write (a late duplicate is not harmless). *)
Theorem C110_late_refuted : exists s p1 p2 s1 s2 s3, reachable s /\ fst (handle_request s p1 false) = s1 /\ fst (handle_request s1 p2 false) = s2 /\
  fst (handle_request s2 p1 false) = s3 /\ get_values s2 "r" 0 1 = Ok [8] /\ get_values s3 "r" 0 1 = Ok [7].
Proof.
  exists (slave_run (new_slave true None) [OpAddBlock "r" 3 0 10]), [6; 0; 0; 0; 7], [6; 0; 0; 0; 8]. eexists _, _, _.
  split; [exists (new_slave true None), [OpAddBlock "r" 3 0 10]; split; [constructor|reflexivity]|].
  repeat split; vm_compute; reflexivity.
Qed.
Example C110_ex : let s := slave_run (new_slave true None) [OpAddBlock "r" 3 0 10; OpSetValues "r" 0 (SvSeq [5; 6])] in
  let s1 := fst (handle_request s [22; 0; 0; 0; 15; 0; 240] false) in let s2 := fst (handle_request s1 [16; 0; 1; 0; 2; 4; 1; 1; 2; 2] false) in
  get_values s1 "r" 0 2 = Ok [245; 6] /\ fst (handle_request s1 [22; 0; 0; 0; 15; 0; 240] false) = s1 /\
  get_values s2 "r" 0 3 = Ok [245; 257; 514] /\ handle_request s2 [16; 0; 1; 0; 2; 4; 1; 1; 2; 2] false = (s2, Ok [16; 0; 1; 0; 2]).
Proof. vm_compute. auto. Qed.

Print Assumptions C110_again.
Print Assumptions C110_frame.
Print Assumptions C110_refuted.
Print Assumptions C110_late_refuted.
