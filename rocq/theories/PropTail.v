(** C109: bytes after the end of a request. *)
From Verif Require Import Base PyStruct Defines SlaveModel BaseFacts StructFacts SlaveSpec SlaveProofs HandlerProofs RequestProofs GeneralProofs BlockSpec.
From Coq Require Import Lia.
Open Scope string_scope. Open Scope list_scope. Open Scope Z_scope.

(** Spec: the response repeats the request (write single coil, write single register, mask write register). *)
Definition repeats (pdu resp : list Z) : bool :=
  match pdu, resp with
  | fc :: _, rc :: _ => (rc =? fc) && ((fc =? 5) || (fc =? 6) || (fc =? 22))
  | _, _ => false
  end.

Lemma slice_app (pdu junk : list Z) a b : 0 <= a <= b -> length (py_slice pdu a b) = Z.to_nat (b - a) -> py_slice (pdu ++ junk) a b = py_slice pdu a b.
Proof.
  intros H L. rewrite py_slice_nonneg in * by lia. rewrite py_slice_nonneg by lia. destruct (Z.eq_dec a b) as [->|N].
  { replace (Z.to_nat (b - b)) with 0%nat by lia. reflexivity. }
  rewrite firstn_length, skipn_length in L. rewrite skipn_app. rewrite firstn_app. rewrite skipn_length.
  replace (Z.to_nat (b - a) - (length pdu - Z.to_nat a))%nat with 0%nat by lia. cbn [firstn]. now rewrite app_nil_r.
Qed.
Definition sized (f : string) (n : nat) : Prop := exists pf, parse_fmt f = Ok pf /\ items_size (pf_items pf) = n.
Lemma unpack_more f pdu junk a b : 0 <= a <= b -> sized f (Z.to_nat (b - a)) -> unpack f (py_slice pdu a b) <> Err StructError ->
  unpack f (py_slice (pdu ++ junk) a b) = unpack f (py_slice pdu a b).
Proof.
  intros H (pf & P & Sz) N. unfold unpack in *. rewrite P in *. cbn [bind] in *. rewrite Sz in *.
  destruct (length (py_slice pdu a b) =? Z.to_nat (b - a))%nat eqn:Q; [|now destruct N].
  apply Nat.eqb_eq in Q. rewrite (slice_app _ _ _ _ H Q). now rewrite Q, Nat.eqb_refl.
Qed.
Ltac more := let H := fresh in intros H; unfold unpack1, unpack2, unpack3, unpack5 in *; rewrite unpack_more; [reflexivity|lia| |intros X; apply H; now rewrite X].
Lemma more1 f pdu junk a b : 0 <= a <= b -> sized f (Z.to_nat (b - a)) -> unpack1 f (py_slice pdu a b) <> Err StructError -> unpack1 f (py_slice (pdu ++ junk) a b) = unpack1 f (py_slice pdu a b).
Proof. intros A S. more. exact S. Qed.
Lemma more2 f pdu junk a b : 0 <= a <= b -> sized f (Z.to_nat (b - a)) -> unpack2 f (py_slice pdu a b) <> Err StructError -> unpack2 f (py_slice (pdu ++ junk) a b) = unpack2 f (py_slice pdu a b).
Proof. intros A S. more. exact S. Qed.
Lemma more3 f pdu junk a b : 0 <= a <= b -> sized f (Z.to_nat (b - a)) -> unpack3 f (py_slice pdu a b) <> Err StructError -> unpack3 f (py_slice (pdu ++ junk) a b) = unpack3 f (py_slice pdu a b).
Proof. intros A S. more. exact S. Qed.
Lemma more5 f pdu junk a b : 0 <= a <= b -> sized f (Z.to_nat (b - a)) -> unpack5 f (py_slice pdu a b) <> Err StructError -> unpack5 f (py_slice (pdu ++ junk) a b) = unpack5 f (py_slice pdu a b).
Proof. intros A S. more. exact S. Qed.
Lemma sized_H s : sized (fmtH s) 2. Proof. unfold fmtH. destruct (sl_unsigned s); eexists; split; reflexivity. Qed.
Lemma sized_B s : sized (fmtB s) 1. Proof. unfold fmtB. destruct (sl_unsigned s); eexists; split; reflexivity. Qed.

Lemma regs_more s pdu junk base off : 0 <= base -> forall n i d, 0 <= i -> snd (write_regs_loop (fmtH s) pdu base off n i d) <> Err StructError ->
  write_regs_loop (fmtH s) (pdu ++ junk) base off n i d = write_regs_loop (fmtH s) pdu base off n i d.
Proof.
  intros B. induction n as [|n IH]; intros i d I N; [reflexivity|]. cbn [write_regs_loop] in *.
  rewrite more1; [|lia|replace (Z.to_nat _) with 2%nat by lia; apply sized_H|].
  - destruct (unpack1 _ _); [|reflexivity]. destruct (py_set _ _ _); [|reflexivity]. apply IH; [lia|exact N].
  - intros X. rewrite X in N. now apply N.
Qed.
Lemma bits_more s pdu junk off q : forall n i count d, 0 <= i -> snd (write_bits_outer n (fmtB s) pdu off i count q d) <> Err StructError ->
  write_bits_outer n (fmtB s) (pdu ++ junk) off i count q d = write_bits_outer n (fmtB s) pdu off i count q d.
Proof.
  induction n as [|n IH]; intros i count d I N; [reflexivity|]. cbn [write_bits_outer] in *. destruct (q <=? count); [reflexivity|].
  rewrite more1; [|lia|replace (Z.to_nat _) with 1%nat by lia; apply sized_B|].
  - destruct (unpack1 _ _); [|reflexivity]. destruct (write_bits_inner _ _ _ _ _ _ _) as [d' [c|e]]; [|reflexivity]. apply IH; [lia|exact N].
  - intros X. rewrite X in N. now apply N.
Qed.
Lemma from_more (pdu junk : list Z) : pdu <> [] -> py_from (pdu ++ junk) 1 = py_from pdu 1 ++ junk.
Proof. destruct pdu as [|x pdu]; [congruence|]. intros _. cbn [List.app]. now rewrite !py_from_cons. Qed.

Definition added (b : bool) (r : res (list Z)) (junk : list Z) : res (list Z) := match r with Ok x => Ok (x ++ if b then junk else []) | Err e => Err e end.
Lemma added_no r junk : added false r junk = r. Proof. destruct r; cbn; [now rewrite app_nil_r|reflexivity]. Qed.
Lemma map_more fc rest junk f s s' r : fn_code_map fc = Some f -> f s (fc :: rest) = (s', r) -> r <> Err StructError ->
  f s ((fc :: rest) ++ junk) = (s', added ((fc =? 5) || (fc =? 6) || (fc =? 22)) r junk).
Proof.
  unfold fn_code_map, READ_COILS, READ_DISCRETE_INPUTS, READ_INPUT_REGISTERS, READ_HOLDING_REGISTERS,
    READ_EXCEPTION_STATUS, WRITE_SINGLE_COIL, WRITE_SINGLE_REGISTER, WRITE_MULTIPLE_COILS, WRITE_MULTIPLE_REGISTERS, MASK_WRITE_REGISTER, READ_WRITE_MULTIPLE_REGISTERS.
  set (pdu := fc :: rest). assert (NE : pdu <> []) by discriminate. clearbody pdu.
  assert (HH : sized ">HH" 4) by (eexists; split; reflexivity). assert (Hh : sized ">Hh" 4) by (eexists; split; reflexivity).
  assert (HHB : sized ">HHB" 5) by (eexists; split; reflexivity). assert (HHH : sized ">HHH" 6) by (eexists; split; reflexivity).
  assert (HHHHB : sized ">HHHHB" 9) by (eexists; split; reflexivity).
  assert (RD : forall t, read_digital s t pdu <> Err StructError -> read_digital s t (pdu ++ junk) = read_digital s t pdu).
  { intros t N. unfold read_digital in *. rewrite more2; [reflexivity|lia|exact HH|]. intros X. rewrite X in N. now apply N. }
  assert (RR : forall t, read_registers s t pdu <> Err StructError -> read_registers s t (pdu ++ junk) = read_registers s t pdu).
  { intros t N. unfold read_registers in *. rewrite more2; [reflexivity|lia|exact HH|]. intros X. rewrite X in N. now apply N. }
  destruct (fc =? 1) eqn:E1. { intros [= <-] [= <- <-] N. replace (_ || _) with false by lia. now rewrite added_no, RD. }
  destruct (fc =? 2) eqn:E2. { intros [= <-] [= <- <-] N. replace (_ || _) with false by lia. now rewrite added_no, RD. }
  destruct (fc =? 4) eqn:E4. { intros [= <-] [= <- <-] N. replace (_ || _) with false by lia. now rewrite added_no, RR. }
  destruct (fc =? 3) eqn:E3. { intros [= <-] [= <- <-] N. replace (_ || _) with false by lia. now rewrite added_no, RR. }
  destruct (fc =? 7) eqn:E7. { intros [= <-] [= <- <-] N. replace (_ || _) with false by lia. now rewrite added_no. }
  destruct (fc =? 5) eqn:E5.
  { intros [= <-] H N. cbn [orb]. unfold write_single_coil in *. rewrite more2; [|lia|exact HH|intros X; rewrite X in H; injection H as _ <-; now apply N].
    destruct (unpack2 _ _) as [[a v]|e]; [|injection H as <- <-; reflexivity]. destruct (get_block_and_offset _ _ _ _) as [[[i b] off]|e]; [|injection H as <- <-; reflexivity].
    destruct (v =? 0); [destruct (py_set _ _ _); injection H as <- <-; [now rewrite from_more|reflexivity]|].
    destruct (v =? 65280); [|injection H as <- <-; reflexivity]. destruct (py_set _ _ _); injection H as <- <-; [now rewrite from_more|reflexivity]. }
  destruct (fc =? 6) eqn:E6.
  { intros [= <-] H N. cbn [orb]. unfold write_single_register in *. rewrite more2; [|lia|destruct (sl_unsigned s); assumption|intros X; rewrite X in H; injection H as _ <-; now apply N].
    destruct (unpack2 _ _) as [[a v]|e]; [|injection H as <- <-; reflexivity]. destruct (get_block_and_offset _ _ _ _) as [[[i b] off]|e]; [|injection H as <- <-; reflexivity].
    destruct (py_set _ _ _); injection H as <- <-; [now rewrite from_more|reflexivity]. }
  destruct (fc =? 15) eqn:E15.
  { intros [= <-] H N. replace (_ || _) with false by lia. rewrite added_no. unfold write_multiple_coils in *. rewrite more3; [|lia|exact HHB|intros X; rewrite X in H; injection H as _ <-; now apply N].
    destruct (unpack3 _ _) as [[[a q] bc]|e]; [|exact H]. destruct (_ || _ || _); [exact H|]. destruct (get_block_and_offset _ _ _ _) as [[[i b] off]|e]; [|exact H].
    rewrite bits_more; [exact H|lia|]. intros X. destruct (write_bits_outer _ _ _ _ _ _ _ _) as [d r0]. cbn [snd] in X. subst r0. injection H as _ <-. now apply N. }
  destruct (fc =? 16) eqn:E16.
  { intros [= <-] H N. replace (_ || _) with false by lia. rewrite added_no. unfold write_multiple_registers in *. rewrite more3; [|lia|exact HHB|intros X; rewrite X in H; injection H as _ <-; now apply N].
    destruct (unpack3 _ _) as [[[a q] bc]|e]; [|exact H]. destruct (_ || _ || _); [exact H|]. destruct (get_block_and_offset _ _ _ _) as [[[i b] off]|e]; [|exact H].
    rewrite regs_more; [exact H|lia|lia|]. intros X. destruct (write_regs_loop _ _ _ _ _ _ _) as [d r0]. cbn [snd] in X. subst r0. injection H as _ <-. now apply N. }
  destruct (fc =? 22) eqn:E22.
  { intros [= <-] H N. cbn [orb]. unfold mask_write_register in *. rewrite more3; [|lia|exact HHH|intros X; rewrite X in H; injection H as _ <-; now apply N].
    destruct (unpack3 _ _) as [[[a am] om]|e]; [|injection H as <- <-; reflexivity]. destruct (get_block_and_offset _ _ _ _) as [[[i b] off]|e]; [|injection H as <- <-; reflexivity].
    destruct (py_get _ _); [|injection H as <- <-; reflexivity]. destruct (py_set _ _ _); injection H as <- <-; [now rewrite from_more|reflexivity]. }
  destruct (fc =? 23) eqn:E23; [|discriminate].
  intros [= <-] H N. replace (_ || _) with false by lia. rewrite added_no. unfold read_write_multiple_registers in *. rewrite more5; [|lia|exact HHHHB|intros X; rewrite X in H; injection H as _ <-; now apply N].
  destruct (unpack5 _ _) as [[[[[ra rq] wa] wq] bc]|e]; [|exact H]. destruct (_ || _); [exact H|]. destruct (get_block_and_offset _ _ ra _) as [[[i b] off]|e]; [|exact H].
  destruct (header <- _ ;; _) as [resp|e]; [|exact H]. destruct (_ || _ || _); [exact H|]. destruct (get_block_and_offset _ _ _ _) as [[[i' b'] off']|e]; [|exact H].
  rewrite regs_more; [exact H|lia|lia|]. intros X. destruct (write_regs_loop _ _ _ _ _ _ _) as [d r0]. cbn [snd] in X. subst r0. injection H as _ <-. now apply N.
Qed.

(** Whatever follows a request changes neither what the request does nor whether it is accepted; the three responses that repeat the request repeat it too. *)
Theorem C109_tail : forall s pdu tail bc s' r, handle_request s pdu bc = (s', r) -> r <> Err StructError ->
  handle_request s (pdu ++ tail) bc = (s', match r with Ok resp => Ok (resp ++ if repeats pdu resp then tail else []) | Err e => Err e end).
Proof.
  intros s pdu tail bc s' r H N. destruct pdu as [|fc rest]; [injection H as <- <-; now destruct N|].
  assert (M := map_more fc rest tail). cbn [List.app] in *. unfold handle_request in *. rewrite unpack_fc in *.
  destruct (fn_code_map fc) as [f|] eqn:F.
  2:{ injection H as <- <-. f_equal. cbn [catch_modbus_error]. destruct (pack _ _) as [y|e] eqn:C; [|reflexivity]. unfold repeats. destruct y as [|y0 y]; [reflexivity|].
      apply fn_none_iff in F. unfold supported in F. cbn [In] in F. replace ((y0 =? fc) && _) with false by lia. now rewrite app_nil_r. }
  pose proof (fn_code_map_range fc f F) as Rg.
  destruct (bc && cant_be_broadcasted fc); [injection H as <- <-; reflexivity|]. destruct (f s (fc :: rest)) as [s1 r1] eqn:R1.
  assert (N1 : r1 <> Err StructError). { intros ->. injection H as <- <-. now apply N. }
  rewrite (M f s s1 r1 eq_refl R1 N1). destruct r1 as [[|y0 y]|e]; cbn [added].
  - injection H as <- <-. destruct ((fc =? 5) || (fc =? 6) || (fc =? 22)) eqn:Q; [|reflexivity].
    exfalso. clear - F R1 Q. (* the responses that repeat the request are not empty *)
    assert (X : f = write_single_coil \/ f = write_single_register \/ f = mask_write_register).
    { destruct (fc =? 5) eqn:E5; [assert (fc = 5) as -> by lia; injection F as <-; auto|]. destruct (fc =? 6) eqn:E6; [assert (fc = 6) as -> by lia; injection F as <-; auto|].
      cbn [orb] in Q. assert (fc = 22) as -> by lia. injection F as <-. auto. }
    assert (L : rest <> []).
    { intros ->. destruct X as [-> | [-> | ->]].
      - unfold write_single_coil in R1. cbn in R1. discriminate R1.
      - unfold write_single_register in R1. destruct (sl_unsigned s); cbn in R1; discriminate R1.
      - unfold mask_write_register in R1. cbn in R1. discriminate R1. }
    assert (Y : forall r0, snd (f s (fc :: rest)) = Ok r0 -> r0 = py_from (fc :: rest) 1).
    { intros r0. destruct X as [-> | [-> | ->]].
      - unfold write_single_coil. destruct (unpack2 _ _) as [[a v]|]; [|discriminate]. destruct (get_block_and_offset _ _ _ _) as [[[i b] off]|]; [|discriminate].
        destruct (v =? 0); [destruct (py_set _ _ _); [intros [= <-]; reflexivity|discriminate]|]. destruct (v =? 65280); [|discriminate]. destruct (py_set _ _ _); [intros [= <-]; reflexivity|discriminate].
      - unfold write_single_register. destruct (unpack2 _ _) as [[a v]|]; [|discriminate]. destruct (get_block_and_offset _ _ _ _) as [[[i b] off]|]; [|discriminate].
        destruct (py_set _ _ _); [intros [= <-]; reflexivity|discriminate].
      - unfold mask_write_register. destruct (unpack3 _ _) as [[[a am] om]|]; [|discriminate]. destruct (get_block_and_offset _ _ _ _) as [[[i b] off]|]; [|discriminate].
        destruct (py_get _ _); [|discriminate]. destruct (py_set _ _ _); [intros [= <-]; reflexivity|discriminate]. }
    rewrite R1 in Y. specialize (Y [] eq_refl). rewrite py_from_cons in Y. congruence.
  - cbn [List.app]. destruct bc; injection H as <- <-; [reflexivity|]. assert (P : pack ">B" [fc] = Ok [fc]).
    { rewrite pack_B. unfold byte_b. replace (_ && _) with true by lia. reflexivity. }
    rewrite P. cbn [bind List.app repeats]. rewrite Z.eqb_refl. reflexivity.
  - injection H as <- <-. f_equal. cbn [catch_modbus_error]. destruct e; try reflexivity.
    rewrite pack_BB. destruct (_ && _); [|reflexivity]. unfold repeats. replace (fc + 128 =? fc) with false by lia. cbn [andb]. now rewrite app_nil_r.
Qed.
(** So the response to one of the three is longer than a response can be: it is not true that the bytes are ignored. *)
Theorem C109_refuted : exists s pdu tail s' resp, reachable s /\ handle_request s pdu false = (s', Ok resp) /\ zlen resp = 5 /\
  exists resp', handle_request s (pdu ++ tail) false = (s', Ok resp') /\ zlen resp' = 305.
Proof.
  exists (slave_run (new_slave true None) [OpAddBlock "r" 3 0 10]), [6; 0; 1; 0; 7], (repeat 0 300). eexists _, _.
  split; [exists (new_slave true None), [OpAddBlock "r" 3 0 10]; split; [constructor|reflexivity]|]. split; [vm_compute; reflexivity|]. split; [reflexivity|].
  eexists. split; [vm_compute; reflexivity|]. vm_compute. reflexivity.
Qed.
Example C109_ex : let s := slave_run (new_slave true None) [OpAddBlock "r" 3 0 10; OpSetValues "r" 0 (SvSeq [5; 6])] in
  snd (handle_request s [3; 0; 0; 0; 2] false) = Ok [3; 4; 0; 5; 0; 6] /\ snd (handle_request s ([3; 0; 0; 0; 2] ++ [9; 9]) false) = Ok [3; 4; 0; 5; 0; 6] /\
  snd (handle_request s ([22; 0; 0; 0; 255; 0; 0] ++ [1; 2]) false) = Ok [22; 0; 0; 0; 255; 0; 0; 1; 2] /\ snd (handle_request s ([6; 0; 99; 0; 0] ++ [1; 2]) false) = Ok [134; 2].
Proof. vm_compute. auto. Qed.

Print Assumptions C109_tail.
Print Assumptions C109_refuted.
