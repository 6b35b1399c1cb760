From Coq Require Import Reals Lra.
From Flocq Require Import Core IEEE754.BinarySingleNaN IEEE754.Binary IEEE754.Bits.
From Verif Require Import Base BaseFacts Spec StructFacts StructMore PyStruct QueryModel DatabankModel SlaveSpec EndSpec MasterModel FloatModel FloatSpec.
Open Scope Z_scope.


Lemma real_finite s m e H : real (B754_finite 53 1024 s m e H) = @F2R radix2 {| Fnum := cond_Zopp s (Zpos m); Fexp := e |}.
Proof. reflexivity. Qed.
Lemma sign_F2R s m e : match Rcompare (@F2R radix2 {| Fnum := cond_Zopp s (Zpos m); Fexp := e |}) 0 with Eq => s | Lt => true | Gt => false end = s.
Proof.
  destruct s; cbn [cond_Zopp].
  - assert (@F2R radix2 {| Fnum := Z.neg m; Fexp := e |} < 0)%R by (apply F2R_lt_0; reflexivity). now rewrite Rcompare_Lt.
  - assert (0 < @F2R radix2 {| Fnum := Z.pos m; Fexp := e |})%R by (apply F2R_gt_0; reflexivity). now rewrite Rcompare_Gt.
Qed.
Lemma narrow_finite s m e H : let x := B754_finite 53 1024 s m e H in
  (exists y, narrow x = Ok y /\ is_finite 24 128 y = true /\ B2R 24 128 y = nearest_float (real x) /\ Bsign 24 128 y = s /\ ~ too_large x)
  \/ (narrow x = Err PyOverflowError /\ too_large x).
Proof.
  cbv zeta. unfold narrow. pose proof (binary_normalize_correct 24 128 eq_refl eq_refl mode_NE (cond_Zopp s (Zpos m)) e s) as C.
  set (y := binary_normalize 24 128 _ _ _ _ _ _) in *. change (round radix2 (SpecFloat.fexp 24 128) (round_mode mode_NE) (@F2R radix2 {| Fnum := cond_Zopp s (Z.pos m); Fexp := e |})) with (nearest_float (real (B754_finite 53 1024 s m e H))) in C.
  destruct (Rlt_bool_spec (Rabs (nearest_float (real (B754_finite 53 1024 s m e H)))) (bpow radix2 128)) as [L|L].
  - destruct C as (C1 & C2 & C3). left. exists y. rewrite C2. repeat split; auto; [now rewrite sign_F2R in C3|]. intros [_ T]. lra.
  - right. split; [|split; [reflexivity|exact L]]. destruct (is_finite 24 128 y) eqn:F; [|reflexivity]. destruct y; try discriminate F; discriminate C.
Qed.
Lemma widen_finite s m e H : let y := B754_finite 24 128 s m e H in
  is_number (widen y) = true /\ real (widen y) = B2R 24 128 y /\ Bsign 53 1024 (widen y) = s.
Proof.
  cbv zeta. unfold widen, is_number, real. pose proof (binary_normalize_correct 53 1024 eq_refl eq_refl mode_NE (cond_Zopp s (Zpos m)) e s) as C.
  set (x := binary_normalize 53 1024 _ _ _ _ _ _) in *. set (r := @F2R radix2 {| Fnum := cond_Zopp s (Z.pos m); Fexp := e |}) in *.
  assert (G : generic_format radix2 (SpecFloat.fexp 53 1024) r).
  { apply (generic_inclusion_mag radix2 (SpecFloat.fexp 24 128)); [|exact (generic_format_B2R 24 128 (B754_finite 24 128 s m e H))].
    intros _. unfold SpecFloat.fexp, SpecFloat.emin. lia. }
  rewrite (round_generic radix2 _ _ r G) in C.
  assert (B : (Rabs r < bpow radix2 1024)%R).
  { apply Rlt_trans with (bpow radix2 128); [exact (abs_B2R_lt_emax 24 128 (B754_finite 24 128 s m e H))|apply bpow_lt; lia]. }
  rewrite (Rlt_bool_true _ _ B) in C. destruct C as (C1 & C2 & C3). repeat split; auto. unfold r in C3. now rewrite sign_F2R in C3.
Qed.
Lemma widen_spec y : is_finite 24 128 y = true ->
  is_number (widen y) = true /\ real (widen y) = B2R 24 128 y /\ Bsign 53 1024 (widen y) = Bsign 24 128 y.
Proof.
  destruct y as [s|s|s pl Hp|s m e H]; intros F; try discriminate F; [repeat split|]. exact (widen_finite s m e H).
Qed.
Lemma narrow_ok x y : narrow x = Ok y -> comes_back NF32 (NFloat x) (NFloat (widen y)).
Proof.
  destruct x as [s|s|s pl Hp|s m e H]; cbn [narrow]; intros E.
  - injection E as <-. cbn. exists (B754_zero 53 1024 s). split; [reflexivity|]. split; [reflexivity|]. split; [|reflexivity].
    unfold nearest_float, real. cbn [B2R]. now rewrite round_0 by typeclasses eauto.
  - injection E as <-. reflexivity.
  - injection E as <-. cbn. eexists. split; reflexivity.
  - destruct (narrow_finite s m e H) as [(y' & E' & F & V & S & _)|[E' _]]; change (narrow (B754_finite 53 1024 s m e H) = Ok y) in E;
      rewrite E' in E; [|discriminate E]. injection E as <-. cbn. exists (widen y'). destruct (widen_spec y' F) as (W1 & W2 & W3).
    split; [reflexivity|]. split; [exact W1|]. split; [rewrite W2; exact V|]. rewrite W3. exact S.
Qed.
Lemma as_float_int z x : as_float (NInt z) = Ok x -> is_number x = true /\ real x = nearest_double (IZR z).
Proof.
  cbn [as_float]. pose proof (binary_normalize_correct 53 1024 eq_refl eq_refl mode_NE z 0 false) as C.
  set (y := binary_normalize 53 1024 _ _ _ _ _ _) in *. assert (V : @F2R radix2 {| Fnum := z; Fexp := 0 |} = IZR z) by (unfold F2R; cbn; ring). rewrite V in C.
  destruct (Rlt_bool_spec (Rabs (round radix2 (SpecFloat.fexp 53 1024) (round_mode mode_NE) (IZR z))) (bpow radix2 1024)) as [L|L].
  - destruct C as (C1 & C2 & _). rewrite C2. intros E. injection E as <-. split; [exact C2|exact C1].
  - destruct (is_finite 53 1024 y) eqn:F; [|discriminate]. destruct y; try discriminate F; discriminate C.
Qed.
Lemma bits32_in y : int_in_range 4 false (bits_of_b32 y) = true.
Proof.
  pose proof (bits_of_binary_float_range 23 8 eq_refl eq_refl y) as R. change (bits_of_binary_float 23 8 y) with (bits_of_b32 y) in R. unfold int_in_range.
  change (2 ^ (23 + 8 + 1)) with 4294967296 in R. change (2 ^ (8 * Z.of_nat 4)) with 4294967296. lia.
Qed.
Lemma bits64_in y : int_in_range 8 false (bits_of_b64 y) = true.
Proof.
  pose proof (bits_of_binary_float_range 52 11 eq_refl eq_refl y) as R. change (bits_of_binary_float 52 11 y) with (bits_of_b64 y) in R. unfold int_in_range.
  change (2 ^ (52 + 11 + 1)) with 18446744073709551616 in R. change (2 ^ (8 * Z.of_nat 8)) with 18446744073709551616. lia.
Qed.
Lemma of_bits32 y : b32_of_bits (bits_of_b32 y) = y.
Proof. exact (binary_float_of_bits_of_binary_float 23 8 eq_refl eq_refl eq_refl y). Qed.
Lemma of_bits64 y : b64_of_bits (bits_of_b64 y) = y.
Proof. exact (binary_float_of_bits_of_binary_float 52 11 eq_refl eq_refl eq_refl y). Qed.
Lemma pack_int_bytes n sg little v b : pack_int n sg little v = Ok b -> bytes b.
Proof. unfold pack_int. destruct (int_in_range n sg v); [|discriminate]. intros E. injection E as <-. destruct little; [apply Forall_rev|]; apply be_bytes_bytes. Qed.
Lemma npack_one_ok little i v b : npack_one little i v = Ok b -> length b = nitem_size i /\ comes_back i v (nunpack_one little i b) /\ bytes b.
Proof.
  destruct i as [n sg| | |]; cbn [npack_one nitem_size nunpack_one].
  - destruct v as [z|x]; [|discriminate]. intros E. pose proof (pack_int_bytes _ _ _ _ _ E). apply unpack_pack_int in E as [L U]. split; [exact L|]. split; [|assumption]. cbn. now rewrite U.
  - discriminate.
  - destruct (as_float v) as [x|] eqn:A; [|discriminate]. cbn [bind]. destruct (narrow x) as [y|] eqn:N; [|discriminate]. cbn [bind]. intros E. pose proof (pack_int_bytes _ _ _ _ _ E).
    apply unpack_pack_int in E as [L U]. split; [exact L|]. split; [|assumption]. rewrite U, of_bits32. apply narrow_ok in N. destruct v as [z|x'].
    + apply as_float_int in A as [F V]. cbn in N |- *. assert (NN : is_not_a_number x = false) by (destruct x; try discriminate F; reflexivity). rewrite NN, F in N.
      destruct N as (w & E1 & E2 & E3 & _). exists w. repeat split; auto. now rewrite E3, V.
    + injection A as ->. exact N.
  - destruct (as_float v) as [x|] eqn:A; [|discriminate]. cbn [bind]. intros E. pose proof (pack_int_bytes _ _ _ _ _ E).
    apply unpack_pack_int in E as [L U]. split; [exact L|]. split; [|assumption]. rewrite U, of_bits64. assert (CC : canonical (canonical x) = canonical x) by (destruct x; reflexivity). rewrite CC.
    destruct v as [z|x'].
    + apply as_float_int in A as [F V]. cbn. exists (canonical x). destruct x; try discriminate F; repeat split; auto.
    + injection A as ->. destruct x; cbn; try reflexivity. eexists. split; reflexivity.
Qed.
Lemma take_app n (b1 b2 : list Z) : length b1 = n -> firstn n (b1 ++ b2) = b1 /\ skipn n (b1 ++ b2) = b2.
Proof. intros <-. rewrite firstn_app, skipn_app, Nat.sub_diag, firstn_all, skipn_all. cbn. now rewrite app_nil_r. Qed.
Lemma npack_items_ok little items : forall vals b, npack_items little items vals = Ok b ->
  length b = nitems_size items /\ come_back items vals (nunpack_items little items b) /\ bytes b.
Proof.
  induction items as [|it items IH]; intros vals b E.
  - destruct vals; [|discriminate]. injection E as <-. repeat split. constructor.
  - destruct it as [n sg| | |] eqn:IT; rewrite <- IT in *; cbn [npack_items] in E; subst it;
    [| destruct (npack_items little items vals) as [b2|] eqn:E2; [|discriminate]; cbn [bind] in E; injection E as <-;
       apply IH in E2 as (L2 & U2 & B2); cbn [nitems_size fold_right nitem_size nunpack_items skipn length come_back]; fold (nitems_size items);
       split; [lia|]; split; [exact U2|constructor; [unfold is_byte; lia|exact B2]] | |];
    (destruct vals as [|v vs]; [discriminate|];
     match type of E with bind ?x _ = _ => destruct x as [b1|] eqn:E1; [|discriminate] end; cbn [bind] in E;
     destruct (npack_items little items vs) as [b2|] eqn:E2; [|discriminate]; cbn [bind] in E; injection E as <-;
     apply npack_one_ok in E1 as (L1 & U1 & B1); apply IH in E2 as (L2 & U2 & B2);
     cbn [nitem_size] in L1; cbn [nitems_size fold_right nitem_size nunpack_items come_back]; fold (nitems_size items); rewrite app_length;
     split; [lia|]; split; [|now apply bytes_app];
     destruct (take_app _ b1 b2 L1) as [-> ->];
     split; [exact U1|exact U2]).
Qed.
Lemma npack_ok f vals b little items : nparse_fmt f = Ok (little, items) -> npack f vals = Ok b ->
  ncalcsize f = Ok (zlen b) /\ bytes b /\ exists vals', nunpack f b = Ok vals' /\ come_back items vals vals'.
Proof.
  unfold npack, ncalcsize, nunpack. intros ->. cbn [bind fst snd]. intros E. apply npack_items_ok in E as (L & C & B).
  rewrite <- L, Nat.eqb_refl. split; [reflexivity|]. split; [exact B|]. eexists. split; [reflexivity|exact C].
Qed.
