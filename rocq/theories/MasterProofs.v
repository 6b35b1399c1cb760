(** Lemmas about Master.execute: building, decoding, exchanging. *)
From Coq Require Import Lia ZifyBool ZifyNat.
From Verif Require Import Base BaseFacts PyStruct Spec StructFacts StructMore Defines SlaveModel SlaveSpec HandlerProofs RequestProofs.
From Verif Require Import FrameSpec CrcSpec QueryModel QueryProofs MasterModel MasterSpec DbSpec DatabankProofs.
Ltac Zify.zify_post_hook ::= Z.div_mod_to_equations.
Open Scope string_scope.
Open Scope list_scope.
Open Scope Z_scope.

Lemma fitsb_t v : fits true v -> fits_b true v = true.
Proof. apply fits_b_iff. Qed.
Lemma fitsb_f v : ~ fits true v -> fits_b true v = false.
Proof. intros H. destruct (fits_b true v) eqn:E; [apply fits_b_iff in E; tauto|reflexivity]. Qed.
Lemma byteb_t v : is_byte v -> byte_b v = true.
Proof. apply byte_b_iff. Qed.
Lemma byteb_f v : ~ is_byte v -> byte_b v = false.
Proof. intros H. destruct (byte_b v) eqn:E; [apply byte_b_iff in E; tauto|reflexivity]. Qed.

Lemma pack_signed_regs_ok l : Forall reg_value l -> pack_signed_regs l = Ok (words l).
Proof.
  induction 1 as [|v l H F IH]; [reflexivity|]. cbn [pack_signed_regs]. unfold reg_value in H.
  destruct (0 <=? v) eqn:E; [rewrite pack_H, fitsb_t by (unfold fits; lia)|rewrite pack_h].
  - cbn [bind]. rewrite IH. reflexivity.
  - assert (X : fits_b false v = true) by (apply fits_b_iff; unfold fits; lia). rewrite X. cbn [bind]. rewrite IH. reflexivity.
Qed.
Lemma pack_signed_regs_err l : ~ Forall reg_value l -> exists e, pack_signed_regs l = Err e.
Proof.
  induction l as [|v l IH]; intros H; [exfalso; apply H; constructor|]. cbn [pack_signed_regs].
  destruct (Z_lt_dec v (-32768)) as [L|L]; [|destruct (Z_lt_dec v 65536) as [M|M]].
  - destruct (0 <=? v) eqn:E; [lia|]. rewrite pack_h. assert (X : fits_b false v = false) by (unfold fits_b; lia). rewrite X. eexists; reflexivity.
  - destruct IH as [e He]; [intros F; apply H; constructor; [unfold reg_value; lia|exact F]|].
    rewrite He. destruct (pack _ [v]) as [b|e']; cbn [bind]; eexists; reflexivity.
  - destruct (0 <=? v) eqn:E; [|lia]. rewrite pack_H. assert (X : fits_b true v = false) by (unfold fits_b; lia). rewrite X. eexists; reflexivity.
Qed.
Lemma pack_bytes_list l : bytes l -> pack_bytes l = Ok l.
Proof. induction 1 as [|v l H F IH]; [reflexivity|]. cbn [pack_bytes]. rewrite pack_B_ok by exact H. cbn [bind]. rewrite IH. reflexivity. Qed.
Lemma pack_bytes_list_err l : ~ bytes l -> exists e, pack_bytes l = Err e.
Proof.
  induction l as [|v l IH]; intros H; [exfalso; apply H; constructor|]. cbn [pack_bytes]. rewrite pack_B.
  destruct (byte_b v) eqn:E; [|eexists; reflexivity]. apply byte_b_iff in E. cbn [bind].
  destruct IH as [e He]; [intros F; apply H; now constructor|]. rewrite He. eexists; reflexivity.
Qed.

Lemma pack_coils_ok vals p : zlen p < 8 ->
  exists out, pack_coils_loop vals (zlen p) (bits_val p) = Ok out /\ packs_bits (p ++ map on_off vals) out.
Proof.
  revert p. induction vals as [|x vals IH]; intros p Hp; cbn [pack_coils_loop map].
  - pose proof (zlen_nonneg p). rewrite app_nil_r. destruct (0 <? zlen p) eqn:E.
    + pose proof (bits_val_range p) as Hr.
      assert (Hlt : 2 ^ zlen p <= 2 ^ 7) by (apply Z.pow_le_mono_r; lia). change (2 ^ 7) with 128 in Hlt.
      rewrite pack_B_ok by (unfold is_byte; lia). exists [bits_val p]. split; [reflexivity|]. apply packs_bits_last. lia.
    + assert (p = []) as -> by (destruct p; [reflexivity|rewrite zlen_cons in *; pose proof (zlen_nonneg p); lia]).
      exists []. split; [reflexivity|]. apply packs_bits_nil.
  - pose proof (zlen_nonneg p) as Hp0.
    assert (Hbv : (if 0 <? x then bits_val p + 2 ^ zlen p else bits_val p) = bits_val (p ++ [on_off x])).
    { rewrite bits_val_app. unfold bitz, on_off. destruct (0 <? x); cbn [Z.eqb]; lia. }
    rewrite Hbv. replace (p ++ on_off x :: map on_off vals) with ((p ++ [on_off x]) ++ map on_off vals) by now rewrite <- app_assoc.
    assert (Hl : zlen (p ++ [on_off x]) = zlen p + 1) by (rewrite zlen_app; reflexivity).
    destruct (zlen p =? 7) eqn:E.
    + assert (H8 : zlen (p ++ [on_off x]) = 8) by lia.
      pose proof (bits_val_range (p ++ [on_off x])) as Hr. rewrite H8 in Hr. change (2 ^ 8) with 256 in Hr.
      rewrite pack_B_ok by (unfold is_byte; lia). cbn [bind].
      destruct (IH [] ltac:(reflexivity)) as (out & Hout & Hpk). change (zlen []) with 0 in Hout. cbn [bits_val] in Hout. rewrite Hout. cbn [bind app].
      exists (bits_val (p ++ [on_off x]) :: out). split; [reflexivity|]. now apply packs_bits_cons8.
    + rewrite <- Hl. destruct (IH (p ++ [on_off x])) as (out & Hout & Hpk); [lia|]. exists out. split; assumption.
Qed.

Lemma zlen_map {A B} (f : A -> B) l : zlen (map f l) = zlen l.
Proof. unfold zlen. now rewrite map_length. Qed.
Definition sub_bytes (s : Z * Z * Z) : list Z := 6 :: word (fst (fst s)) ++ word (snd (fst s)) ++ word (snd s).
Definition sub_fits (s : Z * Z * Z) : Prop := fits true (fst (fst s)) /\ fits true (snd (fst s)) /\ fits true (snd s).
Lemma pack_file_subs_ok subs : Forall sub_fits subs ->
  pack_file_subs (map (fun s => fst (fst s)) subs) (map (fun s => snd (fst s)) subs) (map snd subs) = Ok (flat_map sub_bytes subs).
Proof.
  induction 1 as [|[[f r] l] subs (H1 & H2 & H3) F IH]; [reflexivity|]. cbn [fst snd] in *. cbn [map pack_file_subs fst snd flat_map].
  rewrite pack_BHHH, byteb_t, !fitsb_t by (auto; unfold is_byte; lia). cbn [andb bind]. rewrite IH. reflexivity.
Qed.
Lemma pack_file_subs_err subs : ~ Forall sub_fits subs ->
  exists e, pack_file_subs (map (fun s => fst (fst s)) subs) (map (fun s => snd (fst s)) subs) (map snd subs) = Err e.
Proof.
  induction subs as [|[[f r] l] subs IH]; intros H; [exfalso; apply H; constructor|]. cbn [map pack_file_subs fst snd].
  rewrite pack_BHHH. destruct (_ && _) eqn:E; [|eexists; reflexivity]. cbn [bind].
  destruct IH as [e He]; [|rewrite He; eexists; reflexivity]. intros F. apply H. constructor; [|exact F].
  unfold sub_fits. cbn [fst snd]. rewrite <- !fits_b_iff. apply andb_prop in E as [_ E]. apply andb_prop in E as [E1 E]. apply andb_prop in E as [E2 E3]. tauto.
Qed.

(** what the building phase leaves behind for each call *)
Definition is_read_call (c : call) : bool :=
  match c with ReadBits _ _ _ | ReadRegs _ _ _ | ReadFiles _ | ReadWriteRegs _ _ _ _ => true | _ => false end.
Definition digits_call (c : call) : Z := match c with ReadBits _ _ n => n | _ => 0 end.
Definition format_call (c : call) : string :=
  match c with
  | ReadBits _ _ n => ">" ++ py_str_mul (bytes_for_bits n) "B"
  | ReadRegs _ _ n | ReadWriteRegs _ n _ _ => ">" ++ py_str_mul n "H"
  | ReadFiles subs => ">BB" ++ file_format_tail (map snd subs)
  | WriteCoil _ _ | WriteReg _ _ | WriteCoils _ _ | WriteRegs _ _ => ">HH"
  | MaskWrite _ _ _ => ">HHH"
  | ReadStatus => ">B"
  | Diagnostic _ [] => ""
  | Diagnostic _ ((_ :: _) as data) => ">" ++ py_str_mul (zlen data) "B"
  | DeviceInfo _ _ | Raw _ => ""
  end%string.
(** length of the RTU frame around the normal response; -1: unknown *)
Definition expected_call (c : call) : Z := match response_length c with Some n => n + 3 | None => -1 end.

Definition built_as (c : call) (pdu : list Z) : built :=
  {| bl_pdu := pdu; bl_is_read := is_read_call c; bl_digits := digits_call c; bl_format := format_call c; bl_expected := expected_call c |}.

Lemma sum_list_add l acc : fold_left Z.add l acc = acc + fold_left Z.add l 0.
Proof. revert acc. induction l as [|x l IH]; intros acc; cbn [fold_left]; [lia|]. rewrite (IH (acc + x)), (IH (0 + x)). lia. Qed.
Lemma sum_files subs : 2 * sum_list (map snd subs) + 2 * zlen subs = fold_right (fun s acc => 2 + 2 * snd s + acc) 0 (subs : list (Z * Z * Z)).
Proof.
  unfold sum_list. induction subs as [|s subs IH]; [reflexivity|]. cbn [map fold_left fold_right].
  rewrite sum_list_add, zlen_cons. lia.
Qed.
Lemma dflt_neg d : dflt_expected (-1) d = d. Proof. reflexivity. Qed.
Lemma dflt_empty d : dflt_format "" d = d. Proof. reflexivity. Qed.

Ltac arg_fc := cbn [ea_fc ea_addr ea_qty ea_output ea_format ea_expected ea_waddr23 ea_files ea_pdu ea_raw ea_and ea_or ea_slave fc_of as_int as_seq bind].
Ltac go_build := unfold execute_build, args_of; arg_fc;
  unfold READ_COILS, READ_DISCRETE_INPUTS, READ_INPUT_REGISTERS, READ_HOLDING_REGISTERS, READ_FILE_RECORD, WRITE_SINGLE_COIL,
    WRITE_SINGLE_REGISTER, MASK_WRITE_REGISTER, WRITE_MULTIPLE_COILS, WRITE_MULTIPLE_REGISTERS, READ_EXCEPTION_STATUS, DIAGNOSTIC,
    READ_WRITE_MULTIPLE_REGISTERS, RAW, DEVICE_INFO; cbn [Z.eqb Pos.eqb orb]; rewrite ?dflt_neg, ?dflt_empty.

Lemma build_ok u c : encodable c -> (forall raw, c <> Raw raw) ->
  exists pdu, prescribed c pdu /\ bytes pdu /\ zlen pdu <= 300 + (match c with Diagnostic _ d => zlen d | _ => 0 end) /\
  execute_build (args_of u c) = Ok (built_as c pdu).
Proof.
  assert (B8 : forall x, 0 <= x < 256 -> is_byte x) by (unfold is_byte; auto).
  assert (WB : forall a l, bytes l -> bytes (word a ++ l)) by (intros; apply bytes_app; [apply word_bytes|assumption]).
  assert (W1 : forall a, bytes (word a)) by apply word_bytes.
  assert (CB : forall x l, 0 <= x < 256 -> bytes l -> bytes (x :: l)) by (intros; constructor; [unfold is_byte; lia|assumption]).
  assert (WL : forall a, zlen (word a) = 2) by reflexivity.
  assert (AN : forall l : list Z, l ++ [] = l) by apply app_nil_r.
  intros E NR. destruct c as [coils a n|holding a n|subs|a v|a v|a am om|a vals|a vals| |sub data|a n wa vals|code obj|raw];
    cbn [encodable prescribed] in *; [| | | | | | | | | | | |now destruct (NR raw)].
  - destruct E as [Ha Hn]. eexists; split; [reflexivity|]. cbn [fc_of]. split; [destruct coils; auto 6 with zarith|].
    split; [rewrite zlen_cons, zlen_app, !WL; lia|]. assert (0 <= n) by (unfold fits in Hn; lia).
    destruct coils; go_build; rewrite pack_BHH, byteb_t, !fitsb_t by (auto; unfold is_byte; lia); cbn [andb bind];
      unfold built_as; cbn [expected_call response_length format_call is_read_call digits_call]; rewrite bit_byte_count_spec by lia;
      do 2 f_equal; lia.
  - destruct E as [Ha Hn]. eexists; split; [reflexivity|]. cbn [fc_of]. split; [destruct holding; auto 6 with zarith|].
    split; [rewrite zlen_cons, zlen_app, !WL; lia|].
    destruct holding; go_build; rewrite pack_BHH, byteb_t, !fitsb_t by (auto; unfold is_byte; lia); cbn [andb bind];
      unfold built_as, expected_call; cbn [response_length format_call is_read_call digits_call]; do 2 f_equal; lia.
  - destruct E as [Hn F]. eexists; split; [reflexivity|].
    change (fun s : Z * Z * Z => 6 :: word (fst (fst s)) ++ word (snd (fst s)) ++ word (snd s)) with sub_bytes.
    assert (LB : zlen (flat_map sub_bytes subs) = 7 * zlen subs).
    { clear. induction subs as [|s subs IH]; [reflexivity|]. cbn [flat_map]. rewrite zlen_app, IH, zlen_cons. reflexivity || (change (zlen (sub_bytes s)) with 7; lia). }
    split.
    { apply CB; [lia|]. apply CB; [lia|]. apply Forall_flat_map, Forall_forall. intros s _. unfold sub_bytes. apply CB; [lia|]. auto. }
    split; [rewrite !zlen_cons, LB; lia|]. go_build. rewrite !zlen_map.
    replace (zlen subs =? zlen subs) with true by lia. replace (0 <? zlen subs) with true by lia. cbn [andb].
    rewrite pack_BB. replace (byte_b 20 && byte_b (zlen subs * 7)) with true by (unfold byte_b; lia). cbn [bind].
    rewrite pack_file_subs_ok by exact F. cbn [bind]. unfold built_as. cbn [format_call is_read_call digits_call]. unfold expected_call. cbn [response_length].
    rewrite <- sum_files. rewrite (Z.mul_comm (zlen subs) 7). cbn [app]. do 2 f_equal. lia.
  - eexists; split; [reflexivity|]. split; [apply CB; [lia|]; destruct (v =? 0); apply WB; repeat (apply CB; [lia|]); constructor|].
    split; [rewrite zlen_cons, zlen_app, WL; destruct (v =? 0); reflexivity || (cbn; lia)|]. go_build.
    destruct (v =? 0); rewrite pack_BHH, byteb_t, !fitsb_t by (auto; unfold fits, is_byte; lia); reflexivity.
  - destruct E as [Ha Hv]. eexists; split; [reflexivity|]. split; [auto 6 with zarith|]. split; [rewrite zlen_cons, zlen_app, !WL; lia|].
    go_build. unfold reg_value in Hv. destruct (0 <=? v) eqn:V.
    + rewrite pack_BHH, byteb_t, !fitsb_t by (auto; unfold fits, is_byte; lia). reflexivity.
    + rewrite pack_BHh, byteb_t, fitsb_t by (auto; unfold fits, is_byte; lia). replace (fits_b false v) with true by (unfold fits_b; lia). reflexivity.
  - destruct E as (Ha & H1 & H2). eexists; split; [reflexivity|]. split; [auto 8 with zarith|]. split; [rewrite zlen_cons, !zlen_app, !WL; lia|].
    go_build. unfold fits in H1, H2. replace (am <? 0) with false by lia. replace (om <? 0) with false by lia.
    rewrite pack_BHHH, byteb_t, !fitsb_t by (auto; unfold fits, is_byte; lia). reflexivity.
  - destruct E as [Ha Hv]. destruct (pack_coils_ok vals [] ltac:(reflexivity)) as (out & Ho & Hp). cbn [app] in Hp. change (zlen []) with 0 in Ho. cbn [bits_val] in Ho.
    exists (15 :: word a ++ word (zlen vals) ++ zlen out :: out). pose proof Hp as (L & Bo & _). rewrite zlen_map in L. pose proof (zlen_nonneg vals).
    assert (Lb : 0 <= zlen out < 256) by (rewrite L; unfold bytes_for_bits; lia).
    split; [exists out; split; [exact Hp|reflexivity]|]. split; [apply CB; [lia|]; auto|].
    split; [rewrite zlen_cons, !zlen_app, !WL, zlen_cons; lia|]. go_build.
    rewrite pack_BHHB, byteb_t, !fitsb_t, byteb_t by (auto; unfold fits, is_byte; rewrite ?bit_byte_count_spec, <- ?L by lia; lia). cbn [andb bind].
    rewrite Ho. cbn [bind]. rewrite bit_byte_count_spec, <- L by lia. unfold built_as. rewrite <- !app_comm_cons, <- !app_assoc. reflexivity.
  - destruct E as (Ha & Hl & Hv). pose proof (zlen_nonneg vals). eexists; split; [reflexivity|].
    split; [apply CB; [lia|]; apply WB, WB, CB; [lia|apply words_bytes]|].
    split; [rewrite zlen_cons, !zlen_app, !WL, zlen_cons, words_zlen; lia|]. go_build. cbn [str_empty negb andb]. rewrite andb_false_r. cbn [bind].
    replace (2 * zlen vals / 2) with (zlen vals) by lia.
    rewrite pack_BHHB, byteb_t, !fitsb_t, byteb_t by (auto; unfold fits, is_byte; lia). cbn [andb bind].
    rewrite pack_signed_regs_ok by exact Hv. cbn [bind]. unfold built_as. rewrite <- !app_comm_cons, <- !app_assoc. reflexivity.
  - exists [7]. split; [reflexivity|]. split; [apply CB; [lia|constructor]|]. split; [cbn; lia|]. go_build. rewrite pack_B_ok by (unfold is_byte; lia). reflexivity.
  - destruct E as [Hs Hd]. exists (8 :: word sub ++ data). split; [reflexivity|]. split; [apply CB; [lia|]; auto|]. split; [rewrite zlen_cons, zlen_app, WL; lia|].
    go_build. rewrite pack_BH, byteb_t, fitsb_t by (auto; unfold is_byte; lia). cbn [andb bind]. destruct data as [|x data].
    + cbn. reflexivity.
    + pose proof (zlen_nonneg data). replace (0 <? zlen (x :: data)) with true by (rewrite zlen_cons; lia). rewrite pack_bytes_list by exact Hd. cbn [bind].
      unfold built_as, expected_call. cbn [response_length format_call is_read_call digits_call]. change ((8 :: word sub) ++ x :: data) with (8 :: word sub ++ x :: data). do 2 f_equal. lia.
  - destruct E as (Ha & Hn & Hw & Hl & Hv). pose proof (zlen_nonneg vals). eexists; split; [reflexivity|].
    split; [apply CB; [lia|]; apply WB, WB, WB, WB, CB; [lia|apply words_bytes]|].
    split; [rewrite zlen_cons, !zlen_app, !WL, zlen_cons, words_zlen; lia|]. go_build.
    rewrite pack_BHHHHB, byteb_t, !fitsb_t, byteb_t by (auto; unfold fits, is_byte; lia). cbn [andb bind].
    rewrite pack_signed_regs_ok by exact Hv. cbn [bind]. unfold built_as, expected_call. cbn [response_length format_call is_read_call digits_call].
    rewrite <- !app_comm_cons, <- !app_assoc. do 2 f_equal. lia.
  - destruct E as [H1 H2]. eexists; split; [reflexivity|]. split; [unfold is_byte in H1, H2; repeat (apply CB; [lia|]); constructor|]. split; [cbn; lia|].
    go_build. change (py_get [code; obj] 0) with (Ok code). change (py_get [code; obj] 1) with (Ok obj). cbn [bind].
    rewrite pack_BBBB, !byteb_t by (auto; unfold is_byte; lia). reflexivity.
Qed.

Lemma build_err u c : ~ encodable c -> (forall raw, c <> Raw raw) -> exists e, execute_build (args_of u c) = Err e.
Proof.
  intros E NR. destruct c as [coils a n|holding a n|subs|a v|a v|a am om|a vals|a vals| |sub data|a n wa vals|code obj|raw];
    cbn [encodable] in E; [| | | | | | | |now destruct E| | | |now destruct (NR raw)].
  - destruct coils; go_build; rewrite pack_BHH; destruct (_ && _) eqn:X; try (eexists; reflexivity); exfalso; apply E;
      rewrite <- !fits_b_iff; destruct (fits_b true a), (fits_b true n); auto; discriminate.
  - destruct holding; go_build; rewrite pack_BHH; destruct (_ && _) eqn:X; try (eexists; reflexivity); exfalso; apply E;
      rewrite <- !fits_b_iff; destruct (fits_b true a), (fits_b true n); auto; discriminate.
  - go_build. rewrite !zlen_map. replace (zlen subs =? zlen subs) with true by lia. cbn [andb].
    destruct (0 <? zlen subs) eqn:Z0; [|eexists; reflexivity]. rewrite pack_BB. destruct (_ && _) eqn:X; [|eexists; reflexivity]. cbn [bind].
    destruct (pack_file_subs_err subs) as [e He]; [|rewrite He; eexists; reflexivity]. intros F. apply E. split; [unfold byte_b in X; lia|exact F].
  - go_build. rewrite pack_BHH. rewrite (fitsb_f a E). cbn [andb]. rewrite andb_false_r. eexists; reflexivity.
  - go_build. unfold reg_value in E. destruct (0 <=? v) eqn:V; [rewrite pack_BHH|rewrite pack_BHh]; destruct (_ && _) eqn:X; try (eexists; reflexivity);
      exfalso; apply E; apply andb_prop in X as [_ X]; apply andb_prop in X as [X1 X2]; split; try (now apply fits_b_iff); unfold fits_b in X2; lia.
  - go_build. destruct (am <? 0) eqn:A1; [eexists; reflexivity|]. destruct (om <? 0) eqn:A2; [eexists; reflexivity|].
    rewrite pack_BHHH. destruct (_ && _) eqn:X; [|eexists; reflexivity]. exfalso; apply E. rewrite <- !fits_b_iff.
    destruct (fits_b true a), (fits_b true am), (fits_b true om); auto; discriminate.
  - go_build. rewrite pack_BHHB. destruct (_ && _) eqn:X; [|eexists; reflexivity]. exfalso; apply E. pose proof (zlen_nonneg vals).
    rewrite bit_byte_count_spec in X by lia. rewrite <- fits_b_iff. destruct (fits_b true a); [|discriminate]. split; [reflexivity|].
    unfold byte_b, bytes_for_bits in X. lia.
  - go_build. cbn [str_empty negb]. rewrite andb_false_r. cbn [bind]. pose proof (zlen_nonneg vals). rewrite pack_BHHB. destruct (_ && _) eqn:X; [|eexists; reflexivity]. cbn [bind].
    destruct (pack_signed_regs_err vals) as [e He]; [|rewrite He; eexists; reflexivity]. intros F. apply E. rewrite <- fits_b_iff.
    destruct (fits_b true a); [|discriminate]. split; [reflexivity|]. split; [unfold byte_b in X; lia|exact F].
  - go_build. rewrite pack_BH. destruct (_ && _) eqn:X; [|eexists; reflexivity]. cbn [bind]. apply andb_prop in X as [_ X]. apply fits_b_iff in X.
    destruct (0 <? zlen data) eqn:L.
    + destruct (pack_bytes_list_err data) as [e He]; [tauto|]. rewrite He. eexists; reflexivity.
    + exfalso. apply E. split; [exact X|]. destruct data; [constructor|]. rewrite zlen_cons in L. pose proof (zlen_nonneg data). lia.
  - go_build. rewrite pack_BHHHHB. destruct (_ && _) eqn:X; [|eexists; reflexivity]. cbn [bind].
    destruct (pack_signed_regs_err vals) as [e He]; [|rewrite He; eexists; reflexivity]. intros F. apply E. rewrite <- !fits_b_iff.
    destruct (fits_b true a), (fits_b true n), (fits_b true wa); try (rewrite ?andb_false_r in X; discriminate). repeat split; auto.
    destruct (fits_b true (zlen vals)); [|discriminate]. unfold byte_b in X. lia.
  - go_build. change (py_get [code; obj] 0) with (Ok code). change (py_get [code; obj] 1) with (Ok obj). cbn [bind].
    rewrite pack_BBBB. destruct (_ && _) eqn:X; [|eexists; reflexivity]. exfalso. apply E. rewrite <- !byte_b_iff.
    destruct (byte_b code), (byte_b obj); auto; discriminate.
Qed.

Lemma build_raw u raw : execute_build (args_of u (Raw raw)) = Ok (built_as (Raw raw) raw).
Proof. reflexivity. Qed.

(** ** The exchange *)
Lemma build_request_gen p last pdu slave : bytes pdu -> p = RTU \/ zlen pdu <= 65534 -> 0 <= last <= 65535 -> 0 <= slave <= 255 ->
  exists i h last', build_request p last pdu slave = (last', Ok (h, on_wire i slave pdu)) /\ proto_of i = p /\
    sendable i pdu /\ 0 <= last' <= 65535 /\ forall r, sendable i r -> parse_response h (on_wire i slave r) = Ok r.
Proof.
  intros B [->|L] T U; [|now apply build_request_on_wire].
  exists None, (HRtu slave), last. assert (Ub : is_byte slave) by (unfold is_byte; lia). cbn [build_request]. rewrite rtu_build_request_ok by assumption. cbn [bind on_wire].
  split; [reflexivity|]. split; [reflexivity|]. split; [split; [exact B|exact I]|]. split; [exact T|].
  intros r [Br _]. cbn [parse_response]. apply rtu_parse_response_sealed; [|reflexivity]. apply sealed_bytes. now constructor.
Qed.

Lemma prescribed_unique c p1 p2 : prescribed c p1 -> prescribed c p2 -> p1 = p2.
Proof.
  destruct c; cbn [prescribed]; try congruence. intros (o1 & H1 & ->) (o2 & H2 & ->).
  now rewrite (packs_bits_unique _ _ _ H1 H2).
Qed.
Lemma build_call u c : encodable c -> exists pdu, prescribed c pdu /\ bytes pdu /\ execute_build (args_of u c) = Ok (built_as c pdu).
Proof.
  intros E. destruct c; try (destruct (build_ok u _ E ltac:(discriminate)) as (pdu & H1 & H2 & _ & H3); exists pdu; tauto).
  exists pdu. split; [reflexivity|]. split; [exact E|apply build_raw].
Qed.

Lemma execute_call p last u c pdu : encodable c -> prescribed c pdu -> p = RTU \/ zlen pdu <= 65534 -> 0 <= last <= 65535 -> 0 <= u <= 255 ->
  exists i last', proto_of i = p /\ sendable i pdu /\ 0 <= last' <= 65535 /\
    forall exchange, let e := execute p last (args_of u c) exchange in
      ex_last e = last' /\ ex_sent e = Some (on_wire i u pdu, expected_call c) /\
      (forall r, sendable i r -> exchange (on_wire i u pdu) (expected_call c) = Ok (on_wire i u r) ->
         ex_result e = execute_decode (file_fuel r) (args_of u c) (built_as c pdu) r) /\
      (forall x, exchange (on_wire i u pdu) (expected_call c) = Err x -> ex_result e = Some (Err x)).
Proof.
  intros E P L T U. destruct (build_call u c E) as (pdu' & P' & B & X). rewrite (prescribed_unique c _ _ P' P) in *. clear pdu' P'.
  destruct (build_request_gen p last pdu u B L T U) as (i & h & last' & R & Pi & S & T' & PR).
  exists i, last'. split; [exact Pi|]. split; [exact S|]. split; [exact T'|]. intros exchange e. unfold e, execute. rewrite X.
  assert (Su : ea_slave (args_of u c) = u) by (now destruct c). rewrite Su. cbn [bl_pdu built_as bl_expected]. rewrite R. cbn [ex_last ex_sent ex_result].
  split; [reflexivity|]. split; [reflexivity|]. split.
  - intros r Sr ->. cbn [bind]. rewrite PR by exact Sr. reflexivity.
  - intros x ->. reflexivity.
Qed.

(** ** The exchange, exactly *)
Lemma build_request_exact p last pdu slave : bytes pdu -> framable p pdu -> 0 <= last <= 65535 -> 0 <= slave <= 255 ->
  exists h last', build_request p last pdu slave = (last', Ok (h, on_wire (ids_for p last) slave pdu)) /\
    sendable (ids_for p last) pdu /\ 0 <= last' <= 65535 /\
    forall r, bytes r -> forall rp, parse_response h r = Ok rp <-> (framable p rp /\ r = on_wire (ids_for p last) slave rp).
Proof.
  intros B F T U. assert (Ub : is_byte slave) by (unfold is_byte; lia). destruct p; cbn [build_request ids_for framable] in *.
  - exists (HRtu slave), last. rewrite rtu_build_request_ok by assumption. cbn [bind on_wire]. split; [reflexivity|].
    split; [split; [exact B|exact I]|]. split; [exact T|]. intros r Br rp. cbn [parse_response]. rewrite rtu_parse_response_sealed by exact Br. tauto.
  - rewrite <- next_tid by lia. set (t := next_transaction_id last). assert (Ft : 0 <= t <= 65535) by (unfold t; rewrite next_tid by lia; lia).
    exists (HTcp {| mb_tid := t; mb_pid := 0; mb_len := zlen pdu + 1; mb_uid := slave |}), t.
    rewrite tcp_build_request_ok by (auto; lia). cbn [bind fst snd on_wire]. split; [reflexivity|].
    split; [split; [exact B|lia]|]. split; [exact Ft|]. intros r Br rp. cbn [parse_response].
    rewrite tcp_parse_response_frame; cbn [mb_tid mb_pid mb_uid]; auto; try (unfold fits; lia).
    split; intros [X ->]; (split; [lia|reflexivity]).
Qed.

Lemma execute_exact p last u c pdu : encodable c -> prescribed c pdu -> framable p pdu -> 0 <= last <= 65535 -> 0 <= u <= 255 ->
  exists h last', 0 <= last' <= 65535 /\ sendable (ids_for p last) pdu /\
    (forall r, bytes r -> forall rp, parse_response h r = Ok rp <-> (framable p rp /\ r = on_wire (ids_for p last) u rp)) /\
    forall exchange, execute p last (args_of u c) exchange =
      {| ex_last := last'; ex_sent := Some (on_wire (ids_for p last) u pdu, expected_call c);
         ex_result :=
           match (response <- exchange (on_wire (ids_for p last) u pdu) (expected_call c) ;; parse_response h response) with
           | Err e => Some (Err e)
           | Ok rp => execute_decode (file_fuel rp) (args_of u c) (built_as c pdu) rp
           end |}.
Proof.
  intros E P L T U. destruct (build_call u c E) as (pdu' & P' & B & X). rewrite (prescribed_unique c _ _ P' P) in *. clear pdu' P'.
  destruct (build_request_exact p last pdu u B L T U) as (h & last' & R & S & T' & PR). exists h, last'.
  split; [exact T'|]. split; [exact S|]. split; [exact PR|]. intros exchange. unfold execute. rewrite X.
  assert (Su : ea_slave (args_of u c) = u) by (now destruct c). rewrite Su. cbn [bl_pdu built_as bl_expected]. now rewrite R.
Qed.

(** a call whose response is [rp] (in the frame that answers the request) *)
Lemma execute_answered p last u c pdu exchange rp : encodable c -> prescribed c pdu -> framable p pdu -> 0 <= last <= 65535 -> 0 <= u <= 255 ->
  bytes rp -> framable p rp ->
  exchange (on_wire (ids_for p last) u pdu) (expected_call c) = Ok (on_wire (ids_for p last) u rp) ->
  ex_result (execute p last (args_of u c) exchange) = execute_decode (file_fuel rp) (args_of u c) (built_as c pdu) rp.
Proof.
  intros E P L T U B F X. destruct (execute_exact p last u c pdu E P L T U) as (h & last' & _ & S & PR & R). rewrite R, X. cbn [ex_result bind].
  assert (Bw : bytes (on_wire (ids_for p last) u rp)).
  { apply on_wire_bytes; [unfold is_byte; lia|]. destruct p; cbn [ids_for framable] in *; (split; [exact B|]); [exact I|]. cbn beta iota. lia. }
  now rewrite (proj2 (PR _ Bw rp) (conj F eq_refl)).
Qed.
