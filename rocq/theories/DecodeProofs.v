(** Lemmas about the decoding phase of Master.execute. *)
From Coq Require Import Lia ZifyBool ZifyNat.
From Verif Require Import Base BaseFacts PyStruct Spec StructFacts StructMore Defines SlaveModel SlaveSpec HandlerProofs RequestProofs.
From Verif Require Import FrameSpec CrcSpec QueryModel MasterModel MasterSpec DbSpec MasterProofs.
Ltac Zify.zify_post_hook ::= Z.div_mod_to_equations.
Open Scope string_scope.
Open Scope list_scope.
Open Scope Z_scope.

Lemma slice2 (a b : Z) l : py_slice (a :: b :: l) 0 2 = [a; b].
Proof. rewrite py_slice_nonneg by lia. reflexivity. Qed.
Lemma from1 {A} (a : A) l : py_from (a :: l) 1 = l.
Proof. rewrite py_from_nonneg by lia. reflexivity. Qed.
Lemma from2 {A} (a b : A) l : py_from (a :: b :: l) 2 = l.
Proof. rewrite py_from_nonneg by lia. reflexivity. Qed.
Lemma unpack2_slice a b l : unpack2 ">BB" (py_slice (a :: b :: l) 0 2) = Ok (a, b).
Proof. rewrite slice2. unfold unpack2. rewrite unpack_BB. reflexivity. Qed.

Lemma decode_exception fuel a b rc code rest : 128 < rc -> execute_decode fuel a b (rc :: code :: rest) = Some (Err (ModbusError code)).
Proof. intros H. unfold execute_decode. rewrite unpack2_slice. now replace (128 <? rc) with true by lia. Qed.
Lemma decode_short fuel a b r : zlen r < 2 -> execute_decode fuel a b r = Some (Err StructError).
Proof.
  intros H. unfold execute_decode. destruct r as [|x [|y r]]; [reflexivity|reflexivity|]. rewrite !zlen_cons in H. pose proof (zlen_nonneg r). lia.
Qed.
Lemma args_raw u c : ea_raw (args_of u c) = false. Proof. now destruct c. Qed.
Lemma args_fc u c : ea_fc (args_of u c) = fc_of c. Proof. now destruct c. Qed.

Lemma decode_read fuel u c pdu rc b2 data : is_read_call c = true -> rc <= 128 ->
  execute_decode fuel (args_of u c) (built_as c pdu) (rc :: b2 :: data) =
  if b2 =? zlen data then
    match unpack (format_call c) data with
    | Err e => Some (Err e)
    | Ok result0 =>
        let result := if 0 <? digits_call c then digits_loop result0 (digits_call c) else result0 in
        if fc_of c =? READ_FILE_RECORD then
          match file_loop fuel result 0 with
          | None => None
          | Some (Err e) => Some (Err e)
          | Some (Ok subs) => Some (Ok (RRecords (map (fun p => py_slice result (fst p) (snd p)) subs)))
          end
        else Some (Ok (RTuple result))
    end
  else Some (Err ModbusInvalidResponseError).
Proof.
  intros R H. unfold execute_decode. rewrite unpack2_slice. replace (128 <? rc) with false by lia.
  cbn [built_as bl_is_read bl_digits bl_format]. rewrite R. cbn [negb andb]. rewrite from2, args_raw, args_fc.
  destruct (b2 =? zlen data); reflexivity.
Qed.
Lemma decode_other fuel u c pdu rc b2 rest : is_read_call c = false -> fc_of c <> 43 -> rc <= 128 ->
  execute_decode fuel (args_of u c) (built_as c pdu) (rc :: b2 :: rest) =
  match unpack (format_call c) (b2 :: rest) with Err e => Some (Err e) | Ok l => Some (Ok (RTuple l)) end.
Proof.
  intros R N H. unfold execute_decode. rewrite unpack2_slice. replace (128 <? rc) with false by lia.
  cbn [built_as bl_is_read bl_digits bl_format]. rewrite R. cbn [negb andb]. rewrite from1, args_raw, args_fc.
  unfold DEVICE_INFO. replace (fc_of c =? 43) with false by lia.
  destruct (unpack (format_call c) (b2 :: rest)) as [l|e]; [|reflexivity].
  replace (0 <? digits_call c) with false by (now destruct c).
  replace (fc_of c =? READ_FILE_RECORD) with false by (unfold READ_FILE_RECORD; now destruct c as [[]|[]| | | | | | | | | | | ]). reflexivity.
Qed.

(** ** Bits *)
Fixpoint byte_bits (m : nat) (b : Z) : list Z :=
  match m with O => [] | S m => b mod 2 :: byte_bits m (Z.shiftr b 1) end.
Lemma byte_bits_length m b : length (byte_bits m b) = m.
Proof. revert b. induction m as [|m IH]; intros b; cbn; [reflexivity|]. now rewrite IH. Qed.
Lemma byte_bits_nth m b k : (k < m)%nat -> nth k (byte_bits m b) 0 = if Z.testbit b (Z.of_nat k) then 1 else 0.
Proof.
  revert b k. induction m as [|m IH]; intros b k H; [lia|]. cbn [byte_bits]. destruct k as [|k].
  - cbn [nth]. change (Z.of_nat 0) with 0. rewrite Z.bit0_odd, Zmod_odd. reflexivity.
  - cbn [nth]. rewrite IH by lia. rewrite Z.shiftr_spec by lia. now replace (Z.of_nat k + 1) with (Z.of_nat (S k)) by lia.
Qed.
Lemma digits_inner_spec m b nb digits : digits_inner m b nb digits = digits ++ firstn (Z.to_nat (nb - zlen digits)) (byte_bits m b).
Proof.
  revert b digits. induction m as [|m IH]; intros b digits; cbn [digits_inner byte_bits].
  - now rewrite firstn_nil, app_nil_r.
  - destruct (nb <=? zlen digits) eqn:E.
    + replace (Z.to_nat (nb - zlen digits)) with 0%nat by lia. cbn. now rewrite app_nil_r.
    + rewrite IH, <- app_assoc. f_equal. rewrite zlen_app. change (zlen [b mod 2]) with 1.
      replace (Z.to_nat (nb - zlen digits)) with (S (Z.to_nat (nb - (zlen digits + 1)))) by lia. reflexivity.
Qed.
Lemma digits_fold data nb digits : zlen digits <= nb ->
  fold_left (fun digits byte_val => digits_inner 8 byte_val nb digits) data digits
  = digits ++ firstn (Z.to_nat (nb - zlen digits)) (flat_map (byte_bits 8) data).
Proof.
  revert digits. induction data as [|b data IH]; intros digits H; cbn [fold_left flat_map].
  - now rewrite firstn_nil, app_nil_r.
  - rewrite digits_inner_spec. rewrite IH.
    + rewrite <- app_assoc. f_equal. set (k := Z.to_nat (nb - zlen digits)).
      rewrite firstn_app, byte_bits_length. f_equal.
      assert (L : zlen (digits ++ firstn k (byte_bits 8 b)) = zlen digits + Z.min (nb - zlen digits) 8).
      { rewrite zlen_app. unfold zlen at 2. rewrite firstn_length, byte_bits_length. unfold k. lia. }
      rewrite L. replace (Z.to_nat (nb - (zlen digits + Z.min (nb - zlen digits) 8))) with (k - 8)%nat by (unfold k; lia). reflexivity.
    + rewrite zlen_app. unfold zlen at 2. rewrite firstn_length, byte_bits_length. lia.
Qed.
Lemma flat_bits_length data : length (flat_map (byte_bits 8) data) = (8 * length data)%nat.
Proof. induction data as [|b data IH]; [reflexivity|]. cbn [flat_map]. rewrite app_length, byte_bits_length, IH. cbn [length]. lia. Qed.
Lemma flat_bits_nth data k : (k < 8 * length data)%nat -> nth k (flat_map (byte_bits 8) data) 0 = bit_of data (Z.of_nat k).
Proof.
  revert k. induction data as [|b data IH]; intros k H; [cbn in H; lia|]. cbn [flat_map]. unfold bit_of.
  destruct (Nat.lt_ge_cases k 8) as [L|L].
  - rewrite app_nth1 by (now rewrite byte_bits_length). rewrite byte_bits_nth by lia.
    replace (Z.of_nat k / 8) with 0 by lia. replace (Z.of_nat k mod 8) with (Z.of_nat k) by lia. reflexivity.
  - rewrite app_nth2 by (rewrite byte_bits_length; lia). rewrite byte_bits_length, IH by (cbn [length] in H; lia). unfold bit_of.
    replace (Z.of_nat (k - 8) / 8) with (Z.of_nat k / 8 - 1) by lia. replace (Z.of_nat (k - 8) mod 8) with (Z.of_nat k mod 8) by lia.
    replace (Z.to_nat (Z.of_nat k / 8)) with (S (Z.to_nat (Z.of_nat k / 8 - 1))) by lia. reflexivity.
Qed.
Lemma firstn_nth_lt {A} (l : list A) n k d : (k < n)%nat -> nth k (firstn n l) d = nth k l d.
Proof. revert n k. induction l as [|x l IH]; intros n k H; [now rewrite firstn_nil|]. destruct n; [lia|]. destruct k; cbn; [reflexivity|]. apply IH. lia. Qed.
Lemma digits_loop_bits data n : 0 <= n <= 8 * zlen data -> digits_loop data n = bits_of data (Z.to_nat n).
Proof.
  intros H. unfold digits_loop. rewrite digits_fold by (cbn; lia). cbn [app zlen length Z.of_nat]. rewrite Z.sub_0_r.
  unfold zlen in H. apply nth_ext with (d := 0) (d' := bit_of data (Z.of_nat 0)).
  - rewrite firstn_length, flat_bits_length. unfold bits_of. rewrite map_length, seq_length. lia.
  - intros k Hk. rewrite firstn_length, flat_bits_length in Hk. rewrite firstn_nth_lt by lia. rewrite flat_bits_nth by lia.
    unfold bits_of. rewrite (map_nth (fun k => bit_of data (Z.of_nat k))). now rewrite seq_nth by lia.
Qed.

(** ** File records *)
Definition grp (q : Z) : list fitem := FInt 1 false :: FInt 1 false :: repeat (FInt 2 false) (Z.to_nat q).
Lemma str_app_assoc a b c : ((a ++ b) ++ c = a ++ b ++ c)%string.
Proof. induction a as [|x a IH]; cbn; [reflexivity|]. now rewrite IH. Qed.
Lemma parse_BB rest l : parse_items rest None = Ok l -> parse_items ("BB" ++ rest)%string None = Ok (FInt 1 false :: FInt 1 false :: l).
Proof. intros H. change ("BB" ++ rest)%string with (String "B" (String "B" rest)). cbn [parse_items]. change (digit_of "B") with (@None nat). change (is_space "B") with false. cbn [code_item bind]. rewrite H. reflexivity. Qed.
Lemma parse_groups q t : parse_items ("BB" ++ file_format_tail (q :: t))%string None = Ok (flat_map grp (q :: t)).
Proof.
  revert q. induction t as [|q2 t IH]; intros q.
  - rewrite (parse_BB _ (repeat (FInt 2 false) (Z.to_nat q))); [cbn [flat_map grp]; now rewrite app_nil_r|].
    cbn [file_format_tail]. unfold py_str_mul. rewrite <- (str_app_nil (str_rep _ _)).
    rewrite (parse_items_rep _ "H" (FInt 2 false) "" []) by reflexivity. now rewrite app_nil_r.
  - rewrite (parse_BB _ (repeat (FInt 2 false) (Z.to_nat q) ++ flat_map grp (q2 :: t))); [reflexivity|].
    change (file_format_tail (q :: q2 :: t)) with (py_str_mul q "H" ++ "BB" ++ file_format_tail (q2 :: t))%string.
    unfold py_str_mul. apply parse_items_rep; try reflexivity. apply IH.
Qed.
Lemma parse_files qtys : qtys <> [] -> parse_fmt (">BB" ++ file_format_tail qtys) = Ok {| pf_little := false; pf_items := flat_map grp qtys |}.
Proof.
  destruct qtys as [|q t]; [congruence|]. intros _. change (">BB" ++ file_format_tail (q :: t))%string with (String ">" ("BB" ++ file_format_tail (q :: t))).
  cbn [parse_fmt]. rewrite parse_groups. reflexivity.
Qed.
Definition frec (r : list Z) : list Z := (1 + 2 * zlen r) :: 6 :: map (fun v => v mod 65536) r.
Lemma unpack_groups recs : unpack_items false (flat_map grp (map zlen recs)) (file_groups recs) = flat_map frec recs.
Proof.
  induction recs as [|r recs IH]; [reflexivity|]. cbn [map flat_map grp file_groups app].
  cbn [unpack_items skipn firstn]. unfold unpack_int at 1 2. cbn [andb]. rewrite !be_val_1.
  assert (S : items_size (repeat (FInt 2 false) (Z.to_nat (zlen r))) = length (words r)).
  { rewrite items_size_rep, words_length. unfold zlen. cbn [item_size]. lia. }
  rewrite unpack_items_app by (rewrite S, app_length; lia).
  rewrite S, firstn_app, skipn_app, Nat.sub_diag, firstn_all, skipn_all. cbn [firstn skipn app]. rewrite app_nil_r.
  unfold zlen at 2. rewrite Nat2Z.id, unpack_items_H. fold (file_groups recs). rewrite IH. reflexivity.
Qed.
Lemma groups_size recs : items_size (flat_map grp (map zlen recs)) = length (file_groups recs).
Proof.
  induction recs as [|r recs IH]; [reflexivity|]. cbn [map flat_map]. rewrite items_size_app, IH. unfold file_groups. cbn [flat_map]. rewrite app_length. f_equal.
  unfold grp. cbn [items_size fold_right item_size]. fold (items_size (repeat (FInt 2 false) (Z.to_nat (zlen r)))). rewrite items_size_rep.
  cbn [length item_size]. rewrite words_length. unfold zlen. lia.
Qed.
Lemma unpack_files recs : recs <> [] -> unpack (">BB" ++ file_format_tail (map zlen recs)) (file_groups recs) = Ok (flat_map frec recs).
Proof.
  intros N. rewrite (unpack_len_ok _ _ _ (parse_files (map zlen recs) ltac:(destruct recs; [congruence|discriminate]))).
  - cbn [pf_little pf_items]. now rewrite unpack_groups.
  - cbn [pf_items]. now rewrite groups_size.
Qed.

Lemma py_get_mid {A} (pre : list A) x post : py_get (pre ++ x :: post) (zlen pre) = Ok x.
Proof.
  apply py_get_nth; [apply zlen_nonneg|].
  unfold zlen. rewrite Nat2Z.id, nth_error_app2, Nat.sub_diag by lia. reflexivity.
Qed.
Lemma file_loop_records recs : forall pre fuel, (length recs < fuel)%nat ->
  exists subs, file_loop fuel (pre ++ flat_map frec recs) (zlen pre) = Some (Ok subs) /\
    map (fun p => py_slice (pre ++ flat_map frec recs) (fst p) (snd p)) subs = map (map (fun v => v mod 65536)) recs.
Proof.
  induction recs as [|r recs IH]; intros pre fuel H; (destruct fuel as [|fuel]; [lia|]); cbn [file_loop].
  - cbn [flat_map]. rewrite app_nil_r. replace (zlen pre <? zlen pre) with false by lia. exists []. split; reflexivity.
  - cbn [flat_map]. assert (L : zlen (pre ++ frec r ++ flat_map frec recs) = zlen pre + (2 + zlen r) + zlen (flat_map frec recs)).
    { rewrite !zlen_app. unfold frec. rewrite !zlen_cons, zlen_map. lia. }
    pose proof (zlen_nonneg pre). pose proof (zlen_nonneg r). pose proof (zlen_nonneg (flat_map frec recs)).
    rewrite L. replace (zlen pre <? _) with true by lia. unfold frec at 1. rewrite <- app_comm_cons, py_get_mid. 
    replace (zlen pre + ((1 + 2 * zlen r) / 2 + 2)) with (zlen (pre ++ frec r)) by (rewrite zlen_app; unfold frec; rewrite !zlen_cons, zlen_map; lia).
    destruct (IH (pre ++ frec r) fuel ltac:(cbn [length] in H; lia)) as (subs & E & M). rewrite <- app_assoc in E, M.
    rewrite E. eexists. split; [reflexivity|]. cbn [map fst snd]. rewrite M. f_equal.
    replace (zlen pre + 2 + (1 + 2 * zlen r) / 2) with (zlen pre + 2 + zlen r) by lia.
    rewrite py_slice_in by lia. replace (zlen pre + 2 + zlen r - (zlen pre + 2)) with (zlen r) by lia.
    unfold zlen. replace (Z.to_nat (Z.of_nat (length pre) + 2)) with (length pre + 2)%nat by lia. rewrite skipn_add, skipn_app, skipn_all, Nat.sub_diag. cbn [skipn app].
    unfold frec. cbn [app skipn]. rewrite Nat2Z.id, firstn_app, map_length, Nat.sub_diag. cbn [firstn]. rewrite app_nil_r.
    rewrite firstn_all2 by (rewrite map_length; lia). reflexivity.
Qed.

Lemma file_loop_ends result : Forall (fun v => 0 <= v) result -> forall fuel ptr, 0 <= ptr -> Z.max 0 (zlen result - ptr) < Z.of_nat fuel ->
  file_loop fuel result ptr <> None.
Proof.
  intros F. induction fuel as [|fuel IH]; intros ptr P H; cbn [file_loop].
  - lia.
  - destruct (ptr <? zlen result) eqn:E; [|discriminate]. destruct (py_get result ptr) as [n|] eqn:G; [|discriminate].
    assert (0 <= n).
    { unfold py_get in G. destruct (_ || _); [discriminate|]. destruct (nth_error _ _) eqn:N; [|discriminate]. injection G as <-.
      apply nth_error_In in N. rewrite Forall_forall in F. now apply F. }
    specialize (IH (ptr + (n / 2 + 2)) ltac:(lia) ltac:(lia)). destruct (file_loop fuel result _) as [[l|e]|]; [discriminate|discriminate|congruence].
Qed.
Lemma file_loop_mono result : forall fuel ptr r, file_loop fuel result ptr = Some r -> forall k, file_loop (fuel + k) result ptr = Some r.
Proof.
  induction fuel as [|fuel IH]; intros ptr r H k; [discriminate|]. cbn [Nat.add file_loop] in *.
  destruct (ptr <? zlen result); [|exact H]. destruct (py_get result ptr) as [n|]; [|exact H].
  destruct (file_loop fuel result _) as [x|] eqn:E; [|discriminate]. now rewrite (IH _ _ E k).
Qed.

Lemma be_val_nonneg l : bytes l -> 0 <= be_val l.
Proof. induction 1 as [|b l H F IH]; cbn [be_val]; [lia|]. unfold is_byte in H. assert (0 <= 256 ^ Z.of_nat (length l)) by (apply Z.pow_nonneg; lia). nia. Qed.
Lemma unpack_items_unsigned items l : Forall (fun it => exists n, it = FInt n false) items -> bytes l ->
  Forall (fun v => 0 <= v) (unpack_items false items l) /\ length (unpack_items false items l) = length items.
Proof.
  intros F. revert l. induction F as [|it items [n ->] F IH]; intros l B; cbn [unpack_items]; [split; constructor|].
  destruct (IH (skipn n l) (bytes_skipn n l B)) as [H1 H2]. split; [|cbn; now rewrite H2].
  constructor; [|exact H1]. unfold unpack_int. cbn [andb]. apply be_val_nonneg. now apply bytes_firstn.
Qed.
Lemma items_size_ge items : Forall (fun it => exists n, it = FInt (S n) false) items -> (length items <= items_size items)%nat.
Proof. induction 1 as [|it items [n ->] F IH]; [cbn; lia|]. cbn [length items_size fold_right item_size]. fold (items_size items). lia. Qed.
Lemma grp_items qtys : Forall (fun it => exists n, it = FInt (S n) false) (flat_map grp qtys).
Proof.
  apply Forall_flat_map, Forall_forall. intros q _. unfold grp. constructor; [now exists 0%nat|]. constructor; [now exists 0%nat|].
  apply Forall_forall. intros it H. apply repeat_spec in H as ->. now exists 1%nat.
Qed.
Lemma decode_files_ends u subs pdu r : bytes r -> 1 <= zlen subs ->
  execute_decode (file_fuel r) (args_of u (ReadFiles subs)) (built_as (ReadFiles subs) pdu) r <> None.
Proof.
  intros B N. destruct r as [|rc [|b2 data]]; [discriminate|discriminate|].
  destruct (Z.lt_ge_cases 128 rc) as [L|L]; [now rewrite decode_exception by lia|].
  rewrite decode_read by (reflexivity || lia). destruct (b2 =? zlen data); [|discriminate]. cbn [digits_call format_call fc_of].
  change (0 <? 0) with false. change (20 =? READ_FILE_RECORD) with true. cbn iota. cbv zeta.
  destruct (unpack _ data) as [result|] eqn:U; [|discriminate].
  assert (NE : map snd subs <> []) by (destruct subs; [cbn in N; lia|discriminate]).
  unfold unpack in U. rewrite (parse_files _ NE) in U. cbn [bind pf_items pf_little] in U.
  destruct (_ =? _)%nat eqn:L2 in U; [|discriminate]. injection U as <-.
  assert (Bd : bytes data) by (inversion_clear B as [|? ? _ B2]; now inversion_clear B2).
  destruct (unpack_items_unsigned (flat_map grp (map snd subs)) data) as [H1 H2].
  { eapply Forall_impl; [|apply grp_items]. intros it [n ->]. eauto. }
  { exact Bd. }
  pose proof (items_size_ge _ (grp_items (map snd subs))).
  pose proof (file_loop_ends _ H1 (file_fuel (rc :: b2 :: data)) 0 ltac:(lia)) as E.
  destruct (file_loop _ _ 0) as [[l|e]|]; [discriminate|discriminate|]. exfalso. apply E; [|reflexivity].
  unfold zlen. rewrite H2. unfold file_fuel. cbn [length]. lia.
Qed.
Lemma decode_files u recs subs pdu rc : map snd subs = map zlen recs -> recs <> [] -> rc <= 128 -> 
  execute_decode (file_fuel (rc :: zlen (file_groups recs) :: file_groups recs)) (args_of u (ReadFiles subs)) (built_as (ReadFiles subs) pdu)
    (rc :: zlen (file_groups recs) :: file_groups recs) = Some (Ok (RRecords (map (map (fun v => v mod 65536)) recs))).
Proof.
  intros M N R. rewrite decode_read by (reflexivity || lia). rewrite Z.eqb_refl. cbn [digits_call format_call fc_of].
  change (0 <? 0) with false. change (20 =? READ_FILE_RECORD) with true. cbn iota. cbv zeta. rewrite M, unpack_files by exact N.
  assert (Lf : (length recs < file_fuel (rc :: zlen (file_groups recs) :: file_groups recs))%nat).
  { unfold file_fuel. cbn [length]. assert (length recs <= length (file_groups recs))%nat; [|lia].
    clear. induction recs as [|r recs IH]; [cbn; lia|]. unfold file_groups in *. cbn [flat_map]. rewrite app_length. cbn [length]. lia. }
  destruct (file_loop_records recs [] _ Lf) as (subs' & E & M'). cbn [app] in E, M'. change (zlen (@nil Z)) with 0 in E. rewrite E, M'. reflexivity.
Qed.
