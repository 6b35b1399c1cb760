(** C89: numbers written to registers with a data_format with float codes are read back as the nearest representable numbers. *)
From Coq Require Import Reals Lra Lia.
From Flocq Require Import Core IEEE754.BinarySingleNaN IEEE754.Binary IEEE754.Bits.
From Verif Require Import Base BaseFacts Spec Defines StructFacts StructMore PyStruct SlaveModel SlaveSpec QueryModel DatabankModel DbSpec PropDatabank EndSpec EndProofs MasterModel MasterSpec MasterProofs
  PropMaster FloatModel FloatSpec FloatProofs.
Open Scope string_scope. Open Scope list_scope. Open Scope Z_scope.

Lemma pack_rep_B l : bytes l -> pack (">" ++ py_str_mul (zlen l) "B") l = Ok l.
Proof.
  intros B. unfold pack. rewrite parse_B. cbn [bind pf_little pf_items]. unfold zlen. rewrite Nat2Z.id. induction B as [|x l Hx B IH]; [reflexivity|].
  cbn [length repeat pack_items]. unfold pack_int. assert (R : int_in_range 1 false x = true) by (unfold int_in_range, is_byte in *; cbn; lia). rewrite R, IH. cbn [bind be_bytes].
  unfold is_byte in Hx. change (256 ^ Z.of_nat 0) with 1. rewrite Z.div_1_r, Z.mod_small by lia. reflexivity.
Qed.
Lemma nunpack_HH data : nunpack ">HH" data = match unpack ">HH" data with Ok l => Ok (map NInt l) | Err e => Err e end.
Proof.
  unfold nunpack, unpack. change (nparse_fmt ">HH") with (@Ok (bool * list nitem) (false, [NCode 2 false; NCode 2 false])). 
  change (parse_fmt ">HH") with (Ok {| pf_little := false; pf_items := [FInt 2 false; FInt 2 false] |}). cbn [bind fst snd nitems_size fold_right nitem_size pf_items items_size item_size].
  destruct (length data =? 2 + (2 + 0))%nat; reflexivity.
Qed.
Lemma nwrite_as p last u a vals f b n exchange : f <> "" -> vals <> [] -> ncalcsize f = Ok (zlen b) -> npack f vals = Ok b -> bytes b -> zlen b = 2 * n -> 1 <= n <= 123 -> fits true a ->
  let e := execute p last (write_formatted u a b (">" ++ py_str_mul (zlen b) "B")) exchange in
  let e' := nwrite p last u a vals f exchange in
  nc_last e' = ex_last e /\ nc_sent e' = ex_sent e /\ forall x y, ex_result e = Some (Ok (RTuple [x; y])) -> nc_result e' = Ok [NInt x; NInt y].
Proof.
  intros NF NV CS P B L Hn Ha. cbv zeta. pose proof (pack_rep_B b B) as PB. destruct (words_of_bytes b (Z.to_nat n) B ltac:(unfold zlen in L; lia)) as (ws & Lw & Fw & ->).
  assert (Zw : zlen ws = n) by (unfold zlen; lia). assert (NB : words ws <> []) by (destruct ws; [cbn in Zw; lia|discriminate]).
  set (g := (">" ++ _)%string). assert (NG : g <> "") by (unfold g; discriminate).
  pose proof (build_write_formatted u a (words ws) g ws PB NB NG Ha ltac:(lia)) as BW.
  assert (W : nwrite_pdu a vals f = Ok (16 :: word a ++ word (zlen ws) ++ 2 * zlen ws :: words ws)).
  { unfold nwrite_pdu. destruct vals as [|v vals]; [congruence|]. destruct f as [|ch f]; [congruence|]. cbn [str_empty negb andb]. rewrite CS. cbn [bind]. rewrite words_zlen.
    replace (2 * zlen ws / 2) with (zlen ws) by lia. rewrite pack_BHHB, byteb_t, !fitsb_t, byteb_t by (auto; unfold fits, is_byte; lia). cbn [andb bind]. rewrite P. cbn [bind].
    rewrite <- !app_comm_cons, <- !app_assoc. reflexivity. }
  unfold nwrite, ncall, execute. rewrite W, BW. cbn [bl_pdu]. change (ea_slave (write_formatted u a (words ws) g)) with u.
  destruct (build_request p last _ u) as [last' [[hdr request]|er]]; cbn [nc_last nc_sent nc_result ex_last ex_sent ex_result bl_expected]; [|repeat split; intros; discriminate].
  split; [reflexivity|]. split; [reflexivity|]. intros x y. destruct (exchange request 8) as [response|]; [|discriminate]. cbn [bind]. destruct (parse_response hdr response) as [rp|]; [|discriminate]. cbn [bind].
  unfold execute_decode, ndecode. destruct (unpack2 ">BB" (py_slice rp 0 2)) as [[rc b2]|]; [|discriminate]. cbn [bind]. destruct (128 <? rc); [discriminate|].
  cbn [bl_is_read andb negb bl_format bl_digits]. change (ea_fc (write_formatted u a (words ws) g)) with 16. change (16 =? DEVICE_INFO) with false. change (ea_raw (write_formatted u a (words ws) g)) with false.
  cbn iota. rewrite nunpack_HH. destruct (unpack ">HH" _) as [l|]; [|discriminate]. change (0 <? 0) with false. change (16 =? READ_FILE_RECORD) with false. cbn iota. intros E. injection E as ->. reflexivity.
Qed.
Lemma nread_as p last u a n f g exchange : f <> "" -> g <> "" -> fits true a -> fits true n ->
  let e := execute p last (read_formatted u a n g true) exchange in
  let e' := nread p last u true a n f exchange in
  nc_last e' = ex_last e /\ nc_sent e' = ex_sent e /\ forall data, ex_result e = Some (Ok (RRaw data)) -> nc_result e' = nunpack f data.
Proof.
  intros NF NG Ha Hn. cbv zeta. pose proof (build_read_formatted u a n g true Ha Hn NG) as BR.
  unfold nread, ncall, execute. rewrite BR. cbn [bl_pdu]. change (ea_slave (read_formatted u a n g true)) with u.
  rewrite pack_BHH, byteb_t, !fitsb_t by (auto; unfold is_byte; lia). cbn [andb].
  change ([3] ++ word a ++ word n) with (3 :: word a ++ word n).
  destruct (build_request p last _ u) as [last' [[hdr request]|er]]; cbn [nc_last nc_sent nc_result ex_last ex_sent ex_result bl_expected]; [|repeat split; intros; discriminate].
  split; [reflexivity|]. split; [reflexivity|]. intros data. destruct (exchange request (2 * n + 5)) as [response|]; [|discriminate]. cbn [bind]. destruct (parse_response hdr response) as [rp|]; [|discriminate]. cbn [bind].
  unfold execute_decode, ndecode. destruct (unpack2 ">BB" (py_slice rp 0 2)) as [[rc b2]|]; [|discriminate]. cbn [bind]. destruct (128 <? rc); [discriminate|].
  cbn [bl_is_read andb negb bl_format bl_digits]. destruct (negb (b2 =? zlen (py_from rp 2))); [discriminate|]. change (ea_raw (read_formatted u a n g true)) with true. cbn iota. intros E. injection E as <-.
  unfold dflt_format. destruct f; [congruence|]. reflexivity.
Qed.
(* ------------------------------------------------------------------ C89 *)
(** Numbers written with a format are read back, with the same format, as the format can represent them. *)
Theorem C89_floats_come_back : forall p last d u a vals f little items b n s,
  0 <= last <= 65535 -> db_reachable d -> get_slave d u = Ok s -> fits true a -> f <> "" -> vals <> [] ->
  nparse_fmt f = Ok (little, items) -> npack f vals = Ok b -> zlen b = 2 * n -> 1 <= n <= 123 ->
  (exists old, stored s HOLDING_REGISTERS a n old) ->
  let '(d1, e1) := against p d (nwrite p last u a vals f) in
  let '(d2, e2) := against p d1 (nread p (nc_last e1) u true a n f) in
  nc_result e1 = Ok [NInt a; NInt n] /\ (exists vals', nc_result e2 = Ok vals' /\ come_back items vals vals') /\ others_same d d1 u.
Proof.
  intros p last d u a vals f little items b n s T D G Ha NF NV PF P L Hn St. destruct (npack_ok f vals b little items PF P) as (CS & B & vals' & U & C).
  assert (NB : b <> []) by (intros ->; change (zlen (@nil Z)) with 0 in L; lia). set (g := (">" ++ py_str_mul (zlen b) "B")%string). assert (NG : g <> "") by (unfold g; discriminate).
  pose proof (C62_format_round_trip p last d u a b g b n s true T D G Ha NG NB (pack_rep_B b B) L Hn St) as RT.
  unfold against, round_trip_args in *.
  destruct (nwrite_as p last u a vals f b n (fun request _ => answer d p request) NF NV CS P B L Hn Ha) as (W1 & W2 & W3). fold g in W1, W2, W3.
  set (e1 := execute p last (write_formatted u a b g) _) in *. set (e1' := nwrite p last u a vals f _) in *. cbv beta iota zeta in RT |- *. rewrite W2, W1.
  set (d1 := match ex_sent e1 with Some _ => _ | None => _ end) in *.
  destruct (nread_as p (ex_last e1) u a n f g (fun request _ => answer d1 p request) NF NG Ha ltac:(unfold fits; lia)) as (R1 & R2 & R3).
  set (e2 := execute p (ex_last e1) (read_formatted u a n g true) _) in *. destruct RT as (Q1 & Q2 & Q3).
  split; [now apply W3|]. split; [|exact Q3]. exists vals'. split; [|exact C]. rewrite (R3 b Q2). exact U.
Qed.
(** A float that is exactly a C float (and every infinity) comes back as itself from "f"; every float comes back as itself from "d"
    (a NaN as a NaN); every integer from an integer code. *)
Theorem C89_exact : forall x w, comes_back NF32 (NFloat x) w -> is_not_a_number x = false ->
  (is_number x = true -> nearest_float (real x) = real x) -> w = NFloat x.
Proof.
  intros x w C N R. cbn in C. rewrite N in C. destruct (is_number x) eqn:F; [|exact C]. destruct C as (y & -> & Fy & V & S). f_equal.
  apply B2R_Bsign_inj; auto. unfold real in *. rewrite V. now apply R.
Qed.
(** A list of floats written with one "f" each: it is refused as a whole, with OverflowError and before anything is sent, exactly when
    one of them rounds to no C float. *)
Lemma nparse_f n : nparse_fmt (">" ++ py_str_mul n "f") = Ok (false, repeat NF32 (Z.to_nat n)).
Proof.
  unfold py_str_mul. cbn [nparse_fmt append]. assert (E : nparse_items (str_rep (Z.to_nat n) "f") None = Ok (repeat NF32 (Z.to_nat n))).
  { induction (Z.to_nat n) as [|m IH]; [reflexivity|]. cbn [str_rep append nparse_items]. change (digit_of "f"%char) with (@None nat). change (is_space "f"%char) with false. cbn iota.
    change (ncode_item "f"%char) with (Ok NF32). cbn [bind]. rewrite IH. reflexivity. }
  rewrite E. reflexivity.
Qed.
Lemma narrow_too_large x : (exists y, narrow x = Ok y) /\ ~ too_large x \/ narrow x = Err PyOverflowError /\ too_large x.
Proof.
  destruct x as [s|s|s pl Hp|s m e H].
  - left. split; [eexists; reflexivity|]. intros [_ T]. unfold real in T. cbn [B2R] in T. unfold nearest_float in T. rewrite round_0, Rabs_R0 in T by typeclasses eauto.
    pose proof (bpow_gt_0 radix2 128). lra.
  - left. split; [eexists; reflexivity|]. intros [T _]. discriminate T.
  - left. split; [eexists; reflexivity|]. intros [T _]. discriminate T.
  - destruct (narrow_finite s m e H) as [(y & E & _ & _ & _ & T)|E]; [left; eauto|right; exact E].
Qed.
Lemma npack_floats xs : (exists b, npack_items false (repeat NF32 (length xs)) (map NFloat xs) = Ok b /\ length b = (4 * length xs)%nat /\ bytes b) /\ ~ Exists too_large xs
  \/ npack_items false (repeat NF32 (length xs)) (map NFloat xs) = Err PyOverflowError /\ Exists too_large xs.
Proof.
  induction xs as [|x xs IH].
  - left. split; [exists []; repeat split; constructor|]. intros E. inversion E.
  - cbn [length repeat map npack_items npack_one as_float bind]. destruct (narrow_too_large x) as [[(y & E) T]|[E T]]; rewrite E; cbn [bind]; [|right; split; [reflexivity|now left]].
    unfold pack_int. rewrite bits32_in. cbn [bind]. destruct IH as [[(b & Eb & Lb & Bb) Ex]|[Eb Ex]]; rewrite Eb; cbn [bind]; [|right; split; [reflexivity|now right]].
    left. split; [|intros Q; inversion Q; contradiction]. eexists. split; [reflexivity|]. rewrite app_length, be_bytes_length, Lb. split; [lia|]. apply bytes_app; [apply be_bytes_bytes|exact Bb].
Qed.
Theorem C89_too_large : forall p last u a xs exchange, fits true a -> 0 <= u <= 255 -> 0 <= last <= 65535 -> 1 <= zlen xs <= 61 ->
  let e := nwrite p last u a (map NFloat xs) (">" ++ py_str_mul (zlen xs) "f") exchange in
  (Exists too_large xs -> nc_sent e = None /\ nc_result e = Err PyOverflowError) /\
  (~ Exists too_large xs -> exists frame, nc_sent e = Some (frame, 8)).
Proof.
  intros p last u a xs exchange Ha Hu Hl Hx. cbv zeta. unfold nwrite.
  assert (W : nwrite_pdu a (map NFloat xs) (">" ++ py_str_mul (zlen xs) "f") =
    (data <- npack_items false (repeat NF32 (length xs)) (map NFloat xs) ;; Ok (([16] ++ word a ++ word (2 * zlen xs) ++ [4 * zlen xs]) ++ data))).
  { unfold nwrite_pdu. destruct (map NFloat xs) as [|v t] eqn:M; [destruct xs; [cbn in Hx; lia|discriminate M]|]. 
    change (str_empty (">" ++ py_str_mul (zlen xs) "f")) with false. cbn [negb andb]. unfold ncalcsize, npack. rewrite nparse_f. cbn [bind snd fst]. replace (Z.to_nat (zlen xs)) with (length xs) by (unfold zlen; lia).
    assert (Sz : forall k, nitems_size (repeat NF32 k) = (4 * k)%nat) by (induction k as [|k IHk]; [reflexivity|cbn [repeat nitems_size fold_right nitem_size]; fold (nitems_size (repeat NF32 k)); lia]).
    rewrite Sz. replace (Z.of_nat (4 * length xs)) with (4 * zlen xs) by (unfold zlen; lia). replace (4 * zlen xs / 2) with (2 * zlen xs) by lia.
    rewrite pack_BHHB, byteb_t, !fitsb_t, byteb_t by (auto; unfold fits, is_byte; lia). cbn [andb bind]. reflexivity. }
  rewrite W. destruct (npack_floats xs) as [[(b & Eb & Lb & Bb) Ex]|[Eb Ex]]; rewrite Eb; cbn [bind]; (split; [intros Q|intros Q]); try contradiction; [|now split].
  unfold ncall. set (pdu := _ ++ b).
  assert (Zp : zlen pdu = 6 + 4 * zlen xs) by (unfold pdu, zlen; rewrite !app_length, Lb; cbn [length word]; lia).
  assert (Bp : bytes pdu).
  { unfold pdu. apply bytes_app; [|exact Bb]. constructor; [unfold is_byte; lia|]. apply bytes_app; [apply word_bytes|]. apply bytes_app; [apply word_bytes|]. constructor; [unfold is_byte; lia|constructor]. }
  destruct (build_request_exact p last pdu u Bp (framable_small p pdu ltac:(lia)) Hl Hu) as (h & last' & R & _). rewrite R. cbn [nc_sent]. eauto.
Qed.
(** What goes to the device: the bits of each number, as IEEE 754 lays them out, in the byte order of the format. *)
Lemma nparse_rep (little : bool) n (ch : string) it : ch = "f" /\ it = NF32 \/ ch = "d" /\ it = NF64 ->
  nparse_fmt ((if little then "<" else ">") ++ py_str_mul n ch) = Ok (little, repeat it (Z.to_nat n)).
Proof.
  intros H. unfold py_str_mul. assert (E : nparse_items (str_rep (Z.to_nat n) ch) None = Ok (repeat it (Z.to_nat n))).
  { induction (Z.to_nat n) as [|m IH]; [reflexivity|]. destruct H as [[-> ->]|[-> ->]]; cbn [str_rep append nparse_items];
      [change (digit_of "f"%char) with (@None nat); change (is_space "f"%char) with false|change (digit_of "d"%char) with (@None nat); change (is_space "d"%char) with false]; cbn iota;
      [change (ncode_item "f"%char) with (Ok NF32)|change (ncode_item "d"%char) with (Ok NF64)]; cbn [bind]; rewrite IH; reflexivity. }
  destruct little; cbn [append nparse_fmt]; rewrite E; reflexivity.
Qed.
Lemma nwrite_sent p last u a vals f b n exchange : f <> "" -> vals <> [] -> ncalcsize f = Ok (2 * n) -> npack f vals = Ok b -> bytes b -> zlen b = 2 * n -> 1 <= n <= 123 -> fits true a ->
  0 <= u <= 255 -> 0 <= last <= 65535 ->
  nc_sent (nwrite p last u a vals f exchange) = Some (on_wire (ids_for p last) u (16 :: word a ++ word n ++ 2 * n :: b), 8).
Proof.
  intros NF NV CS P B L Hn Ha Hu Hl. unfold nwrite.
  assert (W : nwrite_pdu a vals f = Ok (16 :: word a ++ word n ++ 2 * n :: b)).
  { unfold nwrite_pdu. destruct vals as [|v vals]; [congruence|]. destruct f as [|ch f]; [congruence|]. cbn [str_empty negb andb]. rewrite CS. cbn [bind].
    replace (2 * n / 2) with n by lia. rewrite pack_BHHB, byteb_t, !fitsb_t, byteb_t by (auto; unfold fits, is_byte; lia). cbn [andb bind]. rewrite P. cbn [bind].
    rewrite <- !app_comm_cons, <- !app_assoc. reflexivity. }
  rewrite W. unfold ncall. set (pdu := 16 :: _).
  assert (Zp : zlen pdu = 6 + 2 * n) by (unfold pdu, zlen in *; cbn [length]; rewrite !app_length; cbn [length word]; lia).
  assert (Bp : bytes pdu).
  { unfold pdu. constructor; [unfold is_byte; lia|]. apply bytes_app; [apply word_bytes|]. apply bytes_app; [apply word_bytes|]. constructor; [unfold is_byte; lia|exact B]. }
  destruct (build_request_exact p last pdu u Bp (framable_small p pdu ltac:(lia)) Hl Hu) as (h & last' & R & _). rewrite R. reflexivity.
Qed.
Lemma be_eight v : be_bytes 8 v = eight_bytes false v.
Proof. unfold eight_bytes. cbn [be_bytes Z.of_nat Pos.of_succ_nat Pos.succ]. rewrite Z.div_1_r. reflexivity. Qed.
Lemma be_four v : be_bytes 4 v = four_bytes false v.
Proof. unfold four_bytes. cbn [be_bytes Z.of_nat Pos.of_succ_nat Pos.succ]. rewrite Z.div_1_r. reflexivity. Qed.
Lemma pack_eight little v : int_in_range 8 false v = true -> pack_int 8 false little v = Ok (eight_bytes little v).
Proof. intros H. unfold pack_int. rewrite H, be_eight. now destruct little. Qed.
Lemma pack_four little v : int_in_range 4 false v = true -> pack_int 4 false little v = Ok (four_bytes little v).
Proof. intros H. unfold pack_int. rewrite H, be_four. now destruct little. Qed.
Lemma eight_ok little v : bytes (eight_bytes little v) /\ length (eight_bytes little v) = 8%nat.
Proof. rewrite <- (be_bytes_length 8 v), be_eight. destruct little; unfold eight_bytes; cbn [rev app]; split; try reflexivity; repeat (constructor; [unfold is_byte; apply Z.mod_pos_bound; lia|]); constructor. Qed.
Lemma four_ok little v : bytes (four_bytes little v) /\ length (four_bytes little v) = 4%nat.
Proof. rewrite <- (be_bytes_length 4 v), be_four. destruct little; unfold four_bytes; cbn [rev app]; split; try reflexivity; repeat (constructor; [unfold is_byte; apply Z.mod_pos_bound; lia|]); constructor. Qed.
Lemma flat_ok {A} (f : A -> list Z) k l : (forall x, bytes (f x) /\ length (f x) = k) -> bytes (flat_map f l) /\ length (flat_map f l) = (k * length l)%nat.
Proof.
  intros H. induction l as [|x l [IB IL]]; [split; [constructor|cbn; lia]|]. cbn [flat_map]. destruct (H x) as [Bx Lx]. split; [now apply bytes_app|]. rewrite app_length, Lx, IL. cbn [length]. lia.
Qed.
Theorem C89_doubles_sent : forall p last u a xs (little : bool) exchange, fits true a -> 0 <= u <= 255 -> 0 <= last <= 65535 -> 1 <= zlen xs <= 30 ->
  Forall (fun x => is_not_a_number x = false) xs ->
  nc_sent (nwrite p last u a (map NFloat xs) ((if little then "<" else ">") ++ py_str_mul (zlen xs) "d") exchange) =
  Some (on_wire (ids_for p last) u (16 :: word a ++ word (4 * zlen xs) ++ 8 * zlen xs :: flat_map (fun x => eight_bytes little (bits_of_b64 x)) xs), 8).
Proof.
  intros p last u a xs little exchange Ha Hu Hl Hx NN.
  pose proof (nparse_rep little (zlen xs) "d" NF64 (or_intror (conj eq_refl eq_refl))) as F.
  assert (Sz : forall k, nitems_size (repeat NF64 k) = (8 * k)%nat) by (induction k as [|k IHk]; [reflexivity|cbn [repeat nitems_size fold_right nitem_size]; fold (nitems_size (repeat NF64 k)); lia]).
  destruct (flat_ok (fun x => eight_bytes little (bits_of_b64 x)) 8 xs (fun x => eight_ok little _)) as [Bb Lb].
  replace (8 * zlen xs) with (2 * (4 * zlen xs)) by lia. apply nwrite_sent; auto; try lia.
  - destruct little; discriminate.
  - destruct xs; [cbn in Hx; lia|discriminate].
  - unfold ncalcsize. rewrite F. cbn [bind snd]. rewrite Sz. f_equal. unfold zlen. lia.
  - unfold npack. rewrite F. cbn [bind fst snd]. replace (Z.to_nat (zlen xs)) with (length xs) by (unfold zlen; lia). clear - NN.
    induction NN as [|x xs Nx NN IH]; [reflexivity|]. cbn [length repeat map npack_items npack_one as_float bind flat_map].
    rewrite pack_eight by apply bits64_in. cbn [bind]. rewrite IH. cbn [bind]. destruct x; try reflexivity. discriminate Nx.
  - unfold zlen in *. rewrite Lb. lia.
Qed.
Theorem C89_floats_sent : forall p last u a xs (little : bool) exchange, fits true a -> 0 <= u <= 255 -> 0 <= last <= 65535 -> 1 <= zlen xs <= 61 ->
  Forall (fun x => is_number x = true /\ ~ too_large x) xs ->
  exists ys, Forall2 nearest_to xs ys /\
  nc_sent (nwrite p last u a (map NFloat xs) ((if little then "<" else ">") ++ py_str_mul (zlen xs) "f") exchange) =
  Some (on_wire (ids_for p last) u (16 :: word a ++ word (2 * zlen xs) ++ 4 * zlen xs :: flat_map (fun y => four_bytes little (bits_of_b32 y)) ys), 8).
Proof.
  intros p last u a xs little exchange Ha Hu Hl Hx NN.
  pose proof (nparse_rep little (zlen xs) "f" NF32 (or_introl (conj eq_refl eq_refl))) as F.
  assert (Sz : forall k, nitems_size (repeat NF32 k) = (4 * k)%nat) by (induction k as [|k IHk]; [reflexivity|cbn [repeat nitems_size fold_right nitem_size]; fold (nitems_size (repeat NF32 k)); lia]).
  assert (Y : exists ys, Forall2 nearest_to xs ys /\ npack_items little (repeat NF32 (length xs)) (map NFloat xs) = Ok (flat_map (fun y => four_bytes little (bits_of_b32 y)) ys)).
  { clear - NN. induction NN as [|x xs [Nx Tx] NN (ys & F2 & E)]; [exists []; split; [constructor|reflexivity]|].
    assert (Ny : exists y, narrow x = Ok y /\ nearest_to x y).
    { destruct x as [s|s|s pl Hp|s m e H]; try discriminate Nx.
      - exists (B754_zero 24 128 s). split; [reflexivity|]. repeat split. unfold real. cbn [B2R]. unfold nearest_float. now rewrite round_0 by typeclasses eauto.
      - destruct (narrow_finite s m e H) as [(y & Ey & Fy & Vy & Sy & _)|[_ T]]; [|contradiction]. exists y. split; [exact Ey|]. repeat split; auto. }
    destruct Ny as (y & Ey & Hy). exists (y :: ys). split; [now constructor|]. cbn [length repeat map npack_items npack_one as_float bind flat_map]. rewrite Ey. cbn [bind].
    rewrite pack_four by apply bits32_in. cbn [bind]. now rewrite E. }
  destruct Y as (ys & F2 & E). exists ys. split; [exact F2|]. assert (Ly : length xs = length ys) by (clear - F2; induction F2; cbn [length]; congruence).
  destruct (flat_ok (fun y => four_bytes little (bits_of_b32 y)) 4 ys (fun y => four_ok little _)) as [Bb Lb].
  replace (4 * zlen xs) with (2 * (2 * zlen xs)) by lia. apply nwrite_sent; auto; try lia.
  - destruct little; discriminate.
  - destruct xs; [cbn in Hx; lia|discriminate].
  - unfold ncalcsize. rewrite F. cbn [bind snd]. rewrite Sz. f_equal. unfold zlen. lia.
  - unfold npack. rewrite F. cbn [bind fst snd]. replace (Z.to_nat (zlen xs)) with (length xs) by (unfold zlen; lia). exact E.
  - unfold zlen in *. rewrite Lb, <- Ly. lia.
Qed.
(** A float without data_format, or for an integer code, is refused with struct.error and nothing is sent. *)
Theorem C89_needs_format : forall p last u a vals x exchange, In (NFloat x) vals -> fits true a -> zlen vals <= 123 ->
  nc_sent (nwrite p last u a vals "" exchange) = None /\ nc_result (nwrite p last u a vals "" exchange) = Err StructError.
Proof.
  intros p last u a vals x exchange I Ha L. unfold nwrite, nwrite_pdu. rewrite andb_false_r. cbn [bind]. pose proof (zlen_nonneg vals).
  replace (2 * zlen vals / 2) with (zlen vals) by lia. rewrite pack_BHHB, byteb_t, !fitsb_t, byteb_t by (auto; unfold fits, is_byte; lia). cbn [andb bind].
  assert (E : npack_registers vals = Err StructError).
  { clear - I. induction vals as [|v vals IH]; [destruct I|]. destruct v as [z|y]; [|reflexivity]. destruct I as [I|I]; [discriminate I|]. cbn [npack_registers]. rewrite (IH I).
    unfold pack. destruct (0 <=? z);
      [change (parse_fmt ">H") with (Ok {| pf_little := false; pf_items := [FInt 2 false] |})|change (parse_fmt ">h") with (Ok {| pf_little := false; pf_items := [FInt 2 true] |})];
      cbn [bind pf_items pf_little pack_items]; unfold pack_int; match goal with |- context [int_in_range 2 ?b z] => destruct (int_in_range 2 b z) end; reflexivity. }
  rewrite E. now split.
Qed.
Lemma npack_integer_code : forall little items1 n sg items2 vals1 x vals2 b1,
  npack_items little items1 vals1 = Ok b1 ->
  npack_items little (items1 ++ NCode n sg :: items2) (vals1 ++ NFloat x :: vals2) = Err StructError.
Proof.
  intros little items1 n sg items2. induction items1 as [|i items1 IH]; intros vals1 x vals2 b1 E.
  - destruct vals1; [|discriminate E]. reflexivity.
  - destruct i as [m s0| | |]; cbn [npack_items app] in E |- *.
    2: { destruct (npack_items little items1 vals1) as [b|] eqn:Q; [|discriminate E]. now rewrite (IH _ x vals2 _ Q). }
    all: destruct vals1 as [|v vals1]; [discriminate E|]; cbn [app]; match type of E with bind ?z _ = _ => destruct z as [b0|]; [|discriminate E] end; cbn [bind] in E |- *;
      destruct (npack_items little items1 vals1) as [b|] eqn:Q; [|discriminate E]; now rewrite (IH _ x vals2 _ Q).
Qed.
Theorem C89_integer_code : forall p last u a f little items1 n sg items2 vals1 x vals2 b1 exchange,
  nparse_fmt f = Ok (little, items1 ++ NCode n sg :: items2) -> npack_items little items1 vals1 = Ok b1 -> f <> "" ->
  let e := nwrite p last u a (vals1 ++ NFloat x :: vals2) f exchange in nc_sent e = None /\ nc_result e = Err StructError.
Proof.
  intros p last u a f little items1 n sg items2 vals1 x vals2 b1 exchange F P NF. cbv zeta. unfold nwrite.
  assert (E : nwrite_pdu a (vals1 ++ NFloat x :: vals2) f = Err StructError).
  { unfold nwrite_pdu. destruct f as [|c f]; [congruence|]. cbn [str_empty negb].
    assert (T : match vals1 ++ NFloat x :: vals2 with [] => true | _ => false end = false) by (destruct vals1; reflexivity). rewrite T. cbn [negb andb].
    unfold ncalcsize, npack. rewrite F. cbn [bind fst snd]. rewrite pack_BHHB.
    match goal with |- context [if ?c then _ else _] => destruct c end; [|reflexivity]. cbn [bind]. now rewrite (npack_integer_code _ _ _ _ _ _ x vals2 _ P). }
  rewrite E. now split.
Qed.
(** 3.141592653589793 written as "f" comes back as 3.1415927410125732, written as "d" as itself; 1e39 is refused *)
Definition bits_of_num (v : num) : Z := match v with NInt z => z | NFloat x => bits_of_b64 x end.
Definition pi64 : binary64 := b64_of_bits 4614256656552045848.
Example C89_ex : get_slave demo_db 3 <> Err MissingKeyError /\
  (let '(d1, e1) := against TCP demo_db (nwrite TCP 0 3 104 [NFloat pi64; NInt 7] ">fi") in
   let '(d2, e2) := against TCP d1 (nread TCP 1 3 true 104 4 ">fi") in
   match nc_result e2 with Ok l => Some (map bits_of_num l) | Err _ => None end = Some [4614256656748904448; 7]) /\
  (let '(d1, e1) := against TCP demo_db (nwrite TCP 0 3 104 [NFloat pi64] "<d") in
   let '(d2, e2) := against TCP d1 (nread TCP 1 3 true 104 4 "<d") in
   match nc_result e2 with Ok l => Some (map bits_of_num l) | Err _ => None end = Some [4614256656552045848]) /\
  nc_result (snd (against TCP demo_db (nwrite TCP 0 3 104 [NFloat (b64_of_bits 5190260616003865117)] ">f"))) = Err PyOverflowError.
Proof. split; [intros E; discriminate E|]. vm_compute. repeat split. Qed.

(** Pad bytes are zeros. *)
Theorem C89_pad : forall (little : bool) r vals b k, let o := (if little then "<" else ">")%char in
  npack (String o r) vals = Ok b -> npack (String o (py_str_mul k "x" ++ r)%string) vals = Ok (repeat 0 (Z.to_nat k) ++ b).
Proof.
  intros little r vals b k o H. unfold py_str_mul. set (n := Z.to_nat k). clearbody n. revert H. unfold npack.
  assert (E : forall s, nparse_fmt (String o s) = (items <- nparse_items s None ;; Ok (little, items))) by (intros s; unfold o; destruct little; reflexivity).
  rewrite !E. destruct (nparse_items r None) as [items|e] eqn:P; [|discriminate]. cbn [bind fst snd]. intros H.
  assert (Q : nparse_items (str_rep n "x" ++ r)%string None = Ok (repeat NPad n ++ items)) by (induction n as [|n IH]; [exact P|]; cbn [str_rep append]; cbn [nparse_items]; change (digit_of "x") with (@None nat); change (is_space "x") with false; cbv iota; cbn [bind]; rewrite IH; reflexivity).
  rewrite Q. cbn [bind fst snd]. induction n as [|n IH]; [exact H|]. cbn [repeat app npack_items].
  assert (Q' : nparse_items (str_rep n "x" ++ r)%string None = Ok (repeat NPad n ++ items)) by (clear - P; induction n as [|n IH]; [exact P|]; cbn [str_rep append]; cbn [nparse_items]; change (digit_of "x") with (@None nat); change (is_space "x") with false; cbv iota; cbn [bind]; rewrite IH; reflexivity).
  rewrite (IH Q'). reflexivity.
Qed.
Print Assumptions C89_floats_come_back.
Print Assumptions C89_exact.
Print Assumptions C89_too_large.
Print Assumptions C89_doubles_sent.
Print Assumptions C89_floats_sent.
Print Assumptions C89_needs_format.
Print Assumptions C89_integer_code.
Print Assumptions C89_pad.
