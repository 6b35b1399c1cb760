(** Characterisation of the struct formats used by the code. *)
From Verif Require Export BaseFacts PyStruct Spec.

Lemma be_bytes_1 v : be_bytes 1 v = [v mod 256].
Proof. cbn. now rewrite Z.div_1_r. Qed.
Lemma be_bytes_2 v : be_bytes 2 v = word v.
Proof. cbn. now rewrite Z.div_1_r. Qed.

Lemma be_val_1 a : be_val [a] = a.
Proof. cbn. lia. Qed.
Lemma be_val_2 a b : be_val [a; b] = a * 256 + b.
Proof. cbn. lia. Qed.

Definition fits_b (unsigned : bool) (v : Z) : bool :=
  if unsigned then (0 <=? v) && (v <? 65536) else (-32768 <=? v) && (v <? 32768).
Lemma fits_b_iff u v : fits_b u v = true <-> fits u v.
Proof. unfold fits_b, fits. destruct u; lia. Qed.

Definition byte_b (v : Z) : bool := (0 <=? v) && (v <? 256).
Lemma byte_b_iff v : byte_b v = true <-> is_byte v.
Proof. unfold byte_b, is_byte. lia. Qed.

Lemma pack_B v : pack ">B" [v] = if byte_b v then Ok [v] else Err StructError.
Proof.
  change (pack ">B" [v]) with
    (b <- (if byte_b v then Ok (be_bytes 1 v) else Err StructError) ;; Ok (b ++ [])).
  unfold bind. rewrite be_bytes_1. destruct (byte_b v) eqn:E; [|reflexivity].
  apply byte_b_iff in E. unfold is_byte in E. cbn. rewrite Z.mod_small by lia. reflexivity.
Qed.
Lemma pack_B_ok v : is_byte v -> pack ">B" [v] = Ok [v].
Proof. intros H. rewrite pack_B. apply byte_b_iff in H. now rewrite H. Qed.

Lemma pack_sb v : pack ">b" [v] =
  if (-128 <=? v) && (v <? 128) then Ok [v mod 256] else Err StructError.
Proof.
  change (pack ">b" [v]) with
    (b <- (if (-128 <=? v) && (v <? 128) then Ok (be_bytes 1 v) else Err StructError) ;; Ok (b ++ [])).
  unfold bind. rewrite be_bytes_1. now destruct ((-128 <=? v) && (v <? 128)).
Qed.

Lemma pack_H v : pack ">H" [v] = if fits_b true v then Ok (word v) else Err StructError.
Proof.
  change (pack ">H" [v]) with
    (b <- (if fits_b true v then Ok (be_bytes 2 v) else Err StructError) ;; Ok (b ++ [])).
  unfold bind. rewrite be_bytes_2. now destruct (fits_b true v).
Qed.
Lemma pack_h v : pack ">h" [v] = if fits_b false v then Ok (word v) else Err StructError.
Proof.
  change (pack ">h" [v]) with
    (b <- (if fits_b false v then Ok (be_bytes 2 v) else Err StructError) ;; Ok (b ++ [])).
  unfold bind. rewrite be_bytes_2. now destruct (fits_b false v).
Qed.

Lemma pack_BB a b : pack ">BB" [a; b] =
  if byte_b a && byte_b b then Ok [a; b] else Err StructError.
Proof.
  change (pack ">BB" [a; b]) with
    (x <- (if byte_b a then Ok (be_bytes 1 a) else Err StructError) ;;
     r <- (y <- (if byte_b b then Ok (be_bytes 1 b) else Err StructError) ;; Ok (y ++ [])) ;;
     Ok (x ++ r)).
  unfold bind. rewrite !be_bytes_1.
  destruct (byte_b a) eqn:Ea, (byte_b b) eqn:Eb; try reflexivity.
  apply byte_b_iff in Ea, Eb. unfold is_byte in *. cbn. rewrite !Z.mod_small by lia. reflexivity.
Qed.

Lemma pack_HH a b : fits true a -> fits true b -> pack ">HH" [a; b] = Ok (word a ++ word b).
Proof.
  intros Ha Hb. apply fits_b_iff in Ha, Hb.
  change (pack ">HH" [a; b]) with
    (x <- (if fits_b true a then Ok (be_bytes 2 a) else Err StructError) ;;
     r <- (y <- (if fits_b true b then Ok (be_bytes 2 b) else Err StructError) ;; Ok (y ++ [])) ;;
     Ok (x ++ r)).
  unfold bind. rewrite !be_bytes_2, Ha, Hb. now rewrite app_nil_r.
Qed.

(** struct.pack of a generic big-endian format, item by item *)
Lemma pack_items_H_cons sg t v vs :
  pack_items false (FInt 2 sg :: t) (v :: vs) =
  (if fits_b (negb sg) v
   then (r <- pack_items false t vs ;; Ok (word v ++ r)) else Err StructError).
Proof.
  cbn [pack_items]. unfold pack_int.
  replace (int_in_range 2 sg v) with (fits_b (negb sg) v) by (now destruct sg).
  destruct (fits_b (negb sg) v); cbn [bind]; [|reflexivity].
  rewrite be_bytes_2. reflexivity.
Qed.
Lemma pack_items_B_cons t v vs :
  pack_items false (FInt 1 false :: t) (v :: vs) =
  (if byte_b v then (r <- pack_items false t vs ;; Ok (v :: r)) else Err StructError).
Proof.
  cbn [pack_items]. unfold pack_int.
  replace (int_in_range 1 false v) with (byte_b v) by reflexivity.
  destruct (byte_b v) eqn:E; cbn [bind]; [|reflexivity].
  rewrite be_bytes_1. apply byte_b_iff in E. unfold is_byte in E.
  rewrite Z.mod_small by lia. reflexivity.
Qed.

(** unpack *)
Lemma unpack_len_err f pf b :
  parse_fmt f = Ok pf -> length b <> items_size (pf_items pf) -> unpack f b = Err StructError.
Proof.
  intros Hp Hn. unfold unpack. rewrite Hp. cbn [bind].
  destruct (length b =? items_size (pf_items pf))%nat eqn:E; [|reflexivity].
  apply Nat.eqb_eq in E. contradiction.
Qed.
Lemma unpack_len_ok f pf b :
  parse_fmt f = Ok pf -> length b = items_size (pf_items pf) ->
  unpack f b = Ok (unpack_items (pf_little pf) (pf_items pf) b).
Proof.
  intros Hp Hn. unfold unpack. rewrite Hp. cbn [bind].
  now rewrite <- Hn, Nat.eqb_refl.
Qed.

Lemma unpack_B a : unpack ">B" [a] = Ok [a].
Proof. change (unpack ">B" [a]) with (Ok [be_val [a]]). now rewrite ?be_val_2, ?be_val_1. Qed.
Lemma unpack_sb a : unpack ">b" [a] = Ok [if 128 <=? a then a - 256 else a].
Proof.
  change (unpack ">b" [a]) with (Ok [if (128 <=? be_val [a]) then be_val [a] - 256 else be_val [a]]).
  now rewrite be_val_1.
Qed.
Lemma unpack_H a b : unpack ">H" [a; b] = Ok [a * 256 + b].
Proof. change (unpack ">H" [a; b]) with (Ok [be_val [a; b]]). now rewrite ?be_val_2, ?be_val_1. Qed.
Lemma unpack_h a b : unpack ">h" [a; b] = Ok [reg_of_word false (a * 256 + b)].
Proof.
  change (unpack ">h" [a; b]) with
    (Ok [if (32768 <=? be_val [a; b]) then be_val [a; b] - 65536 else be_val [a; b]]).
  rewrite be_val_2. unfold reg_of_word. do 2 f_equal.
  destruct (32768 <=? a * 256 + b) eqn:E1, (a * 256 + b <? 32768) eqn:E2; lia.
Qed.
Lemma unpack_HH a b c d : unpack ">HH" [a; b; c; d] = Ok [a * 256 + b; c * 256 + d].
Proof. change (unpack ">HH" [a; b; c; d]) with (Ok [be_val [a; b]; be_val [c; d]]). now rewrite ?be_val_2, ?be_val_1. Qed.
Lemma unpack_Hh a b c d :
  unpack ">Hh" [a; b; c; d] = Ok [a * 256 + b; reg_of_word false (c * 256 + d)].
Proof.
  change (unpack ">Hh" [a; b; c; d]) with
    (Ok [be_val [a; b]; if (32768 <=? be_val [c; d]) then be_val [c; d] - 65536 else be_val [c; d]]).
  rewrite !be_val_2. unfold reg_of_word. do 3 f_equal.
  destruct (32768 <=? c * 256 + d) eqn:E1, (c * 256 + d <? 32768) eqn:E2; lia.
Qed.
Lemma unpack_HHB a b c d e : unpack ">HHB" [a; b; c; d; e] = Ok [a * 256 + b; c * 256 + d; e].
Proof. change (unpack ">HHB" [a; b; c; d; e]) with (Ok [be_val [a; b]; be_val [c; d]; be_val [e]]). now rewrite ?be_val_2, ?be_val_1. Qed.
Lemma unpack_HHH a b c d e f :
  unpack ">HHH" [a; b; c; d; e; f] = Ok [a * 256 + b; c * 256 + d; e * 256 + f].
Proof. change (unpack ">HHH" [a; b; c; d; e; f]) with (Ok [be_val [a; b]; be_val [c; d]; be_val [e; f]]). now rewrite ?be_val_2, ?be_val_1. Qed.
Lemma unpack_HHHB a b c d e f g :
  unpack ">HHHB" [a; b; c; d; e; f; g] = Ok [a * 256 + b; c * 256 + d; e * 256 + f; g].
Proof. change (unpack ">HHHB" [a; b; c; d; e; f; g]) with (Ok [be_val [a; b]; be_val [c; d]; be_val [e; f]; be_val [g]]). now rewrite ?be_val_2, ?be_val_1. Qed.
Lemma unpack_HHHHB a b c d e f g h i :
  unpack ">HHHHB" [a; b; c; d; e; f; g; h; i]
  = Ok [a * 256 + b; c * 256 + d; e * 256 + f; g * 256 + h; i].
Proof. change (unpack ">HHHHB" [a; b; c; d; e; f; g; h; i]) with (Ok [be_val [a; b]; be_val [c; d]; be_val [e; f]; be_val [g; h]; be_val [i]]). now rewrite ?be_val_2, ?be_val_1. Qed.
Lemma unpack_BB a b : unpack ">BB" [a; b] = Ok [a; b].
Proof. change (unpack ">BB" [a; b]) with (Ok [be_val [a]; be_val [b]]). now rewrite ?be_val_2, ?be_val_1. Qed.

(** words *)
Lemma word_value a b : is_byte a -> is_byte b -> word (a * 256 + b) = [a; b].
Proof. unfold is_byte, word. intros. f_equal; [|f_equal]; lia. Qed.
Lemma word_bytes v : bytes (word v).
Proof. unfold word, bytes, is_byte. repeat constructor; lia. Qed.
Lemma word_join v : 0 <= v < 65536 -> ((v / 256) mod 256) * 256 + v mod 256 = v.
Proof. lia. Qed.
Lemma word_join_mod v : ((v / 256) mod 256) * 256 + v mod 256 = v mod 65536.
Proof. lia. Qed.
Lemma reg_of_word_word u v : fits u v -> reg_of_word u (v mod 65536) = v.
Proof.
  unfold fits, reg_of_word. destruct u; intros H.
  - lia.
  - destruct (v mod 65536 <? 32768) eqn:E; lia.
Qed.
Lemma reg_of_word_fits u w : 0 <= w < 65536 -> fits u (reg_of_word u w).
Proof. unfold fits, reg_of_word. destruct u; [lia|]. destruct (w <? 32768) eqn:E; lia. Qed.
Lemma words_bytes l : bytes (words l).
Proof. induction l as [|x l IH]; cbn [words flat_map]; [constructor|]. apply bytes_app; [apply word_bytes|exact IH]. Qed.
Lemma words_length l : length (words l) = (2 * length l)%nat.
Proof. unfold words. induction l as [|x l IH]; cbn [flat_map]; [reflexivity|]. rewrite app_length, IH. cbn. lia. Qed.
Lemma words_zlen l : zlen (words l) = 2 * zlen l.
Proof. unfold zlen. rewrite words_length. lia. Qed.
Lemma words_app l1 l2 : words (l1 ++ l2) = words l1 ++ words l2.
Proof. unfold words. now rewrite flat_map_app. Qed.

Lemma is_byte_hi v : is_byte ((v / 256) mod 256).
Proof. unfold is_byte. lia. Qed.
Lemma is_byte_lo v : is_byte (v mod 256).
Proof. unfold is_byte. lia. Qed.
