(** More about struct: the fixed formats of the master, repeated formats, and
    unpack after pack for every format. *)
From Coq Require Import Lia ZifyBool ZifyNat.
From Verif Require Import Base BaseFacts PyStruct Spec StructFacts.
Ltac Zify.zify_post_hook ::= Z.div_mod_to_equations.
Open Scope Z_scope.

Ltac known_fmt := unfold pack; match goal with |- context [parse_fmt ?f] =>
  let v := eval vm_compute in (parse_fmt f) in change (parse_fmt f) with v end; cbn [bind pf_little pf_items];
  repeat first [rewrite pack_items_H_cons | rewrite pack_items_B_cons]; cbn [pack_items negb].
Ltac split_pack := repeat match goal with |- context [if ?b then _ else _] => destruct b eqn:?; cbn [bind andb] end;
  rewrite ?app_nil_r, <- ?app_assoc; cbn [app]; try reflexivity; try discriminate.

Lemma pack_BHH x a q : pack ">BHH" [x; a; q] =
  if byte_b x && (fits_b true a && fits_b true q) then Ok (x :: word a ++ word q) else Err StructError.
Proof. known_fmt. destruct (byte_b x), (fits_b true a), (fits_b true q); cbn [andb bind]; rewrite ?app_nil_r; reflexivity. Qed.
Lemma pack_BHh x a q : pack ">BHh" [x; a; q] =
  if byte_b x && (fits_b true a && fits_b false q) then Ok (x :: word a ++ word q) else Err StructError.
Proof. known_fmt. destruct (byte_b x), (fits_b true a), (fits_b false q); cbn [andb bind]; rewrite ?app_nil_r; reflexivity. Qed.
Lemma pack_BHHH x a b c : pack ">BHHH" [x; a; b; c] =
  if byte_b x && (fits_b true a && (fits_b true b && fits_b true c)) then Ok (x :: word a ++ word b ++ word c) else Err StructError.
Proof. known_fmt. destruct (byte_b x), (fits_b true a), (fits_b true b), (fits_b true c); cbn [andb bind]; rewrite ?app_nil_r; reflexivity. Qed.
Lemma pack_BHHB x a b c : pack ">BHHB" [x; a; b; c] =
  if byte_b x && (fits_b true a && (fits_b true b && byte_b c)) then Ok (x :: word a ++ word b ++ [c]) else Err StructError.
Proof. known_fmt. destruct (byte_b x), (fits_b true a), (fits_b true b), (byte_b c); cbn [andb bind]; rewrite ?app_nil_r; reflexivity. Qed.
Lemma pack_BH x a : pack ">BH" [x; a] =
  if byte_b x && fits_b true a then Ok (x :: word a) else Err StructError.
Proof. known_fmt. destruct (byte_b x), (fits_b true a); cbn [andb bind]; rewrite ?app_nil_r; reflexivity. Qed.
Lemma pack_BBBB x a b c : pack ">BBBB" [x; a; b; c] =
  if byte_b x && (byte_b a && (byte_b b && byte_b c)) then Ok [x; a; b; c] else Err StructError.
Proof. known_fmt. destruct (byte_b x), (byte_b a), (byte_b b), (byte_b c); cbn [andb bind]; reflexivity. Qed.
Lemma pack_BHHHHB x a b c d e : pack ">BHHHHB" [x; a; b; c; d; e] =
  if byte_b x && (fits_b true a && (fits_b true b && (fits_b true c && (fits_b true d && byte_b e))))
  then Ok (x :: word a ++ word b ++ word c ++ word d ++ [e]) else Err StructError.
Proof. known_fmt. destruct (byte_b x), (fits_b true a), (fits_b true b), (fits_b true c), (fits_b true d), (byte_b e); cbn [andb bind]; rewrite ?app_nil_r; reflexivity. Qed.

(** ** Formats made of repeated characters *)
Lemma parse_items_rep n c it rest l : digit_of c = None -> is_space c = false -> code_item c = Ok it ->
  parse_items rest None = Ok l ->
  parse_items (str_rep n (String c EmptyString) ++ rest)%string None = Ok (repeat it n ++ l).
Proof.
  intros D S C R. induction n as [|n IH]; [exact R|].
  change (str_rep (Datatypes.S n) (String c "") ++ rest)%string with (String c (str_rep n (String c "") ++ rest)).
  cbn [parse_items]. rewrite D, S, C. cbn [bind]. rewrite IH. reflexivity.
Qed.
Lemma str_app_nil s : (s ++ "")%string = s.
Proof. induction s as [|c s IH]; cbn; congruence. Qed.
Lemma parse_H n : parse_fmt (">" ++ py_str_mul n "H") = Ok {| pf_little := false; pf_items := repeat (FInt 2 false) (Z.to_nat n) |}.
Proof.
  unfold py_str_mul. change (">" ++ str_rep (Z.to_nat n) "H")%string with (String ">" (str_rep (Z.to_nat n) "H")).
  cbn [parse_fmt]. rewrite <- (str_app_nil (str_rep _ _)).
  rewrite (parse_items_rep _ "H" (FInt 2 false) "" []) by reflexivity. cbn [bind]. now rewrite app_nil_r.
Qed.
Lemma parse_B n : parse_fmt (">" ++ py_str_mul n "B") = Ok {| pf_little := false; pf_items := repeat (FInt 1 false) (Z.to_nat n) |}.
Proof.
  unfold py_str_mul. change (">" ++ str_rep (Z.to_nat n) "B")%string with (String ">" (str_rep (Z.to_nat n) "B")).
  cbn [parse_fmt]. rewrite <- (str_app_nil (str_rep _ _)).
  rewrite (parse_items_rep _ "B" (FInt 1 false) "" []) by reflexivity. cbn [bind]. now rewrite app_nil_r.
Qed.
Lemma items_size_app a b : items_size (a ++ b) = (items_size a + items_size b)%nat.
Proof. unfold items_size. rewrite fold_right_app. induction a as [|x a IH]; cbn [fold_right]; [reflexivity|]. rewrite IH. lia. Qed.
Lemma items_size_rep it n : items_size (repeat it n) = (n * item_size it)%nat.
Proof. induction n as [|n IH]; [reflexivity|]. cbn [repeat items_size fold_right] in *. unfold items_size in IH. rewrite IH. lia. Qed.
Lemma firstn_add {A} n m (l : list A) : firstn (n + m) l = firstn n l ++ firstn m (skipn n l).
Proof.
  revert l. induction n as [|n IH]; intros l; [reflexivity|]. destruct l as [|x l]; [now destruct m|]. cbn. now rewrite IH.
Qed.
Lemma skipn_add {A} n m (l : list A) : skipn (n + m) l = skipn m (skipn n l).
Proof.
  revert l. induction n as [|n IH]; intros l; [reflexivity|]. destruct l as [|x l]; [now destruct m|]. cbn. apply IH.
Qed.
Lemma unpack_items_app little a b l : (items_size a <= length l)%nat ->
  unpack_items little (a ++ b) l = unpack_items little a (firstn (items_size a) l) ++ unpack_items little b (skipn (items_size a) l).
Proof.
  revert l. induction a as [|it a IH]; intros l H; [reflexivity|].
  pose proof (fun n => firstn_add n (items_size a) l) as E. pose proof (fun n => skipn_add n (items_size a) l) as Sk.
  cbn [items_size fold_right] in H. fold (items_size a) in H.
  destruct it as [n sg|]; cbn [app unpack_items items_size fold_right item_size]; fold (items_size a); cbn [item_size] in H.
  - rewrite IH by (rewrite skipn_length; lia). rewrite Sk. cbn [app]. f_equal; [|f_equal].
    + f_equal. rewrite E. rewrite firstn_app, firstn_firstn, firstn_length, Nat.min_l, (Nat.min_l n (length l)) by lia.
      rewrite Nat.sub_diag. cbn [firstn]. now rewrite app_nil_r.
    + f_equal. rewrite E, skipn_app, firstn_length, (Nat.min_l n (length l)) by lia. rewrite Nat.sub_diag. cbn [skipn].
      rewrite (skipn_all2 (firstn n l)); [reflexivity|rewrite firstn_length; lia].
  - change (S (items_size a)) with (1 + items_size a)%nat.
    rewrite IH by (rewrite skipn_length; lia). rewrite Sk. f_equal. f_equal.
    rewrite E, skipn_app, firstn_length, (Nat.min_l 1 (length l)) by lia. rewrite Nat.sub_diag. cbn [skipn].
    now destruct l.
Qed.

Lemma unpack_items_H l : unpack_items false (repeat (FInt 2 false) (length l)) (words l) = map (fun v => v mod 65536) l.
Proof.
  induction l as [|v l IH]; [reflexivity|]. cbn [length repeat unpack_items words flat_map map].
  change (skipn 2 (word v ++ flat_map word l)) with (words l). rewrite IH. f_equal.
  change (firstn 2 (word v ++ flat_map word l)) with (word v). unfold unpack_int, word. cbn [andb]. rewrite be_val_2. lia.
Qed.
Lemma unpack_items_B l : unpack_items false (repeat (FInt 1 false) (length l)) l = l.
Proof.
  induction l as [|v l IH]; [reflexivity|]. cbn [length repeat unpack_items skipn firstn]. rewrite IH. f_equal.
  unfold unpack_int. cbn [andb]. apply be_val_1.
Qed.
Lemma unpack_rep_H l n : zlen l = n -> unpack (">" ++ py_str_mul n "H") (words l) = Ok (map (fun v => v mod 65536) l).
Proof.
  intros <-. rewrite (unpack_len_ok _ _ _ (parse_H _)).
  - cbn [pf_little pf_items]. unfold zlen. rewrite Nat2Z.id. now rewrite unpack_items_H.
  - cbn [pf_items]. rewrite items_size_rep, words_length. unfold zlen. cbn [item_size]. lia.
Qed.
Lemma unpack_rep_H_len n d : 0 <= n -> zlen d <> 2 * n -> unpack (">" ++ py_str_mul n "H") d = Err StructError.
Proof. intros P H. apply (unpack_len_err _ _ _ (parse_H _)). cbn [pf_items]. rewrite items_size_rep. cbn [item_size]. unfold zlen in H. lia. Qed.
Lemma unpack_rep_B l n : zlen l = n -> unpack (">" ++ py_str_mul n "B") l = Ok l.
Proof.
  intros <-. rewrite (unpack_len_ok _ _ _ (parse_B _)).
  - cbn [pf_little pf_items]. unfold zlen. rewrite Nat2Z.id. now rewrite unpack_items_B.
  - cbn [pf_items]. rewrite items_size_rep. unfold zlen. cbn [item_size]. lia.
Qed.
Lemma unpack_rep_B_len n d : 0 <= n -> zlen d <> n -> unpack (">" ++ py_str_mul n "B") d = Err StructError.
Proof. intros P H. apply (unpack_len_err _ _ _ (parse_B _)). cbn [pf_items]. rewrite items_size_rep. cbn [item_size]. unfold zlen in H. lia. Qed.

(** bytes in pairs are words *)
Lemma words_of_bytes d n : bytes d -> length d = (2 * n)%nat -> exists l, length l = n /\ Forall (fits true) l /\ d = words l.
Proof.
  revert d. induction n as [|n IH]; intros d B L.
  - destruct d; [|discriminate]. exists []. repeat split. constructor.
  - destruct d as [|a [|b d]]; [discriminate|cbn in L; lia|]. inversion_clear B as [|? ? Ba B']. inversion_clear B' as [|? ? Bb B2].
    destruct (IH d B2) as (l & L1 & F & ->); [cbn in L; lia|]. exists ((a * 256 + b) :: l). unfold is_byte in *.
    split; [cbn; lia|]. split; [constructor; [unfold fits; lia|exact F]|]. cbn [words flat_map]. now rewrite word_value by (unfold is_byte; lia).
Qed.
Lemma map_mod_fits l : Forall (fits true) l -> map (fun v => v mod 65536) l = l.
Proof. induction 1 as [|v l H F IH]; [reflexivity|]. cbn [map]. rewrite IH. f_equal. unfold fits in H. lia. Qed.

(** ** unpack after pack, for every format *)
Lemma be_val_app a b : be_val (a ++ b) = be_val a * 256 ^ zlen b + be_val b.
Proof.
  induction a as [|x a IH]; cbn [be_val app]; [lia|]. rewrite IH, app_length, Nat2Z.inj_add, Z.pow_add_r by lia.
  unfold zlen. ring.
Qed.
Lemma be_bytes_length n v : length (be_bytes n v) = n.
Proof. induction n as [|n IH]; cbn; congruence. Qed.
Lemma be_val_be_bytes n v : be_val (be_bytes n v) = v mod 256 ^ Z.of_nat n.
Proof.
  induction n as [|n IH]; [cbn; lia|]. cbn [be_bytes be_val]. rewrite be_bytes_length, IH.
  rewrite Nat2Z.inj_succ, Z.pow_succ_r by lia. set (m := 256 ^ Z.of_nat n). assert (0 < m) by (apply Z.pow_pos_nonneg; lia).
  rewrite (Z.mul_comm 256 m), Z.rem_mul_r by lia. ring.
Qed.
Lemma unpack_pack_int n sg little v b : pack_int n sg little v = Ok b -> length b = n /\ unpack_int n sg little b = v.
Proof.
  unfold pack_int, unpack_int. destruct (int_in_range n sg v) eqn:R; [|discriminate]. intros E.
  assert (L : length b = n /\ (if little then rev b else b) = be_bytes n v).
  { injection E as <-. destruct little; [|split; [apply be_bytes_length|reflexivity]].
    rewrite rev_length, rev_involutive. split; [apply be_bytes_length|reflexivity]. }
  destruct L as [L ->]. split; [exact L|]. clear E L. rewrite be_val_be_bytes.
  assert (P : 256 ^ Z.of_nat n = 2 ^ (8 * Z.of_nat n)) by (rewrite Z.pow_mul_r by lia; reflexivity).
  rewrite P. unfold int_in_range in R. destruct sg; cbn [andb].
  - destruct n as [|n]; [cbn in R; lia|]. assert (Q : 2 ^ (8 * Z.of_nat (S n)) = 2 * 2 ^ (8 * Z.of_nat (S n) - 1)).
    { rewrite <- Z.pow_succ_r by lia. f_equal. lia. }
    set (h := 2 ^ (8 * Z.of_nat (S n) - 1)) in *. rewrite Q. assert (0 < h) by (apply Z.pow_pos_nonneg; lia).
    destruct (Z.le_gt_cases 0 v).
    + rewrite Z.mod_small by lia. destruct (h <=? v) eqn:T; lia.
    + assert (M : v mod (2 * h) = v + 2 * h) by (symmetry; apply Z.mod_unique_pos with (q := -1); lia).
      rewrite M. destruct (h <=? v + 2 * h) eqn:T; lia.
  - apply Z.mod_small. lia.
Qed.
Lemma unpack_pack_items little items : forall vals b, pack_items little items vals = Ok b ->
  length b = items_size items /\ unpack_items little items b = vals.
Proof.
  induction items as [|it items IH]; intros vals b E.
  - destruct vals; [|discriminate]. injection E as <-. split; reflexivity.
  - destruct it as [n sg|]; cbn [pack_items] in E.
    + destruct vals as [|v vs]; [discriminate|]. destruct (pack_int n sg little v) as [b1|] eqn:E1; [|discriminate]. cbn [bind] in E.
      destruct (pack_items little items vs) as [b2|] eqn:E2; [|discriminate]. cbn [bind] in E. injection E as <-.
      apply unpack_pack_int in E1 as [L1 U1]. apply IH in E2 as [L2 U2].
      cbn [items_size fold_right item_size unpack_items]. fold (items_size items). rewrite app_length. split; [lia|].
      rewrite firstn_app, skipn_app, L1, Nat.sub_diag. rewrite <- L1, firstn_all, skipn_all. cbn [firstn skipn app].
      rewrite app_nil_r, L1, U1, U2. reflexivity.
    + destruct (pack_items little items vals) as [b2|] eqn:E2; [|discriminate]. cbn [bind] in E. injection E as <-.
      apply IH in E2 as [L2 U2]. cbn [items_size fold_right item_size unpack_items skipn length]. fold (items_size items). split; [lia|exact U2].
Qed.
Lemma unpack_pack f vals b : pack f vals = Ok b -> calcsize f = Ok (zlen b) /\ unpack f b = Ok vals.
Proof.
  unfold pack, calcsize, unpack. destruct (parse_fmt f) as [pf|]; [|discriminate]. cbn [bind]. intros E.
  apply unpack_pack_items in E as [L U]. rewrite <- L, Nat.eqb_refl, U. split; reflexivity.
Qed.
Lemma be_bytes_bytes n v : bytes (be_bytes n v).
Proof. induction n as [|n IH]; cbn; constructor; [unfold is_byte; lia|exact IH]. Qed.
Lemma pack_items_bytes little items : forall vals b, pack_items little items vals = Ok b -> bytes b.
Proof.
  induction items as [|it items IH]; intros vals b E.
  - destruct vals; [|discriminate]. injection E as <-. constructor.
  - destruct it as [n sg|]; cbn [pack_items] in E.
    + destruct vals as [|v vs]; [discriminate|]. destruct (pack_int n sg little v) as [b1|] eqn:E1; [|discriminate]. cbn [bind] in E.
      destruct (pack_items little items vs) as [b2|] eqn:E2; [|discriminate]. cbn [bind] in E. injection E as <-.
      apply bytes_app; [|now apply IH in E2]. unfold pack_int in E1. destruct (int_in_range n sg v); [|discriminate].
      injection E1 as <-. destruct little; [apply Forall_rev|]; apply be_bytes_bytes.
    + destruct (pack_items little items vals) as [b2|] eqn:E2; [|discriminate]. cbn [bind] in E. injection E as <-.
      constructor; [unfold is_byte; lia|now apply IH in E2].
Qed.
Lemma pack_bytes_ok f vals b : pack f vals = Ok b -> bytes b.
Proof. unfold pack. destruct (parse_fmt f) as [pf|]; [|discriminate]. cbn [bind]. apply pack_items_bytes. Qed.
