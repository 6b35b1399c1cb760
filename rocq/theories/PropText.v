(** Property C57 (continued): the texts int() reads and str() writes, exactly.  Model: TextModel.v. *)
From Coq Require Import ZArith Lia ZifyBool ZifyNat String Ascii List.
From Verif Require Import Base TextModel SimulatorModel TextProofs.
Import ListNotations.
Open Scope string_scope.
Open Scope list_scope.
Open Scope Z_scope.
Ltac Zify.zify_post_hook ::= Z.div_mod_to_equations.

(** ** Specification *)
(** Numerals: the ten digits, with single underscores between digits, and what they stand for. *)
Inductive numeral : string -> Z -> Prop :=
| N_digit c d : nth_error (list_ascii_of_string "0123456789") (Z.to_nat d) = Some c -> 0 <= d -> numeral (String c "") d
| N_more s z t d : numeral s z -> numeral t d -> String.length t = 1%nat -> numeral (s ++ t)%string (10 * z + d)
| N_under s z t d : numeral s z -> numeral t d -> String.length t = 1%nat -> numeral (s ++ "_" ++ t)%string (10 * z + d).
Definition signed_numeral (s : string) (z : Z) : Prop :=
  numeral s z \/ (exists t, s = ("+" ++ t)%string /\ numeral t z) \/ (exists t, s = ("-" ++ t)%string /\ numeral t (- z)).
Definition blank (s : string) : Prop := forall c, In c (list_ascii_of_string s) -> In (nat_of_ascii c) [9; 10; 11; 12; 13; 32]%nat.
(** what str() writes: no sign but -, no superfluous zero, no underscore *)
Inductive canonical : string -> Z -> Prop :=
| K_digit c d : numeral (String c "") d -> canonical (String c "") d
| K_more s z t d : canonical s z -> 0 < z -> numeral t d -> String.length t = 1%nat -> canonical (s ++ t)%string (10 * z + d).
Definition written_number (s : string) (z : Z) : Prop :=
  (0 <= z /\ canonical s z) \/ (z < 0 /\ exists t, s = ("-" ++ t)%string /\ canonical t (- z)).

(** ** Proofs *)
Lemma digit_numeral c d : digit_of c = Some d <-> nth_error (list_ascii_of_string "0123456789") (Z.to_nat d) = Some c /\ 0 <= d.
Proof.
  split.
  - intros H. unfold digit_of in H. destruct ((48 <=? code c) && (code c <=? 57))%bool eqn:E; [|discriminate]. injection H as <-. split; [|lia].
    assert (A : c = ascii_of_nat (Z.to_nat (code c))) by (unfold code; rewrite Nat2Z.id; symmetry; apply ascii_nat_embedding).
    assert (C : code c = 48 \/ code c = 49 \/ code c = 50 \/ code c = 51 \/ code c = 52 \/ code c = 53 \/ code c = 54 \/ code c = 55 \/ code c = 56 \/ code c = 57) by lia.
    rewrite A. clear A E. repeat (destruct C as [C|C]; [rewrite C; reflexivity|]). rewrite C. reflexivity.
  - intros [H N]. assert (L : (Z.to_nat d < length (list_ascii_of_string "0123456789"))%nat) by (apply nth_error_Some; congruence). change (length (list_ascii_of_string "0123456789")) with 10%nat in L.
    assert (C : d = 0 \/ d = 1 \/ d = 2 \/ d = 3 \/ d = 4 \/ d = 5 \/ d = 6 \/ d = 7 \/ d = 8 \/ d = 9) by lia.
    clear L N. repeat (destruct C as [C|C]; [subst d; cbn in H; injection H as <-; reflexivity|]). subst d; cbn in H; injection H as <-; reflexivity.
Qed.
Lemma digit_of_bound c d : digit_of c = Some d -> 0 <= d <= 9.
Proof. unfold digit_of. destruct (_ && _)%bool eqn:E; [|discriminate]. intros H. injection H as <-. lia. Qed.
Lemma one_char t d : numeral t d -> String.length t = 1%nat -> exists c, t = String c "" /\ digit_of c = Some d.
Proof.
  intros H L. destruct H as [c d H N|s z t d H1 H2 H3|s z t d H1 H2 H3].
  - exists c. split; [reflexivity|]. now apply digit_numeral.
  - exfalso. rewrite app_length_str in L. assert (K : (0 < String.length s)%nat) by (destruct H1; rewrite ?app_length_str; cbn; lia). lia.
  - exfalso. rewrite !app_length_str in L. cbn in L. lia.
Qed.
Lemma numeral_one c d : digit_of c = Some d -> numeral (String c "") d.
Proof. intros H. apply digit_numeral in H as [A B]. now constructor. Qed.
(** ... with a numeral read so far *)
Lemma int_digits_ok : forall t p acc after z,
  (after = true -> numeral p acc) -> (after = false -> (p = "" /\ acc = 0) \/ exists q, p = (q ++ "_")%string /\ numeral q acc) ->
  int_digits t acc after = Ok z -> numeral (p ++ t)%string z.
Proof.
  induction t as [|c t IH]; intros p acc after z A B H; cbn [int_digits] in H.
  - destruct after; [|discriminate]. injection H as <-. rewrite app_nil_str. auto.
  - destruct (digit_of c) as [d|] eqn:D.
    + replace (p ++ String c t)%string with ((p ++ String c "") ++ t)%string by now rewrite app_assoc_str.
      apply (IH (p ++ String c "")%string (acc * 10 + d) true z) in H; [exact H| |discriminate]. intros _. replace (acc * 10 + d) with (10 * acc + d) by lia. pose proof (numeral_one c d D) as N1. destruct after.
      * apply N_more; auto.
      * destruct (B eq_refl) as [[-> ->]|(q & -> & Q)]; [exact N1|]. rewrite app_assoc_str. now apply N_under.
    + destruct ((code c =? 95) && after)%bool eqn:U; [|discriminate]. destruct after; [|lia]. assert (c = "_"%char) as ->.
      { rewrite <- (ascii_nat_embedding c). replace (nat_of_ascii c) with 95%nat by (unfold code in U; lia). reflexivity. }
      replace (p ++ String "_" t)%string with ((p ++ "_") ++ t)%string by now rewrite app_assoc_str.
      apply (IH (p ++ "_")%string acc false z) in H; [exact H|discriminate|]. intros _. right. exists p. auto.
Qed.
Lemma numeral_read s z : numeral s z -> forall t, int_digits (s ++ t)%string 0 false = int_digits t z true.
Proof.
  induction 1 as [c d H N|s z u d H1 IH1 H2 _ L|s z u d H1 IH1 H2 _ L]; intros t.
  - cbn [append int_digits]. now rewrite (proj2 (digit_numeral c d) (conj H N)).
  - destruct (one_char u d H2 L) as (c & -> & D). rewrite app_assoc_str, IH1. cbn [append int_digits]. rewrite D. f_equal. lia.
  - destruct (one_char u d H2 L) as (c & -> & D). rewrite app_assoc_str, IH1. cbn [append int_digits]. change (digit_of "_") with (@None Z). change ((code "_" =? 95) && true)%bool with true. cbv iota. cbn [int_digits]. rewrite D. f_equal. lia.
Qed.
Lemma digits_iff s z : int_digits s 0 false = Ok z <-> numeral s z.
Proof.
  split.
  - intros H. apply (int_digits_ok s "" 0 false z) in H; [exact H|discriminate|]. intros _. now left.
  - intros H. rewrite <- (app_nil_str s), (numeral_read s z H). reflexivity.
Qed.
(** strip *)
Lemma lstrip_split f s : exists w, s = (w ++ lstrip f s)%string /\ all_chars f w = true.
Proof. induction s as [|c s (w & E & A)]; [exists ""; auto|]. cbn [lstrip]. destruct (f c) eqn:F; [exists (String c w); cbn; rewrite F, <- E; auto|exists ""; auto]. Qed.
Lemma rstrip_split f s : exists w, s = (rstrip f s ++ w)%string /\ all_chars f w = true.
Proof.
  induction s as [|c s (w & E & A)]; [exists ""; auto|]. cbn [rstrip]. destruct (rstrip f s) as [|x y].
  - cbn in E. subst w. destruct (f c) eqn:F; [exists (String c s); cbn; rewrite F; auto|exists s; auto].
  - exists w. cbn in *. now rewrite <- E.
Qed.
Lemma strip_split f s : exists v w, s = (v ++ strip f s ++ w)%string /\ all_chars f v = true /\ all_chars f w = true.
Proof.
  unfold strip. destruct (lstrip_split f s) as (v & E & V). destruct (rstrip_split f (lstrip f s)) as (w & E2 & W). exists v, w. rewrite <- E2. auto.
Qed.
Lemma lstrip_front f w s : all_chars f w = true -> lstrip f (w ++ s)%string = lstrip f s.
Proof. induction w as [|c w IH]; [auto|]. cbn. intros H. apply andb_prop in H as [-> H]. auto. Qed.
Lemma strip_around f v s w : all_chars f v = true -> all_chars f w = true -> all_chars (fun c => negb (f c)) s = true -> strip f (v ++ s ++ w)%string = s.
Proof.
  intros V W N. unfold strip. rewrite (lstrip_front f v _ V). destruct s as [|c s].
  - cbn [append]. clear -W. assert (E : lstrip f w = ""). { induction w as [|c w IH]; [reflexivity|]. cbn in *. apply andb_prop in W as [-> W]. auto. } now rewrite E.
  - cbn [append lstrip]. pose proof N as N'. cbn in N'. apply andb_prop in N' as [N1 N2]. apply Bool.negb_true_iff in N1. rewrite N1. change (String c (s ++ w)) with (String c s ++ w)%string. rewrite rstrip_all by exact W. now apply rstrip_none.
Qed.
Lemma blank_white s : blank s <-> all_chars is_white s = true.
Proof.
  unfold blank. induction s as [|c s IH]; cbn [list_ascii_of_string all_chars]; [split; [reflexivity|intros _ c []]|].
  assert (W : In (nat_of_ascii c) [9; 10; 11; 12; 13; 32]%nat <-> is_white c = true) by (unfold is_white, code; cbn [In]; lia).
  rewrite Bool.andb_true_iff, <- IH, <- W. split.
  - intros H. split; [apply H; now left|intros x I; apply H; now right].
  - intros [H1 H2] x [<-|I]; auto.
Qed.
Definition digit_or_under (c : ascii) : bool := is_digit c || (code c =? 95).
Lemma digit_is c d : digit_of c = Some d -> is_digit c = true.
Proof. unfold digit_of, is_digit. destruct (_ && _)%bool; [auto|discriminate]. Qed.
Lemma numeral_chars s z : numeral s z -> s <> "" /\ all_chars digit_or_under s = true /\ 0 <= z.
Proof.
  induction 1 as [c d H N|s z u d H1 (E1 & A1 & Z1) H2 (E2 & A2 & Z2) L|s z u d H1 (E1 & A1 & Z1) H2 (E2 & A2 & Z2) L].
  - pose proof (digit_is c d (proj2 (digit_numeral c d) (conj H N))) as D. split; [discriminate|]. cbn. unfold digit_or_under. now rewrite D.
  - rewrite all_chars_app, A1, A2. split; [destruct s; [congruence|discriminate]|]. split; [reflexivity|lia].
  - rewrite !all_chars_app, A1, A2. split; [destruct s; [congruence|discriminate]|]. split; [reflexivity|lia].
Qed.
Lemma head_code c : (code c =? 45 = true -> c = "-"%char) /\ (code c =? 43 = true -> c = "+"%char).
Proof.
  split; intros H; rewrite <- (ascii_nat_embedding c); unfold code in H; [replace (nat_of_ascii c) with 45%nat by lia|replace (nat_of_ascii c) with 43%nat by lia]; reflexivity.
Qed.
Lemma int_digits_err : forall t acc after e, int_digits t acc after = Err e -> e = PyValueError.
Proof.
  induction t as [|c t IH]; intros acc after e; cbn [int_digits]; [destruct after; [discriminate|congruence]|]. destruct (digit_of c); [apply IH|]. destruct (_ && _)%bool; [apply IH|congruence].
Qed.

(** C57: int(s) reads the numbers below, with blanks around them, and no other text (ValueError) *)
Theorem C57_int_exact : forall s z, py_int s = Ok z <-> exists v t w, s = (v ++ t ++ w)%string /\ blank v /\ blank w /\ signed_numeral t z.
Proof.
  intros s z. split.
  - intros H. destruct (strip_split is_white s) as (v & w & E & V & W). exists v, (strip is_white s), w. rewrite !blank_white. split; [exact E|]. split; [exact V|]. split; [exact W|]. clear E V W.
    unfold py_int in H. destruct (strip is_white s) as [|c t]; [discriminate|]. destruct (head_code c) as [M P]. unfold signed_numeral. destruct (code c =? 45).
    + rewrite (M eq_refl). destruct (int_digits t 0 false) as [y|] eqn:Y; [|discriminate]. cbn [bind] in H. injection H as <-. right. right. exists t. split; [reflexivity|]. rewrite Z.opp_involutive. now apply digits_iff.
    + destruct (code c =? 43); [|left; now apply digits_iff]. rewrite (P eq_refl). right. left. exists t. split; [reflexivity|]. now apply digits_iff.
  - intros (v & t & w & -> & V & W & N). rewrite blank_white in V, W. unfold py_int.
    assert (NW : all_chars (fun c => negb (is_white c)) t = true /\ t <> "").
    { assert (DU : forall u y, numeral u y -> all_chars (fun c => negb (is_white c)) u = true).
      { intros u y U. destruct (numeral_chars u y U) as (_ & A & _). eapply all_chars_impl; [|exact A]. intros c. unfold digit_or_under, is_digit, is_white. lia. }
      destruct N as [N|[(u & -> & N)|(u & -> & N)]]; (split; [cbn; try rewrite (DU _ _ N); try reflexivity; eauto|]); [apply (numeral_chars _ _ N)|discriminate..]. }
    rewrite (strip_around _ v t w V W (proj1 NW)). destruct N as [N|[(u & -> & N)|(u & -> & N)]].
    + destruct t as [|c t]; [now destruct (proj2 NW)|]. destruct (numeral_chars _ _ N) as (_ & A & _). cbn in A. apply andb_prop in A as [A _]. unfold digit_or_under, is_digit in A.
      destruct (code c =? 45) eqn:E1; [lia|]. destruct (code c =? 43) eqn:E2; [lia|]. now apply digits_iff.
    + cbn [append]. change (code "+" =? 45) with false. change (code "+" =? 43) with true. cbv iota. now apply digits_iff.
    + cbn [append]. change (code "-" =? 45) with true. cbv iota. rewrite (proj2 (digits_iff u (- z)) N). cbn [bind]. f_equal. lia.
Qed.
Theorem C57_int_error : forall s e, py_int s = Err e -> e = PyValueError.
Proof.
  intros s e. unfold py_int. destruct (strip is_white s) as [|c t]; [congruence|]. destruct (code c =? 45).
  - destruct (int_digits t 0 false) eqn:D; cbn [bind]; [discriminate|]. apply int_digits_err in D. congruence.
  - destruct (code c =? 43); apply int_digits_err.
Qed.

(** ** str *)
Lemma digit_of_digit d : 0 <= d <= 9 -> digit_of (digit d) = Some d.
Proof. intros H. unfold digit_of. rewrite (digit_code d H). destruct (_ && _)%bool eqn:E; [f_equal; lia|lia]. Qed.
Lemma digits_canonical f : forall n rest, 0 <= n < 2 ^ Z.of_nat f -> f <> O -> exists s, digits f n rest = (s ++ rest)%string /\ canonical s n.
Proof.
  induction f as [|f IH]; intros n rest B F; [congruence|]. cbn [digits]. destruct (n <? 10) eqn:E.
  - exists (String (digit (n mod 10)) ""). split; [reflexivity|]. rewrite Z.mod_small by lia. apply K_digit, numeral_one, digit_of_digit. lia.
  - destruct f as [|f]; [cbn in B; lia|]. destruct (IH (n / 10) (String (digit (n mod 10)) rest)) as (s & -> & K); [|discriminate|].
    { rewrite Nat2Z.inj_succ, Z.pow_succ_r in B by lia. split; [apply Z.div_pos; lia|]. apply Z.div_lt_upper_bound; lia. }
    exists (s ++ String (digit (n mod 10)) "")%string. split; [now rewrite app_assoc_str|]. replace n with (10 * (n / 10) + n mod 10) at 2 by lia.
    apply K_more; [exact K|lia| |reflexivity]. apply numeral_one, digit_of_digit. lia.
Qed.
Lemma str_canonical n : 0 <= n -> canonical (str_of_pos n) n.
Proof.
  intros N. unfold str_of_pos. destruct (digits_canonical (S (Z.to_nat (Z.log2 n))) n "") as (s & -> & K); [|discriminate|now rewrite app_nil_str].
  split; [exact N|]. rewrite Nat2Z.inj_succ, Z2Nat.id by apply Z.log2_nonneg. destruct (Z.eq_dec n 0) as [->|NZ]; [reflexivity|]. apply Z.log2_spec. lia.
Qed.
Lemma snoc_inj a b x y : (a ++ String x "")%string = (b ++ String y "")%string -> a = b /\ x = y.
Proof.
  revert b. induction a as [|c a IH]; intros [|d b]; cbn; intros H.
  - injection H as ->. auto.
  - injection H as -> H. destruct b; discriminate H.
  - injection H as -> H. destruct a; discriminate H.
  - injection H as -> H. apply IH in H as [-> ->]. auto.
Qed.
Lemma canonical_numeral s z : canonical s z -> numeral s z.
Proof. induction 1; [assumption|]. now apply N_more. Qed.
Lemma canonical_one s n : canonical s n -> forall t, canonical t n -> s = t.
Proof.
  induction 1 as [c d H|s z u d K IH P H L]; intros t T.
  - apply one_char in H as (c' & E & D); [|reflexivity]. injection E as <-. destruct T as [c2 d H2|s z u d K P H2 L].
    + apply one_char in H2 as (c'' & E & D2); [|reflexivity]. injection E as <-. apply digit_numeral in D as [D _], D2 as [D2 _]. rewrite D in D2. now injection D2 as ->.
    + exfalso. apply one_char in H2 as (c'' & -> & D2); [|exact L]. apply digit_of_bound in D, D2. lia.
  - apply one_char in H as (c' & -> & D); [|exact L]. remember (10 * z + d) as n eqn:En. destruct T as [c2 d2 H2|s2 z2 u2 d2 K2 P2 H2 L2].
    + exfalso. apply one_char in H2 as (c'' & E & D2); [|reflexivity]. apply digit_of_bound in D, D2. lia.
    + apply one_char in H2 as (c'' & -> & D2); [|exact L2]. assert (BD := digit_of_bound _ _ D). assert (BD2 := digit_of_bound _ _ D2). assert (z2 = z /\ d2 = d) as [-> ->] by lia.
      apply digit_numeral in D as [D _], D2 as [D2 _]. rewrite D in D2. injection D2 as ->. now rewrite (IH s2 K2).
Qed.
(** C57: str(z) is the number written without superfluous characters, and nothing else is *)
Theorem C57_str_exact : forall s z, py_str z = s <-> written_number s z.
Proof.
  intros s z. unfold py_str, written_number. destruct (z <? 0) eqn:E.
  - split.
    + intros <-. right. split; [lia|]. eexists. split; [reflexivity|]. apply str_canonical. lia.
    + intros [[P _]|(_ & t & -> & K)]; [lia|]. cbn [append]. f_equal. apply (canonical_one _ (- z)); [apply str_canonical; lia|exact K].
  - split.
    + intros <-. left. split; [lia|]. apply str_canonical. lia.
    + intros [[_ K]|(N & _)]; [|lia]. apply (canonical_one _ z); [apply str_canonical; lia|exact K].
Qed.
Example C57_int_ex : py_int "  -1_000
" = Ok (-1000) /\ py_int "1__0" = Err PyValueError /\ py_int "_1" = Err PyValueError /\ py_int "- 1" = Err PyValueError /\ py_int "+7" = Ok 7 /\ py_int "007" = Ok 7 /\ py_str (-1000) = "-1000".
Proof. repeat split. Qed.
Print Assumptions C57_int_exact.
Print Assumptions C57_int_error.
Print Assumptions C57_str_exact.
