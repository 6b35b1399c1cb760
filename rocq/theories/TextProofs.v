(** Lemmas on TextModel.v. *)
From Verif Require Import Base TextModel SimulatorModel BaseFacts.
Open Scope string_scope.
Open Scope list_scope.
Open Scope Z_scope.

Fixpoint all_chars (p : ascii -> bool) (s : string) : bool :=
  match s with EmptyString => true | String c t => p c && all_chars p t end.

Lemma all_chars_impl (p q : ascii -> bool) s : (forall c, p c = true -> q c = true) -> all_chars p s = true -> all_chars q s = true.
Proof.
  intros H. induction s as [|c t IH]; [auto|]. cbn. intros E. apply andb_prop in E as [E1 E2].
  now rewrite (H _ E1), (IH E2).
Qed.
Lemma all_chars_app p a b : all_chars p (append a b) = all_chars p a && all_chars p b.
Proof. induction a as [|c t IH]; [reflexivity|]. cbn. rewrite IH. now destruct (p c). Qed.

Lemma app_nil_str s : append s "" = s.
Proof. induction s as [|c t IH]; [reflexivity|]. cbn. now rewrite IH. Qed.
Lemma app_assoc_str a b c : append (append a b) c = append a (append b c).
Proof. induction a as [|x t IH]; [reflexivity|]. cbn. now rewrite IH. Qed.
Lemma app_length_str a b : String.length (append a b) = (String.length a + String.length b)%nat.
Proof. induction a as [|x t IH]; [reflexivity|]. cbn. now rewrite IH. Qed.

(** *** strip *)
Lemma lstrip_id f c t : f c = false -> lstrip f (String c t) = String c t.
Proof. intros H. cbn. now rewrite H. Qed.
Lemma rstrip_app f a b : rstrip f b <> "" -> rstrip f (append a b) = append a (rstrip f b).
Proof.
  intros H. induction a as [|c t IH]; [reflexivity|]. cbn [append rstrip]. rewrite IH.
  destruct t as [|c' t']; cbn [append]; [|reflexivity]. destruct (rstrip f b); [congruence|reflexivity].
Qed.
Lemma rstrip_none f s : all_chars (fun c => negb (f c)) s = true -> rstrip f s = s.
Proof.
  induction s as [|c t IH]; [auto|]. cbn. intros E. apply andb_prop in E as [E1 E2]. rewrite (IH E2).
  destruct (f c); [discriminate|]. now destruct t.
Qed.
Lemma rstrip_all f s t : all_chars f t = true -> rstrip f (append s t) = rstrip f s.
Proof.
  intros H. assert (Z0 : rstrip f t = "").
  { induction t as [|c t IH]; [reflexivity|]. cbn in H. apply andb_prop in H as [H1 H2]. cbn. now rewrite (IH H2), H1. }
  induction s as [|c s IH]; [exact Z0|]. cbn. now rewrite IH.
Qed.
(** A text that starts with a kept character and ends with a nonempty kept word is left alone. *)
Lemma strip_keeps f c a b :
  f c = false -> b <> "" -> all_chars (fun c => negb (f c)) b = true ->
  strip f (String c (append a b)) = String c (append a b).
Proof.
  intros Hc Hb H. unfold strip. rewrite (lstrip_id f c _ Hc).
  change (String c (append a b)) with (append (String c a) b). rewrite rstrip_app; rewrite (rstrip_none f b H); [reflexivity|exact Hb].
Qed.

(** *** take and drop *)
Lemma take_all n s : (String.length s <= n)%nat -> take n s = s.
Proof.
  unfold take. revert n. induction s as [|c t IH]; intros n H; [now destruct n|].
  destruct n as [|n]; [cbn in H; lia|]. cbn in *. f_equal. apply IH. lia.
Qed.
Lemma drop_app a b : drop (String.length a) (append a b) = b.
Proof. induction a as [|c t IH]; [now destruct b|]. exact IH. Qed.
Lemma prefix_app a b c : String.prefix (append a b) (append a c) = String.prefix b c.
Proof. induction a as [|x t IH]; [reflexivity|]. cbn. destruct (ascii_dec x x); [exact IH|congruence]. Qed.
Lemma prefix_self a b : String.prefix a (append a b) = true.
Proof. induction a as [|x t IH]; [now destruct b|]. cbn. destruct (ascii_dec x x); [exact IH|congruence]. Qed.

(** *** split *)
Definition no_space (s : string) : bool := all_chars (fun c => negb (is_space c)) s.
Lemma split_one w : no_space w = true -> split_space w = [w].
Proof.
  induction w as [|c t IH]; [reflexivity|]. cbn. intros E. apply andb_prop in E as [E1 E2].
  destruct (is_space c); [discriminate|]. now rewrite (IH E2).
Qed.
Lemma split_cons w s : no_space w = true -> split_space (append w (String " " s)) = w :: split_space s.
Proof.
  induction w as [|c t IH]; [reflexivity|]. cbn. intros E. apply andb_prop in E as [E1 E2].
  destruct (is_space c); [discriminate|]. now rewrite (IH E2).
Qed.
Lemma words_cons w x l : sentence (w :: x :: l) = append w (String " " (sentence (x :: l))).
Proof. reflexivity. Qed.
Lemma split_words l : l <> [] -> Forall (fun w => no_space w = true) l -> split_space (sentence l) = l.
Proof.
  intros N F. induction F as [|w l Hw F IH]; [congruence|].
  destruct l as [|x l]; [now apply split_one|]. rewrite words_cons, (split_cons _ _ Hw). f_equal. apply IH. discriminate.
Qed.
Lemma words_snoc w l x : sentence ((w :: l) ++ [x]) = append (sentence (w :: l)) (String " " x).
Proof.
  revert w. induction l as [|y l IH]; intros w; [reflexivity|].
  change ((w :: y :: l) ++ [x]) with (w :: y :: (l ++ [x])). rewrite !words_cons.
  change (y :: l ++ [x]) with ((y :: l) ++ [x]). rewrite IH. rewrite app_assoc_str. reflexivity.
Qed.
(** The query built word by word with +=. *)
Lemma fold_words (values : list Z) w l :
  fold_left (fun q v => append q (append " " (py_str v))) values (sentence (w :: l)) = sentence (w :: l ++ map py_str values).
Proof.
  revert l. induction values as [|v vs IH]; intros l; [now rewrite app_nil_r|].
  cbn [fold_left map]. change (append " " (py_str v)) with (String " " (py_str v)).
  rewrite <- words_snoc. change ((w :: l) ++ [py_str v]) with (w :: (l ++ [py_str v])). rewrite IH, <- app_assoc. reflexivity.
Qed.
Lemma tuple_words vs : tuple_to_str vs = sentence (map py_str vs).
Proof.
  unfold tuple_to_str. destruct vs as [|v vs]; [reflexivity|].
  cbn [fold_left]. change (append "" (append " " (py_str v))) with (append " " (py_str v)).
  assert (H : forall a b, fold_left (fun ret item => append ret (append " " (py_str item))) vs (append a b)
              = append a (fold_left (fun ret item => append ret (append " " (py_str item))) vs b)).
  { induction vs as [|x vs IH]; intros a b; [reflexivity|]. cbn [fold_left]. rewrite app_assoc_str. apply IH. }
  rewrite H. change (drop 1 (append " " ?x)) with (drop (String.length " ") (append " " x)). rewrite drop_app.
  change (py_str v) with (sentence [py_str v]). now rewrite fold_words.
Qed.

(** *** numbers *)
Definition is_digit (c : ascii) : bool := (48 <=? code c) && (code c <=? 57).
Lemma digit_code d : 0 <= d <= 9 -> code (digit d) = 48 + d.
Proof.
  intros H. assert (E : d = 0 \/ d = 1 \/ d = 2 \/ d = 3 \/ d = 4 \/ d = 5 \/ d = 6 \/ d = 7 \/ d = 8 \/ d = 9) by lia.
  repeat (destruct E as [->|E]; [reflexivity|]). now subst.
Qed.
Lemma digit_is_digit d : 0 <= d <= 9 -> is_digit (digit d) = true.
Proof. intros H. unfold is_digit. rewrite (digit_code d H). lia. Qed.
Lemma digits_chars p f n rest : (forall c, is_digit c = true -> p c = true) -> 0 <= n -> all_chars p rest = true ->
  all_chars p (digits f n rest) = true.
Proof.
  intros P. revert n rest. induction f as [|f IH]; intros n rest N H; [exact H|]. cbn.
  assert (X : all_chars p (String (digit (n mod 10)) rest) = true).
  { cbn. rewrite H, P; [reflexivity|]. apply digit_is_digit. pose proof (Z.mod_pos_bound n 10 ltac:(lia)). lia. }
  destruct (n <? 10) eqn:E; [exact X|]. apply IH; [apply Z.div_pos; lia|exact X].
Qed.
Lemma digits_value f : forall n rest, 0 <= n < 2 ^ Z.of_nat f -> f <> O ->
  exists k, forall acc after, int_digits (digits f n rest) acc after = int_digits rest (acc * k + n) true.
Proof.
  induction f as [|f IH]; intros n rest N F; [congruence|].
  assert (M : 0 <= n mod 10 < 10) by (apply Z.mod_pos_bound; lia).
  assert (S1 : forall acc after, int_digits (String (digit (n mod 10)) rest) acc after = int_digits rest (acc * 10 + n mod 10) true).
  { intros acc after. cbn [int_digits]. unfold digit_of. rewrite (digit_code (n mod 10)) by lia.
    replace ((48 <=? 48 + n mod 10) && (48 + n mod 10 <=? 57)) with true by lia. f_equal. lia. }
  cbn [digits]. cbv zeta. destruct (n <? 10) eqn:E.
  - exists 10. intros acc after. rewrite S1. rewrite Z.mod_small by lia. reflexivity.
  - destruct f as [|f]; [cbn in N; lia|].
    destruct (IH (n / 10) (String (digit (n mod 10)) rest)) as [k K].
    { split; [apply Z.div_pos; lia|]. apply Z.div_lt_upper_bound; [lia|].
      rewrite Nat2Z.inj_succ, Z.pow_succ_r in N by lia. lia. }
    { discriminate. }
    exists (k * 10). intros acc after. rewrite K, S1. f_equal. pose proof (Z.div_mod n 10 ltac:(lia)). nia.
Qed.
Lemma str_of_pos_value n : 0 <= n -> exists k, forall acc after, int_digits (str_of_pos n) acc after = Ok (acc * k + n).
Proof.
  intros N. unfold str_of_pos. destruct (digits_value (S (Z.to_nat (Z.log2 n))) n "") as [k K].
  - split; [lia|]. rewrite Nat2Z.inj_succ, Z2Nat.id by apply Z.log2_nonneg.
    destruct (Z.eq_dec n 0) as [->|]; [reflexivity|]. apply Z.log2_spec. lia.
  - discriminate.
  - exists k. intros. now rewrite K.
Qed.
Lemma str_of_pos_digits n : 0 <= n -> all_chars is_digit (str_of_pos n) = true.
Proof. intros N. apply digits_chars; auto. Qed.
Lemma str_of_pos_nonempty n : 0 <= n -> str_of_pos n <> "".
Proof. intros N. destruct (str_of_pos_value n N) as [k K]. intros E. rewrite E in K. specialize (K 0 false). discriminate. Qed.

(** the characters of numbers *)
Definition num_char (c : ascii) : bool := is_digit c || (code c =? 45).
Lemma py_str_chars z : all_chars num_char (py_str z) = true.
Proof.
  unfold py_str. destruct (z <? 0) eqn:E.
  - cbn. apply (all_chars_impl is_digit); [|apply str_of_pos_digits; lia]. intros c H. unfold num_char. now rewrite H.
  - apply (all_chars_impl is_digit); [|apply str_of_pos_digits; lia]. intros c H. unfold num_char. now rewrite H.
Qed.
Lemma py_str_nonempty z : py_str z <> "".
Proof. unfold py_str. destruct (z <? 0) eqn:E; [discriminate|]. apply str_of_pos_nonempty. lia. Qed.
Lemma num_not_white c : num_char c = true -> negb (is_white c) = true.
Proof. unfold num_char, is_digit, is_white. intros H. lia. Qed.
Lemma num_not_space c : num_char c = true -> negb (is_space c) = true.
Proof. unfold num_char, is_digit, is_space. intros H. lia. Qed.
Lemma num_not_crlf c : num_char c = true -> negb (is_crlf c) = true.
Proof. unfold num_char, is_digit, is_crlf. intros H. lia. Qed.
Lemma py_str_no_space z : no_space (py_str z) = true.
Proof. exact (all_chars_impl _ _ _ num_not_space (py_str_chars z)). Qed.
Lemma py_str_not_white z : all_chars (fun c => negb (is_white c)) (py_str z) = true.
Proof. exact (all_chars_impl _ _ _ num_not_white (py_str_chars z)). Qed.

Lemma strip_none f s : all_chars (fun c => negb (f c)) s = true -> strip f s = s.
Proof.
  intros H. unfold strip. assert (E : lstrip f s = s).
  { destruct s as [|c t]; [reflexivity|]. cbn in H. apply andb_prop in H as [H _]. apply lstrip_id. now destruct (f c). }
  rewrite E. now apply rstrip_none.
Qed.
Lemma int_of_str z : py_int (py_str z) = Ok z.
Proof.
  unfold py_int. rewrite (strip_none _ _ (py_str_not_white z)). unfold py_str. destruct (z <? 0) eqn:E.
  - cbn. destruct (str_of_pos_value (- z) ltac:(lia)) as [k K]. rewrite K. cbn [bind]. apply f_equal. rewrite Z.mul_0_l. clear. lia.
  - destruct (str_of_pos_value z ltac:(lia)) as [k K]. pose proof (str_of_pos_digits z ltac:(lia)) as D.
    destruct (str_of_pos z) as [|c t] eqn:S; [exfalso; apply (str_of_pos_nonempty z); [lia|exact S]|].
    cbn in D. apply andb_prop in D as [D _]. unfold is_digit in D.
    replace (code c =? 45) with false by lia. replace (code c =? 43) with false by lia. rewrite K. f_equal. 
Qed.
Lemma ints_of_strs l : ints (map py_str l) = Ok l.
Proof. induction l as [|z l IH]; [reflexivity|]. cbn. now rewrite int_of_str, IH. Qed.
