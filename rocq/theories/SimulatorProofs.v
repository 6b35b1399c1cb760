(** Lemmas on SimulatorModel.v. *)
From Verif Require Import Base BaseFacts SlaveModel DatabankModel HooksModel TextModel SimulatorModel TextProofs.
Open Scope string_scope.
Open Scope list_scope.
Open Scope Z_scope.

Definition not_white (s : string) : bool := all_chars (fun c => negb (is_white c)) s.
Definition not_crlf (s : string) : bool := all_chars (fun c => negb (is_crlf c)) s.
Lemma white_space c : is_space c = true -> is_white c = true.
Proof. unfold is_space, is_white. lia. Qed.
Lemma white_crlf c : is_crlf c = true -> is_white c = true.
Proof. unfold is_crlf, is_white. lia. Qed.
Lemma not_white_no_space s : not_white s = true -> no_space s = true.
Proof. apply all_chars_impl. intros c H. pose proof (white_space c). destruct (is_space c); [|reflexivity]. rewrite H0 in H by reflexivity. discriminate. Qed.
Lemma not_white_not_crlf s : not_white s = true -> not_crlf s = true.
Proof. apply all_chars_impl. intros c H. pose proof (white_crlf c). destruct (is_crlf c); [|reflexivity]. rewrite H0 in H by reflexivity. discriminate. Qed.

(** a word that is not empty and has no white space *)
Definition solid (w : string) : Prop := w <> "" /\ not_white w = true.
Lemma solid_num z : solid (py_str z).
Proof. split; [apply py_str_nonempty|apply py_str_not_white]. Qed.

Lemma words_last l x : l <> [] -> exists a, sentence (l ++ [x]) = append (append (sentence l) a) x /\ a = " ".
Proof.
  intros N. destruct l as [|w l]; [congruence|]. exists " ". split; [|reflexivity]. rewrite words_snoc, app_assoc_str. reflexivity.
Qed.
(** Words between a solid first and a solid last word survive strip. *)
Lemma strip_words f w l :
  (forall c, f c = true -> is_white c = true) -> solid w -> solid (last (w :: l) "") -> strip f (sentence (w :: l)) = sentence (w :: l).
Proof.
  intros Hf [W1 W2] [L1 L2].
  assert (F : forall s, not_white s = true -> all_chars (fun c => negb (f c)) s = true).
  { intros s. apply all_chars_impl. intros c H. pose proof (Hf c). destruct (f c); [|reflexivity]. rewrite H0 in H by reflexivity. discriminate. }
  destruct (exists_last (l := w :: l)) as (l' & x & E); [discriminate|].
  destruct l' as [|w' l'].
  - injection E as -> ->. cbn [sentence String.concat]. apply strip_none, F, W2.
  - injection E as -> ->. rewrite app_comm_cons. change (w' :: l' ++ [x]) with ((w' :: l') ++ [x]) in L1, L2.
    rewrite last_last in L1, L2. rewrite words_snoc. destruct w' as [|c t]; [congruence|].
    assert (Hc : f c = false).
    { apply F in W2. cbn in W2. now destruct (f c). }
    replace (append (sentence (String c t :: l')) (String " " x))
      with (String c (append (append (match l' with [] => t | _ => append t (String " " (sentence l')) end) " ") x)).
    + apply strip_keeps; [exact Hc|exact L1|apply F, L2].
    + destruct l' as [|y l']; [cbn; now rewrite app_assoc_str|]. rewrite words_cons. cbn [append]. now rewrite app_assoc_str.
Qed.

(** The message comes in one piece: recv(1024) returns all of it. *)
Definition whole (n : nat) (s : string) : Prop := (String.length s <= n)%nat /\ (String.length s <= 1024)%nat.
Lemma take_whole n s : whole n s -> take (Nat.min n 1024) s = s.
Proof. intros [H1 H2]. apply take_all. lia. Qed.

(** A truncated error answer is not taken for a success. *)
Lemma prefix_take a n s : String.prefix a (take n s) = true -> String.prefix a s = true.
Proof.
  unfold take. revert n s. induction a as [|c a IH]; intros n s H; [now destruct s|].
  destruct s as [|d s]; [now destruct n|]. destruct n as [|n]; [discriminate|]. cbn in *.
  destruct (ascii_dec c d); [|discriminate]. eapply IH, H.
Qed.
Lemma prefix_rstrip f a s : String.prefix a (rstrip f s) = true -> String.prefix a s = true.
Proof.
  revert s. induction a as [|c a IH]; intros s H; [now destruct s|].
  destruct s as [|d s]; [discriminate|]. cbn in *. specialize (IH s).
  destruct (rstrip f s) as [|e r] eqn:E.
  - destruct (f d); [discriminate|]. cbn in H. destruct (ascii_dec c d); [|discriminate]. apply IH. destruct a; [reflexivity|discriminate].
  - cbn in H. destruct (ascii_dec c d); [|discriminate]. apply IH, H.
Qed.

Section Rpc.
Context (text : exn -> string) (cmds : list (string * fct)).
(** [t]: white space at the end of the query *)
Lemma rpc_general_t n1 n2 s w l t f s' r :
  all_chars is_white t = true -> hd "" (split_space (append (sentence (w :: l)) t)) = w ->
  solid w -> Forall (fun w => no_space w = true) (w :: l) -> solid (last (w :: l) "") ->
  String.prefix "quit" (sentence (w :: l)) = false -> assoc String.eqb w cmds = Some f ->
  whole n1 (append (sentence (w :: l)) t) ->
  f s (w :: l) = (s', r) ->
  (forall a, r = Ok a -> rstrip is_crlf (show a) = show a /\
     whole n2 (append w (append " done: " (append (show a) crlf)))) ->
  rpc_call text cmds n1 n2 s (append (sentence (w :: l)) t) = (s', match r with Ok a => Ok (show a) | Err _ => Err GenericException end).
Proof.
  intros T HD W F L Q A H1 E R. unfold rpc_call. rewrite (take_whole _ _ H1).
  assert (ST : strip is_white (append (sentence (w :: l)) t) = sentence (w :: l)).
  { rewrite <- (strip_words is_white w l ltac:(auto) W L) at 2. unfold strip.
    assert (LS : forall x, lstrip is_white (append (sentence (w :: l)) x) = append (sentence (w :: l)) x).
    { intros x. destruct W as [W1 W2]. destruct w as [|c u]; [congruence|]. cbn in W2.
      destruct l as [|y l]; [|rewrite words_cons]; cbn [sentence String.concat append]; apply lstrip_id; now destruct (is_white c). }
    rewrite LS. rewrite <- (app_nil_str (sentence (w :: l))) at 2. rewrite LS, app_nil_str. now apply rstrip_all. }
  rewrite ST, HD.
  unfold sim_step. rewrite (strip_words is_crlf w l white_crlf W L), (split_words (w :: l) ltac:(discriminate) F).
  cbn [hd]. rewrite Q, A, E. destruct r as [a|e].
  - destruct (R a eq_refl) as [R1 R2]. rewrite (take_whole _ _ R2). 
    assert (S1 : strip is_crlf (append w (append " done: " (append (show a) crlf))) = append (append w " done: ") (show a)).
    { unfold strip. destruct W as [W1 W2]. pose proof (not_white_not_crlf _ W2) as W3. destruct w as [|c u]; [congruence|].
      cbn in W3. change (append (String c u) ?x) with (String c (append u x)). rewrite lstrip_id by now destruct (is_crlf c).
      change (String c (append u ?x)) with (append (String c u) x). rewrite <- !app_assoc_str. rewrite rstrip_all by reflexivity.
      destruct (rstrip is_crlf (show a)) as [|x y] eqn:E1.
      - rewrite <- R1. rewrite app_nil_str. rewrite rstrip_app; [reflexivity|discriminate].
      - rewrite rstrip_app; rewrite E1; [|discriminate]. now rewrite R1. }
    rewrite S1, prefix_self, drop_app. reflexivity.
  - set (pre := append w " done: ").
    destruct (String.prefix pre _) eqn:P; [|reflexivity]. exfalso.
    assert (P1 : String.prefix pre (take (Nat.min n2 1024) (append w (append " error: " (append (text e) crlf)))) = true).
    { unfold strip in P. apply prefix_rstrip in P. unfold pre in *. destruct W as [W1 W2]. pose proof (not_white_not_crlf _ W2) as W3.
      destruct w as [|c u]; [congruence|]. revert P. set (k := Nat.min n2 1024). clearbody k. destruct k as [|k]; [intros P; discriminate P|].
      cbn [append]. unfold take. cbn [String.substring]. cbn in W3. rewrite lstrip_id by now destruct (is_crlf c). auto. }
    apply prefix_take in P1. unfold pre in P1. rewrite prefix_app in P1. discriminate P1.
Qed.
Lemma rpc_general n1 n2 s w l f s' r :
  solid w -> Forall (fun w => no_space w = true) (w :: l) -> solid (last (w :: l) "") ->
  String.prefix "quit" (sentence (w :: l)) = false -> assoc String.eqb w cmds = Some f ->
  whole n1 (sentence (w :: l)) ->
  f s (w :: l) = (s', r) ->
  (forall a, r = Ok a -> rstrip is_crlf (show a) = show a /\
     whole n2 (append w (append " done: " (append (show a) crlf)))) ->
  rpc_call text cmds n1 n2 s (sentence (w :: l)) = (s', match r with Ok a => Ok (show a) | Err _ => Err GenericException end).
Proof.
  intros W F L Q A H1 E R. pose proof (rpc_general_t n1 n2 s w l "" f s' r) as G. rewrite app_nil_str in G. apply G; auto.
  rewrite split_words; [reflexivity|discriminate|exact F].
Qed.
End Rpc.

(** *** the builtin commands on well-formed sentence *)
Lemma int_arg_num l i z : nth_error l i = Some (py_str z) -> int_arg l i = Ok z.
Proof. intros H. unfold int_arg, arg. rewrite H. apply int_of_str. Qed.
