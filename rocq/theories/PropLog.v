(** Property C81: utils.get_log_buffer. *)
From Coq Require Import Lia String Ascii.
From Verif Require Import Base BaseFacts TextModel TextProofs LogModel.
Open Scope string_scope.
Open Scope list_scope.
Open Scope Z_scope.

(** Spec: the decimal values with a dash between two of them. *)
Fixpoint dashed (l : list Z) : string :=
  match l with
  | [] => ""
  | [x] => py_str x
  | x :: t => append (py_str x) (append "-" (dashed t))
  end.

Lemma but_last_app a c : but_last (append a (String c "")) = a.
Proof. induction a as [|x a IH]; [reflexivity|]. cbn. destruct a; [reflexivity|]. cbn in *. now rewrite IH. Qed.
Lemma fold_log l p x : fold_left (fun log i => append log (append (py_str i) "-")) (x :: l) p = append (append p (dashed (x :: l))) "-".
Proof.
  revert p x. induction l as [|y l IH]; intros p x; [cbn; now rewrite app_assoc_str|].
  cbn [fold_left] in *. rewrite IH. cbn [dashed]. rewrite !app_assoc_str. reflexivity.
Qed.
(** The line is the prefix and the values of the bytes in decimal, in order, with dashes between them. *)
Theorem C81_line : forall prefix buff, buff <> [] -> get_log_buffer prefix buff = append prefix (dashed buff).
Proof.
  intros p [|x l] H; [congruence|]. unfold get_log_buffer. rewrite fold_log. apply but_last_app.
Qed.
Example C81_line_ex : get_log_buffer "-> " [1; 3; 0; 255] = "-> 1-3-0-255".
Proof. reflexivity. Qed.
(** For an empty buffer the line is not the prefix: its last character is missing. *)
Theorem C81_empty_refuted : exists prefix, get_log_buffer prefix [] <> prefix.
Proof. exists "-> ". discriminate. Qed.

Definition dash_or_end (s : string) : Prop := s = "" \/ exists t, s = String "-" t.
Lemma digits_split a b s t : all_chars is_digit a = true -> all_chars is_digit b = true -> dash_or_end s -> dash_or_end t ->
  append a s = append b t -> a = b /\ s = t.
Proof.
  revert b. induction a as [|c a IH]; intros [|d b] A B S T E; cbn in *.
  - auto.
  - exfalso. apply andb_prop in B as [B _]. destruct S as [-> |(s' & ->)]; [discriminate|]. injection E as <- _. discriminate B.
  - exfalso. apply andb_prop in A as [A _]. destruct T as [-> |(s' & ->)]; [discriminate|]. injection E as -> _. discriminate A.
  - apply andb_prop in A as [_ A], B as [_ B]. injection E as -> E. destruct (IH b A B S T E) as [-> ->]. auto.
Qed.
Lemma nat_digits x : 0 <= x -> all_chars is_digit (py_str x) = true.
Proof. intros H. unfold py_str. replace (x <? 0) with false by (symmetry; apply Z.ltb_ge; lia). now apply str_of_pos_digits. Qed.
Lemma dashed_cons x l : dashed (x :: l) = append (py_str x) (match l with [] => "" | _ => append "-" (dashed l) end).
Proof. destruct l; cbn [dashed]; [now rewrite app_nil_str|reflexivity]. Qed.
Lemma dashed_inj a b : Forall (fun x => 0 <= x) a -> Forall (fun x => 0 <= x) b -> dashed a = dashed b -> a = b.
Proof.
  revert b. induction a as [|x a IH]; intros [|y b] A B E; [reflexivity|exfalso..|].
  - rewrite dashed_cons in E. cbn [dashed] in E. destruct (py_str y) eqn:P; [now apply py_str_nonempty in P|discriminate].
  - rewrite dashed_cons in E. cbn [dashed] in E. destruct (py_str x) eqn:P; [now apply py_str_nonempty in P|discriminate].
  - inversion A; inversion B; subst. rewrite !dashed_cons in E.
    apply digits_split in E as [E R]; [|now apply nat_digits|now apply nat_digits|destruct a; [now left|right; eexists; reflexivity]|destruct b; [now left|right; eexists; reflexivity]].
    f_equal.
    + assert (I : py_int (py_str x) = py_int (py_str y)) by now rewrite E. rewrite !int_of_str in I. now injection I.
    + destruct a, b; try discriminate R; [reflexivity|]. injection R as R. now apply IH.
Qed.
Lemma but_last_length s : String.length (but_last s) = (String.length s - 1)%nat.
Proof. induction s as [|c s IH]; [reflexivity|]. cbn. destruct s; [reflexivity|]. cbn in *. lia. Qed.
Lemma append_inj p a b : append p a = append p b -> a = b.
Proof. induction p; cbn; [auto|]. intros E. injection E as E. auto. Qed.
Lemma log_empty p x l : get_log_buffer p [] <> get_log_buffer p (x :: l).
Proof.
  rewrite (C81_line p (x :: l)) by discriminate. unfold get_log_buffer. cbn [fold_left]. intros E. apply (f_equal String.length) in E.
  rewrite but_last_length, app_length_str, dashed_cons, app_length_str in E.
  destruct (py_str x) eqn:P; [now apply py_str_nonempty in P|]. cbn in E. lia.
Qed.
(** Two different frames never give the same line: the log of a frame determines its bytes. *)
Theorem C81_readable : forall prefix a b, Forall (fun x => 0 <= x < 256) a -> Forall (fun x => 0 <= x < 256) b ->
  get_log_buffer prefix a = get_log_buffer prefix b -> a = b.
Proof.
  intros p a b A B E. assert (W : forall l, Forall (fun x => 0 <= x < 256) l -> Forall (fun x => 0 <= x) l).
  { intros l H. eapply Forall_impl; [|exact H]. cbn. lia. }
  destruct a as [|x a], b as [|y b]; [reflexivity|now apply log_empty in E|symmetry in E; now apply log_empty in E|].
  rewrite !C81_line in E by discriminate. apply append_inj in E. now apply dashed_inj; auto.
Qed.
Example C81_readable_ex : get_log_buffer "" [1; 12] <> get_log_buffer "" [11; 2].
Proof. discriminate. Qed.

Print Assumptions C81_line.
Print Assumptions C81_empty_refuted.
Print Assumptions C81_readable.
