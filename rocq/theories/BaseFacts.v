(** Lemmas about Base.v: slices, indexing, updates, dictionaries. *)
From Verif Require Export Base.
From Coq Require Export Lia ZifyBool ZifyNat ZifyN.
Ltac Zify.zify_post_hook ::= Z.div_mod_to_equations.

Lemma zlen_nonneg {A} (l : list A) : 0 <= zlen l.
Proof. unfold zlen. lia. Qed.
Lemma zlen_nil {A} : zlen (@nil A) = 0.
Proof. reflexivity. Qed.
Lemma zlen_cons {A} (x : A) l : zlen (x :: l) = 1 + zlen l.
Proof. unfold zlen. cbn [length]. lia. Qed.
Lemma zlen_app {A} (l1 l2 : list A) : zlen (l1 ++ l2) = zlen l1 + zlen l2.
Proof. unfold zlen. rewrite app_length. lia. Qed.
Lemma zlen_repeat {A} (x : A) n : zlen (repeat x n) = Z.of_nat n.
Proof. unfold zlen. now rewrite repeat_length. Qed.
Lemma zlen_length {A} (l : list A) n : zlen l = Z.of_nat n -> length l = n.
Proof. unfold zlen. lia. Qed.

(** slices with bounds inside the list *)
Lemma slice_bound_in n i : 0 <= i <= n -> slice_bound n i = i.
Proof. unfold slice_bound. intros H. destruct (i <? 0) eqn:E; lia. Qed.
Lemma slice_bound_ge n i : 0 <= n <= i -> slice_bound n i = n.
Proof. unfold slice_bound. intros H. destruct (i <? 0) eqn:E; lia. Qed.
Lemma slice_bound_range n i : 0 <= n -> 0 <= slice_bound n i <= n.
Proof. unfold slice_bound. intros H. destruct (i <? 0) eqn:E; lia. Qed.

Lemma py_slice_in {A} (l : list A) a b :
  0 <= a <= b -> b <= zlen l ->
  py_slice l a b = firstn (Z.to_nat (b - a)) (skipn (Z.to_nat a) l).
Proof.
  intros H1 H2. unfold py_slice.
  rewrite !slice_bound_in by lia. reflexivity.
Qed.

Lemma py_slice_nonneg {A} (l : list A) a b :
  0 <= a <= b ->
  py_slice l a b = firstn (Z.to_nat (b - a)) (skipn (Z.to_nat a) l).
Proof.
  intros H1. pose proof (zlen_nonneg l) as Hl. unfold py_slice.
  destruct (Z.le_gt_cases a (zlen l)) as [Ha|Ha].
  - rewrite (slice_bound_in _ a) by lia.
    destruct (Z.le_gt_cases b (zlen l)) as [Hb|Hb].
    + rewrite slice_bound_in by lia. reflexivity.
    + rewrite slice_bound_ge by lia.
      rewrite !firstn_all2; [reflexivity| |]; rewrite skipn_length; unfold zlen in *; lia.
  - rewrite !slice_bound_ge by lia.
    rewrite (skipn_all2 (n := Z.to_nat a)) by (unfold zlen in *; lia).
    rewrite skipn_all2 by (unfold zlen in *; lia).
    now rewrite !firstn_nil.
Qed.

Lemma py_from_nonneg {A} (l : list A) a :
  0 <= a -> py_from l a = skipn (Z.to_nat a) l.
Proof.
  intros Ha. unfold py_from. destruct (Z.le_gt_cases a (zlen l)) as [H|H].
  - rewrite py_slice_nonneg by lia. apply firstn_all2.
    rewrite skipn_length. unfold zlen in *. lia.
  - unfold py_slice. pose proof (zlen_nonneg l).
    rewrite !slice_bound_ge by lia.
    rewrite !skipn_all2 by (unfold zlen in *; lia). now rewrite firstn_nil.
Qed.

Lemma py_slice_length {A} (l : list A) a b :
  0 <= a <= b -> b <= zlen l -> zlen (py_slice l a b) = b - a.
Proof.
  intros H1 H2. rewrite py_slice_in by lia. unfold zlen in *.
  rewrite firstn_length, skipn_length. lia.
Qed.

Lemma nth_error_skipn {A} (l : list A) i j :
  nth_error (skipn i l) j = nth_error l (i + j)%nat.
Proof.
  revert l; induction i as [|i IH]; intros l; [reflexivity|].
  destruct l as [|x l]; cbn [skipn Nat.add nth_error]; [now destruct j|apply IH].
Qed.

Lemma nth_error_firstn {A} (l : list A) n j :
  (j < n)%nat -> nth_error (firstn n l) j = nth_error l j.
Proof.
  revert l j; induction n as [|n IH]; intros l j H; [lia|].
  destruct l as [|x l]; [now destruct j|].
  destruct j as [|j]; cbn [firstn nth_error]; [reflexivity|apply IH; lia].
Qed.

Lemma nth_error_ext {A} (l1 l2 : list A) :
  (forall i, nth_error l1 i = nth_error l2 i) -> l1 = l2.
Proof.
  revert l2; induction l1 as [|x l1 IH]; intros [|y l2] H; [reflexivity| | |].
  - specialize (H O); discriminate.
  - specialize (H O); discriminate.
  - pose proof (H O) as H0. injection H0 as ->. f_equal. apply IH.
    intros i. exact (H (S i)).
Qed.

Lemma py_slice_nth {A} (l : list A) a b k :
  0 <= a -> 0 <= k < b - a ->
  nth_error (py_slice l a b) (Z.to_nat k) = nth_error l (Z.to_nat (a + k)).
Proof.
  intros H1 H2. rewrite py_slice_nonneg by lia.
  rewrite nth_error_firstn by lia. rewrite nth_error_skipn. f_equal. lia.
Qed.

(** list_upd *)
Lemma list_upd_length {A} (l : list A) i v : length (list_upd l i v) = length l.
Proof. revert i; induction l as [|x l IH]; intros [|i]; cbn; auto. Qed.
Lemma list_upd_zlen {A} (l : list A) i v : zlen (list_upd l i v) = zlen l.
Proof. unfold zlen. now rewrite list_upd_length. Qed.
Lemma list_upd_same {A} (l : list A) i v :
  (i < length l)%nat -> nth_error (list_upd l i v) i = Some v.
Proof. revert i; induction l as [|x l IH]; intros [|i] H; cbn in *; try lia; auto. apply IH; lia. Qed.
Lemma list_upd_other {A} (l : list A) i j v :
  i <> j -> nth_error (list_upd l i v) j = nth_error l j.
Proof. revert i j; induction l as [|x l IH]; intros [|i] [|j] H; cbn; auto; lia. Qed.
Lemma list_upd_self {A} (l : list A) i x : nth_error l i = Some x -> list_upd l i x = l.
Proof. revert i; induction l as [|y l IH]; intros [|i] H; cbn in *; try discriminate; [now injection H as ->|now rewrite IH]. Qed.
Lemma list_upd_upd {A} (l : list A) i x y : list_upd (list_upd l i x) i y = list_upd l i y.
Proof. revert i; induction l as [|z l IH]; intros [|i]; cbn; auto. now rewrite IH. Qed.
Lemma list_upd_app_r {A} (l1 l2 : list A) v x :
  list_upd (l1 ++ x :: l2) (length l1) v = l1 ++ v :: l2.
Proof. induction l1 as [|y l1 IH]; cbn; [reflexivity|now rewrite IH]. Qed.
Lemma list_upd_map {A B} (f : A -> B) (l : list A) i v :
  map f (list_upd l i v) = list_upd (map f l) i (f v).
Proof. revert i; induction l as [|x l IH]; intros [|i]; cbn; auto. now rewrite IH. Qed.
Lemma list_upd_in {A} (l : list A) i v x : In x (list_upd l i v) -> x = v \/ In x l.
Proof.
  revert i; induction l as [|y l IH]; intros [|i]; cbn; intuition auto.
  destruct (IH _ H0); auto.
Qed.
Lemma list_upd_Forall {A} (P : A -> Prop) (l : list A) i v :
  Forall P l -> P v -> Forall P (list_upd l i v).
Proof.
  intros Hl Hv. revert i; induction Hl as [|x l Hx Hl IH]; intros [|i]; cbn; auto.
Qed.

Lemma py_set_in {A} (l : list A) i v :
  0 <= i < zlen l -> py_set l i v = Ok (list_upd l (Z.to_nat i) v).
Proof.
  intros H. unfold py_set. destruct (i <? 0) eqn:E; [lia|].
  destruct ((i <? 0) || (zlen l <=? i)) eqn:E2; [lia|reflexivity].
Qed.
Lemma py_get_in {A} (l : list A) i :
  0 <= i < zlen l -> exists x, nth_error l (Z.to_nat i) = Some x /\ py_get l i = Ok x.
Proof.
  intros H. unfold py_get. destruct (i <? 0) eqn:E; [lia|].
  destruct ((i <? 0) || (zlen l <=? i)) eqn:E2; [lia|].
  destruct (nth_error l (Z.to_nat i)) as [x|] eqn:E3; [eauto|].
  apply nth_error_None in E3. unfold zlen in *. lia.
Qed.
Lemma py_get_nth {A} (l : list A) i x :
  0 <= i -> nth_error l (Z.to_nat i) = Some x -> py_get l i = Ok x.
Proof.
  intros Hi H. assert (Hl : (Z.to_nat i < length l)%nat) by (apply nth_error_Some; congruence).
  unfold py_get. destruct (i <? 0) eqn:E; [lia|].
  destruct ((i <? 0) || (zlen l <=? i)) eqn:E2; [unfold zlen in *; lia|].
  now rewrite H.
Qed.

(** bytes *)
Lemma bytes_app l1 l2 : bytes l1 -> bytes l2 -> bytes (l1 ++ l2).
Proof. unfold bytes. intros. apply Forall_app. auto. Qed.
Lemma bytes_app_inv l1 l2 : bytes (l1 ++ l2) -> bytes l1 /\ bytes l2.
Proof. unfold bytes. apply Forall_app. Qed.
Lemma bytes_firstn n l : bytes l -> bytes (firstn n l).
Proof. intros H. rewrite <- (firstn_skipn n l) in H. now apply bytes_app_inv in H. Qed.
Lemma bytes_skipn n l : bytes l -> bytes (skipn n l).
Proof. intros H. rewrite <- (firstn_skipn n l) in H. now apply bytes_app_inv in H. Qed.
Lemma bytes_py_slice l a b : bytes l -> bytes (py_slice l a b).
Proof. intros H. unfold py_slice. now apply bytes_firstn, bytes_skipn. Qed.
Lemma bytes_py_from l a : bytes l -> bytes (py_from l a).
Proof. apply bytes_py_slice. Qed.

(** dictionaries *)
Section AssocFacts.
  Context {K V : Type} (eqk : K -> K -> bool).
  Hypothesis eqk_spec : forall a b, eqk a b = true <-> a = b.
  Notation assoc := (@assoc K V eqk).
  Notation put := (@assoc_put K V eqk).
  Notation del := (@assoc_del K V eqk).

  Lemma eqk_refl a : eqk a a = true.
  Proof using eqk_spec. now apply eqk_spec. Qed.
  Lemma eqk_neq a b : a <> b -> eqk a b = false.
  Proof using eqk_spec. intros H. destruct (eqk a b) eqn:E; [|reflexivity]. now apply eqk_spec in E. Qed.

  Lemma assoc_put_same k v l : assoc k (put k v l) = Some v.
  Proof using eqk_spec.
    induction l as [|[k' v'] l IH]; cbn.
    - now rewrite eqk_refl.
    - destruct (eqk k k') eqn:E; cbn; rewrite E; auto.
  Qed.
  Lemma assoc_put_other k k' v l : k <> k' -> assoc k' (put k v l) = assoc k' l.
  Proof using eqk_spec.
    intros Hn. induction l as [|[k2 v2] l IH]; cbn.
    - now rewrite (eqk_neq k' k) by congruence.
    - destruct (eqk k k2) eqn:E; cbn.
      + apply eqk_spec in E as <-. now rewrite (eqk_neq k' k) by congruence.
      + now rewrite IH.
  Qed.
  Lemma assoc_put_new k v l : assoc k l = None -> put k v l = l ++ [(k, v)].
  Proof.
    induction l as [|[k2 v2] l IH]; cbn; [reflexivity|].
    destruct (eqk k k2) eqn:E; [discriminate|]. intros H. now rewrite IH.
  Qed.
  Lemma assoc_del_other k k' l : k <> k' -> assoc k' (del k l) = assoc k' l.
  Proof using eqk_spec.
    intros Hn. induction l as [|[k2 v2] l IH]; cbn; [reflexivity|].
    destruct (eqk k k2) eqn:E; cbn.
    - apply eqk_spec in E as <-. now rewrite (eqk_neq k' k) by congruence.
    - now rewrite IH.
  Qed.
  Lemma assoc_none_notin k l : assoc k l = None <-> ~ In k (map fst l).
  Proof using eqk_spec.
    induction l as [|[k2 v2] l IH]; cbn; [intuition|].
    destruct (eqk k k2) eqn:E.
    - apply eqk_spec in E as <-. split; [discriminate|]. intros H. exfalso. apply H. now left.
    - rewrite IH. split; [|intuition]. intros H [->|Hin]; [|intuition].
      now rewrite eqk_refl in E.
  Qed.
  Lemma assoc_in k v l : assoc k l = Some v -> In (k, v) l.
  Proof using eqk_spec.
    induction l as [|[k2 v2] l IH]; cbn; [discriminate|].
    destruct (eqk k k2) eqn:E; [|auto]. apply eqk_spec in E as <-. intros H. injection H as ->. now left.
  Qed.
  Lemma in_assoc k v l : NoDup (map fst l) -> In (k, v) l -> assoc k l = Some v.
  Proof using eqk_spec.
    induction l as [|[k2 v2] l IH]; cbn; [intuition|].
    intros Hnd [Heq|Hin].
    - injection Heq as -> ->. now rewrite eqk_refl.
    - inversion Hnd as [|x xs Hx Hxs]; subst. rewrite eqk_neq; auto.
      intros ->. apply Hx. now apply (in_map fst) in Hin.
  Qed.
  Lemma del_incl k l x : In x (del k l) -> In x l.
  Proof.
    induction l as [|[k2 v2] l IH]; cbn; [auto|].
    destruct (eqk k k2); cbn; intuition.
  Qed.
  Lemma del_keys_incl k l x : In x (map fst (del k l)) -> In x (map fst l).
  Proof.
    intros H. apply in_map_iff in H as [[a b] [Heq Hin]]. cbn in Heq. subst.
    apply del_incl in Hin. now apply (in_map fst) in Hin.
  Qed.
  Lemma del_nodup k l : NoDup (map fst l) -> NoDup (map fst (del k l)).
  Proof.
    induction l as [|[k2 v2] l IH]; cbn; [auto|].
    intros Hnd. inversion Hnd as [|x xs Hx Hxs]; subst.
    destruct (eqk k k2); cbn; [auto|]. constructor; auto.
    intros Hin. apply Hx. now apply del_keys_incl in Hin.
  Qed.
  Lemma assoc_del_same k l : NoDup (map fst l) -> assoc k (del k l) = None.
  Proof using eqk_spec.
    induction l as [|[k2 v2] l IH]; cbn; [auto|].
    intros Hnd. inversion Hnd as [|x xs Hx Hxs]; subst.
    destruct (eqk k k2) eqn:E; cbn.
    - apply eqk_spec in E as <-. now apply assoc_none_notin.
    - rewrite E. auto.
  Qed.
  Lemma put_keys k v l : assoc k l <> None -> map fst (put k v l) = map fst l.
  Proof.
    induction l as [|[k2 v2] l IH]; cbn; [congruence|].
    destruct (eqk k k2) eqn:E; cbn; [reflexivity|]. intros H. now rewrite IH.
  Qed.
End AssocFacts.
