(** Invariants of slaves over histories of API calls and requests. *)
From Verif Require Export GeneralProofs.

(** ** effects of writing into one block *)
Lemma Forall2_same_shape_refl l : Forall2 same_shape l l.
Proof. induction l; constructor; auto. repeat split. Qed.
Lemma Forall2_mid {A} (R : A -> A -> Prop) l1 x y l2 :
  (forall a, R a a) -> R x y -> Forall2 R (l1 ++ x :: l2) (l1 ++ y :: l2).
Proof.
  intros Hr Hxy. induction l1 as [|a l1 IH]; cbn.
  - constructor; [exact Hxy|]. induction l2; constructor; auto.
  - constructor; auto.
Qed.
Lemma same_shape_refl b : same_shape b b.
Proof. repeat split. Qed.
Lemma same_shape_overlay b a vals :
  zlen (b_data b) = b_size b -> covers b a (zlen vals) -> same_shape b (overlay b a vals).
Proof.
  intros Hl Hc. repeat split. pose proof (overlay_length b a vals Hc Hl) as H.
  unfold zlen in *. lia.
Qed.
Lemma covers_le b a n m : covers b a n -> m <= n -> covers b a m.
Proof. unfold covers. lia. Qed.

Definition upd1 (s : slave) (t : btype) (l1 : list block) (b : block) (l2 : list block) (b' : block) (s' : slave) : Prop :=
  has_table s t /\ blocks s t = l1 ++ b :: l2 /\ same_shape b b' /\ s' = mem_set s t (l1 ++ b' :: l2).

Lemma upd1_layout s t l1 b l2 b' s' : upd1 s t l1 b l2 b' s' -> same_layout s s'.
Proof.
  intros (Ht & Hb & Hs & ->). unfold same_layout.
  rewrite mem_set_unsigned, mem_set_names, mem_set_alias. repeat split.
  intros t'. destruct (same_table_dec s t t') as [E|E].
  - rewrite blocks_mem_set by assumption. rewrite (blocks_same_table s t t' E), Hb.
    apply Forall2_mid; [apply same_shape_refl|exact Hs].
  - rewrite blocks_mem_set_other by assumption. apply Forall2_same_shape_refl.
Qed.
Lemma upd1_wf s t l1 b l2 b' s' : upd1 s t l1 b l2 b' s' -> wf_slave s -> wf_slave s'.
Proof.
  intros (Ht & Hb & (Hs1 & Hs2 & Hs3) & ->) Hw t'.
  destruct (same_table_dec s t t') as [E|E].
  - rewrite blocks_mem_set by assumption. specialize (Hw t). rewrite Hb in Hw.
    apply Forall_app in Hw as [Hw1 Hw2]. inversion Hw2 as [|? ? Hwb Hw3]; subst.
    apply Forall_app. split; [assumption|]. constructor; [|assumption].
    destruct Hwb as (H1 & H2 & H3). unfold wf_block. rewrite Hs1, Hs2.
    unfold zlen in *. rewrite Hs3. auto.
  - rewrite blocks_mem_set_other by assumption. apply Hw.
Qed.
Lemma nth_error_mid {A} (l1 : list A) x y l2 i u v :
  nth_error (l1 ++ x :: l2) i = Some u -> nth_error (l1 ++ y :: l2) i = Some v ->
  (u = x /\ v = y) \/ u = v.
Proof.
  intros H1 H2. destruct (Nat.lt_trichotomy i (length l1)) as [H|[H|H]].
  - rewrite nth_error_app1 in * by lia. right. congruence.
  - subst i. rewrite nth_error_app2 in * by lia. rewrite Nat.sub_diag in *. cbn in *. left. split; congruence.
  - rewrite nth_error_app2 in * by lia. destruct (i - length l1)%nat as [|k] eqn:E; [lia|]. cbn in *.
    right. congruence.
Qed.
Lemma upd1_cells s t l1 b l2 b' s' : upd1 s t l1 b l2 b' s' ->
  forall t' i c c' x, nth_error (blocks s t') i = Some c -> nth_error (blocks s' t') i = Some c' ->
  cell c' x <> cell c x -> same_table s t t' /\ c = b /\ c' = b' /\ cell b' x <> cell b x.
Proof.
  intros (Ht & Hb & Hs & ->) t' i c c' x Hc Hc' Hd.
  destruct (same_table_dec s t t') as [E|E].
  - rewrite blocks_mem_set in Hc' by assumption. rewrite (blocks_same_table s t t' E), Hb in Hc.
    destruct (nth_error_mid _ _ _ _ _ _ _ Hc Hc') as [[-> ->]|<-]; [auto|congruence].
  - rewrite blocks_mem_set_other in Hc' by assumption. congruence.
Qed.

Lemma touch_upd1 s s' t a n vals :
  wf_slave s -> touch s s' t a n vals ->
  exists l1 b l2, upd1 s t l1 b l2 (overlay b a vals) s' /\ covers b a (zlen vals) /\
    zlen (b_data b) = b_size b /\ zlen vals <= n.
Proof.
  intros Hw (l1 & b & l2 & Ht & Hs & Hn & ->). exists l1, b, l2.
  pose proof (wf_served _ _ _ _ _ _ _ Hw Hs) as (H1 & H2 & H3).
  assert (Hc : covers b a (zlen vals)) by (eapply covers_le; [apply Hs|exact Hn]).
  split; [|auto]. split; [exact Ht|]. split; [apply Hs|]. split; [|reflexivity].
  now apply same_shape_overlay.
Qed.

Lemma overlay_cell_diff b a vals x :
  covers b a (zlen vals) -> zlen (b_data b) = b_size b ->
  cell (overlay b a vals) x <> cell b x -> a <= x < a + zlen vals.
Proof.
  intros Hc Hl Hd. destruct (Z.lt_ge_cases x a) as [H|H].
  - exfalso. apply Hd. apply cell_overlay_out; auto. lia.
  - destruct (Z.lt_ge_cases x (a + zlen vals)) as [H2|H2]; [lia|].
    exfalso. apply Hd. apply cell_overlay_out; auto. lia.
Qed.

(** C20 in one lemma *)
Lemma hr_effect s pdu bc :
  wf_slave s ->
  let s' := fst (handle_request s pdu bc) in
  same_layout s s' /\ wf_slave s' /\
  forall t i b b' x, nth_error (blocks s t) i = Some b -> nth_error (blocks s' t) i = Some b' ->
    cell b' x <> cell b x ->
    exists t0 a n, write_range pdu = Some (t0, a, n) /\ same_table s t0 t /\ a <= x < a + n.
Proof.
  intros Hw. cbn zeta. destruct (hr_state s pdu bc Hw) as [->|(fc & rest & t & a & n & vals & Hp & Hr & Ht & _)].
  - split; [|split; [assumption|]].
    + unfold same_layout. repeat split. intros t. apply Forall2_same_shape_refl.
    + intros t i b b' x H1 H2 H3. congruence.
  - destruct (touch_upd1 _ _ _ _ _ _ Hw Ht) as (l1 & b & l2 & Hu & Hc & Hl & Hn).
    split; [now apply upd1_layout in Hu|]. split; [now apply upd1_wf in Hu|].
    intros t' i c c' x H1 H2 H3.
    destruct (upd1_cells _ _ _ _ _ _ _ Hu _ _ _ _ _ H1 H2 H3) as (Hs & -> & -> & Hd).
    exists t, a, n. split; [assumption|]. split; [assumption|].
    apply overlay_cell_diff in Hd; auto. lia.
Qed.

Lemma hr_wf s pdu bc : wf_slave s -> wf_slave (fst (handle_request s pdu bc)).
Proof. intros Hw. apply (hr_effect s pdu bc Hw). Qed.
Lemma hr_layout s pdu bc : wf_slave s -> same_layout s (fst (handle_request s pdu bc)).
Proof. intros Hw. apply (hr_effect s pdu bc Hw). Qed.

(** ** named access *)
Lemma string_eqb_spec a b : String.eqb a b = true <-> a = b.
Proof. apply String.eqb_eq. Qed.

Lemma find_start_some l start i j b :
  find_start l start i = Some (j, b) <->
  exists l1 l2, l = l1 ++ b :: l2 /\ j = (i + length l1)%nat /\ b_start b = start /\
    (forall c, In c l1 -> b_start c <> start).
Proof.
  revert i. induction l as [|c l IH]; intros i; cbn [find_start].
  - split; [discriminate|]. intros (l1 & l2 & H & _). destruct l1; discriminate.
  - destruct (b_start c =? start) eqn:E.
    + split.
      * intros H. injection H as <- <-. exists [], l. cbn. repeat split; auto; try lia. 
      * intros (l1 & l2 & H & -> & Hs & Hn). destruct l1 as [|d l1]; cbn in H; injection H as -> H.
        -- cbn. now rewrite Nat.add_0_r.
        -- exfalso. apply (Hn d); [now left|lia].
    + rewrite IH. split.
      * intros (l1 & l2 & -> & -> & Hs & Hn). exists (c :: l1), l2. cbn. repeat split; auto; try lia.
        intros d [<-|Hd]; [lia|auto].
      * intros (l1 & l2 & H & -> & Hs & Hn). destruct l1 as [|d l1]; cbn in H; injection H as -> H.
        -- lia.
        -- exists l1, l2. cbn. repeat split; auto; try lia. intros x Hx. apply Hn. now right.
Qed.
Lemma find_start_none l start i :
  find_start l start i = None <-> ~ In start (map b_start l).
Proof.
  revert i. induction l as [|c l IH]; intros i; cbn [find_start map In].
  - intuition.
  - destruct (b_start c =? start) eqn:E.
    + split; [discriminate|]. intros H. exfalso. apply H. left. lia.
    + rewrite IH. intuition lia.
Qed.

(** [names_block s name t l1 b l2]: the name denotes block [b] of table [t]. *)
Definition names_block (s : slave) (name : string) (t : btype) (l1 : list block) (b : block) (l2 : list block) : Prop :=
  exists start, assoc String.eqb name (sl_names s) = Some (t, start) /\ has_table s t /\
    blocks s t = l1 ++ b :: l2 /\ b_start b = start /\ (forall c, In c l1 -> b_start c <> start).

Lemma get_block_ok s name t i b :
  get_block s name = Ok (t, i, b) <->
  exists l1 l2, names_block s name t l1 b l2 /\ i = length l1.
Proof.
  unfold get_block. split.
  - destruct (assoc String.eqb name (sl_names s)) as [[t0 start]|] eqn:E; [|discriminate].
    destruct (mem_get s t0) as [l|] eqn:Em; [|discriminate]. cbn [bind].
    apply mem_get_inv in Em as [Ht ->].
    destruct (find_start (blocks s t0) start 0) as [[j c]|] eqn:Ef; [|discriminate].
    intros H. injection H as <- <- <-. apply find_start_some in Ef as (l1 & l2 & Hb & -> & Hs & Hn).
    exists l1, l2. split; [|reflexivity]. exists start. auto.
  - intros (l1 & l2 & (start & Ha & Ht & Hb & Hs & Hn) & ->). rewrite Ha.
    rewrite mem_get_ok by assumption. cbn [bind].
    assert (H : find_start (blocks s t) start 0 = Some (length l1, b)).
    { apply find_start_some. exists l1, l2. auto. }
    now rewrite H.
Qed.

Lemma put_upd1 s t l1 b l2 d :
  has_table s t -> blocks s t = l1 ++ b :: l2 -> length d = length (b_data b) ->
  upd1 s t l1 b l2 (with_data b d) (put_block_data s t (length l1) b d).
Proof.
  intros Ht Hb Hd. split; [exact Ht|]. split; [exact Hb|]. split.
  - repeat split. exact Hd.
  - now apply put_block_data_blocks.
Qed.

Lemma names_block_wf s name t l1 b l2 : wf_slave s -> names_block s name t l1 b l2 -> wf_block b.
Proof.
  intros Hw (start & _ & _ & Hb & _). specialize (Hw t). rewrite Hb in Hw.
  rewrite Forall_forall in Hw. apply Hw, in_elt.
Qed.

Lemma overlay_data_length b a vals :
  wf_block b -> covers b a (zlen vals) -> length (b_data (overlay b a vals)) = length (b_data b).
Proof.
  intros (H1 & H2 & H3) Hc. pose proof (overlay_length b a vals Hc H3) as H. unfold zlen in *. lia.
Qed.

(** the list of values written by set_values *)
Definition sv_list (v : setval) : list Z := match v with SvSeq l => l | SvNum x => [x] end.

Lemma set_values_ok s name a v t l1 b l2 :
  wf_slave s -> names_block s name t l1 b l2 -> covers b a (zlen (sv_list v)) ->
  set_values s name a v = (mem_set s t (l1 ++ overlay b a (sv_list v) :: l2), Ok tt) /\
  upd1 s t l1 b l2 (overlay b a (sv_list v)) (mem_set s t (l1 ++ overlay b a (sv_list v) :: l2)).
Proof.
  intros Hw Hnb Hc. pose proof (names_block_wf _ _ _ _ _ _ Hw Hnb) as Hwb.
  pose proof Hwb as (H1 & H2 & H3). pose proof Hc as (H4 & H5).
  assert (Hg : get_block s name = Ok (t, length l1, b)) by (apply get_block_ok; eauto).
  pose proof Hnb as (start & Ha & Ht & Hb & Hs & Hn).
  split.
  - unfold set_values. rewrite Hg.
    replace (match v with SvSeq l => zlen l | SvNum _ => 1 end) with (zlen (sv_list v)) by (destruct v; reflexivity).
    destruct ((a - b_start b <? 0) || (b_size b <? a - b_start b + zlen (sv_list v))) eqn:E; [lia|].
    destruct v as [l|x]; cbn [sv_list] in *.
    + rewrite (put_block_data_blocks s t l1 b l2) by assumption. do 5 f_equal.
      apply with_data_overlay. unfold py_slice_assign.
      pose proof (zlen_nonneg l).
      rewrite !slice_bound_in by lia. rewrite Z.max_r by lia. reflexivity.
    + change (zlen [x]) with 1 in *. rewrite py_set_in by lia.
      rewrite <- (overlay_upd b a (Z.to_nat (a - b_start b)) x) by (unfold zlen in H3; lia).
      rewrite (put_block_data_blocks s t l1 b l2) by assumption. reflexivity.
  - split; [exact Ht|]. split; [exact Hb|]. split; [|reflexivity].
    now apply same_shape_overlay.
Qed.
Lemma set_values_out s name a v t l1 b l2 :
  names_block s name t l1 b l2 -> ~ covers b a (zlen (sv_list v)) ->
  set_values s name a v = (s, Err OutOfModbusBlockError).
Proof.
  intros Hnb Hc.
  assert (Hg : get_block s name = Ok (t, length l1, b)) by (apply get_block_ok; eauto).
  unfold set_values. rewrite Hg.
  replace (match v with SvSeq l => zlen l | SvNum _ => 1 end) with (zlen (sv_list v)) by (destruct v; reflexivity).
  unfold covers in Hc.
  destruct ((a - b_start b <? 0) || (b_size b <? a - b_start b + zlen (sv_list v))) eqn:E; [reflexivity|lia].
Qed.
Lemma get_values_ok s name a n t l1 b l2 :
  wf_slave s -> names_block s name t l1 b l2 -> covers b a n -> 0 <= n ->
  get_values s name a n = Ok (values_at b a n).
Proof.
  intros Hw Hnb Hc Hn. pose proof (names_block_wf _ _ _ _ _ _ Hw Hnb) as (H1 & H2 & H3).
  pose proof Hc as (H4 & H5).
  assert (Hg : get_block s name = Ok (t, length l1, b)) by (apply get_block_ok; eauto).
  unfold get_values. rewrite Hg. cbn [bind].
  destruct ((a - b_start b <? 0) || (b_size b <? a - b_start b + n)) eqn:E; [lia|].
  destruct (n =? 1) eqn:E1.
  - assert (n = 1) as -> by lia.
    destruct (py_get_in (b_data b) (a - b_start b)) as (x & Hx & Hget); [lia|]. rewrite Hget. cbn [bind].
    f_equal. unfold values_at. change (Z.to_nat 1) with 1%nat.
    rewrite <- (Nat.add_0_r (Z.to_nat (a - b_start b))) in Hx. rewrite <- nth_error_skipn in Hx.
    destruct (skipn (Z.to_nat (a - b_start b)) (b_data b)); [discriminate|]. cbn in Hx. now injection Hx as ->.
  - f_equal. apply values_at_slice; lia.
Qed.
Lemma get_values_out s name a n t l1 b l2 :
  names_block s name t l1 b l2 -> ~ covers b a n ->
  get_values s name a n = Err OutOfModbusBlockError.
Proof.
  intros Hnb Hc.
  assert (Hg : get_block s name = Ok (t, length l1, b)) by (apply get_block_ok; eauto).
  unfold get_values. rewrite Hg. cbn [bind]. unfold covers in Hc.
  destruct ((a - b_start b <? 0) || (b_size b <? a - b_start b + n)) eqn:E; [reflexivity|lia].
Qed.
Lemma unknown_name s name :
  assoc String.eqb name (sl_names s) = None ->
  (forall a v, set_values s name a v = (s, Err MissingKeyError)) /\
  (forall a n, get_values s name a n = Err MissingKeyError) /\
  remove_block s name = (s, Err MissingKeyError).
Proof.
  intros H. unfold set_values, get_values, remove_block, get_block. rewrite H. auto.
Qed.

(** ** the invariant *)
Definition name_in_list (al : per4 (option btype)) (r : btype) (e : string * (btype * Z)) : bool :=
  match get4 al (fst (snd e)) with Some r' => btype_eqb r r' | None => false end.
Definition name_starts (s : slave) (r : btype) : list Z :=
  map (fun e => snd (snd e)) (filter (name_in_list (sl_alias s) r) (sl_names s)).
Definition list_starts (s : slave) (r : btype) : list Z := map b_start (get4 (sl_lists s) r).

Record inv (s : slave) : Prop := {
  inv_wf : forall r, Forall wf_block (get4 (sl_lists s) r);
  inv_names : NoDup (map fst (sl_names s));
  inv_tables : forall n t a, In (n, (t, a)) (sl_names s) -> has_table s t;
  inv_count : forall r a, (count_occ Z.eq_dec (name_starts s r) a <= count_occ Z.eq_dec (list_starts s r) a)%nat
}.

Lemma inv_wf_slave s : inv s -> wf_slave s.
Proof. intros H t. unfold blocks. destruct (get4 (sl_alias s) t) as [r|]; [apply inv_wf; auto|constructor]. Qed.

Lemma inv_new u : inv (new_slave u None).
Proof.
  constructor; cbn.
  - intros []; constructor.
  - constructor.
  - intros n t a [].
  - intros []; cbn; lia.
Qed.
Lemma inv_new_mem u al ls :
  (forall r, Forall wf_block (get4 ls r)) -> inv (new_slave u (Some (al, ls))).
Proof.
  intros H. constructor; cbn.
  - exact H.
  - constructor.
  - intros n t a [].
  - intros r a. cbn. lia.
Qed.

(** an in-place data update keeps the invariant *)
Lemma upd1_lists s t l1 b l2 b' s' r :
  upd1 s t l1 b l2 b' s' ->
  get4 (sl_lists s') r = get4 (sl_lists s) r \/
  (get4 (sl_lists s) r = l1 ++ b :: l2 /\ get4 (sl_lists s') r = l1 ++ b' :: l2).
Proof.
  intros (Ht & Hb & Hs & ->). unfold has_table, blocks, mem_set in *.
  destruct (get4 (sl_alias s) t) as [r0|] eqn:E; [|congruence]. cbn.
  destruct (btype_eq_dec r0 r) as [<-|Hn].
  - right. rewrite get_set4_same. auto.
  - left. now apply get_set4_other.
Qed.
Lemma upd1_inv s t l1 b l2 b' s' : upd1 s t l1 b l2 b' s' -> inv s -> inv s'.
Proof.
  intros Hu Hi. pose proof (upd1_layout _ _ _ _ _ _ _ Hu) as (Hun & Hna & Hal & _).
  pose proof Hu as (_ & _ & (Hs1 & Hs2 & Hs3) & _).
  constructor.
  - intros r. pose proof (inv_wf _ Hi r) as Hw.
    destruct (upd1_lists _ _ _ _ _ _ _ r Hu) as [->|[E1 ->]]; [assumption|].
    rewrite E1 in Hw. apply Forall_app in Hw as [Hw1 Hw2]. inversion Hw2 as [|? ? Hwb Hw3]; subst.
    apply Forall_app. split; [assumption|]. constructor; [|assumption].
    destruct Hwb as (H1 & H2 & H3). unfold wf_block. rewrite Hs1, Hs2. unfold zlen in *. rewrite Hs3. auto.
  - rewrite Hna. apply (inv_names _ Hi).
  - intros n t' a. rewrite Hna. intros H. unfold has_table. rewrite Hal. eapply (inv_tables _ Hi). eassumption.
  - intros r a. pose proof (inv_count _ Hi r a) as Hc. unfold name_starts, list_starts in *.
    rewrite Hna, Hal.
    destruct (upd1_lists _ _ _ _ _ _ _ r Hu) as [->|[E1 ->]]; [assumption|].
    rewrite E1 in Hc. rewrite map_app in *. cbn [map] in *. rewrite Hs1. assumption.
Qed.

Lemma hr_inv s pdu bc : inv s -> inv (fst (handle_request s pdu bc)).
Proof.
  intros Hi. pose proof (inv_wf_slave _ Hi) as Hw.
  destruct (hr_state s pdu bc Hw) as [->|(fc & rest & t & a & n & vals & _ & _ & Ht & _)]; [assumption|].
  destruct (touch_upd1 _ _ _ _ _ _ Hw Ht) as (l1 & b & l2 & Hu & _).
  eapply upd1_inv; eauto.
Qed.

Lemma set_values_inv s name a v : inv s -> inv (fst (set_values s name a v)).
Proof.
  intros Hi. pose proof (inv_wf_slave _ Hi) as Hw.
  destruct (get_block s name) as [[[t i] b]|e] eqn:Eg.
  - apply get_block_ok in Eg as (l1 & l2 & Hnb & ->).
    destruct (covers_dec b a (zlen (sv_list v))) as [Hc|Hc].
    + destruct (set_values_ok _ _ _ _ _ _ _ _ Hw Hnb Hc) as [-> Hu]. cbn [fst]. eapply upd1_inv; eauto.
    + rewrite (set_values_out _ _ _ _ _ _ _ _ Hnb Hc). exact Hi.
  - unfold set_values. rewrite Eg. exact Hi.
Qed.

(** ** adding a block *)
Lemma is_in_false b start size :
  is_in b start size = false ->
  (b_start b < start /\ b_start b + b_size b <= start) \/ (start < b_start b /\ start + size <= b_start b).
Proof.
  unfold is_in. destruct (b_start b <? start) eqn:E1; [lia|].
  destruct (start <? b_start b) eqn:E2; [lia|discriminate].
Qed.
Lemma is_in_true b start size :
  0 < b_size b -> 0 < size ->
  is_in b start size = true ->
  exists a, holds b a /\ start <= a < start + size.
Proof.
  intros Hb Hs. unfold is_in, holds. destruct (b_start b <? start) eqn:E1.
  - intros H. exists start. lia.
  - destruct (start <? b_start b) eqn:E2; intros H; [exists (b_start b)|exists start]; lia.
Qed.

Lemma add_scan_spec l i start size :
  (exists l1 b l2, l = l1 ++ b :: l2 /\ (forall c, In c l1 -> is_in c start size = false /\ b_start c < start) /\
     is_in b start size = true /\ add_block_scan l i start size = Err OverlapModbusBlockError) \/
  (exists l1 b l2, l = l1 ++ b :: l2 /\ (forall c, In c l1 -> is_in c start size = false /\ b_start c < start) /\
     is_in b start size = false /\ start < b_start b /\ add_block_scan l i start size = Ok (i + length l1)%nat) \/
  ((forall c, In c l -> is_in c start size = false /\ b_start c < start) /\ add_block_scan l i start size = Ok O).
Proof.
  revert i. induction l as [|c l IH]; intros i; cbn [add_block_scan].
  - right. right. split; [intros c []|reflexivity].
  - destruct (is_in c start size) eqn:E.
    + left. exists [], c, l. split; [reflexivity|]. split; [intros ? []|]. auto.
    + destruct (start <? b_start c) eqn:E2.
      * right. left. exists [], c, l. cbn [length]. split; [reflexivity|]. split; [intros ? []|]. split; [assumption|]. split; [lia|]. f_equal. lia.
      * assert (Hc : b_start c < start) by (apply is_in_false in E; lia).
        destruct (IH (S i)) as [(l1 & b & l2 & -> & H1 & H2 & H3)|[(l1 & b & l2 & -> & H1 & H2 & H3 & H4)|[H1 H2]]].
        -- left. exists (c :: l1), b, l2. split; [reflexivity|]. split; [|auto].
           intros x [<-|Hx]; auto.
        -- right. left. exists (c :: l1), b, l2. cbn [length]. split; [reflexivity|]. split; [intros x [<-|Hx]; auto|].
           split; [assumption|]. split; [assumption|]. rewrite H4. f_equal. lia.
        -- right. right. split; [|assumption]. intros x [<-|Hx]; auto.
Qed.

Lemma list_insert_app {A} (l1 l2 : list A) x : list_insert (l1 ++ l2) (length l1) x = l1 ++ x :: l2.
Proof.
  unfold list_insert. rewrite firstn_app, firstn_all, Nat.sub_diag, skipn_app, skipn_all, Nat.sub_diag.
  cbn. now rewrite app_nil_r.
Qed.

(** what a successful add_block does *)
Lemma add_block_ok s name z start size s' :
  add_block s name z start size = (s', Ok tt) ->
  exists t l1 l2,
    0 < size /\ 0 <= start /\ assoc String.eqb name (sl_names s) = None /\ btype_of_Z z = Some t /\
    has_table s t /\ blocks s t = l1 ++ l2 /\
    (forall c, In c l1 -> is_in c start size = false /\ b_start c < start) /\
    (l1 = [] /\ (forall c, In c l2 -> is_in c start size = false /\ b_start c < start) \/
     exists b l3, l2 = b :: l3 /\ is_in b start size = false /\ start < b_start b) /\
    s' = mem_set (with_names s (assoc_put String.eqb name (t, start) (sl_names s))) t
           (l1 ++ new_block start size :: l2).
Proof.
  unfold add_block. destruct (size <=? 0) eqn:E1; [discriminate|]. destruct (start <? 0) eqn:E2; [discriminate|].
  destruct (assoc String.eqb name (sl_names s)) eqn:E3; [discriminate|].
  destruct (btype_of_Z z) as [t|] eqn:E4; [|discriminate].
  destruct (mem_get s t) as [l|] eqn:E5; [|discriminate]. apply mem_get_inv in E5 as [Ht ->].
  destruct (add_scan_spec (blocks s t) 0 start size)
    as [(l1 & b & l2 & Hl & H1 & H2 & H3)|[(l1 & b & l2 & Hl & H1 & H2 & H3 & H4)|[H1 H2]]].
  - rewrite H3. discriminate.
  - rewrite H4. intros H. injection H as <-. exists t, l1, (b :: l2).
    repeat split; auto; try lia; try (now apply H1).
    + right. eauto.
    + cbn [Nat.add]. rewrite Hl. now rewrite list_insert_app.
  - rewrite H2. intros H. injection H as <-. exists t, [], (blocks s t).
    split; [lia|]. split; [lia|]. split; [reflexivity|]. split; [reflexivity|]. split; [assumption|].
    split; [reflexivity|]. split; [intros c []|]. split; [left; auto|reflexivity].
Qed.
Lemma add_block_err s name z start size s' e :
  add_block s name z start size = (s', Err e) -> s' = s.
Proof.
  unfold add_block. destruct (size <=? 0); [congruence|]. destruct (start <? 0); [congruence|].
  destruct (assoc String.eqb name (sl_names s)); [congruence|].
  destruct (btype_of_Z z) as [t|]; [|congruence].
  destruct (mem_get s t) as [l|]; [|congruence].
  destruct (add_block_scan l 0 start size); congruence.
Qed.

Lemma wf_new_block start size : 0 <= start -> 0 < size -> wf_block (new_block start size).
Proof.
  intros H1 H2. unfold wf_block, new_block. cbn [b_start b_size b_data]. rewrite zlen_repeat. repeat split; lia.
Qed.
Lemma new_block_size start size : 0 < size -> b_size (new_block start size) = size.
Proof. intros H. unfold new_block. cbn [b_size]. rewrite zlen_repeat. lia. Qed.

Lemma count_occ_insert l1 x l2 a :
  count_occ Z.eq_dec (l1 ++ x :: l2) a = (count_occ Z.eq_dec (l1 ++ l2) a + if Z.eq_dec x a then 1 else 0)%nat.
Proof.
  rewrite !count_occ_app. cbn [count_occ]. destruct (Z.eq_dec x a); lia.
Qed.

Lemma add_block_inv s name z start size : inv s -> inv (fst (add_block s name z start size)).
Proof.
  intros Hi. destruct (add_block s name z start size) as [s' [[]|e]] eqn:E; cbn [fst].
  2:{ apply add_block_err in E as ->. exact Hi. }
  apply add_block_ok in E as (t & l1 & l2 & Hsz & Hst & Hna & Hz & Ht & Hb & _ & _ & ->).
  rewrite (assoc_put_new String.eqb) by assumption.
  unfold has_table, blocks in *. unfold mem_set. cbn [with_names sl_alias].
  destruct (get4 (sl_alias s) t) as [r0|] eqn:Er; [|congruence].
  constructor.
  - intros r. cbn [sl_lists with_names]. pose proof (inv_wf _ Hi r) as Hw. destruct (btype_eq_dec r0 r) as [<-|Hn].
    + rewrite get_set4_same. rewrite Hb in Hw. apply Forall_app in Hw as [Hw1 Hw2].
      apply Forall_app. split; [assumption|]. constructor; [|assumption]. now apply wf_new_block.
    + rewrite get_set4_other by assumption. exact Hw.
  - cbn [sl_names with_names]. rewrite map_app. cbn [map fst].
    apply (NoDup_Add (a := name) (l := map fst (sl_names s))).
    + replace (map fst (sl_names s)) with (map fst (sl_names s) ++ []) at 1 by apply app_nil_r. apply Add_app.
    + split; [apply (inv_names _ Hi)|]. eapply assoc_none_notin; [|exact Hna]. apply string_eqb_spec.
  - cbn [sl_names with_names]. intros n t' a Hin. unfold has_table. cbn [sl_alias].
    apply in_app_or in Hin as [Hin|[Hin|[]]].
    + exact (inv_tables _ Hi _ _ _ Hin).
    + injection Hin as <- <- <-. congruence.
  - intros r a. unfold name_starts, list_starts. cbn [sl_names sl_alias sl_lists with_names].
    pose proof (inv_count _ Hi r a) as Hc. unfold name_starts, list_starts in Hc.
    rewrite filter_app, map_app. cbn [filter]. unfold name_in_list at 2. cbn [fst snd]. rewrite Er.
    destruct (btype_eqb r r0) eqn:Eb.
    + apply btype_eqb_spec in Eb as <-. rewrite get_set4_same.
      rewrite Hb in Hc. rewrite map_app in *. cbn [map snd].
      change (b_start (new_block start size)) with start.
      rewrite (count_occ_insert (map b_start l1) start (map b_start l2)).
      rewrite (count_occ_app Z.eq_dec _ [start]). cbn [count_occ].
      destruct (Z.eq_dec start a); lia.
    + assert (r0 <> r) by (intros ->; rewrite (proj2 (btype_eqb_spec r r) eq_refl) in Eb; discriminate).
      rewrite get_set4_other by assumption. cbn [map]. rewrite app_nil_r. exact Hc.
Qed.

(** ** removing *)
Lemma list_remove_at_app {A} (l1 : list A) x l2 : list_remove_at (l1 ++ x :: l2) (length l1) = l1 ++ l2.
Proof.
  unfold list_remove_at. rewrite firstn_app, firstn_all, Nat.sub_diag. cbn [firstn]. rewrite app_nil_r.
  f_equal. induction l1 as [|y l1 IH]; [reflexivity|exact IH].
Qed.
Lemma remove_block_ok s name t l1 b l2 :
  names_block s name t l1 b l2 ->
  remove_block s name =
  (mem_set (with_names s (assoc_del String.eqb name (sl_names s))) t (l1 ++ l2), Ok tt).
Proof.
  intros Hnb. assert (Hg : get_block s name = Ok (t, length l1, b)) by (apply get_block_ok; eauto).
  destruct Hnb as (start & Ha & Ht & Hb & Hs & Hn).
  unfold remove_block. rewrite Hg.
  assert (Hm : mem_get (with_names s (assoc_del String.eqb name (sl_names s))) t = Ok (blocks s t)).
  { apply mem_get_ok in Ht. exact Ht. }
  rewrite Hm, Hb. now rewrite list_remove_at_app.
Qed.

(** in a state satisfying the invariant a registered name resolves *)
Lemma inv_resolve s name t start :
  inv s -> assoc String.eqb name (sl_names s) = Some (t, start) ->
  exists l1 b l2, names_block s name t l1 b l2.
Proof.
  intros Hi Ha. pose proof (assoc_in _ string_eqb_spec _ _ _ Ha) as Hin.
  pose proof (inv_tables _ Hi _ _ _ Hin) as Ht.
  destruct (find_start (blocks s t) start 0) as [[j b]|] eqn:E.
  - apply find_start_some in E as (l1 & l2 & Hb & _ & Hs & Hn). exists l1, b, l2, start. auto.
  - exfalso. apply find_start_none in E. unfold has_table, blocks in *.
    destruct (get4 (sl_alias s) t) as [r|] eqn:Er; [|congruence].
    pose proof (inv_count _ Hi r start) as Hc.
    apply (count_occ_not_In Z.eq_dec) in E. unfold list_starts in Hc. rewrite E in Hc.
    assert (Hin2 : In start (name_starts s r)).
    { unfold name_starts. apply in_map_iff. exists (name, (t, start)). split; [reflexivity|].
      apply filter_In. split; [assumption|]. unfold name_in_list. cbn [fst snd]. rewrite Er.
      now apply btype_eqb_spec. }
    apply (count_occ_In Z.eq_dec) in Hin2. lia.
Qed.

Lemma filter_del_count al r name t start l a :
  NoDup (map fst l) -> In (name, (t, start)) l ->
  count_occ Z.eq_dec (map (fun e : string * (btype * Z) => snd (snd e)) (filter (name_in_list al r) l)) a
  = (count_occ Z.eq_dec (map (fun e => snd (snd e)) (filter (name_in_list al r) (assoc_del String.eqb name l))) a
     + if name_in_list al r (name, (t, start)) then if Z.eq_dec start a then 1 else 0 else 0)%nat.
Proof.
  induction l as [|[n [t' s']] l IH]; intros Hnd Hin; [destruct Hin|].
  cbn [assoc_del]. inversion Hnd as [|? ? Hx Hnd']; subst.
  destruct (String.eqb name n) eqn:E.
  - apply string_eqb_spec in E as <-.
    assert (Heq : (t', s') = (t, start)).
    { destruct Hin as [Hin|Hin]; [congruence|]. exfalso. apply Hx. now apply (in_map fst) in Hin. }
    injection Heq as -> ->. cbn [filter].
    destruct (name_in_list al r (name, (t, start))); cbn [map count_occ snd]; [|lia].
    destruct (Z.eq_dec start a); lia.
  - assert (Hin' : In (name, (t, start)) l).
    { destruct Hin as [Hin|Hin]; [|assumption]. injection Hin as -> _ _.
      rewrite String.eqb_refl in E. discriminate. }
    specialize (IH Hnd' Hin'). cbn [filter].
    destruct (name_in_list al r (n, (t', s'))); cbn [map count_occ snd]; [|exact IH].
    destruct (Z.eq_dec s' a); lia.
Qed.

Lemma remove_block_inv s name : inv s -> inv (fst (remove_block s name)).
Proof.
  intros Hi. destruct (assoc String.eqb name (sl_names s)) as [[t start]|] eqn:Ea.
  2:{ destruct (unknown_name s name Ea) as (_ & _ & ->). exact Hi. }
  destruct (inv_resolve _ _ _ _ Hi Ea) as (l1 & b & l2 & Hnb).
  rewrite (remove_block_ok _ _ _ _ _ _ Hnb). cbn [fst].
  destruct Hnb as (start' & Ha' & Ht & Hb & Hs & Hn). assert (start' = start) as -> by congruence.
  pose proof (assoc_in _ string_eqb_spec _ _ _ Ea) as Hin.
  unfold has_table, blocks in *. unfold mem_set. cbn [with_names sl_alias].
  destruct (get4 (sl_alias s) t) as [r0|] eqn:Er; [|congruence].
  constructor.
  - intros r. cbn [sl_lists with_names]. pose proof (inv_wf _ Hi r) as Hw. destruct (btype_eq_dec r0 r) as [<-|Hnn].
    + rewrite get_set4_same. rewrite Hb in Hw. apply Forall_app in Hw as [Hw1 Hw2].
      inversion Hw2; subst. apply Forall_app. auto.
    + rewrite get_set4_other by assumption. exact Hw.
  - cbn [sl_names with_names]. apply del_nodup. apply (inv_names _ Hi).
  - cbn [sl_names with_names]. intros n t' a Hd. unfold has_table. cbn [sl_alias].
    apply del_incl in Hd. exact (inv_tables _ Hi _ _ _ Hd).
  - intros r a. unfold name_starts, list_starts. cbn [sl_names sl_alias sl_lists with_names].
    pose proof (inv_count _ Hi r a) as Hc. unfold name_starts, list_starts in Hc.
    rewrite (filter_del_count _ _ name t start _ _ (inv_names _ Hi) Hin) in Hc.
    unfold name_in_list at 2 in Hc. cbn [fst snd] in Hc. rewrite Er in Hc.
    destruct (btype_eqb r r0) eqn:Eb.
    + apply btype_eqb_spec in Eb as <-. rewrite get_set4_same.
      rewrite Hb in Hc. rewrite map_app in *. cbn [map] in Hc. rewrite count_occ_insert in Hc.
      rewrite Hs in Hc. destruct (Z.eq_dec start a); lia.
    + assert (r0 <> r) by (intros ->; rewrite (proj2 (btype_eqb_spec r r) eq_refl) in Eb; discriminate).
      rewrite get_set4_other by assumption. lia.
Qed.
Lemma remove_all_inv s : inv (remove_all_blocks s).
Proof.
  constructor; cbn.
  - intros []; constructor.
  - constructor.
  - intros ? ? ? [].
  - intros []; cbn; lia.
Qed.

Lemma step_inv s o : inv s -> inv (fst (slave_step s o)).
Proof.
  intros Hi. destruct o as [n z a sz|n| |n a v|n a sz|p bc]; cbn [slave_step].
  - pose proof (add_block_inv s n z a sz Hi) as H. now destruct (add_block s n z a sz).
  - pose proof (remove_block_inv s n Hi) as H. now destruct (remove_block s n).
  - apply remove_all_inv.
  - pose proof (set_values_inv s n a v Hi) as H. now destruct (set_values s n a v).
  - exact Hi.
  - pose proof (hr_inv s p bc Hi) as H. now destruct (handle_request s p bc).
Qed.
Lemma run_inv s ops : inv s -> inv (slave_run s ops).
Proof.
  unfold slave_run. revert s. induction ops as [|o ops IH]; intros s Hi; cbn [fold_left]; [exact Hi|].
  apply IH. now apply step_inv.
Qed.
