(** Block administration: overlaps (C01), names (C02), add_block (C05),
    remove (C06), invariants (C07), uniqueness of the serving block (C22). *)
From Coq Require Import Lia.
From Verif Require Import Base BaseFacts Spec Defines SlaveModel SlaveSpec SlaveProofs GeneralProofs SlaveInv BlockSpec.

Definition apart (b b' : block) : Prop := forall a, holds b a -> holds b' a -> False.
Lemma apart_sym b b' : apart b b' -> apart b' b.
Proof. unfold apart. firstorder. Qed.

Lemma disjoint_FOP l : disjoint_blocks l <-> ForallOrdPairs apart l.
Proof.
  split.
  - induction l as [|b l IH]; intros H; constructor.
    + apply Forall_forall. intros c Hc. apply In_nth_error in Hc as [j Hj].
      intros a Ha Hb. apply (H O (S j) b c) with (a := a); auto; discriminate.
    + apply IH. intros i j c d Hij Hi Hj. apply (H (S i) (S j) c d); auto; congruence.
  - intros H. induction H as [|b l Hf Hr IH]; intros i j c d Hij Hi Hj.
    + destruct i; discriminate.
    + rewrite Forall_forall in Hf. destruct i as [|i], j as [|j]; cbn in Hi, Hj.
      * congruence.
      * injection Hi as <-. apply (Hf d). now apply nth_error_In with j.
      * injection Hj as <-. intros a H1 H2. apply (Hf c) with (a := a); auto. now apply nth_error_In with i.
      * apply (IH i j c d); auto.
Qed.
Lemma FOP_insert (l1 : list block) x l2 :
  ForallOrdPairs apart (l1 ++ x :: l2) <-> ForallOrdPairs apart (l1 ++ l2) /\ Forall (apart x) (l1 ++ l2).
Proof.
  induction l1 as [|c l1 IH]; cbn [app].
  - split.
    + intros H. inversion H; subst. auto.
    + intros [H1 H2]. constructor; auto.
  - split.
    + intros H. inversion H as [|? ? Hf Hr]; subst. apply IH in Hr as [H1 H2].
      apply Forall_app in Hf as [Hf1 Hf2]. inversion Hf2; subst.
      split; constructor; auto using apart_sym. now apply Forall_app.
    + intros [H1 H2]. inversion H1 as [|? ? Hf Hr]; subst. inversion H2 as [|? ? Hx Hy]; subst.
      constructor; [|now apply IH]. apply Forall_app in Hf as [Hf1 Hf2]. apply Forall_app. split; [assumption|].
      constructor; auto using apart_sym.
Qed.
Lemma apart_shape b b' c c' : same_shape b b' -> same_shape c c' -> apart b c -> apart b' c'.
Proof. intros (H1 & H2 & _) (H3 & H4 & _) H a. unfold holds in *. rewrite H1, H2, H3, H4. apply H. Qed.
Lemma FOP_shape l l' : Forall2 same_shape l l' -> ForallOrdPairs apart l -> ForallOrdPairs apart l'.
Proof.
  induction 1 as [|b b' l l' Hb Hl IH]; intros H; constructor; inversion H as [|? ? Hf Hr]; subst; auto.
  clear - Hb Hl Hf. induction Hl; inversion Hf; subst; constructor; auto. eapply apart_shape; eauto.
Qed.
Lemma disjoint_shape l l' : Forall2 same_shape l l' -> disjoint_blocks l -> disjoint_blocks l'.
Proof. rewrite !disjoint_FOP. apply FOP_shape. Qed.

(** ascending by start *)
Fixpoint ascending (l : list block) : Prop :=
  match l with
  | [] => True
  | b :: t => (forall c, In c t -> b_start b < b_start c) /\ ascending t
  end.
Lemma ascending_mid l1 x l2 :
  ascending (l1 ++ x :: l2) <->
  ascending (l1 ++ l2) /\ (forall c, In c l1 -> b_start c < b_start x) /\ (forall c, In c l2 -> b_start x < b_start c).
Proof.
  induction l1 as [|c l1 IH]; cbn [app ascending].
  - firstorder. 
  - rewrite IH. split.
    + intros (H1 & H2 & H3 & H4). repeat split; auto.
      * intros d Hd. apply H1. apply in_app_iff in Hd. apply in_app_iff. cbn. tauto.
      * intros d [<-|Hd]; [apply H1, in_elt|]; auto.
    + intros ((H1 & H2) & H3 & H4). repeat split; auto.
      * intros d Hd. apply in_app_iff in Hd as [Hd|[<-|Hd]]; [apply H1, in_app_iff; auto|apply H3; now left|apply H1, in_app_iff; auto].
      * intros d Hd. apply H3. now right.
Qed.
Lemma ascending_shape l l' : Forall2 same_shape l l' -> ascending l -> ascending l'.
Proof.
  induction 1 as [|b b' l l' Hb Hl IH]; cbn; [auto|]. intros [H1 H2]. split; [|auto].
  intros c Hc. destruct Hb as (Hb & _). rewrite Hb.
  assert (exists d, In d l /\ b_start c = b_start d) as (d & Hd & ->); [|auto].
  clear - Hl Hc. induction Hl as [|x y l l' Hx Hl IH]; [destruct Hc|].
  destruct Hc as [<-|Hc]; [exists x; split; [now left|apply Hx]|].
  destruct (IH Hc) as (d & Hd & E). exists d. split; [now right|exact E].
Qed.

Lemma holds_start b : 0 < b_size b -> holds b (b_start b).
Proof. unfold holds. lia. Qed.
Lemma not_in_apart b start size :
  0 < size -> is_in b start size = false -> apart (new_block start size) b.
Proof.
  intros Hs H. apply is_in_false in H. intros a. unfold holds. rewrite new_block_size by assumption.
  change (b_start (new_block start size)) with start. lia.
Qed.
Lemma is_in_meets b start size :
  0 < b_size b -> 0 < size ->
  (is_in b start size = true <-> exists a, holds b a /\ start <= a < start + size).
Proof.
  intros H1 H2. split; [now apply is_in_true|]. intros (a & Ha & Hr).
  destruct (is_in b start size) eqn:E; [reflexivity|]. apply is_in_false in E. unfold holds in Ha. lia.
Qed.

(** ascending tables are scanned exactly *)
Lemma ascending_apart l b start size :
  0 < size -> Forall wf_block l -> ascending (b :: l) -> is_in b start size = false -> start < b_start b ->
  Forall (apart (new_block start size)) l.
Proof.
  intros Hs Hw [Ha _] Hi Hlt. apply is_in_false in Hi. apply Forall_forall. intros c Hc a.
  specialize (Ha c Hc). unfold holds. rewrite new_block_size by assumption.
  change (b_start (new_block start size)) with start. lia.
Qed.

(** C01, one step: exactness of the overlap check *)
Lemma add_block_exact s name z t start size :
  wf_slave s -> 0 < size -> 0 <= start -> assoc String.eqb name (sl_names s) = None ->
  btype_of_Z z = Some t -> has_table s t ->
  ascending (blocks s t) \/ (forall b, In b (blocks s t) -> b_start b <= start) ->
  (meets s t start size -> add_block s name z start size = (s, Err OverlapModbusBlockError)) /\
  (~ meets s t start size -> exists s', add_block s name z start size = (s', Ok tt)).
Proof.
  intros Hw Hs Hst Hna Hz Ht Hpol. unfold add_block.
  replace (size <=? 0) with false by lia. replace (start <? 0) with false by lia.
  rewrite Hna, Hz, (mem_get_ok _ _ Ht). pose proof (Hw t) as Hwt. rewrite Forall_forall in Hwt.
  destruct (add_scan_spec (blocks s t) 0 start size)
    as [(l1 & b & l2 & Hl & H1 & H2 & H3)|[(l1 & b & l2 & Hl & H1 & H2 & H3 & H4)|[H1 H2]]].
  - rewrite H3. split; [reflexivity|]. intros Hm. exfalso. apply Hm.
    assert (Hb : In b (blocks s t)) by (rewrite Hl; apply in_elt).
    destruct (Hwt _ Hb) as (_ & Hb2 & _).
    apply is_in_true in H2 as (a & Ha & Hr); [|assumption..]. exists b, a. auto.
  - rewrite H4. split; [|eauto]. intros (c & a & Hc & Ha & Hr). exfalso.
    assert (Hb : In b (blocks s t)) by (rewrite Hl; apply in_elt).
    destruct Hpol as [Hasc|Hup]; [|specialize (Hup _ Hb); lia].
    rewrite Hl in Hc, Hasc. apply in_app_iff in Hc as [Hc|[<-|Hc]].
    + destruct (H1 _ Hc) as [Hi _]. apply is_in_false in Hi. unfold holds in Ha. lia.
    + apply is_in_false in H2. unfold holds in Ha. lia.
    + apply ascending_mid in Hasc as (_ & _ & Hasc). specialize (Hasc c Hc).
      apply is_in_false in H2. unfold holds in Ha. lia.
  - rewrite H2. split; [|eauto]. intros (c & a & Hc & Ha & Hr). exfalso.
    destruct (H1 _ Hc) as [Hi _]. apply is_in_false in Hi. unfold holds in Ha. lia.
Qed.
Lemma add_block_overlap_real s name z start size s' :
  wf_slave s -> add_block s name z start size = (s', Err OverlapModbusBlockError) ->
  exists t, btype_of_Z z = Some t /\ meets s t start size.
Proof.
  intros Hw. unfold add_block. destruct (size <=? 0) eqn:E1; [discriminate|]. destruct (start <? 0) eqn:E2; [discriminate|].
  destruct (assoc String.eqb name (sl_names s)) eqn:E3; [discriminate|].
  destruct (btype_of_Z z) as [t|] eqn:E4; [|discriminate].
  destruct (mem_get s t) as [l|] eqn:E5; [|discriminate]. apply mem_get_inv in E5 as [Ht ->].
  pose proof (Hw t) as Hwt. rewrite Forall_forall in Hwt.
  destruct (add_scan_spec (blocks s t) 0 start size)
    as [(l1 & b & l2 & Hl & H1 & H2 & H3)|[(l1 & b & l2 & Hl & H1 & H2 & H3 & H4)|[H1 H2]]].
  - intros _. exists t. split; [reflexivity|].
    assert (Hb : In b (blocks s t)) by (rewrite Hl; apply in_elt).
    destruct (Hwt _ Hb) as (_ & Hb2 & _).
    apply is_in_true in H2 as (a & Ha & Hr); [|lia..]. exists b, a. auto.
  - rewrite H4. discriminate.
  - rewrite H2. discriminate.
Qed.

(** C01 along histories with a fixed policy per table, default memory *)
Definition own (s : slave) : Prop := sl_alias s = own_lists.
Lemma own_has s t : own s -> has_table s t.
Proof. intros H. unfold has_table. rewrite H. destruct t; discriminate. Qed.
Lemma own_same s t t' : own s -> same_table s t t' -> t = t'.
Proof. unfold own, same_table. intros ->. destruct t, t'; cbn; congruence. Qed.

Definition good (p : btype -> policy) (s : slave) : Prop :=
  own s /\ forall t, disjoint_blocks (blocks s t) /\ (p t = Downwards -> ascending (blocks s t)).

Lemma good_layout p s s' : same_layout s s' -> good p s -> good p s'.
Proof.
  intros (_ & _ & Ha & Hf) [Ho Hg]. split; [unfold own in *; congruence|]. intros t. destruct (Hg t) as [H1 H2].
  split; [eapply disjoint_shape; eauto|]. intros H. eapply ascending_shape; eauto.
Qed.

Lemma disjoint_nil : disjoint_blocks [].
Proof. intros [|i] j b b' _ H; discriminate. Qed.

Lemma good_add p s n z a sz :
  wf_slave s -> good p s -> respects p s (OpAddBlock n z a sz) -> good p (fst (add_block s n z a sz)).
Proof.
  intros Hw Hg Hr. destruct (add_block s n z a sz) as [s' [[]|e]] eqn:E; cbn [fst].
  2:{ apply add_block_err in E as ->. exact Hg. }
  apply add_block_ok in E as (t & l1 & l2 & Hsz & Hst & Hna & Hz & Ht & Hb & H1 & H2 & ->).
  destruct Hg as [Ho Hg]. split.
  { unfold own in *. rewrite mem_set_alias. exact Ho. }
  intros t'. set (s1 := with_names s _). assert (Ho1 : own s1) by exact Ho.
  destruct (btype_eq_dec t t') as [<-|Hn].
  2:{ rewrite blocks_mem_set_other by (intros E; apply Hn; eapply own_same; eauto).
      change (blocks s1 t') with (blocks s t'). apply Hg. }
  rewrite blocks_mem_set by (auto using own_has; reflexivity).
  destruct (Hg t) as [Hd Ha]. specialize (Hr t Hz). rewrite disjoint_FOP in *.
  rewrite Hb in Hd, Ha, Hr. pose proof (Hw t) as Hwt. rewrite Hb in Hwt.
  assert (HF1 : Forall (apart (new_block a sz)) l1).
  { apply Forall_forall. intros c Hc. apply not_in_apart; [assumption|]. now apply H1. }
  destruct (p t) eqn:Ep.
  - split; [|discriminate]. apply FOP_insert. split; [assumption|]. apply Forall_app. split; [assumption|].
    destruct H2 as [[-> H2]|(b & l3 & -> & H2 & H3)].
    + apply Forall_forall. intros c Hc. apply not_in_apart; [assumption|]. now apply H2.
    + exfalso. assert (b_start b <= a) by (apply Hr, in_elt). lia.
  - specialize (Ha eq_refl).
    destruct H2 as [[-> H2]|(b & l3 & -> & H2 & H3)].
    + cbn [app] in *. destruct Hr as [->|(b & Hbi & Hle)].
      * split; [rewrite <- disjoint_FOP; intros i j c d Hij Hi Hj|cbn; firstorder; contradiction].
        destruct i as [|[|i]], j as [|[|j]]; try discriminate; congruence.
      * destruct (H2 _ Hbi). lia.
    + split.
      * apply FOP_insert. split; [assumption|]. apply Forall_app. split; [assumption|].
        constructor; [now apply not_in_apart|].
        apply Forall_app in Hwt as [_ Hwt]. inversion Hwt; subst.
        eapply ascending_apart; eauto.
        apply ascending_mid in Ha as (Ha & Hx & Hy). split; [assumption|].
        clear - Ha. induction l1; [exact Ha|apply IHl1, Ha].
      * intros _. apply ascending_mid. change (b_start (new_block a sz)) with a. split; [assumption|]. split.
        -- intros c Hc. now apply H1.
        -- intros c [<-|Hc]; [assumption|]. apply ascending_mid in Ha as (_ & _ & Ha). specialize (Ha c Hc). lia.
Qed.
Lemma good_remove p s n : inv s -> good p s -> good p (fst (remove_block s n)).
Proof.
  intros Hi Hg. destruct (assoc String.eqb n (sl_names s)) as [[t start]|] eqn:Ea.
  2:{ destruct (unknown_name s n Ea) as (_ & _ & ->). exact Hg. }
  destruct (inv_resolve _ _ _ _ Hi Ea) as (l1 & b & l2 & Hnb).
  rewrite (remove_block_ok _ _ _ _ _ _ Hnb). cbn [fst].
  destruct Hnb as (start' & _ & Ht & Hb & _ & _). destruct Hg as [Ho Hg]. split.
  { unfold own in *. rewrite mem_set_alias. exact Ho. }
  intros t'. set (s1 := with_names s _). assert (Ho1 : own s1) by exact Ho.
  destruct (btype_eq_dec t t') as [<-|Hn].
  2:{ rewrite blocks_mem_set_other by (intros E; apply Hn; eapply own_same; eauto).
      change (blocks s1 t') with (blocks s t'). apply Hg. }
  rewrite blocks_mem_set by (auto using own_has; reflexivity).
  destruct (Hg t) as [Hd Ha]. rewrite Hb in Hd, Ha. rewrite disjoint_FOP in *.
  split; [now apply FOP_insert in Hd|]. intros E. specialize (Ha E). now apply ascending_mid in Ha.
Qed.
Lemma good_new p u : good p (new_slave u None).
Proof.
  split; [reflexivity|]. intros []; (split; [apply disjoint_nil|intros _; exact I]).
Qed.
Lemma good_remove_all p s : good p s -> good p (remove_all_blocks s).
Proof.
  intros [Ho _]. unfold own in Ho. unfold remove_all_blocks. rewrite Ho. split; [reflexivity|].
  intros []; (split; [apply disjoint_nil|intros _; exact I]).
Qed.
Lemma good_step p s o : inv s -> good p s -> respects p s o -> good p (fst (slave_step s o)).
Proof.
  intros Hi Hg Hr. pose proof (inv_wf_slave _ Hi) as Hw.
  destruct o as [n z a sz|n| |n a v|n a sz|pd bc]; cbn [slave_step].
  - pose proof (good_add p s n z a sz Hw Hg Hr). now destruct (add_block s n z a sz).
  - pose proof (good_remove p s n Hi Hg). now destruct (remove_block s n).
  - now apply good_remove_all.
  - assert (Hl : same_layout s (fst (set_values s n a v))).
    { destruct (get_block s n) as [[[t i] b]|e] eqn:Eg.
      - apply get_block_ok in Eg as (l1 & l2 & Hnb & ->).
        destruct (covers_dec b a (zlen (sv_list v))) as [Hc|Hc].
        + destruct (set_values_ok _ _ _ _ _ _ _ _ Hw Hnb Hc) as [-> Hu]. eapply upd1_layout; eauto.
        + rewrite (set_values_out _ _ _ _ _ _ _ _ Hnb Hc). repeat split. intros. apply Forall2_same_shape_refl.
      - unfold set_values. rewrite Eg. repeat split. intros. apply Forall2_same_shape_refl. }
    pose proof (good_layout p _ _ Hl Hg). now destruct (set_values s n a v).
  - exact Hg.
  - pose proof (good_layout p _ _ (hr_layout s pd bc Hw) Hg). now destruct (handle_request s pd bc).
Qed.
Lemma good_run p s ops : inv s -> good p s -> history_respects p s ops -> good p (slave_run s ops).
Proof.
  unfold slave_run. revert s. induction ops as [|o ops IH]; intros s Hi Hg Hr; cbn [fold_left]; [exact Hg|].
  destruct Hr as [H1 H2]. apply IH; auto using step_inv, good_step.
Qed.

(** ** names (C02) *)
Lemma names_block_named s name t l1 b l2 : names_block s name t l1 b l2 -> named s name t (b_start b).
Proof. intros (start & Ha & _ & _ & <- & _). exact Ha. Qed.

Lemma values_at_new start size : 0 <= size -> values_at (new_block start size) start size = repeat 0 (Z.to_nat size).
Proof.
  intros H. unfold values_at, new_block. cbn [b_start b_data]. rewrite Z.sub_diag. cbn [Z.to_nat skipn].
  apply firstn_all2. rewrite repeat_length. lia.
Qed.

Lemma assoc_put_same k (v : btype * Z) l : assoc String.eqb k (assoc_put String.eqb k v l) = Some v.
Proof.
  induction l as [|[k' v'] l IH]; cbn; [now rewrite String.eqb_refl|].
  destruct (String.eqb k k') eqn:E; cbn; rewrite E; auto.
Qed.
Lemma assoc_put_other k k' (v : btype * Z) l : k <> k' ->
  assoc String.eqb k' (assoc_put String.eqb k v l) = assoc String.eqb k' l.
Proof.
  intros Hn. induction l as [|[k2 v2] l IH]; cbn.
  - destruct (String.eqb k' k) eqn:E; [|reflexivity]. apply String.eqb_eq in E. congruence.
  - destruct (String.eqb k k2) eqn:E; cbn.
    + apply String.eqb_eq in E as <-. destruct (String.eqb k' k) eqn:E2; [|reflexivity].
      apply String.eqb_eq in E2. congruence.
    + destruct (String.eqb k' k2); auto.
Qed.
Lemma assoc_del_other k k' (l : list (string * (btype * Z))) : k <> k' ->
  assoc String.eqb k' (assoc_del String.eqb k l) = assoc String.eqb k' l.
Proof.
  intros Hn. induction l as [|[k2 v2] l IH]; cbn; [reflexivity|].
  destruct (String.eqb k k2) eqn:E; cbn.
  - apply String.eqb_eq in E as <-. destruct (String.eqb k' k) eqn:E2; [|reflexivity].
    apply String.eqb_eq in E2. congruence.
  - destruct (String.eqb k' k2); auto.
Qed.
Lemma assoc_del_same k (l : list (string * (btype * Z))) : NoDup (map fst l) ->
  assoc String.eqb k (assoc_del String.eqb k l) = None.
Proof.
  induction l as [|[k2 v2] l IH]; cbn; [reflexivity|]. intros H. inversion H as [|? ? Hx Hn]; subst.
  destruct (String.eqb k k2) eqn:E; cbn.
  - apply String.eqb_eq in E as <-. clear - Hx. induction l as [|[k3 v3] l IH]; cbn in *; [reflexivity|].
    destruct (String.eqb k k3) eqn:E; [|tauto]. apply String.eqb_eq in E. subst. tauto.
  - rewrite E. auto.
Qed.

Lemma add_block_zeros s name z start size s' :
  inv s -> add_block s name z start size = (s', Ok tt) ->
  get_values s' name start size = Ok (repeat 0 (Z.to_nat size)).
Proof.
  intros Hi E. pose proof (add_block_inv s name z start size Hi) as Hi'. rewrite E in Hi'. cbn [fst] in Hi'.
  apply add_block_ok in E as (t & l1 & l2 & Hsz & Hst & Hna & Hz & Ht & Hb & H1 & H2 & ->).
  set (s' := mem_set _ _ _) in *.
  assert (Hnb : names_block s' name t l1 (new_block start size) l2).
  { exists start. subst s'. rewrite mem_set_names. cbn [sl_names with_names]. rewrite assoc_put_same.
    split; [reflexivity|]. split; [unfold has_table in *; rewrite mem_set_alias; exact Ht|].
    split; [apply blocks_mem_set; [exact Ht|reflexivity]|]. split; [reflexivity|].
    intros c Hc. apply H1 in Hc. lia. }
  rewrite (get_values_ok _ _ _ _ _ _ _ _ (inv_wf_slave _ Hi') Hnb).
  - f_equal. apply values_at_new. lia.
  - unfold covers. rewrite new_block_size by assumption. cbn [new_block b_start]. lia.
  - lia.
Qed.

(** get_values depends only on the name entry and the first block with that start *)
Definition resolves_same (s s' : slave) (name : string) : Prop :=
  exists t t' i i' b, get_block s name = Ok (t, i, b) /\ get_block s' name = Ok (t', i', b).
Lemma resolves_same_values s s' name a n :
  resolves_same s s' name -> get_values s' name a n = get_values s name a n.
Proof.
  intros (t & t' & i & i' & b & H1 & H2). unfold get_values. rewrite H1, H2. reflexivity.
Qed.

Lemma first_start_other (l1 l2 : list block) x k start b :
  b_start x <> start ->
  find_start (l1 ++ l2) start k = Some b ->
  exists j, find_start (l1 ++ x :: l2) start k = Some (j, snd b).
Proof.
  intros Hx. revert k. induction l1 as [|c l1 IH]; intros k; cbn [app find_start].
  - intros H. rewrite (proj2 (Z.eqb_neq _ _) Hx). revert k H. 
    assert (G : forall m k, find_start l2 start k = Some b -> exists j, find_start l2 start m = Some (j, snd b)).
    { induction l2 as [|c l2 IH]; intros m k; cbn [find_start]; [discriminate|].
      destruct (b_start c =? start); [intros H; injection H as <-; cbn; eauto|apply IH]. }
    intros k H. eapply G; eauto.
  - destruct (b_start c =? start); [intros H; injection H as <-; cbn; eauto|apply IH].
Qed.
Lemma first_start_other_inv (l1 l2 : list block) x k start b :
  b_start x <> start ->
  find_start (l1 ++ x :: l2) start k = Some b ->
  exists j, find_start (l1 ++ l2) start k = Some (j, snd b).
Proof.
  intros Hx. revert k. induction l1 as [|c l1 IH]; intros k; cbn [app find_start].
  - rewrite (proj2 (Z.eqb_neq _ _) Hx). 
    assert (G : forall m k, find_start l2 start k = Some b -> exists j, find_start l2 start m = Some (j, snd b)).
    { induction l2 as [|c l2 IH]; intros m k'; cbn [find_start]; [discriminate|].
      destruct (b_start c =? start); [intros H; injection H as <-; cbn; eauto|apply IH]. }
    intros H. eapply G; eauto.
  - destruct (b_start c =? start); [intros H; injection H as <-; cbn; eauto|apply IH].
Qed.

(** adding under another name at another start, or in another table *)
Lemma add_block_stable s name t0 start0 n z start size s' :
  inv s -> named s name t0 start0 -> n <> name ->
  add_block s n z start size = (s', Ok tt) ->
  (forall t, btype_of_Z z = Some t -> same_table s t t0 -> start <> start0) ->
  resolves_same s s' name.
Proof.
  intros Hi Hnm Hne E Hd.
  apply add_block_ok in E as (t & l1 & l2 & Hsz & Hst & Hna & Hz & Ht & Hb & H1 & H2 & ->).
  destruct (inv_resolve _ _ _ _ Hi Hnm) as (k1 & b & k2 & Hnb).
  assert (Hg : get_block s name = Ok (t0, length k1, b)) by (apply get_block_ok; eauto).
  destruct Hnb as (st & Hst' & Ht0 & Hb0 & Hs0 & Hf). assert (st = start0) as -> by (unfold named in *; congruence).
  specialize (Hd t Hz).
  unfold resolves_same. rewrite Hg. unfold get_block. rewrite mem_set_names. cbn [sl_names with_names].
  rewrite assoc_put_other by assumption. rewrite Hnm.
  set (s1 := with_names s _). 
  assert (Ht1 : has_table (mem_set s1 t (l1 ++ new_block start size :: l2)) t0).
  { unfold has_table in *. rewrite mem_set_alias. exact Ht0. }
  rewrite (mem_get_ok _ _ Ht1). cbn [bind].
  assert (Hfs : find_start (blocks s t0) start0 0 = Some (length k1, b)).
  { apply find_start_some. exists k1, k2. auto. }
  destruct (same_table_dec s t t0) as [Hsame|Hdiff].
  - rewrite (blocks_mem_set s1 t _ t0 Ht Hsame).
    rewrite (blocks_same_table _ _ _ Hsame), Hb in Hfs.
    apply (first_start_other l1 l2 (new_block start size)) in Hfs as [j ->]; [|apply Hd, Hsame].
    do 5 eexists. split; reflexivity.
  - rewrite (blocks_mem_set_other s1 t _ t0 Hdiff). change (blocks s1 t0) with (blocks s t0). rewrite Hfs.
    do 5 eexists. split; reflexivity.
Qed.
Lemma remove_block_stable s name t0 start0 n t start :
  inv s -> named s name t0 start0 -> named s n t start ->
  n <> name -> (same_table s t t0 -> start <> start0) ->
  resolves_same s (fst (remove_block s n)) name.
Proof.
  intros Hi Hnm Hnn Hne Hd.
  destruct (inv_resolve _ _ _ _ Hi Hnm) as (k1 & b & k2 & Hnb).
  assert (Hg : get_block s name = Ok (t0, length k1, b)) by (apply get_block_ok; eauto).
  destruct Hnb as (st & Hst' & Ht0 & Hb0 & Hs0 & Hf). assert (st = start0) as -> by (unfold named in *; congruence).
  destruct (inv_resolve _ _ _ _ Hi Hnn) as (l1 & c & l2 & Hnb2).
  rewrite (remove_block_ok _ _ _ _ _ _ Hnb2). cbn [fst].
  destruct Hnb2 as (st & Hst2 & Ht & Hb & Hs & Hf2). assert (st = start) as -> by (unfold named in *; congruence).
  unfold resolves_same. rewrite Hg. unfold get_block. rewrite mem_set_names. cbn [sl_names with_names].
  rewrite assoc_del_other by assumption. rewrite Hnm.
  set (s1 := with_names s _). 
  assert (Ht1 : has_table (mem_set s1 t (l1 ++ l2)) t0).
  { unfold has_table in *. rewrite mem_set_alias. exact Ht0. }
  rewrite (mem_get_ok _ _ Ht1). cbn [bind].
  assert (Hfs : find_start (blocks s t0) start0 0 = Some (length k1, b)).
  { apply find_start_some. exists k1, k2. auto. }
  destruct (same_table_dec s t t0) as [Hsame|Hdiff].
  - rewrite (blocks_mem_set s1 t _ t0 Ht Hsame).
    rewrite (blocks_same_table _ _ _ Hsame), Hb in Hfs.
    apply (first_start_other_inv l1 l2 c) in Hfs as [j ->]; [|rewrite Hs; apply Hd, Hsame].
    do 5 eexists. split; reflexivity.
  - rewrite (blocks_mem_set_other s1 t _ t0 Hdiff). change (blocks s1 t0) with (blocks s t0). rewrite Hfs.
    do 5 eexists. split; reflexivity.
Qed.

(** with disjoint blocks two names never share a start *)
Lemma disjoint_starts l : Forall wf_block l -> disjoint_blocks l -> NoDup (map b_start l).
Proof.
  rewrite disjoint_FOP. induction l as [|b l IH]; intros Hw Hd; cbn; constructor;
    inversion Hw; subst; inversion Hd as [|? ? Hf Hr]; subst; auto.
  intros Hin. apply in_map_iff in Hin as (c & Hc & Hi). rewrite Forall_forall in *.
  destruct (H2 _ Hi) as (_ & Hcs & _). destruct H1 as (_ & Hbs & _).
  apply (Hf _ Hi (b_start b)); unfold holds; lia.
Qed.
Lemma names_distinct s n n' t t' start :
  inv s -> (forall t, disjoint_blocks (blocks s t)) -> named s n t start -> named s n' t' start ->
  same_table s t t' -> n = n'.
Proof.
  intros Hi Hd H1 H2 Hs. destruct (string_dec n n') as [E|Hne]; [assumption|exfalso].
  apply (assoc_in _ string_eqb_spec) in H1 as Hin1. apply (assoc_in _ string_eqb_spec) in H2 as Hin2.
  pose proof (inv_tables _ Hi _ _ _ Hin1) as Ht. unfold has_table in Ht.
  destruct (get4 (sl_alias s) t) as [r|] eqn:Er; [|congruence].
  pose proof (inv_count _ Hi r start) as Hc.
  assert (Hnd : NoDup (list_starts s r)).
  { unfold list_starts. apply disjoint_starts; [apply (inv_wf _ Hi)|].
    specialize (Hd t). unfold blocks in Hd. now rewrite Er in Hd. }
  rewrite (NoDup_count_occ Z.eq_dec) in Hnd. specialize (Hnd start).
  unfold same_table in Hs. rewrite Er in Hs.
  assert (Hcnt : (2 <= count_occ Z.eq_dec (name_starts s r) start)%nat); [|lia].
  unfold name_starts. apply in_split in Hin1 as (l1 & l2 & El). rewrite El in *.
  assert (Hin : In (n', (t', start)) (l1 ++ l2)).
  { apply in_app_iff in Hin2 as [H|[H|H]]; apply in_app_iff; auto. congruence. }
  rewrite filter_app. cbn [filter].
  assert (F1 : name_in_list (sl_alias s) r (n, (t, start)) = true).
  { unfold name_in_list. cbn [fst snd]. rewrite Er. now apply btype_eqb_spec. }
  assert (F2 : name_in_list (sl_alias s) r (n', (t', start)) = true).
  { unfold name_in_list. cbn [fst snd]. rewrite <- Hs. now apply btype_eqb_spec. }
  rewrite F1, map_app. cbn [map snd].
  rewrite count_occ_insert. destruct (Z.eq_dec start start); [|congruence].
  rewrite <- map_app, <- filter_app.
  assert (In start (map (fun e : string * (btype * Z) => snd (snd e)) (filter (name_in_list (sl_alias s) r) (l1 ++ l2)))).
  { apply in_map_iff. exists (n', (t', start)). split; [reflexivity|]. apply filter_In. auto. }
  apply (count_occ_In Z.eq_dec) in H. lia.
Qed.

Lemma names_stable_step p s o name :
  inv s -> good p s -> respects p s o -> registered s name -> other_name o name ->
  forall a n, get_values (fst (slave_step s o)) name a n = get_values s name a n.
Proof.
  intros Hi Hg Hr Hreg Ho a n. unfold registered in Hreg.
  destruct (assoc String.eqb name (sl_names s)) as [[t0 start0]|] eqn:Ea; [|congruence].
  pose proof (good_step p s o Hi Hg Hr) as Hg'. pose proof (step_inv s o Hi) as Hi'.
  destruct o as [m z st sz|m| |m b v|m b sz|pd bc]; cbn [other_name] in Ho; try contradiction; cbn [slave_step] in *.
  - destruct (add_block s m z st sz) as [s' [[]|e]] eqn:E; cbn [fst] in *.
    2:{ apply add_block_err in E as ->. reflexivity. }
    apply resolves_same_values. eapply add_block_stable; eauto.
    intros t Hz Hsame ->. pose proof E as E'.
    apply add_block_ok in E as (t1 & l1 & l2 & _ & _ & Hna & Hz' & Ht & Hb & _ & _ & ->).
    assert (t1 = t) as -> by congruence.
    apply Ho. eapply (names_distinct _ m name t t0 start0 Hi').
    + intros t'. apply Hg'.
    + unfold named. rewrite mem_set_names. cbn [sl_names with_names]. apply assoc_put_same.
    + unfold named. rewrite mem_set_names. cbn [sl_names with_names]. rewrite assoc_put_other by assumption. exact Ea.
    + unfold same_table in *. rewrite mem_set_alias. exact Hsame.
  - destruct (assoc String.eqb m (sl_names s)) as [[t start]|] eqn:Em.
    2:{ destruct (unknown_name s m Em) as (_ & _ & ->). reflexivity. }
    destruct (remove_block s m) as [s' r] eqn:E. cbn [fst] in *.
    apply resolves_same_values. replace s' with (fst (remove_block s m)) by now rewrite E.
    eapply remove_block_stable; eauto.
    intros Hsame ->. apply Ho. eapply (names_distinct s m name t t0); eauto. intros t'. apply Hg.
Qed.
