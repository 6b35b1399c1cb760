(** Named access (C03, C04), removal (C06), storable registers (C21),
    order independence (C22), response shape (C23), shared memory (C60). *)
From Coq Require Import Permutation.
From Verif Require Export SlaveInv BlockSpec BlockProofs.

(** ** C03 *)
Lemma layout_names_block s s' name t l1 b l2 :
  same_layout s s' -> names_block s name t l1 b l2 ->
  exists l1' b' l2', names_block s' name t l1' b' l2' /\ same_shape b b' /\ length l1' = length l1.
Proof.
  intros (_ & Hna & Hal & Hf) (start & Ha & Ht & Hb & Hs & Hn). specialize (Hf t). rewrite Hb in Hf.
  apply Forall2_app_inv_l in Hf as (k1 & k2 & H1 & H2 & E). inversion H2 as [|? b' ? k3 Hbb H3]; subst.
  exists k1, b', k3. split.
  - exists (b_start b). rewrite Hna. split; [exact Ha|]. split; [unfold has_table in *; congruence|].
    split; [exact E|]. split; [apply Hbb|]. intros c Hc.
    clear - H1 Hc Hn. induction H1 as [|x y l l' Hx Hl IH]; [destruct Hc|].
    destruct Hc as [<-|Hc].
    + destruct Hx as [-> _]. apply Hn. now left.
    + apply IH; auto. intros d Hd. apply Hn. now right.
  - split; [exact Hbb|]. clear - H1. induction H1; cbn; congruence.
Qed.

Lemma set_get s name a v s' :
  inv s -> set_values s name a v = (s', Ok tt) ->
  get_values s' name a (zlen (sv_list v)) = Ok (sv_list v) /\
  same_layout s s' /\
  exists t start,
    named s name t start /\
    (forall t' i b b' x, nth_error (blocks s t') i = Some b -> nth_error (blocks s' t') i = Some b' ->
       cell b' x <> cell b x -> same_table s t t' /\ b_start b = start /\ a <= x < a + zlen (sv_list v)).
Proof.
  intros Hi E. pose proof (inv_wf_slave _ Hi) as Hw.
  destruct (get_block s name) as [[[t i] b]|e] eqn:Eg.
  2:{ unfold set_values in E. rewrite Eg in E. discriminate. }
  apply get_block_ok in Eg as (l1 & l2 & Hnb & ->).
  destruct (covers_dec b a (zlen (sv_list v))) as [Hc|Hc].
  2:{ rewrite (set_values_out _ _ _ _ _ _ _ _ Hnb Hc) in E. discriminate. }
  destruct (set_values_ok _ _ _ _ _ _ _ _ Hw Hnb Hc) as [E' Hu]. rewrite E' in E. injection E as <-.
  pose proof (names_block_wf _ _ _ _ _ _ Hw Hnb) as Hwb. pose proof Hwb as (_ & _ & Hlen).
  set (s' := mem_set _ _ _) in *.
  assert (Hnb' : names_block s' name t l1 (overlay b a (sv_list v)) l2).
  { destruct Hnb as (start & Ha & Ht & Hb & Hs & Hn). exists start. subst s'.
    rewrite mem_set_names. split; [exact Ha|]. split; [unfold has_table in *; now rewrite mem_set_alias|].
    split; [apply blocks_mem_set; [exact Ht|reflexivity]|]. auto. }
  split; [|split].
  - rewrite (get_values_ok _ _ _ _ _ _ _ _ (upd1_wf _ _ _ _ _ _ _ Hu Hw) Hnb').
    + f_equal. now apply values_at_overlay.
    + exact Hc.
    + apply zlen_nonneg.
  - eapply upd1_layout; eauto.
  - exists t, (b_start b). split; [eapply names_block_named; eauto|].
    intros t' i c c' x H1 H2 Hd.
    destruct (upd1_cells _ _ _ _ _ _ _ Hu t' i c c' x H1 H2 Hd) as (Hs & -> & -> & Hd').
    split; [exact Hs|]. split; [reflexivity|]. eapply overlay_cell_diff; eauto.
Qed.

(** ** C04 *)
Definition in_named_block (s : slave) (name : string) (a n : Z) : Prop :=
  exists t l1 b l2, names_block s name t l1 b l2 /\ covers b a n.

Lemma inv_names_block s name : inv s -> registered s name -> exists t l1 b l2, names_block s name t l1 b l2.
Proof.
  unfold registered. intros Hi H. destruct (assoc String.eqb name (sl_names s)) as [[t st]|] eqn:E; [|congruence].
  destruct (inv_resolve _ _ _ _ Hi E) as (l1 & b & l2 & Hnb). eauto.
Qed.
Lemma names_block_det s name t l1 b l2 t' l1' b' l2' :
  names_block s name t l1 b l2 -> names_block s name t' l1' b' l2' -> b' = b /\ t' = t.
Proof.
  intros H H'. assert (Hg : get_block s name = Ok (t, length l1, b)) by (apply get_block_ok; eauto).
  assert (Hg' : get_block s name = Ok (t', length l1', b')) by (apply get_block_ok; eauto).
  rewrite Hg in Hg'. injection Hg' as -> _ ->. auto.
Qed.
Lemma set_values_cases s name a v :
  inv s ->
  (~ registered s name -> set_values s name a v = (s, Err MissingKeyError)) /\
  (registered s name -> in_named_block s name a (zlen (sv_list v)) ->
     exists s', set_values s name a v = (s', Ok tt)) /\
  (registered s name -> ~ in_named_block s name a (zlen (sv_list v)) ->
     set_values s name a v = (s, Err OutOfModbusBlockError)).
Proof.
  intros Hi. pose proof (inv_wf_slave _ Hi) as Hw. split; [|split].
  - unfold registered. intros H. apply (unknown_name s name).
    destruct (assoc String.eqb name (sl_names s)); [exfalso; apply H; discriminate|reflexivity].
  - intros _ (t & l1 & b & l2 & Hnb & Hc). destruct (set_values_ok _ _ _ _ _ _ _ _ Hw Hnb Hc) as [-> _]. eauto.
  - intros Hr Hn. destruct (inv_names_block _ _ Hi Hr) as (t & l1 & b & l2 & Hnb).
    apply (set_values_out _ _ _ _ _ _ _ _ Hnb). intros Hc. apply Hn. exists t, l1, b, l2. auto.
Qed.
Lemma get_values_cases s name a n :
  inv s -> 0 <= n ->
  (~ registered s name -> get_values s name a n = Err MissingKeyError) /\
  (registered s name -> in_named_block s name a n ->
     exists vs, get_values s name a n = Ok vs /\ zlen vs = n) /\
  (registered s name -> ~ in_named_block s name a n ->
     get_values s name a n = Err OutOfModbusBlockError).
Proof.
  intros Hi Hn0. pose proof (inv_wf_slave _ Hi) as Hw. split; [|split].
  - unfold registered. intros H. apply (unknown_name s name).
    destruct (assoc String.eqb name (sl_names s)); [exfalso; apply H; discriminate|reflexivity].
  - intros _ (t & l1 & b & l2 & Hnb & Hc). rewrite (get_values_ok _ _ _ _ _ _ _ _ Hw Hnb Hc Hn0).
    eexists. split; [reflexivity|]. apply values_at_length; auto.
    destruct (names_block_wf _ _ _ _ _ _ Hw Hnb) as (_ & _ & H). exact H.
  - intros Hr Hn. destruct (inv_names_block _ _ Hi Hr) as (t & l1 & b & l2 & Hnb).
    apply (get_values_out _ _ _ _ _ _ _ _ Hnb). intros Hc. apply Hn. exists t, l1, b, l2. auto.
Qed.

(** ** C05 *)
Lemma add_block_checks s name z start size :
  (size <= 0 \/ start < 0 -> add_block s name z start size = (s, Err InvalidArgumentError)) /\
  (0 < size -> 0 <= start -> registered s name -> add_block s name z start size = (s, Err DuplicatedKeyError)) /\
  (0 < size -> 0 <= start -> ~ registered s name -> btype_of_Z z = None ->
     add_block s name z start size = (s, Err InvalidModbusBlockError)).
Proof.
  unfold add_block, registered. split; [|split].
  - intros H. destruct (size <=? 0) eqn:E; [reflexivity|]. replace (start <? 0) with true by lia. reflexivity.
  - intros H1 H2 H3. replace (size <=? 0) with false by lia. replace (start <? 0) with false by lia.
    destruct (assoc String.eqb name (sl_names s)); [reflexivity|congruence].
  - intros H1 H2 H3 H4. replace (size <=? 0) with false by lia. replace (start <? 0) with false by lia.
    destruct (assoc String.eqb name (sl_names s)); [exfalso; apply H3; discriminate|]. now rewrite H4.
Qed.

(** ** C06 *)
Lemma remove_block_spec s name :
  inv s ->
  (~ registered s name -> remove_block s name = (s, Err MissingKeyError)) /\
  (registered s name -> exists s' t l1 b l2,
     remove_block s name = (s', Ok tt) /\
     named s name t (b_start b) /\ blocks s t = l1 ++ b :: l2 /\ blocks s' t = l1 ++ l2 /\
     (forall t', ~ same_table s t t' -> blocks s' t' = blocks s t') /\
     ~ registered s' name /\
     (forall n, n <> name -> forall t' st, named s' n t' st <-> named s n t' st) /\
     (disjoint_blocks (blocks s t) ->
        forall z n, btype_of_Z z = Some t -> ~ registered s' n ->
        exists s'', add_block s' n z (b_start b) (b_size b) = (s'', Ok tt))).
Proof.
  intros Hi. split.
  - unfold registered. intros H. apply (unknown_name s name).
    destruct (assoc String.eqb name (sl_names s)); [exfalso; apply H; discriminate|reflexivity].
  - intros Hr. destruct (inv_names_block _ _ Hi Hr) as (t & l1 & b & l2 & Hnb).
    pose proof (remove_block_ok _ _ _ _ _ _ Hnb) as E. set (s' := mem_set _ _ _) in E.
    pose proof (names_block_wf _ _ _ _ _ _ (inv_wf_slave _ Hi) Hnb) as (Hb1 & Hb2 & Hb3).
    pose proof (names_block_named _ _ _ _ _ _ Hnb) as Hnm.
    destruct Hnb as (start & Ha & Ht & Hb & Hs & Hf).
    assert (Hbl : blocks s' t = l1 ++ l2) by (apply blocks_mem_set; [exact Ht|reflexivity]).
    exists s', t, l1, b, l2. split; [exact E|]. split; [exact Hnm|]. split; [exact Hb|]. split; [exact Hbl|].
    split; [|split; [|split]].
    + intros t' Hd. subst s'. rewrite blocks_mem_set_other by exact Hd. reflexivity.
    + unfold registered. subst s'. rewrite mem_set_names. cbn [sl_names with_names].
      rewrite assoc_del_same by apply (inv_names _ Hi). congruence.
    + intros n Hn t' st. unfold named. subst s'. rewrite mem_set_names. cbn [sl_names with_names].
      rewrite assoc_del_other by congruence. reflexivity.
    + intros Hd z n Hz Hn. unfold add_block.
      replace (b_size b <=? 0) with false by lia. replace (b_start b <? 0) with false by lia.
      unfold registered in Hn. destruct (assoc String.eqb n (sl_names s')); [exfalso; apply Hn; discriminate|].
      rewrite Hz. assert (Ht' : has_table s' t) by (unfold has_table, s' in *; now rewrite mem_set_alias).
      rewrite (mem_get_ok _ _ Ht'), Hbl.
      destruct (add_scan_spec (l1 ++ l2) 0 (b_start b) (b_size b))
        as [(k1 & c & k2 & Hl & H1 & H2 & H3)|[(k1 & c & k2 & Hl & H1 & H2 & H3 & H4)|[H1 H2]]].
      * exfalso. rewrite Hb in Hd. apply disjoint_FOP, FOP_insert in Hd as [_ Hd]. rewrite Forall_forall in Hd.
        assert (Hc : In c (l1 ++ l2)) by (rewrite Hl; apply in_elt).
        pose proof (inv_wf_slave _ Hi t) as Hw. rewrite Hb, Forall_forall in Hw.
        destruct (Hw c) as (_ & Hcs & _).
        { apply in_app_iff in Hc. apply in_app_iff. cbn. tauto. }
        apply is_in_true in H2 as (x & Hx & Hxr); [|lia..]. apply (Hd c Hc x); [unfold holds; lia|exact Hx].
      * rewrite H4. eauto.
      * rewrite H2. eauto.
Qed.

Lemma remove_all_spec s t :
  blocks (remove_all_blocks s) t = [] /\ (forall n, ~ registered (remove_all_blocks s) n) /\
  (has_table s t <-> has_table (remove_all_blocks s) t) /\
  (forall t', has_table s t -> same_table (remove_all_blocks s) t t' -> t = t').
Proof.
  split; [|split; [|split]].
  - unfold blocks, remove_all_blocks. cbn [sl_alias sl_lists]. 
    match goal with |- match ?x with _ => _ end = _ => destruct x as [r|] end; [destruct r|]; reflexivity.
  - intros n H. apply H. reflexivity.
  - unfold has_table, remove_all_blocks. cbn. destruct t; cbn;
      (match goal with |- context [match ?x with _ => _ end] => destruct x end); split; congruence.
  - unfold has_table, same_table, remove_all_blocks. cbn. intros t' Ht H.
    destruct t; cbn in *; match type of Ht with ?x <> _ => destruct x end; try congruence;
      destruct t'; cbn in H; try reflexivity; match type of H with _ = match ?x with _ => _ end => destruct x end; congruence.
Qed.

(** ** C21 *)
Lemma in_overlay b a vals v : In v (b_data (overlay b a vals)) -> In v (b_data b) \/ In v vals.
Proof.
  unfold overlay. cbn [b_data]. rewrite !in_app_iff. intros [H|[H|H]]; auto.
  - left. rewrite <- (firstn_skipn (Z.to_nat (a - b_start b)) (b_data b)). apply in_app_iff. auto.
  - left. rewrite <- (firstn_skipn (Z.to_nat (a - b_start b + zlen vals)) (b_data b)). apply in_app_iff. auto.
Qed.
Lemma touch_fit s s' t a n vals :
  touch s s' t a n vals -> all_fit s -> Forall (fits (sl_unsigned s)) vals -> all_fit s'.
Proof.
  intros (l1 & b & l2 & Ht & (Hb & _) & _ & ->) Hf Hv t' c v Hc Hvc. rewrite mem_set_unsigned.
  destruct (same_table_dec s t t') as [E|E].
  - rewrite blocks_mem_set in Hc by assumption.
    assert (Hold : forall d, In d (l1 ++ b :: l2) -> In v (b_data d) -> fits (sl_unsigned s) v).
    { intros d Hd. rewrite <- Hb in Hd. now apply (Hf t). }
    apply in_app_iff in Hc as [Hc|[<-|Hc]].
    + apply (Hold c); auto. apply in_app_iff. auto.
    + apply in_overlay in Hvc as [Hvc|Hvc]; [apply (Hold b); auto; apply in_elt|].
      rewrite Forall_forall in Hv. auto.
    + apply (Hold c); auto. apply in_app_iff. cbn. auto.
  - rewrite blocks_mem_set_other in Hc by assumption. now apply (Hf t' c).
Qed.

Lemma land_bound x y : 0 <= x < 65536 -> 0 <= y < 65536 -> 0 <= Z.land x y < 65536.
Proof.
  intros Hx Hy. assert (0 <= Z.land x y) by (apply Z.land_nonneg; lia). split; [assumption|].
  apply Z.nle_gt. intros H1. assert (Hlog : 16 <= Z.log2 (Z.land x y)).
  { change 16 with (Z.log2 65536). now apply Z.log2_le_mono. }
  assert (Hb : Z.testbit (Z.land x y) (Z.log2 (Z.land x y)) = true) by (apply Z.bit_log2; lia).
  rewrite Z.land_spec in Hb. apply andb_prop in Hb as [Hb _].
  rewrite (testbit_high x 16) in Hb; [discriminate|exact Hx|lia].
Qed.
Lemma mask_bound old am om :
  0 <= old < 65536 -> 0 <= am < 65536 -> 0 <= om < 65536 ->
  0 <= Z.lor (Z.land old am) (Z.land om (Z.lnot am)) < 65536.
Proof.
  intros Ho Ha Hm. set (v := Z.lor _ _).
  assert (H0 : 0 <= v).
  { apply Z.lor_nonneg. split; apply Z.land_nonneg; lia. }
  split; [assumption|]. apply Z.nle_gt. intros H1.
  assert (Hlog : 16 <= Z.log2 v).
  { change 16 with (Z.log2 65536). now apply Z.log2_le_mono. }
  assert (Hb : Z.testbit v (Z.log2 v) = true) by (apply Z.bit_log2; lia).
  unfold v in Hb at 1. rewrite Z.lor_spec, !Z.land_spec in Hb.
  rewrite (testbit_high old 16) in Hb by lia. rewrite (testbit_high om 16) in Hb by lia. discriminate.
Qed.

Lemma mask_write_fit s pdu :
  wf_slave s -> sl_unsigned s = true -> bytes pdu -> all_fit s ->
  all_fit (fst (mask_write_register s pdu)).
Proof.
  intros Hw Hu Hby Hf. unfold mask_write_register.
  destruct (unpack3 ">HHH" (py_slice pdu 1 7)) as [[[a am] om]|e] eqn:E; [|exact Hf].
  apply unpack3m_inv in E as (Hl & Ha & Ham & Hom).
  assert (Hw16 : forall i, 0 <= be16 pdu i < 65536).
  { intros i. unfold be16. assert (Hn : forall k, 0 <= nth k pdu 0 < 256).
    { intros k. destruct (Nat.lt_ge_cases k (length pdu)) as [Hk|Hk].
      - unfold bytes in Hby. rewrite Forall_forall in Hby. apply Hby. now apply nth_In.
      - rewrite nth_overflow by assumption. lia. }
    pose proof (Hn i). pose proof (Hn (S i)). lia. }
  pose proof (Hw16 3%nat) as H3. pose proof (Hw16 5%nat) as H5. rewrite <- Ham in H3. rewrite <- Hom in H5.
  destruct (gbo_inv s HOLDING_REGISTERS a 1 _ eq_refl) as [[-> _]|[[-> _]|(l1 & b & l2 & Ht & Hs & ->)]]; try exact Hf.
  destruct (wf_served _ _ _ _ _ _ _ Hw Hs) as (Hb1 & Hb2 & Hb3).
  pose proof Hs as (Hb & Hc & _). unfold covers in Hc.
  destruct (py_get_in (b_data b) (a - b_start b)) as (old & Hold & ->); [lia|].
  rewrite py_set_in by lia. cbn [fst].
  assert (Ho : fits true old).
  { rewrite <- Hu. apply (Hf HOLDING_REGISTERS b); [rewrite Hb; apply in_elt|]. eapply nth_error_In; eauto. }
  set (v := Z.lor _ _).
  assert (Hv : 0 <= v < 65536) by (apply mask_bound; assumption).
  rewrite (put_block_data_blocks _ _ _ _ _ _ Ht Hb).
  intros t' c x Hci Hx. rewrite mem_set_unsigned, Hu.
  destruct (same_table_dec s HOLDING_REGISTERS t') as [Es|Es].
  - rewrite blocks_mem_set in Hci by assumption.
    assert (Hold' : forall d, In d (l1 ++ b :: l2) -> In x (b_data d) -> fits true x).
    { intros d Hd. rewrite <- Hb in Hd. rewrite <- Hu. now apply (Hf HOLDING_REGISTERS). }
    apply in_app_iff in Hci as [Hci|[<-|Hci]].
    + apply (Hold' c); auto. apply in_app_iff. auto.
    + cbn [with_data b_data] in Hx. apply list_upd_in in Hx as [->|Hx]; [exact Hv|]. apply (Hold' b); auto. apply in_elt.
    + apply (Hold' c); auto. apply in_app_iff. cbn. auto.
  - rewrite blocks_mem_set_other in Hci by assumption. rewrite <- Hu. now apply (Hf t' c).
Qed.

Lemma hr_fit s pdu bc :
  wf_slave s -> bytes pdu -> all_fit s -> sl_unsigned s = true \/ hd 0 pdu <> 22 ->
  all_fit (fst (handle_request s pdu bc)).
Proof.
  intros Hw Hby Hf Hor. destruct pdu as [|fc rest]; [exact Hf|].
  destruct (Z.eq_dec fc 22) as [->|Hfc].
  - destruct Hor as [Hu|Hu]; [|cbn in Hu; congruence].
    unfold handle_request. rewrite unpack_fc. change (fn_code_map 22) with (Some mask_write_register).
    change (cant_be_broadcasted 22) with false. rewrite andb_false_r.
    pose proof (mask_write_fit s (22 :: rest) Hw Hu Hby Hf) as Hm.
    destruct (mask_write_register s (22 :: rest)) as [s' [[|x l]|e]]; [| |]; try exact Hm. now destruct bc.
  - destruct (hr_state s (fc :: rest) bc Hw) as [->|(fc' & rest' & t & a & n & vals & E & _ & Ht & Hv & _)]; [assumption|].
    injection E as <- <-. eapply touch_fit; eauto.
Qed.

(** with storable registers every complete read request is answered *)
Lemma fit_read_answered s fc t pdu :
  wf_slave s -> all_fit s -> reg_table fc t -> has_table s t -> bytes (fc :: pdu) -> (4 <= length pdu)%nat ->
  exists resp, snd (handle_request s (fc :: pdu) false) = Ok resp.
Proof.
  intros Hw Hf Hr Ht Hby Hl.
  destruct pdu as [|x0 [|x1 [|x2 [|x3 rest]]]]; cbn in Hl; try lia.
  assert (Hb : is_byte x0 /\ is_byte x1 /\ is_byte x2 /\ is_byte x3).
  { unfold bytes in Hby. inversion Hby as [|? ? _ H1]; subst. inversion H1 as [|? ? G0 H2]; subst.
    inversion H2 as [|? ? G1 H3]; subst. inversion H3 as [|? ? G2 H4]; subst. inversion H4; subst. auto. }
  destruct Hb as (B0 & B1 & B2 & B3).
  replace (x0 :: x1 :: x2 :: x3 :: rest) with (word (x0 * 256 + x1) ++ word (x2 * 256 + x3) ++ rest)
    by (rewrite !word_value by assumption; reflexivity).
  unfold is_byte in *. set (a := x0 * 256 + x1). set (n := x2 * 256 + x3).
  assert (Ha : fits true a) by (unfold fits, a; lia). assert (Hn : fits true n) by (unfold fits, n; lia).
  destruct (Z_le_dec 1 n) as [G1|G1]; [destruct (Z_le_dec n 125) as [G2|G2]|].
  - destruct (served_or_not s t a n) as [[b Hb]|Hb].
    + rewrite (hr_read_registers s fc t a n b rest); [eexists; reflexivity|auto..].
      apply Forall_forall. intros v Hv. destruct Hb as (l1 & l2 & (Hbb & _)).
      apply (Hf t b); [rewrite Hbb; apply in_elt|]. unfold values_at in Hv.
      rewrite <- (firstn_skipn (Z.to_nat (a - b_start b)) (b_data b)). apply in_app_iff. right.
      rewrite <- (firstn_skipn (Z.to_nat n)). apply in_app_iff. now left.
    + rewrite (hr_read_registers_addr s fc t a n rest); [eexists; reflexivity|auto..].
  - rewrite (hr_read_registers_count s fc t a n rest); [eexists; reflexivity|auto..]. lia.
  - rewrite (hr_read_registers_count s fc t a n rest); [eexists; reflexivity|auto..]. lia.
Qed.

(** ** C22 *)
Lemma covers_unique l a n b b' :
  disjoint_blocks l -> 1 <= n -> In b l -> In b' l -> covers b a n -> covers b' a n -> b = b'.
Proof.
  rewrite disjoint_FOP. intros Hd Hn Hb Hb' Hc Hc'. unfold covers in *.
  induction Hd as [|c l Hf Hr IH]; [destruct Hb|]. rewrite Forall_forall in Hf.
  destruct Hb as [->|Hb], Hb' as [->|Hb']; auto; exfalso.
  - apply (Hf b' Hb' a); unfold holds; lia.
  - apply (Hf b Hb a); unfold holds; lia.
Qed.
Lemma span_refused s t a n b x y :
  disjoint_blocks (blocks s t) -> In b (blocks s t) -> holds b x -> ~ holds b y ->
  a <= x < a + n -> a <= y < a + n -> not_covered s t a n.
Proof.
  intros Hd Hb Hx Hy Hax Hay c Hc Hcov. assert (Hbc : b = c).
  { apply (covers_unique (blocks s t) x 1); auto; try lia; unfold covers, holds in *; lia. }
  subst c. unfold covers, holds in *. lia.
Qed.

Record shuffled (s s' : slave) : Prop := {
  sh_unsigned : sl_unsigned s' = sl_unsigned s;
  sh_alias : sl_alias s' = sl_alias s;
  sh_blocks : forall t, Permutation (blocks s t) (blocks s' t) }.

Lemma shuffled_serving l l' a n l1 b l2 :
  Permutation l l' -> disjoint_blocks l -> 1 <= n -> serving l a n l1 b l2 ->
  exists k1 k2, serving l' a n k1 b k2 /\ Permutation (l1 ++ l2) (k1 ++ k2).
Proof.
  intros Hp Hd Hn (Hl & Hc & Hf).
  assert (Hin : In b l') by (apply (Permutation_in b Hp); rewrite Hl; apply in_elt).
  (* the first covering block of l' *)
  assert (H : exists k1 c k2, serving l' a n k1 c k2).
  { clear - Hin Hc. induction l' as [|d l' IH]; [destruct Hin|].
    destruct (covers_dec d a n) as [Hd|Hd].
    - exists [], d, l'. split; [reflexivity|]. split; [exact Hd|intros ? []].
    - destruct Hin as [->|Hin]; [contradiction|]. destruct (IH Hin) as (k1 & c & k2 & -> & H1 & H2).
      exists (d :: k1), c, k2. split; [reflexivity|]. split; [exact H1|]. intros e [<-|He]; auto. }
  destruct H as (k1 & c & k2 & Hk & Hcc & Hkf).
  assert (c = b) as ->.
  { apply (covers_unique l a n); auto.
    - apply (Permutation_in c (Permutation_sym Hp)). rewrite Hk. apply in_elt.
    - rewrite Hl. apply in_elt. }
  exists k1, k2. split; [split; auto|]. rewrite Hl, Hk in Hp. eapply Permutation_app_inv; eauto.
Qed.

Lemma shuffled_has s s' t : shuffled s s' -> has_table s t -> has_table s' t.
Proof. intros H. unfold has_table. now rewrite (sh_alias _ _ H). Qed.
Lemma shuffled_same s s' t t' : shuffled s s' -> same_table s t t' <-> same_table s' t t'.
Proof. intros H. unfold same_table. now rewrite (sh_alias _ _ H). Qed.

(** the block found by a shuffled slave, with a possibly different index *)
Lemma shuffled_gbo s s' t a n :
  shuffled s s' -> disjoint_blocks (blocks s t) -> 1 <= n ->
  (exists e, get_block_and_offset s t a n = Err e /\ get_block_and_offset s' t a n = Err e) \/
  (exists l1 l2 k1 k2 b, has_table s t /\ blocks s t = l1 ++ b :: l2 /\ blocks s' t = k1 ++ b :: k2 /\
     covers b a n /\ Permutation (l1 ++ l2) (k1 ++ k2) /\
     get_block_and_offset s t a n = Ok (length l1, b, a - b_start b) /\
     get_block_and_offset s' t a n = Ok (length k1, b, a - b_start b)).
Proof.
  intros Hsh Hd Hn.
  destruct (gbo_inv s t a n _ eq_refl) as [[-> Ht]|[(-> & Ht & Hnc)|(l1 & b & l2 & Ht & Hs & ->)]].
  - left. exists PyKeyError. split; [reflexivity|]. unfold get_block_and_offset.
    rewrite mem_get_err; [reflexivity|]. unfold has_table in *. now rewrite (sh_alias _ _ Hsh).
  - left. eexists. split; [reflexivity|]. apply gbo_not_covered; [eapply shuffled_has; eauto|].
    intros b Hb. apply Hnc. apply (Permutation_in b (Permutation_sym (sh_blocks _ _ Hsh t)) Hb).
  - right. destruct (shuffled_serving _ _ _ _ _ _ _ (sh_blocks _ _ Hsh t) Hd Hn Hs) as (k1 & k2 & Hk & Hp).
    exists l1, l2, k1, k2, b. split; [exact Ht|]. split; [apply Hs|]. split; [apply Hk|]. split; [apply Hs|].
    split; [exact Hp|]. split; [reflexivity|].
    apply (gbo_served s' t a n k1 b k2); [eapply shuffled_has; eauto|exact Hk].
Qed.
Lemma shuffled_put s s' t l1 l2 k1 k2 b d :
  shuffled s s' -> has_table s t -> blocks s t = l1 ++ b :: l2 -> blocks s' t = k1 ++ b :: k2 ->
  Permutation (l1 ++ l2) (k1 ++ k2) ->
  shuffled (put_block_data s t (length l1) b d) (put_block_data s' t (length k1) b d).
Proof.
  intros Hsh Ht Hb Hk Hp. pose proof (shuffled_has _ _ _ Hsh Ht) as Ht'.
  rewrite (put_block_data_blocks _ _ _ _ _ _ Ht Hb), (put_block_data_blocks _ _ _ _ _ _ Ht' Hk).
  constructor.
  - rewrite !mem_set_unsigned. apply Hsh.
  - rewrite !mem_set_alias. apply Hsh.
  - intros t'. destruct (same_table_dec s t t') as [E|E].
    + rewrite (blocks_mem_set s) by assumption. rewrite (blocks_mem_set s') by (auto; now apply (shuffled_same _ _ _ _ Hsh)).
      now apply Permutation_elt.
    + rewrite (blocks_mem_set_other s) by assumption.
      rewrite (blocks_mem_set_other s') by (intros G; apply E; now apply (shuffled_same _ _ _ _ Hsh)). apply Hsh.
Qed.

Definition alike (p p' : slave * res (list Z)) : Prop := shuffled (fst p) (fst p') /\ snd p' = snd p.

Ltac sh_gbo Hsh Hd :=
  match goal with
  | |- context [get_block_and_offset ?s ?t ?a ?n] =>
      match type of Hsh with shuffled s ?s' =>
        let e := fresh "e" in let G1 := fresh "G" in let G2 := fresh "G" in
        destruct (shuffled_gbo s s' t a n Hsh (Hd t)) as
          [(e & G1 & G2)|(?l1 & ?l2 & ?k1 & ?k2 & ?b & ?Ht & ?Hb & ?Hk & ?Hc & ?Hp & G1 & G2)];
        [lia|rewrite G1, G2|rewrite G1, G2]
      end
  end.

Lemma shuffled_fn s s' fc f pdu :
  shuffled s s' -> (forall t, disjoint_blocks (blocks s t)) -> fn_code_map fc = Some f ->
  alike (f s pdu) (f s' pdu).
Proof.
  intros Hsh Hd Hf.
  assert (Hu := sh_unsigned _ _ Hsh).
  assert (HH : fmtH s' = fmtH s) by (unfold fmtH; now rewrite Hu).
  assert (HB : fmtB s' = fmtB s) by (unfold fmtB; now rewrite Hu).
  assert (Hdig : forall t, read_digital s' t pdu = read_digital s t pdu).
  { intros t. unfold read_digital. destruct (unpack2 ">HH" (py_slice pdu 1 5)) as [[a q]|e]; [|reflexivity]. cbn [bind].
    destruct ((q <=? 0) || (2000 <? q)) eqn:E; [reflexivity|]. sh_gbo Hsh Hd; cbn [bind]; [reflexivity|].
    now rewrite HB. }
  assert (Hreg : forall t, read_registers s' t pdu = read_registers s t pdu).
  { intros t. unfold read_registers. destruct (unpack2 ">HH" (py_slice pdu 1 5)) as [[a q]|e]; [|reflexivity]. cbn [bind].
    destruct ((q <=? 0) || (125 <? q)) eqn:E; [reflexivity|]. sh_gbo Hsh Hd; cbn [bind]; [reflexivity|].
    now rewrite HH. }
  revert Hf. unfold fn_code_map.
  repeat (match goal with |- (if ?x then _ else _) = _ -> _ => destruct x end;
    [intros E; injection E as <-; cbv beta|]); try discriminate.
  1,2: split; [exact Hsh|cbn [snd]; apply Hdig].
  1,2: split; [exact Hsh|cbn [snd]; apply Hreg].
  1: split; [exact Hsh|reflexivity].
  - (* coil *) unfold write_single_coil. destruct (unpack2 ">HH" (py_slice pdu 1 5)) as [[a q]|e]; [|split; [exact Hsh|reflexivity]].
    sh_gbo Hsh Hd; [split; [exact Hsh|reflexivity]|].
    destruct (q =? 0); [|destruct (q =? 65280)]; [| |split; [exact Hsh|reflexivity]];
      (destruct (py_set _ _ _) as [d|e]; [|split; [exact Hsh|reflexivity]]; split; [|reflexivity];
       cbn [fst]; eapply shuffled_put; eauto).
  - unfold write_single_register. rewrite Hu.
    destruct (unpack2 _ (py_slice pdu 1 5)) as [[a q]|e]; [|split; [exact Hsh|reflexivity]].
    sh_gbo Hsh Hd; [split; [exact Hsh|reflexivity]|].
    destruct (py_set _ _ _) as [d|e]; [|split; [exact Hsh|reflexivity]]; split; [|reflexivity];
       cbn [fst]; eapply shuffled_put; eauto.
  - unfold write_multiple_coils. rewrite HB.
    destruct (unpack3 ">HHB" (py_slice pdu 1 6)) as [[[a q] bc]|e]; [|split; [exact Hsh|reflexivity]].
    destruct ((q <=? 0) || (1968 <? q) || negb (bc =? bit_byte_count q)) eqn:E; [split; [exact Hsh|reflexivity]|].
    sh_gbo Hsh Hd; [split; [exact Hsh|reflexivity]|].
    destruct (write_bits_outer _ _ _ _ _ _ _ _) as [d r].
    destruct r; (split; [cbn [fst]; eapply shuffled_put; eauto|reflexivity]).
  - unfold write_multiple_registers. rewrite HH.
    destruct (unpack3 ">HHB" (py_slice pdu 1 6)) as [[[a q] bc]|e]; [|split; [exact Hsh|reflexivity]].
    destruct ((q <=? 0) || (123 <? q) || negb (bc =? q * 2)) eqn:E; [split; [exact Hsh|reflexivity]|].
    sh_gbo Hsh Hd; [split; [exact Hsh|reflexivity]|].
    destruct (write_regs_loop _ _ _ _ _ _ _) as [d r].
    destruct r; (split; [cbn [fst]; eapply shuffled_put; eauto|reflexivity]).
  - unfold mask_write_register.
    destruct (unpack3 ">HHH" (py_slice pdu 1 7)) as [[[a am] om]|e]; [|split; [exact Hsh|reflexivity]].
    sh_gbo Hsh Hd; [split; [exact Hsh|reflexivity]|].
    destruct (py_get _ _) as [old|e]; [|split; [exact Hsh|reflexivity]].
    destruct (py_set _ _ _) as [d|e]; [|split; [exact Hsh|reflexivity]]; split; [|reflexivity];
       cbn [fst]; eapply shuffled_put; eauto.
  - unfold read_write_multiple_registers. rewrite HH.
    destruct (unpack5 ">HHHHB" (py_slice pdu 1 10)) as [[[[[ra rq] wa] wq] bc]|e]; [|split; [exact Hsh|reflexivity]].
    destruct ((rq <=? 0) || (125 <? rq)) eqn:E; [split; [exact Hsh|reflexivity]|].
    destruct (shuffled_gbo s s' HOLDING_REGISTERS ra rq Hsh (Hd _)) as
      [(e & G1 & G2)|(l1 & l2 & k1 & k2 & b & Ht & Hb & Hk & Hc & Hp & G1 & G2)]; [lia| |]; rewrite G1, G2;
      [split; [exact Hsh|reflexivity]|].
    destruct (header <- pack ">B" [2 * rq];; _) as [resp|e]; [|split; [exact Hsh|reflexivity]].
    destruct ((wq <=? 0) || (123 <? wq) || negb (bc =? wq * 2)) eqn:E2; [split; [exact Hsh|reflexivity]|].
    destruct (shuffled_gbo s s' HOLDING_REGISTERS wa wq Hsh (Hd _)) as
      [(e & G3 & G4)|(m1 & m2 & n1 & n2 & c & Ht2 & Hb2 & Hk2 & Hc2 & Hp2 & G3 & G4)]; [lia| |]; rewrite G3, G4;
      [split; [exact Hsh|reflexivity]|].
    destruct (write_regs_loop _ _ _ _ _ _ _) as [d r].
    destruct r; (split; [cbn [fst]; eapply shuffled_put; eauto|reflexivity]).
Qed.
Lemma shuffled_hr s s' pdu bc :
  shuffled s s' -> (forall t, disjoint_blocks (blocks s t)) ->
  alike (handle_request s pdu bc) (handle_request s' pdu bc).
Proof.
  intros Hsh Hd. unfold handle_request.
  destruct (unpack1 ">B" (py_slice pdu 0 1)) as [fc|e]; [|split; [exact Hsh|reflexivity]].
  destruct (fn_code_map fc) as [f|] eqn:Ef; [|split; [exact Hsh|reflexivity]].
  destruct (bc && cant_be_broadcasted fc); [split; [exact Hsh|reflexivity]|].
  destruct (shuffled_fn s s' fc f pdu Hsh Hd Ef) as [H1 H2].
  destruct (f s pdu) as [s1 r]. destruct (f s' pdu) as [s1' r']. cbn [fst snd] in *. subst r'.
  destruct r as [[|x l]|e]; [| |]; try (split; [exact H1|reflexivity]).
  destruct bc; (split; [exact H1|reflexivity]).
Qed.

(** ** C23 *)
Lemma Ok_inj {A} (a b : A) : Ok a = Ok b -> a = b.
Proof. congruence. Qed.
Lemma pair_Ok_inj {A B} (x y : A) (a b : B) : (x, Ok a) = (y, Ok b) -> a = b.
Proof. congruence. Qed.
Definition small (n : Z) (r : list Z) : Prop := bytes r /\ zlen r <= n.

Lemma read_registers_small s t pdu r : read_registers s t pdu = Ok r -> small 251 r.
Proof.
  unfold read_registers. destruct (unpack2 ">HH" (py_slice pdu 1 5)) as [[a q]|e]; [|discriminate]. cbn [bind].
  destruct ((q <=? 0) || (125 <? q)) eqn:E; [discriminate|].
  destruct (gbo_inv s t a q _ eq_refl) as [[-> _]|[[-> _]|(l1 & b & l2 & Ht & (_ & [Hc1 Hc2] & _) & ->)]]; try discriminate.
  cbn [bind]. rewrite values_at_slice by lia. rewrite pack_B_ok by (unfold is_byte; lia). cbn [bind].
  destruct (fits_all_dec (sl_unsigned s) (values_at b a q)) as [Hf|Hf].
  - rewrite pack_regs_loop_ok by assumption. intros H; apply Ok_inj in H; subst r. split.
    + apply bytes_app; [repeat constructor; unfold is_byte; lia|apply words_bytes].
    + rewrite zlen_app, words_zlen. unfold values_at, zlen. cbn [length]. rewrite firstn_length. lia.
  - rewrite pack_regs_loop_err by assumption. discriminate.
Qed.
Lemma read_digital_small s t pdu r : read_digital s t pdu = Ok r -> small 251 r.
Proof.
  unfold read_digital. destruct (unpack2 ">HH" (py_slice pdu 1 5)) as [[a q]|e]; [|discriminate]. cbn [bind].
  destruct ((q <=? 0) || (2000 <? q)) eqn:E; [discriminate|].
  destruct (gbo_inv s t a q _ eq_refl) as [[-> _]|[[-> _]|(l1 & b & l2 & Ht & (_ & [Hc1 Hc2] & _) & ->)]]; try discriminate.
  cbn [bind]. rewrite values_at_slice by lia.
  assert (Hbc : 0 <= bit_byte_count q <= 250).
  { unfold bit_byte_count. destruct (0 <? q mod 8) eqn:E8; lia. }
  rewrite pack_B_ok by (unfold is_byte; lia). cbn [bind].
  destruct (pack_bits_loop_ok s (values_at b a q) [] [bit_byte_count q]) as (out & Ho & (Hl & Hby & _)); [reflexivity|].
  change (zlen (@nil Z)) with 0 in Ho. change (bits_val []) with 0 in Ho. rewrite Ho.
  intros H; apply Ok_inj in H; subst r. split.
  - apply bytes_app; [|exact Hby]. repeat constructor; unfold is_byte; lia.
  - rewrite zlen_app, Hl. cbn [app]. unfold bytes_for_bits.
    assert (0 <= zlen (values_at b a q) <= 2000).
    { unfold values_at, zlen. rewrite firstn_length. lia. }
    change (zlen [bit_byte_count q]) with 1. lia.
Qed.
Lemma pack_HH_small a q r : pack ">HH" [a; q] = Ok r -> small 4 r.
Proof.
  change (pack ">HH" [a; q]) with (pack_items false [FInt 2 false; FInt 2 false] [a; q]).
  rewrite !pack_items_H_cons. cbn [negb]. destruct (fits_b true a); [|discriminate]. destruct (fits_b true q); [|discriminate].
  cbn. intros H; injection H as <-. split; [|cbn; lia].
  repeat constructor; apply is_byte_hi || apply is_byte_lo.
Qed.
Lemma echo_small (pdu : list Z) : pdu <> [] -> bytes pdu -> small (zlen pdu - 1) (py_from pdu 1).
Proof.
  intros Hn Hb. destruct pdu as [|x l]; [congruence|]. rewrite py_from_cons. split; [now inversion Hb|].
  rewrite zlen_cons. lia.
Qed.
Lemma small_mono n m r : small n r -> n <= m -> small m r.
Proof. intros [H1 H2] H. split; [assumption|lia]. Qed.

Lemma fn_small s fc f pdu s' r :
  pdu <> [] -> bytes pdu -> fn_code_map fc = Some f -> f s pdu = (s', Ok r) -> small (Z.max 251 (zlen pdu - 1)) r.
Proof.
  intros Hn Hby. assert (He := echo_small pdu Hn Hby).
  unfold fn_code_map.
  repeat (match goal with |- (if ?x then _ else _) = _ -> _ => destruct x end;
    [intros E; injection E as <-; cbv beta|]); try discriminate.
  1,2: intros H; injection H as _ H; eapply small_mono; [eapply read_digital_small; eauto|lia].
  1,2: intros H; injection H as _ H; eapply small_mono; [eapply read_registers_small; eauto|lia].
  1: intros H; apply (f_equal snd) in H; cbn [snd] in H;
     assert (Hr : r = [0]) by (vm_compute in H; congruence); subst r;
     split; [repeat constructor; unfold is_byte; lia|unfold zlen; cbn [length]; lia].
  - unfold write_single_coil. destruct (unpack2 ">HH" (py_slice pdu 1 5)) as [[a q]|e]; [|discriminate].
    destruct (get_block_and_offset _ _ _ _) as [[[i b] o]|e]; [|discriminate].
    destruct (q =? 0); [|destruct (q =? 65280)]; [| |discriminate];
    (destruct (py_set _ _ _) as [d|e]; [|discriminate]; intros H; injection H as _ <-; eapply small_mono; [exact He|lia]).
  - unfold write_single_register. destruct (unpack2 _ (py_slice pdu 1 5)) as [[a q]|e]; [|discriminate].
    destruct (get_block_and_offset _ _ _ _) as [[[i b] o]|e]; [|discriminate].
    destruct (py_set _ _ _) as [d|e]; [|discriminate]; intros H; injection H as _ <-; eapply small_mono; [exact He|lia].
  - unfold write_multiple_coils. destruct (unpack3 ">HHB" (py_slice pdu 1 6)) as [[[a q] bc]|e]; [|discriminate].
    destruct (_ || _); [discriminate|].
    destruct (get_block_and_offset _ _ _ _) as [[[i b] o]|e]; [|discriminate].
    destruct (write_bits_outer _ _ _ _ _ _ _ _) as [d [c|e]]; [|discriminate].
    intros H; injection H as _ H. eapply small_mono; [eapply pack_HH_small; eauto|lia].
  - unfold write_multiple_registers. destruct (unpack3 ">HHB" (py_slice pdu 1 6)) as [[[a q] bc]|e]; [|discriminate].
    destruct (_ || _); [discriminate|].
    destruct (get_block_and_offset _ _ _ _) as [[[i b] o]|e]; [|discriminate].
    destruct (write_regs_loop _ _ _ _ _ _ _) as [d [c|e]]; [|discriminate].
    intros H; injection H as _ H. eapply small_mono; [eapply pack_HH_small; eauto|lia].
  - unfold mask_write_register. destruct (unpack3 ">HHH" (py_slice pdu 1 7)) as [[[a am] om]|e]; [|discriminate].
    destruct (get_block_and_offset _ _ _ _) as [[[i b] o]|e]; [|discriminate].
    destruct (py_get _ _) as [old|e]; [|discriminate].
    destruct (py_set _ _ _) as [d|e]; [|discriminate]; intros H; injection H as _ <-; eapply small_mono; [exact He|lia].
  - unfold read_write_multiple_registers.
    destruct (unpack5 ">HHHHB" (py_slice pdu 1 10)) as [[[[[ra rq] wa] wq] bc]|e]; [|discriminate].
    destruct ((rq <=? 0) || (125 <? rq)) eqn:E; [discriminate|].
    destruct (gbo_inv s HOLDING_REGISTERS ra rq _ eq_refl) as [[-> _]|[[-> _]|(l1 & b & l2 & Ht & (_ & [Hc1 Hc2] & _) & ->)]]; try discriminate.
    rewrite values_at_slice by lia. rewrite pack_B_ok by (unfold is_byte; lia). cbn [bind].
    destruct (fits_all_dec (sl_unsigned s) (values_at b ra rq)) as [Hf|Hf];
      [rewrite pack_regs_loop_ok by assumption|rewrite pack_regs_loop_err by assumption; discriminate].
    destruct ((wq <=? 0) || (123 <? wq) || negb (bc =? wq * 2)); [discriminate|].
    destruct (get_block_and_offset _ _ wa _) as [[[i c] o]|e]; [|discriminate].
    destruct (write_regs_loop _ _ _ _ _ _ _) as [d [c'|e]]; [|discriminate].
    intros H; apply pair_Ok_inj in H; subst r. split.
    + apply bytes_app; [repeat constructor; unfold is_byte; lia|apply words_bytes].
    + rewrite zlen_app, words_zlen. unfold values_at, zlen. cbn [length]. rewrite firstn_length. lia.
Qed.

Lemma hr_small s fc rest bc s' r :
  bytes (fc :: rest) -> handle_request s (fc :: rest) bc = (s', Ok r) ->
  bytes r /\ zlen r <= Z.max 252 (zlen (fc :: rest)) /\
  (r = [] /\ bc = true \/ hd 0 r = fc \/ hd 0 r = fc + 128).
Proof.
  intros Hby H. unfold handle_request in H. rewrite unpack_fc in H.
  assert (Hex : forall c, pack ">BB" [fc + 128; c] = Ok r ->
     bytes r /\ zlen r <= Z.max 252 (zlen (fc :: rest)) /\ (r = [] /\ bc = true \/ hd 0 r = fc \/ hd 0 r = fc + 128)).
  { intros c Hp. rewrite pack_BB in Hp. destruct (byte_b (fc + 128) && byte_b c) eqn:Eb; [|discriminate].
    injection Hp as <-. apply andb_prop in Eb as [E1 E2]. apply byte_b_iff in E1, E2. split; [|split].
    - constructor; [assumption|constructor; [assumption|constructor]].
    - cbn. unfold zlen. cbn. lia.
    - right. right. reflexivity. }
  destruct (fn_code_map fc) as [f|] eqn:Ef.
  - destruct (bc && cant_be_broadcasted fc); [discriminate|].
    destruct (f s (fc :: rest)) as [s1 [resp|e]] eqn:Er.
    + destruct resp as [|y l]; [discriminate|]. destruct bc.
      * injection H as _ <-. split; [constructor|]. split; [unfold zlen; cbn [length]; lia|]. left. auto.
      * pose proof (fn_code_map_range _ _ Ef) as Hr. rewrite pack_B_ok in H by (unfold is_byte; lia).
        injection H as _ <-. destruct (fn_small s fc f (fc :: rest) s1 (y :: l)) as [H1 H2]; auto; [discriminate|].
        split; [constructor; [unfold is_byte; lia|exact H1]|]. split; [|right; left; reflexivity].
        rewrite !zlen_cons in *. lia.
    + destruct e; cbn [catch_modbus_error] in H; try discriminate. injection H as _ H. eapply Hex; eauto.
  - cbn [catch_modbus_error] in H. injection H as _ H. eapply Hex; eauto.
Qed.

(** ** C60 *)
Lemma shared_reads s rest :
  same_table s HOLDING_REGISTERS ANALOG_INPUTS ->
  read_registers s HOLDING_REGISTERS (3 :: rest) = read_registers s ANALOG_INPUTS (4 :: rest).
Proof.
  intros Hs. assert (Hg : forall a n, get_block_and_offset s HOLDING_REGISTERS a n = get_block_and_offset s ANALOG_INPUTS a n).
  { intros a n. unfold get_block_and_offset, mem_get. unfold same_table in Hs. now rewrite Hs. }
  unfold read_registers.
  replace (py_slice (4 :: rest) 1 5) with (py_slice (3 :: rest) 1 5) by (rewrite !py_slice_nonneg by lia; reflexivity).
  destruct (unpack2 _ _) as [[a q]|e]; [|reflexivity]. cbn [bind]. now rewrite Hg.
Qed.
Lemma shared_add s name z z' t t' start size :
  btype_of_Z z = Some t -> btype_of_Z z' = Some t' -> same_table s t t' ->
  snd (add_block s name z start size) = snd (add_block s name z' start size) /\
  forall t'', blocks (fst (add_block s name z start size)) t'' = blocks (fst (add_block s name z' start size)) t''.
Proof.
  intros Hz Hz' Hs. unfold add_block. rewrite Hz, Hz'.
  destruct (size <=? 0); [auto|]. destruct (start <? 0); [auto|].
  destruct (assoc String.eqb name (sl_names s)); [auto|].
  assert (Hm : mem_get s t = mem_get s t') by (unfold mem_get; unfold same_table in Hs; now rewrite Hs).
  rewrite Hm. destruct (mem_get s t') as [l|e]; [|auto].
  destruct (add_block_scan l 0 start size) as [i|e]; [|auto]. split; [reflexivity|]. cbn [fst].
  intros t''. unfold same_table in Hs. unfold mem_set, blocks. cbn [sl_alias with_names sl_lists]. rewrite Hs.
  destruct (get4 (sl_alias s) t'); reflexivity.
Qed.
