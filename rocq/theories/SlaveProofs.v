(** Lemmas about the slave model: lookup, in-place updates, handlers. *)
From Verif Require Export StructFacts Defines SlaveModel SlaveSpec.

(** ** tables *)
Lemma btype_eqb_spec a b : btype_eqb a b = true <-> a = b.
Proof. destruct a, b; cbn; intuition congruence. Qed.
Lemma btype_eq_dec (a b : btype) : {a = b} + {a <> b}.
Proof. decide equality. Defined.
Lemma btype_of_Z_code z t : btype_of_Z z = Some t -> 1 <= z <= 4.
Proof. unfold btype_of_Z. intros H. repeat (destruct (_ =? _) eqn:? in H; [lia|]). discriminate. Qed.

Lemma get_set4_same {A} (m : per4 A) t x : get4 (set4 m t x) t = x.
Proof. now destruct t. Qed.
Lemma get_set4_other {A} (m : per4 A) t t' x : t <> t' -> get4 (set4 m t x) t' = get4 m t'.
Proof. destruct t, t'; cbn; congruence. Qed.
Lemma per4_ext {A} (m m' : per4 A) : (forall t, get4 m t = get4 m' t) -> m = m'.
Proof.
  intros H. destruct m, m'.
  pose proof (H COILS); pose proof (H DISCRETE_INPUTS).
  pose proof (H HOLDING_REGISTERS); pose proof (H ANALOG_INPUTS). cbn in *. congruence.
Qed.

Lemma mem_get_ok s t : has_table s t -> mem_get s t = Ok (blocks s t).
Proof. unfold has_table, mem_get, blocks. destruct (get4 (sl_alias s) t); congruence. Qed.
Lemma mem_get_inv s t l : mem_get s t = Ok l -> has_table s t /\ l = blocks s t.
Proof. unfold has_table, mem_get, blocks. destruct (get4 (sl_alias s) t); intros H; split; congruence. Qed.
Lemma has_table_dec s t : has_table s t \/ ~ has_table s t.
Proof. unfold has_table. destruct (get4 (sl_alias s) t); [left|right]; congruence. Qed.
Lemma mem_get_err s t : ~ has_table s t -> mem_get s t = Err PyKeyError.
Proof. unfold has_table, mem_get. destruct (get4 (sl_alias s) t); [|reflexivity]. intros H. exfalso. apply H. congruence. Qed.

Lemma mem_set_unsigned s t l : sl_unsigned (mem_set s t l) = sl_unsigned s.
Proof. unfold mem_set. now destruct (get4 _ t). Qed.
Lemma mem_set_names s t l : sl_names (mem_set s t l) = sl_names s.
Proof. unfold mem_set. now destruct (get4 _ t). Qed.
Lemma mem_set_alias s t l : sl_alias (mem_set s t l) = sl_alias s.
Proof. unfold mem_set. now destruct (get4 _ t). Qed.
Lemma blocks_mem_set s t l t' :
  has_table s t ->
  same_table s t t' -> blocks (mem_set s t l) t' = l.
Proof.
  unfold has_table, same_table, mem_set, blocks. intros Ht Hs.
  destruct (get4 (sl_alias s) t) as [r|] eqn:E; [|congruence]. cbn.
  rewrite <- Hs. now rewrite get_set4_same.
Qed.
Lemma blocks_mem_set_other s t l t' :
  ~ same_table s t t' -> blocks (mem_set s t l) t' = blocks s t'.
Proof.
  unfold same_table, mem_set, blocks. intros Hn.
  destruct (get4 (sl_alias s) t) as [r|] eqn:E; [|reflexivity]. cbn.
  destruct (get4 (sl_alias s) t') as [r'|] eqn:E'; [|reflexivity].
  apply get_set4_other. congruence.
Qed.
Lemma same_table_refl s t : same_table s t t.
Proof. reflexivity. Qed.
Lemma same_table_dec s t t' : {same_table s t t'} + {~ same_table s t t'}.
Proof. unfold same_table. decide equality. apply btype_eq_dec. Defined.
Lemma blocks_same_table s t t' : same_table s t t' -> blocks s t' = blocks s t.
Proof. unfold same_table, blocks. now intros ->. Qed.

Lemma mem_set_frame s t l : has_table s t -> frame s (mem_set s t l) t.
Proof.
  intros Ht. unfold frame. rewrite mem_set_unsigned, mem_set_names, mem_set_alias.
  repeat split; auto.
  - intros t' Hs. rewrite !blocks_mem_set; auto. reflexivity.
  - intros t' Hn. now apply blocks_mem_set_other.
Qed.
Lemma mem_set_self s t : has_table s t -> mem_set s t (blocks s t) = s.
Proof.
  unfold has_table, mem_set, blocks. destruct s as [u n al ls]; cbn.
  destruct (get4 al t) as [r|]; [|congruence]. intros _. f_equal.
  apply per4_ext. intros t'. destruct (btype_eq_dec r t') as [<-|Hn].
  - apply get_set4_same.
  - now apply get_set4_other.
Qed.
Lemma mem_set_mem_set s t l l' : mem_set (mem_set s t l) t l' = mem_set s t l'.
Proof.
  unfold mem_set. destruct (get4 (sl_alias s) t) as [r|] eqn:E; cbn; rewrite ?E; [|reflexivity].
  f_equal. apply per4_ext. intros t'. destruct (btype_eq_dec r t') as [<-|Hn].
  - now rewrite !get_set4_same.
  - now rewrite !get_set4_other.
Qed.

(** ** lookup *)
Lemma covers_test b a n :
  (b_start b <=? a) && (a - b_start b + n <=? b_size b) = true <-> covers b a n.
Proof. unfold covers. lia. Qed.
Lemma covers_dec b a n : {covers b a n} + {~ covers b a n}.
Proof.
  destruct ((b_start b <=? a) && (a - b_start b + n <=? b_size b)) eqn:E.
  - left. now apply covers_test.
  - right. intros H. apply covers_test in H. congruence.
Qed.

Lemma find_block_some l a n i j b off :
  find_block l a n i = Some (j, b, off) <->
  exists l1 l2, serving l a n l1 b l2 /\ j = (i + length l1)%nat /\ off = a - b_start b.
Proof.
  revert i. induction l as [|c l IH]; intros i; cbn [find_block].
  - split; [discriminate|]. intros (l1 & l2 & (H & _) & _). destruct l1; discriminate.
  - destruct ((b_start c <=? a) && (a - b_start c + n <=? b_size c)) eqn:E.
    + apply covers_test in E. split.
      * intros H. injection H as <- <- <-. exists [], l. cbn. split; [|split; [lia|reflexivity]].
        split; [reflexivity|]. split; [exact E|]. intros b' [].
      * intros (l1 & l2 & (H & Hc & Hn) & -> & ->). destruct l1 as [|x l1].
        -- cbn in H. injection H as -> _. cbn. now rewrite Nat.add_0_r.
        -- cbn in H. injection H as -> _. exfalso. apply (Hn x); [now left|exact E].
    + assert (Hnc : ~ covers c a n) by (intros H; apply covers_test in H; congruence).
      rewrite IH. split.
      * intros (l1 & l2 & (H & Hc & Hn) & -> & ->). exists (c :: l1), l2. subst l.
        cbn. split; [|split; [lia|reflexivity]].
        split; [reflexivity|]. split; [exact Hc|]. intros b' [<-|Hin]; auto.
      * intros (l1 & l2 & (H & Hc & Hn) & -> & ->). destruct l1 as [|x l1]; cbn in H.
        -- injection H as -> _. contradiction.
        -- injection H as -> ->. exists l1, l2. split; [|split; [cbn; lia|reflexivity]].
           split; [reflexivity|]. split; [exact Hc|]. intros b' Hin. apply Hn. now right.
Qed.

Lemma find_block_none l a n i :
  find_block l a n i = None <-> (forall b, In b l -> ~ covers b a n).
Proof.
  revert i. induction l as [|c l IH]; intros i; cbn [find_block].
  - split; auto.
  - destruct ((b_start c <=? a) && (a - b_start c + n <=? b_size c)) eqn:E.
    + apply covers_test in E. split; [discriminate|]. intros H. exfalso. apply (H c); [now left|auto].
    + assert (Hnc : ~ covers c a n) by (intros H; apply covers_test in H; congruence).
      rewrite IH. split.
      * intros H b [<-|Hin]; auto.
      * intros H b Hin. apply H. now right.
Qed.

Lemma gbo_served s t a n l1 b l2 :
  has_table s t -> serving (blocks s t) a n l1 b l2 ->
  get_block_and_offset s t a n = Ok (length l1, b, a - b_start b).
Proof.
  intros Ht Hs. unfold get_block_and_offset. rewrite mem_get_ok by assumption. cbn [bind].
  destruct (find_block (blocks s t) a n 0) as [[[j c] off]|] eqn:E.
  - assert (H : find_block (blocks s t) a n 0 = Some (length l1, b, a - b_start b))
      by (apply find_block_some; exists l1, l2; auto).
    congruence.
  - exfalso. eapply find_block_none in E; [|rewrite (proj1 Hs); apply in_elt]. apply E. apply Hs.
Qed.
Lemma gbo_not_covered s t a n :
  has_table s t -> not_covered s t a n ->
  get_block_and_offset s t a n = Err (ModbusError ILLEGAL_DATA_ADDRESS).
Proof.
  intros Ht Hn. unfold get_block_and_offset. rewrite mem_get_ok by assumption. cbn [bind].
  assert (H : find_block (blocks s t) a n 0 = None) by (apply find_block_none; exact Hn).
  now rewrite H.
Qed.
Lemma gbo_inv s t a n r :
  get_block_and_offset s t a n = r ->
  (r = Err PyKeyError /\ ~ has_table s t) \/
  (r = Err (ModbusError ILLEGAL_DATA_ADDRESS) /\ has_table s t /\ not_covered s t a n) \/
  (exists l1 b l2, has_table s t /\ serving (blocks s t) a n l1 b l2 /\
     r = Ok (length l1, b, a - b_start b)).
Proof.
  intros H. destruct (has_table_dec s t) as [Ht|Ht].
  - right. destruct (find_block (blocks s t) a n 0) as [[[j b] off]|] eqn:E.
    + right. apply find_block_some in E as (l1 & l2 & Hs & -> & ->).
      exists l1, b, l2. split; [assumption|]. split; [assumption|].
      rewrite <- H. now apply gbo_served with (l2 := l2).
    + left. assert (Hnc : not_covered s t a n) by (intros b Hb; eapply find_block_none in E; eauto).
      rewrite <- H. split; [now apply gbo_not_covered|]. split; assumption.
  - left. rewrite <- H. split; [|assumption]. unfold get_block_and_offset.
    rewrite mem_get_err by assumption. reflexivity.
Qed.
Lemma served_or_not s t a n :
  (exists b, served_by s t a n b) \/ not_covered s t a n.
Proof.
  destruct (find_block (blocks s t) a n 0) as [[[j b] off]|] eqn:E.
  - left. apply find_block_some in E as (l1 & l2 & Hs & _). exists b, l1, l2. exact Hs.
  - right. intros b Hb. eapply find_block_none in E; eauto.
Qed.

(** ** writing one block *)
Lemma put_block_data_blocks s t l1 b l2 d :
  has_table s t -> blocks s t = l1 ++ b :: l2 ->
  put_block_data s t (length l1) b d = mem_set s t (l1 ++ with_data b d :: l2).
Proof.
  intros Ht Hb. unfold put_block_data. rewrite mem_get_ok by assumption.
  rewrite Hb. now rewrite list_upd_app_r.
Qed.
Lemma with_data_overlay b a vals d :
  d = firstn (Z.to_nat (a - b_start b)) (b_data b) ++ vals
      ++ skipn (Z.to_nat (a - b_start b + zlen vals)) (b_data b) ->
  with_data b d = overlay b a vals.
Proof. intros ->. reflexivity. Qed.

Lemma put_wrote s t a vals l1 b l2 :
  has_table s t -> serving (blocks s t) a (zlen vals) l1 b l2 ->
  wrote s t a vals (put_block_data s t (length l1) b (b_data (overlay b a vals))).
Proof.
  intros Ht Hs. exists l1, b, l2. split; [exact Hs|].
  rewrite (put_block_data_blocks s t l1 b l2) by (auto; apply Hs).
  split.
  - rewrite blocks_mem_set by (auto; reflexivity). reflexivity.
  - now apply mem_set_frame.
Qed.

(** overlay, element by element *)
Lemma overlay_length b a vals :
  covers b a (zlen vals) -> zlen (b_data b) = b_size b ->
  zlen (b_data (overlay b a vals)) = b_size b.
Proof.
  unfold covers. intros [H1 H2] H3. cbn. rewrite !zlen_app. unfold zlen in *.
  rewrite firstn_length, skipn_length. lia.
Qed.
Lemma overlay_upd b a k v :
  (k < length (b_data b))%nat -> b_start b <= a -> Z.to_nat (a - b_start b) = k ->
  b_data (overlay b a [v]) = list_upd (b_data b) k v.
Proof.
  intros Hk Ha Ek. unfold overlay. cbn [b_data].
  replace (Z.to_nat (a - b_start b + zlen [v])) with (S k) by (unfold zlen; cbn [length]; lia).
  rewrite Ek. clear Ek Ha. revert k Hk. induction (b_data b) as [|x l IH]; intros k Hk; cbn in Hk; [lia|].
  destruct k as [|k]; [reflexivity|]. cbn [firstn skipn app list_upd]. f_equal. apply IH. lia.
Qed.
Lemma cell_overlay_in b a vals k :
  covers b a (zlen vals) -> zlen (b_data b) = b_size b -> 0 <= k < zlen vals ->
  cell (overlay b a vals) (a + k) = nth_error vals (Z.to_nat k).
Proof.
  unfold covers, cell. intros [H1 H2] H3 H4. cbn.
  destruct (a + k <? b_start b) eqn:E; [lia|].
  unfold zlen in *. rewrite nth_error_app2; rewrite firstn_length; [|lia].
  rewrite nth_error_app1 by lia. f_equal. lia.
Qed.
Lemma cell_overlay_out b a vals x :
  covers b a (zlen vals) -> zlen (b_data b) = b_size b -> ~ (a <= x < a + zlen vals) ->
  cell (overlay b a vals) x = cell b x.
Proof.
  unfold covers, cell. intros [H1 H2] H3 H4. cbn.
  destruct (x <? b_start b) eqn:E; [reflexivity|].
  unfold zlen in *. destruct (Z.lt_ge_cases x a) as [Hx|Hx].
  - rewrite nth_error_app1 by (rewrite firstn_length; lia).
    apply nth_error_firstn. lia.
  - rewrite nth_error_app2 by (rewrite firstn_length; lia).
    rewrite nth_error_app2 by (rewrite firstn_length; lia).
    rewrite nth_error_skipn. f_equal. rewrite firstn_length. lia.
Qed.
Lemma values_at_overlay b a vals :
  covers b a (zlen vals) -> zlen (b_data b) = b_size b ->
  values_at (overlay b a vals) a (zlen vals) = vals.
Proof.
  unfold covers, values_at. intros [H1 H2] H3. cbn. unfold zlen in *.
  rewrite skipn_app, skipn_all2, app_nil_l by (rewrite firstn_length; lia).
  rewrite firstn_length.
  replace (Z.to_nat (a - b_start b) - Nat.min (Z.to_nat (a - b_start b)) (length (b_data b)))%nat
    with O by lia.
  cbn [skipn]. rewrite Nat2Z.id. rewrite firstn_app, firstn_all, Nat.sub_diag. apply app_nil_r.
Qed.
Lemma values_at_length b a n :
  covers b a n -> 0 <= n -> zlen (b_data b) = b_size b -> zlen (values_at b a n) = n.
Proof.
  unfold covers, values_at, zlen. intros [H1 H2] Hn H3. rewrite firstn_length, skipn_length. lia.
Qed.
Lemma values_at_slice b a n :
  b_start b <= a -> 0 <= n ->
  py_slice (b_data b) (a - b_start b) (a - b_start b + n) = values_at b a n.
Proof.
  intros H1 H2. rewrite py_slice_nonneg by lia. unfold values_at. do 2 f_equal. lia.
Qed.
Lemma values_at_nth b a n k :
  covers b a n -> 0 <= k < n ->
  nth_error (values_at b a n) (Z.to_nat k) = cell b (a + k).
Proof.
  unfold covers, values_at, cell. intros [H1 H2] Hk.
  destruct (a + k <? b_start b) eqn:E; [lia|].
  rewrite nth_error_firstn by lia. rewrite nth_error_skipn. f_equal. lia.
Qed.
