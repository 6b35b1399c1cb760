(** C108: the hook "modbus.ModbusBlock.setitem" is a complete and faithful log of what changes in a slave.  Model: WatchModel.v. *)
From Verif Require Import Base PyStruct Defines SlaveModel BaseFacts StructFacts SlaveSpec SlaveProofs HandlerProofs RequestProofs GeneralProofs SlaveInv BlockSpec AtomicProofs WatchModel.
From Coq Require Import Lia.
Open Scope string_scope. Open Scope list_scope. Open Scope Z_scope.

(** ** Specification *)
(** The contents of a block after the change that was announced. *)
Definition changed (c : list Z) (n : note) : list Z :=
  firstn (Z.to_nat (nt_item n)) c ++ nt_vals n ++ skipn (Z.to_nat (nt_item n) + length (nt_vals n)) c.
(** Is the note about the [k]-th block of table [t] (two tables may be one list when the application passed its own memory)? *)
Definition one_table (s : slave) (t t' : btype) : bool :=
  match get4 (sl_alias s) t, get4 (sl_alias s) t' with
  | Some r, Some r' => btype_eqb r r'
  | None, None => true
  | _, _ => false
  end.
Definition about (s : slave) (t : btype) (k : nat) (n : note) : bool := one_table s t (nt_table n) && Nat.eqb k (nt_block n).
Definition allowed (e : told) : bool := match td_raised e with None => true | Some _ => false end.
(** What somebody who only listens to the hook believes the block contains. *)
Fixpoint replayed (s : slave) (t : btype) (k : nat) (c : list Z) (log : list told) : list Z :=
  match log with
  | [] => c
  | e :: rest => replayed s t k (if about s t k (td_note e) && allowed e then changed c (td_note e) else c) rest
  end.

(** ** Proofs *)
Lemma one_table_spec s t t' : one_table s t t' = true <-> same_table s t t'.
Proof.
  unfold one_table, same_table. destruct (get4 (sl_alias s) t) as [r|], (get4 (sl_alias s) t') as [r'|]; try (split; [discriminate|congruence] || (split; reflexivity)).
  rewrite btype_eqb_spec. split; congruence.
Qed.

(** the announcements of one request or call, all about one block *)
Inductive chain (w : watcher) (t : btype) (k : nat) : list told -> list Z -> list told -> list Z -> option exn -> Prop :=
| ch_nil log c : chain w t k log c [] c None
| ch_veto log c n e : nt_table n = t -> nt_block n = k -> 0 <= nt_item n -> nt_item n + zlen (nt_vals n) <= zlen c -> w log c n = Some e ->
    chain w t k log c [{| td_note := n; td_cells := c; td_raised := Some e |}] c (Some e)
| ch_step log c n es c' x : nt_table n = t -> nt_block n = k -> 0 <= nt_item n -> nt_item n + zlen (nt_vals n) <= zlen c -> w log c n = None ->
    chain w t k (log ++ [{| td_note := n; td_cells := c; td_raised := None |}]) (changed c n) es c' x ->
    chain w t k log c ({| td_note := n; td_cells := c; td_raised := None |} :: es) c' x.

Lemma changed_length c n : 0 <= nt_item n -> nt_item n + zlen (nt_vals n) <= zlen c -> length (changed c n) = length c.
Proof. intros H1 H2. unfold changed. unfold zlen in *. rewrite !app_length, firstn_length, skipn_length. lia. Qed.
Lemma chain_length w t k log c es c' x : chain w t k log c es c' x -> length c' = length c.
Proof. induction 1; auto. rewrite IHchain. now apply changed_length. Qed.
Lemma changed_upd c n v : nt_vals n = [v] -> 0 <= nt_item n < zlen c -> changed c n = list_upd c (Z.to_nat (nt_item n)) v.
Proof.
  intros E H. unfold changed. rewrite E. cbn [length]. assert (H' : (Z.to_nat (nt_item n) < length c)%nat) by (unfold zlen in H; lia).
  revert H'. generalize (Z.to_nat (nt_item n)) as i. clear. induction c as [|x c IH]; intros i H; cbn in H; [lia|].
  destruct i as [|i]; [reflexivity|]. cbn [firstn skipn List.app list_upd Nat.add]. f_equal. apply IH. lia.
Qed.
Lemma set_chain w t k log c i v : 0 <= i < zlen c ->
  (exists e, w_set w t k log c i v = (log ++ [{| td_note := {| nt_table := t; nt_block := k; nt_item := i; nt_slice := false; nt_vals := [v] |}; td_cells := c; td_raised := Some e |}], Err e) /\
     w log c {| nt_table := t; nt_block := k; nt_item := i; nt_slice := false; nt_vals := [v] |} = Some e) \/
  (w_set w t k log c i v = (log ++ [{| td_note := {| nt_table := t; nt_block := k; nt_item := i; nt_slice := false; nt_vals := [v] |}; td_cells := c; td_raised := None |}],
     Ok (changed c {| nt_table := t; nt_block := k; nt_item := i; nt_slice := false; nt_vals := [v] |})) /\
     w log c {| nt_table := t; nt_block := k; nt_item := i; nt_slice := false; nt_vals := [v] |} = None).
Proof.
  intros H. unfold w_set, announce. destruct (w log c _) as [e|]; [left; exists e; cbn; auto|right; cbn [bind]; rewrite py_set_in by assumption].
  split; [|reflexivity]. rewrite (changed_upd _ _ v) by (reflexivity || exact H). reflexivity.
Qed.

(** one cell after the other, from the index [off] on *)
Fixpoint singles (off : Z) (es : list told) : Prop :=
  match es with
  | [] => True
  | e :: rest => nt_item (td_note e) = off /\ nt_slice (td_note e) = false /\ (exists v, nt_vals (td_note e) = [v]) /\ singles (off + 1) rest
  end.
Lemma singles_app off es es' : singles off es -> singles (off + zlen es) es' -> singles off (es ++ es').
Proof.
  revert off. induction es as [|e es IH]; intros off H H'; cbn [List.app].
  - change (zlen (@nil told)) with 0 in H'. now rewrite Z.add_0_r in H'.
  - destruct H as (H1 & H2 & H3 & H4). cbn [singles]. repeat split; auto. apply IH; [exact H4|]. rewrite zlen_cons in H'.
    replace (off + 1 + zlen es) with (off + (1 + zlen es)) by lia. exact H'.
Qed.
Lemma regs_chain w t k fmt pdu base off : forall m i log data, 0 <= off + i -> off + i + Z.of_nat m <= zlen data ->
  exists es d x r, w_write_regs_loop w t k fmt pdu base off m i log data = (log ++ es, d, r) /\ chain w t k log data es d x /\
    (forall e, x = Some e -> r = Err e) /\ singles (off + i) es /\ (r = Ok tt -> length es = m).
Proof.
  induction m as [|m IH]; intros i log data H1 H2.
  - exists [], data, None, (Ok tt). rewrite app_nil_r. cbn. split; [reflexivity|]. split; [constructor|]. split; [discriminate|auto].
  - cbn [w_write_regs_loop]. destruct (unpack1 fmt _) as [v|e] eqn:U.
    2:{ exists [], data, None, (Err e). rewrite app_nil_r. split; [reflexivity|]. split; [constructor|]. cbn. repeat split; discriminate. }
    destruct (set_chain w t k log data (off + i) v) as [(e & -> & W)|(-> & W)]; [lia| |].
    + eexists _, data, (Some e), (Err e). split; [reflexivity|]. split; [|split; [congruence|]; split; [cbn; repeat split; eauto|discriminate]].
      apply ch_veto; cbn; try reflexivity; try assumption; try (change (zlen [v]) with 1); try lia.
    + set (n := {| nt_table := t; nt_block := k; nt_item := off + i; nt_slice := false; nt_vals := [v] |}) in *.
      assert (L : zlen (changed data n) = zlen data).
      { unfold zlen. f_equal. apply changed_length; cbn; [lia|]. change (zlen [v]) with 1. lia. }
      match goal with |- context [w_write_regs_loop _ _ _ _ _ _ _ m _ ?l _] => destruct (IH (i + 1) l (changed data n)) as (es & d & x & r & E & Ch & V & Si & Le); [lia|rewrite L; lia|] end.
      rewrite E. eexists (_ :: es), d, x, r. rewrite <- app_assoc. split; [reflexivity|].
      split; [|split; [exact V|]; split; [cbn; repeat split; eauto; now rewrite <- Z.add_assoc|intros R; cbn; f_equal; auto]].
      apply ch_step; cbn; try reflexivity; try assumption; try (change (zlen [v]) with 1); try lia.
Qed.
Lemma inner_chain w t k bv pos q lim : forall m j count log data, 0 <= pos + j -> pos + j + (q - count) <= lim -> lim <= zlen data ->
  exists es d x r, w_write_bits_inner w t k m bv pos j count q log data = (log ++ es, d, r) /\ chain w t k log data es d x /\
    match x with Some e => r = Err e | None => exists c, r = Ok c /\ (c = count + Z.of_nat m \/ q <= c) /\ c = count + zlen es /\ (count <= q -> c <= q) end /\ singles (pos + j) es.
Proof.
  induction m as [|m IH]; intros j count log data H1 H2 H3.
  - exists [], data, None, (Ok count). rewrite app_nil_r. cbn. split; [reflexivity|]. split; [constructor|]. split; [|exact I]. exists count. split; [reflexivity|]. split; [left; lia|]. change (zlen (@nil told)) with 0. lia.
  - cbn [w_write_bits_inner]. destruct (q <=? count) eqn:Q.
    { exists [], data, None, (Ok count). rewrite app_nil_r. split; [reflexivity|]. split; [constructor|]. split; [|exact I]. exists count. split; [reflexivity|]. split; [right; lia|]. change (zlen (@nil told)) with 0. lia. }
    set (v := if Z.land bv (Z.shiftl 1 j) =? 0 then 0 else 1). clearbody v.
    destruct (set_chain w t k log data (pos + j) v) as [(e & -> & W)|(-> & W)]; [lia| |].
    + eexists _, data, (Some e), (Err e). split; [reflexivity|]. split; [|split; [reflexivity|cbn; repeat split; eauto]].
      apply ch_veto; cbn; try reflexivity; try assumption; try (change (zlen [v]) with 1); try lia.
    + set (n := {| nt_table := t; nt_block := k; nt_item := pos + j; nt_slice := false; nt_vals := [v] |}) in *.
      assert (L : zlen (changed data n) = zlen data).
      { unfold zlen. f_equal. apply changed_length; cbn; [lia|]. change (zlen [v]) with 1. lia. }
      match goal with |- context [w_write_bits_inner _ _ _ m _ _ _ _ _ ?l _] =>
        destruct (IH (j + 1) (count + 1) l (changed data n)) as (es & d & x & r & E & Ch & V & Si); [lia|lia|rewrite L; lia|] end.
      rewrite E. eexists (_ :: es), d, x, r. rewrite <- app_assoc. split; [reflexivity|]. split.
      * apply ch_step; cbn; try reflexivity; try assumption; try (change (zlen [v]) with 1); try lia.
      * split; [|cbn; repeat split; eauto; now rewrite <- Z.add_assoc].
        destruct x; [exact V|]. destruct V as (c & -> & V). exists c. split; [reflexivity|]. rewrite zlen_cons. lia.
Qed.
Lemma chain_app w t k log c es c' es' c'' x : chain w t k log c es c' None -> chain w t k (log ++ es) c' es' c'' x -> chain w t k log c (es ++ es') c'' x.
Proof.
  intros H. remember None as y eqn:Y. revert Y. induction H; intros Y H'; [|discriminate|].
  - now rewrite app_nil_r in H'.
  - cbn [List.app]. apply ch_step; auto. apply IHchain; [assumption|]. now rewrite <- app_assoc.
Qed.
Lemma outer_chain w t k fmt pdu off q : forall m i count log data, 0 <= off -> 0 <= i -> (count = 8 * i \/ q <= count) -> count <= q -> off + q <= zlen data ->
  exists es d x r, w_write_bits_outer w t k m fmt pdu off i count q log data = (log ++ es, d, r) /\ chain w t k log data es d x /\
    (forall e, x = Some e -> r = Err e) /\ singles (off + count) es /\ (forall c, r = Ok c -> c = count + zlen es /\ c <= q /\ (c = count + 8 * Z.of_nat m \/ q <= c)).
Proof.
  induction m as [|m IH]; intros i count log data H1 H2 H3 H4 H5.
  - exists [], data, None, (Ok count). rewrite app_nil_r. cbn. split; [reflexivity|]. split; [constructor|]. split; [discriminate|]. split; [exact I|].
    intros c [= <-]. change (zlen (@nil told)) with 0. lia.
  - cbn [w_write_bits_outer]. destruct (q <=? count) eqn:Q.
    { exists [], data, None, (Ok count). rewrite app_nil_r. split; [reflexivity|]. split; [constructor|]. split; [discriminate|]. split; [exact I|].
      intros c [= <-]. change (zlen (@nil told)) with 0. lia. }
    assert (C : count = 8 * i) by lia. destruct (unpack1 fmt _) as [bv|e] eqn:U.
    2:{ exists [], data, None, (Err e). rewrite app_nil_r. split; [reflexivity|]. split; [constructor|]. split; [discriminate|]. split; [exact I|discriminate]. }
    destruct (inner_chain w t k bv (off + i * 8) q (off + q) 8 0 count log data) as (es & d & x & r & E & Ch & V & Si); [lia|lia|lia|].
    rewrite E. replace (off + i * 8 + 0) with (off + count) in Si by lia. destruct x as [e|].
    + rewrite V. exists es, d, (Some e), (Err e). split; [reflexivity|]. split; [exact Ch|]. split; [congruence|]. split; [exact Si|discriminate].
    + destruct V as (c & -> & V1 & V2 & V3). pose proof (chain_length _ _ _ _ _ _ _ _ Ch) as L.
      destruct (IH (i + 1) c (log ++ es) d) as (es' & d' & x' & r' & E' & Ch' & V' & Si' & R'); [lia|lia|lia|lia|unfold zlen in *; lia|].
      rewrite E'. exists (es ++ es'), d', x', r'. rewrite app_assoc. split; [reflexivity|]. split; [now apply chain_app with d|]. split; [exact V'|]. split.
      * apply singles_app; [exact Si|]. replace (off + count + zlen es) with (off + c) by lia. exact Si'.
      * intros c' R. destruct (R' c' R) as (R1 & R2 & R3). rewrite zlen_app. lia.
Qed.

(** what a handler of a write does *)
Definition did (w : watcher) (log : list told) (s : slave) (t : btype) (a n : Z) (out : list told * slave * res (list Z)) : Prop :=
  exists es x s' r, out = (log ++ es, s', r) /\ (forall e, x = Some e -> r = Err e) /\
    ((es = [] /\ s' = s /\ x = None /\ forall resp, r <> Ok resp) \/
     exists l1 b l2 d, has_table s t /\ serving (blocks s t) a n l1 b l2 /\ wf_block b /\ chain w t (length l1) log (b_data b) es d x /\
       s' = mem_set s t (l1 ++ with_data b d :: l2) /\ singles (a - b_start b) es /\ (forall resp, r = Ok resp -> zlen es = n)).
Lemma did_nothing w log s t a n e : did w log s t a n (log, s, Err e).
Proof. exists [], None, s, (Err e). rewrite app_nil_r. split; [reflexivity|]. split; [discriminate|]. left. repeat split; discriminate. Qed.
(** a handler that sets one cell *)
Lemma did_one w log s t a v l1 b l2 resp : wf_slave s -> has_table s t -> serving (blocks s t) a 1 l1 b l2 ->
  did w log s t a 1 (match w_set w t (length l1) log (b_data b) (a - b_start b) v with
                     | (log', Err e) => (log', s, Err e)
                     | (log', Ok d) => (log', put_block_data s t (length l1) b d, Ok resp)
                     end).
Proof.
  intros Hw Ht Hs. pose proof (wf_served _ _ _ _ _ _ _ Hw Hs) as Wb. destruct Wb as (W1 & W2 & W3). pose proof Hs as (Hb & (C1 & C2) & _).
  assert (R : 0 <= a - b_start b < zlen (b_data b)) by lia.
  destruct (set_chain w t (length l1) log (b_data b) (a - b_start b) v R) as [(e & -> & W)|(-> & W)].
  - eexists _, (Some e), s, (Err e). split; [reflexivity|]. split; [congruence|]. right.
    exists l1, b, l2, (b_data b). split; [exact Ht|]. split; [exact Hs|]. split; [repeat split; assumption|]. split.
    { apply ch_veto; cbn; try reflexivity; try assumption; try lia. }
    split; [|split; [cbn; repeat split; eauto|discriminate]].
    rewrite <- put_block_data_blocks by assumption. unfold put_block_data. rewrite mem_get_ok by assumption. rewrite Hb, list_upd_app_r.
    replace (with_data b (b_data b)) with b by (destruct b; reflexivity). rewrite <- Hb. unfold mem_set, blocks. destruct s as [u nm al ls]. cbn.
    unfold has_table in Ht. cbn in Ht. destruct (get4 al t) as [r|]; [|reflexivity]. f_equal. destruct ls, r; reflexivity.
  - eexists _, None, _, (Ok resp). split; [reflexivity|]. split; [discriminate|]. right.
    exists l1, b, l2, (changed (b_data b) {| nt_table := t; nt_block := length l1; nt_item := a - b_start b; nt_slice := false; nt_vals := [v] |}).
    split; [exact Ht|]. split; [exact Hs|]. split; [repeat split; assumption|]. split.
    { apply ch_step; cbn; try reflexivity; try assumption; try lia. constructor. }
    split; [now apply put_block_data_blocks|]. split; [cbn; repeat split; eauto|]. reflexivity.
Qed.

Ltac cases_gbo H := match goal with |- context [get_block_and_offset ?s ?t ?a ?n] =>
  destruct (gbo_inv s t a n _ eq_refl) as [(H & ?)|[(H & ? & ?)|(?l1 & ?b & ?l2 & ?Ht & ?Hs & H)]]; rewrite H end.
Lemma did_coil w log s fc rest : wf_slave s -> did w log s COILS (be16 (fc :: rest) 1) 1 (w_write_single_coil w log s (fc :: rest)).
Proof.
  intros Hw. unfold w_write_single_coil. destruct (unpack2 ">HH" _) as [[a v]|e] eqn:U; [|apply did_nothing].
  apply (unpack2_inv ">HH" false) in U; [|reflexivity]. destruct U as (_ & -> & _). cases_gbo G; try apply did_nothing.
  destruct (_ || _); [|apply did_nothing]. now apply did_one with l2.
Qed.
Lemma did_register w log s fc rest : wf_slave s -> did w log s HOLDING_REGISTERS (be16 (fc :: rest) 1) 1 (w_write_single_register w log s (fc :: rest)).
Proof.
  intros Hw. unfold w_write_single_register. destruct (unpack2 _ _) as [[a v]|e] eqn:U; [|apply did_nothing].
  apply (unpack2_inv _ (negb (sl_unsigned s))) in U; [|destruct (sl_unsigned s); reflexivity]. destruct U as (_ & -> & _). cases_gbo G; try apply did_nothing.
  now apply did_one with l2.
Qed.
Lemma did_mask w log s fc rest : wf_slave s -> did w log s HOLDING_REGISTERS (be16 (fc :: rest) 1) 1 (w_mask_write_register w log s (fc :: rest)).
Proof.
  intros Hw. unfold w_mask_write_register. destruct (unpack3 _ _) as [[[a am] om]|e] eqn:U; [|apply did_nothing].
  apply unpack3m_inv in U. destruct U as (_ & -> & _). cases_gbo G; try apply did_nothing.
  destruct (py_get _ _) as [old|e]; [|apply did_nothing]. now apply did_one with l2.
Qed.
(** a handler that sets several cells *)
Lemma did_several w log s t a n l1 b l2 es d x r : wf_slave s -> has_table s t -> serving (blocks s t) a n l1 b l2 ->
  chain w t (length l1) log (b_data b) es d x -> (forall e, x = Some e -> r = Err e) -> singles (a - b_start b) es -> (forall resp, r = Ok resp -> zlen es = n) ->
  did w log s t a n (log ++ es, put_block_data s t (length l1) b d, r).
Proof.
  intros Hw Ht Hs Ch V Si Le. pose proof Hs as (Hb & _). eexists es, x, _, r. split; [reflexivity|]. split; [exact V|]. right. exists l1, b, l2, d.
  split; [exact Ht|]. split; [exact Hs|]. split; [exact (wf_served _ _ _ _ _ _ _ Hw Hs)|]. split; [exact Ch|].
  split; [now apply put_block_data_blocks|]. auto.
Qed.
Lemma did_registers w log s fc rest : wf_slave s ->
  did w log s HOLDING_REGISTERS (be16 (fc :: rest) 1) (be16 (fc :: rest) 3) (w_write_multiple_registers w log s (fc :: rest)).
Proof.
  intros Hw. unfold w_write_multiple_registers. destruct (unpack3 _ _) as [[[a q] bc]|e] eqn:U; [|apply did_nothing].
  apply unpack3_inv in U. destruct U as (_ & -> & -> & _). destruct (_ || _ || _) eqn:Q; [apply did_nothing|]. cases_gbo G; try apply did_nothing.
  pose proof (wf_served _ _ _ _ _ _ _ Hw Hs) as (W1 & W2 & W3). pose proof Hs as (_ & (C1 & C2) & _).
  destruct (regs_chain w HOLDING_REGISTERS (length l1) (fmtH s) (fc :: rest) 6 (be16 (fc :: rest) 1 - b_start b) (Z.to_nat (be16 (fc :: rest) 3)) 0 log (b_data b))
    as (es & d & x & r & -> & Ch & V & Si & Le); [lia|lia|].
  rewrite Z.add_0_r in Si. destruct r as [[]|e].
  - eapply did_several; eauto; [intros e E; discriminate (V e E)|]. intros resp _. unfold zlen. rewrite (Le eq_refl). lia.
  - eapply did_several; eauto; [intros e0 X; injection (V e0 X) as ->; reflexivity|discriminate].
Qed.
Lemma did_read_write w log s fc rest : wf_slave s ->
  did w log s HOLDING_REGISTERS (be16 (fc :: rest) 5) (be16 (fc :: rest) 7) (w_read_write_multiple_registers w log s (fc :: rest)).
Proof.
  intros Hw. unfold w_read_write_multiple_registers. destruct (unpack5 _ _) as [[[[[ra rq] wa] wq] bc]|e] eqn:U; [|apply did_nothing].
  apply unpack5_inv in U. destruct U as (_ & -> & -> & -> & -> & _). destruct (_ || _); [apply did_nothing|]. cases_gbo G; try apply did_nothing.
  destruct (header <- _ ;; _) as [resp|e]; [|apply did_nothing]. destruct (_ || _ || _) eqn:Q; [apply did_nothing|].
  clear l1 l2 b Ht Hs G. cases_gbo G; try apply did_nothing.
  pose proof (wf_served _ _ _ _ _ _ _ Hw Hs) as (W1 & W2 & W3). pose proof Hs as (_ & (C1 & C2) & _).
  destruct (regs_chain w HOLDING_REGISTERS (length l1) (fmtH s) (fc :: rest) 10 (be16 (fc :: rest) 5 - b_start b) (Z.to_nat (be16 (fc :: rest) 7)) 0 log (b_data b))
    as (es & d & x & r & -> & Ch & V & Si & Le); [lia|lia|].
  rewrite Z.add_0_r in Si. destruct r as [[]|e].
  - eapply did_several; eauto; [intros e E; discriminate (V e E)|]. intros ? _. unfold zlen. rewrite (Le eq_refl). lia.
  - eapply did_several; eauto; [intros e0 X; injection (V e0 X) as ->; reflexivity|discriminate].
Qed.
Lemma did_coils w log s fc rest : wf_slave s ->
  did w log s COILS (be16 (fc :: rest) 1) (be16 (fc :: rest) 3) (w_write_multiple_coils w log s (fc :: rest)).
Proof.
  intros Hw. unfold w_write_multiple_coils. destruct (unpack3 _ _) as [[[a q] bc]|e] eqn:U; [|apply did_nothing].
  apply unpack3_inv in U. destruct U as (_ & -> & -> & _). destruct (_ || _ || _) eqn:Q; [apply did_nothing|]. cases_gbo G; try apply did_nothing.
  pose proof (wf_served _ _ _ _ _ _ _ Hw Hs) as (W1 & W2 & W3). pose proof Hs as (_ & (C1 & C2) & _).
  destruct (outer_chain w COILS (length l1) (fmtB s) (fc :: rest) (be16 (fc :: rest) 1 - b_start b) (be16 (fc :: rest) 3) (Z.to_nat bc) 0 0 log (b_data b))
    as (es & d & x & r & -> & Ch & V & Si & Le); [lia|lia|lia|lia|lia|].
  rewrite Z.add_0_r in Si. assert (B : bc = bit_byte_count (be16 (fc :: rest) 3)) by lia.
  assert (B8 : be16 (fc :: rest) 3 <= 8 * bc).
  { rewrite B. unfold bit_byte_count. destruct (0 <? _ mod 8) eqn:M; pose proof (Z.div_mod (be16 (fc :: rest) 3) 8); pose proof (Z.mod_pos_bound (be16 (fc :: rest) 3) 8); lia. }
  destruct r as [c|e].
  - destruct (Le c eq_refl) as (L1 & L2 & L3). assert (E : zlen es = be16 (fc :: rest) 3) by lia.
    eapply did_several; eauto. intros e' E'. discriminate (V e' E').
  - eapply did_several; eauto; [intros e0 X; injection (V e0 X) as ->; reflexivity|discriminate].
Qed.

Definition asked (w : watcher) (log : list told) (s : slave) (fc : Z) (pdu : list Z) (out : list told * slave * res (list Z)) : Prop :=
  exists es x s' r, out = (log ++ es, s', r) /\ (forall e, x = Some e -> r = w_catch fc (Err e)) /\
    ((es = [] /\ s' = s /\ x = None /\ forall resp, r = Ok resp -> hd 0 resp < 128 -> write_range pdu = None) \/
     exists t a n l1 b l2 d, write_range pdu = Some (t, a, n) /\ has_table s t /\ serving (blocks s t) a n l1 b l2 /\ wf_block b /\ chain w t (length l1) log (b_data b) es d x /\
       s' = mem_set s t (l1 ++ with_data b d :: l2) /\ singles (a - b_start b) es /\ (forall resp, r = Ok resp -> hd 0 resp < 128 -> zlen es = n)).
Lemma w_catch_hd fc r resp : 1 <= fc <= 23 -> w_catch fc r = Ok resp -> hd 0 resp < 128 -> exists resp', r = Ok resp'.
Proof.
  intros F H L. destruct r as [y|e]; [eauto|]. destruct e; try discriminate H. cbn [w_catch] in H. exfalso. revert H. rewrite pack_BB.
  destruct (_ && _); [|discriminate]. intros [= <-]. cbn in L. lia.
Qed.
Lemma w_map_write w fc rest log s t a n f : wf_slave s -> w_fn_code_map w fc = Some f -> write_range (fc :: rest) = Some (t, a, n) -> did w log s t a n (f log s (fc :: rest)).
Proof.
  intros Hw M R. unfold w_fn_code_map, WRITE_SINGLE_COIL, WRITE_SINGLE_REGISTER, WRITE_MULTIPLE_COILS, WRITE_MULTIPLE_REGISTERS, MASK_WRITE_REGISTER, READ_WRITE_MULTIPLE_REGISTERS in M.
  unfold write_range in R.
  destruct (fc =? 5); [injection M as <-; injection R as <- <- <-; now apply did_coil|].
  destruct (fc =? 6); [injection M as <-; injection R as <- <- <-; now apply did_register|].
  destruct (fc =? 15); [injection M as <-; injection R as <- <- <-; now apply did_coils|].
  destruct (fc =? 16); [injection M as <-; injection R as <- <- <-; now apply did_registers|].
  destruct (fc =? 22); [injection M as <-; injection R as <- <- <-; now apply did_mask|].
  destruct (fc =? 23); [injection M as <-; injection R as <- <- <-; now apply did_read_write|discriminate R].
Qed.
Lemma w_map_read w fc rest log s f : w_fn_code_map w fc = Some f -> write_range (fc :: rest) = None -> exists r, f log s (fc :: rest) = (log, s, r).
Proof.
  intros M R. unfold w_fn_code_map, WRITE_SINGLE_COIL, WRITE_SINGLE_REGISTER, WRITE_MULTIPLE_COILS, WRITE_MULTIPLE_REGISTERS, MASK_WRITE_REGISTER, READ_WRITE_MULTIPLE_REGISTERS in M.
  unfold write_range in R.
  destruct (fc =? 5) eqn:E5; [discriminate R|]. destruct (fc =? 6) eqn:E6; [discriminate R|]. destruct (fc =? 15) eqn:E15; [discriminate R|].
  destruct (fc =? 16) eqn:E16; [discriminate R|]. destruct (fc =? 22) eqn:E22; [discriminate R|]. destruct (fc =? 23) eqn:E23; [discriminate R|].
  unfold fn_code_map, READ_COILS, READ_DISCRETE_INPUTS, READ_INPUT_REGISTERS, READ_HOLDING_REGISTERS,
    READ_EXCEPTION_STATUS, WRITE_SINGLE_COIL, WRITE_SINGLE_REGISTER, WRITE_MULTIPLE_COILS, WRITE_MULTIPLE_REGISTERS, MASK_WRITE_REGISTER, READ_WRITE_MULTIPLE_REGISTERS in M.
  rewrite E5, E6, E15, E16, E22, E23 in M.
  destruct (fc =? 1); [injection M as <-; eauto|]. destruct (fc =? 2); [injection M as <-; eauto|]. destruct (fc =? 4); [injection M as <-; eauto|].
  destruct (fc =? 3); [injection M as <-; eauto|]. destruct (fc =? 7); [injection M as <-; eauto|discriminate M].
Qed.
Lemma w_map_none w fc : w_fn_code_map w fc = None <-> fn_code_map fc = None.
Proof.
  unfold w_fn_code_map, fn_code_map, READ_COILS, READ_DISCRETE_INPUTS, READ_INPUT_REGISTERS, READ_HOLDING_REGISTERS,
    READ_EXCEPTION_STATUS, WRITE_SINGLE_COIL, WRITE_SINGLE_REGISTER, WRITE_MULTIPLE_COILS, WRITE_MULTIPLE_REGISTERS, MASK_WRITE_REGISTER, READ_WRITE_MULTIPLE_REGISTERS.
  repeat (match goal with |- context [if fc =? ?n then _ else _] => destruct (fc =? n); try (split; discriminate) end). split; reflexivity.
Qed.
Lemma not_supported_range fc rest : fn_code_map fc = None -> write_range (fc :: rest) = None.
Proof.
  intros H. apply fn_none_iff in H. unfold write_range, supported in *. cbn [In] in H.
  repeat (match goal with |- context [if fc =? ?n then _ else _] => destruct (fc =? n) eqn:?; [exfalso; apply H; lia|] end). reflexivity.
Qed.
Lemma request_effect w log s pdu bc : wf_slave s -> asked w log s (hd 0 pdu) pdu (w_handle_request w log s pdu bc).
Proof.
  intros Hw. unfold w_handle_request. destruct pdu as [|fc rest].
  { exists [], None, s, (Err StructError). rewrite app_nil_r. split; [reflexivity|]. split; [discriminate|]. left. repeat split. }
  rewrite unpack_fc. cbn [hd]. destruct (w_fn_code_map w fc) as [f|] eqn:M.
  2:{ exists [], None, s, (w_catch fc (Err (ModbusError ILLEGAL_FUNCTION))). rewrite app_nil_r. split; [reflexivity|]. split; [discriminate|]. left. repeat split.
      intros _ _ _. apply w_map_none in M. now apply not_supported_range. }
  assert (F : 1 <= fc <= 23). { destruct (fn_code_map fc) as [g|] eqn:G; [now apply fn_code_map_range with g|]. apply w_map_none with (w := w) in G. congruence. }
  destruct (bc && cant_be_broadcasted fc) eqn:B.
  { exists [], None, s, (Err ModbusInvalidRequestError). rewrite app_nil_r. split; [reflexivity|]. split; [discriminate|]. left. repeat split. discriminate. }
  destruct (write_range (fc :: rest)) as [[[t a] n]|] eqn:R.
  - destruct (w_map_write w fc rest log s t a n f Hw M R) as (es & x & s' & r & -> & V & D).
    set (r' := match r with Err e => w_catch fc (Err e) | Ok [] => Err GenericException | Ok response_pdu => if bc then Ok [] else b <- pack ">B" [fc] ;; Ok (b ++ response_pdu) end).
    exists es, x, s', r'. split.
    { unfold r'. destruct r as [[|? ?]|?]; [reflexivity|destruct bc; reflexivity|reflexivity]. }
    split. { intros e E. unfold r'. now rewrite (V e E). }
    assert (OKR : forall resp, r' = Ok resp -> hd 0 resp < 128 -> exists resp', r = Ok resp').
    { intros resp E L. destruct r as [y|e]; [eauto|]. unfold r' in E. now apply w_catch_hd in E. }
    destruct D as [(-> & -> & -> & N)|(l1 & b & l2 & d & D1 & D2 & D3 & D4 & D5 & D6 & D7)].
    + left. repeat split. intros resp E L. destruct (OKR _ E L) as (resp' & E'). now destruct (N resp').
    + right. exists t, a, n, l1, b, l2, d. repeat (split; [assumption|]). split; [reflexivity|assumption] || idtac.
      repeat (split; [assumption|]). intros resp E L. destruct (OKR _ E L) as (resp' & E'). eauto.
  - destruct (w_map_read w fc rest log s f M R) as (r & ->). exists [], None, s,
      (match r with Err e => w_catch fc (Err e) | Ok [] => Err GenericException | Ok response_pdu => if bc then Ok [] else b <- pack ">B" [fc] ;; Ok (b ++ response_pdu) end).
    rewrite app_nil_r. split; [|split; [discriminate|left; repeat split; auto]]. destruct r as [[|? ?]|?]; [reflexivity|destruct bc; reflexivity|reflexivity].
Qed.

(** ** A run *)
Definition told_truth (w : watcher) (log : list told) (s : slave) (es : list told) (s' : slave) : Prop :=
  same_layout s s' /\
  (forall t k b, nth_error (blocks s t) k = Some b ->
     exists b', nth_error (blocks s' t) k = Some b' /\ same_shape b b' /\ b_data b' = replayed s t k (b_data b) es) /\
  (forall before e after, es = before ++ e :: after ->
     exists b, nth_error (blocks s (nt_table (td_note e))) (nt_block (td_note e)) = Some b /\
       td_cells e = replayed s (nt_table (td_note e)) (nt_block (td_note e)) (b_data b) before /\
       0 <= nt_item (td_note e) /\ nt_item (td_note e) + zlen (nt_vals (td_note e)) <= zlen (b_data b) /\
       td_raised e = w (log ++ before) (td_cells e) (td_note e)).
Lemma replayed_alias s s' t k : sl_alias s' = sl_alias s -> forall es c, replayed s' t k c es = replayed s t k c es.
Proof.
  intros A. induction es as [|e es IH]; intros c; [reflexivity|]. cbn [replayed]. rewrite IH. unfold about, one_table. now rewrite A.
Qed.
Lemma replayed_app s t k es es' : forall c, replayed s t k c (es ++ es') = replayed s t k (replayed s t k c es) es'.
Proof. induction es as [|e es IH]; intros c; [reflexivity|]. cbn [List.app replayed]. apply IH. Qed.
Lemma truth_nothing w log s : told_truth w log s [] s.
Proof.
  split; [|split].
  - repeat split. intros t. apply Forall2_same_shape_refl.
  - intros t k b H. exists b. split; [exact H|]. split; [apply same_shape_refl|reflexivity].
  - intros before e after H. destruct before; discriminate.
Qed.
Lemma truth_app w log s es s' es' s'' : told_truth w log s es s' -> told_truth w (log ++ es) s' es' s'' -> told_truth w log s (es ++ es') s''.
Proof.
  intros ((L1 & L2 & L3 & L4) & M & B) ((L1' & L2' & L3' & L4') & M' & B'). split; [|split].
  - split; [congruence|]. split; [congruence|]. split; [congruence|]. intros t. specialize (L4 t). specialize (L4' t). revert L4'. generalize (blocks s'' t).
    induction L4 as [|x y l l' X F IH]; intros l'' H; inversion H as [|? z ? m Y G]; subst; constructor; [|auto].
    destruct X as (? & ? & ?), Y as (? & ? & ?). split; [congruence|]. split; congruence.
  - intros t k b H. destruct (M t k b H) as (b' & H' & (S1 & S2 & S3) & D). destruct (M' t k b' H') as (b'' & H'' & (S1' & S2' & S3') & D').
    exists b''. split; [exact H''|]. split; [split; [congruence|]; split; congruence|]. rewrite D', D, replayed_app. now apply replayed_alias.
  - intros before e after E. assert (Q : (exists a', es = before ++ e :: a') \/ exists p, before = es ++ p /\ es' = p ++ e :: after).
    { clear - E. revert es E. induction before as [|x before IH]; intros es E; destruct es as [|y es].
      - right. exists []. auto.
      - left. cbn in E. injection E as -> <-. exists es. reflexivity.
      - right. exists (x :: before). auto.
      - cbn in E. injection E as -> E. destruct (IH es E) as [(a' & ->)|(p & -> & ->)]; [left; exists a'; reflexivity|right; exists p; auto]. }
    destruct Q as [(a' & Q)|(p & -> & Q)]; [exact (B _ _ _ Q)|].
    destruct (B' _ _ _ Q) as (b' & N & C & I1 & I2 & R). rewrite <- app_assoc in R.
    set (t := nt_table (td_note e)) in *. set (k := nt_block (td_note e)) in *.
    destruct (nth_error (blocks s t) k) as [b|] eqn:Nb.
    + destruct (M t k b Nb) as (b2 & N2 & (S1 & S2 & S3) & D). assert (b2 = b') as -> by congruence. exists b. split; [reflexivity|].
      split; [|split; [exact I1|split; [unfold zlen in *; congruence|exact R]]]. rewrite C, D, replayed_app. now apply replayed_alias.
    + exfalso. apply nth_error_None in Nb. specialize (L4 t). assert (L5 : length (blocks s t) = length (blocks s' t)) by (clear - L4; induction L4; cbn; congruence). assert (k < length (blocks s' t))%nat by (apply nth_error_Some; congruence). lia.
Qed.

Lemma chain_replayed w t k log c es c' x : chain w t k log c es c' x -> forall s t' k' c0,
  replayed s t' k' c0 es = if one_table s t' t && Nat.eqb k' k then (if list_eq_dec Z.eq_dec c0 c then c' else replayed s t' k' c0 es) else c0.
Proof.
  induction 1 as [log c|log c n e N1 N2 I1 I2 W|log c n es c' x N1 N2 I1 I2 W Ch IH]; intros s t' k' c0.
  - cbn. destruct (_ && _); [destruct (list_eq_dec _ _ _); congruence|reflexivity].
  - cbn. rewrite Bool.andb_false_r. destruct (_ && _); [destruct (list_eq_dec _ _ _); congruence|reflexivity].
  - cbn [replayed td_note allowed td_raised]. unfold about. rewrite N1, N2, Bool.andb_true_r.
    destruct (one_table s t' t && Nat.eqb k' k) eqn:A; [|rewrite IH, A; reflexivity].
    destruct (list_eq_dec Z.eq_dec c0 c) as [->|]; [|reflexivity]. rewrite IH, A. destruct (list_eq_dec _ _ _); congruence.
Qed.
Lemma chain_before w t k log c es c' x : chain w t k log c es c' x -> forall s before e after, es = before ++ e :: after ->
  nt_table (td_note e) = t /\ nt_block (td_note e) = k /\ td_cells e = replayed s t k c before /\
  0 <= nt_item (td_note e) /\ nt_item (td_note e) + zlen (nt_vals (td_note e)) <= zlen c /\ td_raised e = w (log ++ before) (td_cells e) (td_note e).
Proof.
  assert (OT : forall s, one_table s t t = true) by (intros s; apply one_table_spec; reflexivity).
  induction 1 as [log c|log c n e N1 N2 I1 I2 W|log c n es c' x N1 N2 I1 I2 W Ch IH]; intros s before e' after E.
  - destruct before; discriminate.
  - destruct before as [|y [|? ?]]; [injection E as <- <-|discriminate|discriminate]. cbn. rewrite app_nil_r. repeat split; auto.
  - destruct before as [|y before].
    + injection E as <- <-. cbn. rewrite app_nil_r. auto 7.
    + cbn in E. injection E as <- E. destruct (IH s _ _ _ E) as (P1 & P2 & P3 & P4 & P5 & P6). split; [exact P1|]. split; [exact P2|]. split.
      { cbn [replayed td_note allowed td_raised]. unfold about. rewrite N1, N2, OT, Nat.eqb_refl. exact P3. }
      split; [exact P4|]. split.
      { pose proof (changed_length c n I1 I2) as L. unfold zlen in *. congruence. }
      rewrite <- app_assoc in P6. exact P6.
Qed.
Lemma truth_chain w log s t l1 b l2 es d x : has_table s t -> blocks s t = l1 ++ b :: l2 ->
  chain w t (length l1) log (b_data b) es d x -> told_truth w log s es (mem_set s t (l1 ++ with_data b d :: l2)).
Proof.
  intros Ht Hb Ch. pose proof (chain_length _ _ _ _ _ _ _ _ Ch) as L. split; [|split].
  - apply (upd1_layout s t l1 b l2 (with_data b d)). repeat split; auto.
  - intros t' k' b' N. destruct (same_table_dec s t t') as [E|E].
    + rewrite blocks_mem_set by assumption. rewrite (blocks_same_table s t t' E), Hb in N.
      destruct (Nat.eq_dec k' (length l1)) as [->|Nk].
      * rewrite nth_error_app2, Nat.sub_diag in N by lia. injection N as <-. exists (with_data b d).
        split; [rewrite nth_error_app2, Nat.sub_diag by lia; reflexivity|]. split; [repeat split; exact L|].
        rewrite (chain_replayed _ _ _ _ _ _ _ _ Ch). assert (OT : one_table s t' t = true) by (apply one_table_spec; symmetry; exact E).
        rewrite OT, Nat.eqb_refl. cbn [andb]. destruct (list_eq_dec _ _ _); [reflexivity|congruence].
      * exists b'. split.
        { destruct (Nat.lt_trichotomy k' (length l1)) as [Q|[Q|Q]]; [rewrite nth_error_app1 in * by lia; exact N|lia|].
          rewrite nth_error_app2 in * by lia. destruct (k' - length l1)%nat as [|j] eqn:J; [lia|exact N]. }
        split; [apply same_shape_refl|]. rewrite (chain_replayed _ _ _ _ _ _ _ _ Ch). replace (Nat.eqb k' (length l1)) with false by (symmetry; now apply Nat.eqb_neq).
        now rewrite Bool.andb_false_r.
    + rewrite blocks_mem_set_other by assumption. exists b'. split; [exact N|]. split; [apply same_shape_refl|].
      rewrite (chain_replayed _ _ _ _ _ _ _ _ Ch). assert (OT : one_table s t' t = false).
      { destruct (one_table s t' t) eqn:Q; [|reflexivity]. apply one_table_spec in Q. exfalso. apply E. symmetry. exact Q. }
      now rewrite OT.
  - intros before e after E. destruct (chain_before _ _ _ _ _ _ _ _ Ch s _ _ _ E) as (P1 & P2 & P3 & P4 & P5 & P6). exists b. rewrite P1, P2.
    split; [rewrite Hb, nth_error_app2, Nat.sub_diag by lia; reflexivity|]. split; [exact P3|]. split; [exact P4|]. split; [exact P5|exact P6].
Qed.
Lemma set_effect w log s name a v : wf_slave s ->
  exists es x s' r, w_set_values w log s name a v = (log ++ es, s', r) /\ (forall e, x = Some e -> r = Err e) /\
    ((es = [] /\ s' = s /\ x = None /\ r <> Ok tt) \/
     exists t l1 b l2 d, names_block s name t l1 b l2 /\ covers b a (zlen (values_of v)) /\ chain w t (length l1) log (b_data b) es d x /\
       s' = mem_set s t (l1 ++ with_data b d :: l2) /\
       map td_note es = [{| nt_table := t; nt_block := length l1; nt_item := a - b_start b; nt_slice := match v with SvSeq _ => true | SvNum _ => false end; nt_vals := values_of v |}] /\
       (x = None -> r = Ok tt)).
Proof.
  intros Hw. unfold w_set_values. destruct (get_block s name) as [[[t i] b]|e] eqn:G.
  2:{ exists [], None, s, (Err e). rewrite app_nil_r. split; [reflexivity|]. split; [discriminate|]. left. repeat split. discriminate. }
  apply get_block_ok in G as (l1 & l2 & Nb & ->). pose proof (names_block_wf _ _ _ _ _ _ Hw Nb) as (W1 & W2 & W3).
  pose proof Nb as (start & _ & Ht & Hb & _). destruct (_ || _) eqn:Q.
  { exists [], None, s, (Err OutOfModbusBlockError). rewrite app_nil_r. split; [reflexivity|]. split; [discriminate|]. left. repeat split. discriminate. }
  assert (Same : s = mem_set s t (l1 ++ with_data b (b_data b) :: l2)).
  { replace (with_data b (b_data b)) with b by (destruct b; reflexivity). rewrite <- Hb. unfold mem_set, blocks. destruct s as [u nm al ls]. cbn.
    unfold has_table in Ht. cbn in Ht. destruct (get4 al t) as [r|]; [|reflexivity]. f_equal. destruct ls, r; reflexivity. }
  destruct v as [l|v]; cbn [values_of].
  - unfold announce. destruct (w log (b_data b) _) as [e|] eqn:W.
    + eexists _, (Some e), s, (Err e). split; [reflexivity|]. split; [congruence|]. right. exists t, l1, b, l2, (b_data b). split; [exact Nb|].
      split; [split; lia|]. split; [apply ch_veto; cbn [nt_table nt_block nt_item nt_vals]; try reflexivity; try assumption; lia|]. split; [exact Same|]. split; [reflexivity|discriminate].
    + set (n := {| nt_table := t; nt_block := length l1; nt_item := a - b_start b; nt_slice := true; nt_vals := l |}) in *.
      eexists _, None, _, (Ok tt). split; [reflexivity|]. split; [discriminate|]. right. exists t, l1, b, l2, (changed (b_data b) n). split; [exact Nb|].
      split; [split; lia|]. split; [apply ch_step; cbn [n nt_table nt_block nt_item nt_vals]; try reflexivity; try assumption; try lia; constructor|].
      split; [|split; [reflexivity|reflexivity]]. rewrite put_block_data_blocks with (l2 := l2) by assumption. do 4 f_equal.
      unfold changed, n. cbn [nt_item nt_vals]. unfold py_slice_assign. pose proof (zlen_nonneg l). rewrite !slice_bound_in by lia. rewrite Z.max_r by lia.
      do 3 f_equal. unfold zlen. lia.
  - destruct (set_chain w t (length l1) log (b_data b) (a - b_start b) v) as [(e & -> & W)|(-> & W)]; [lia| |].
    + eexists _, (Some e), s, (Err e). split; [reflexivity|]. split; [congruence|]. right. exists t, l1, b, l2, (b_data b). split; [exact Nb|].
      split; [split; change (zlen [v]) with 1; lia|].
      split; [apply ch_veto; cbn [nt_table nt_block nt_item nt_vals]; change (zlen [v]) with 1; try reflexivity; try assumption; lia|]. split; [exact Same|]. split; [reflexivity|discriminate].
    + eexists _, None, _, (Ok tt). split; [reflexivity|]. split; [discriminate|]. right.
      exists t, l1, b, l2, (changed (b_data b) {| nt_table := t; nt_block := length l1; nt_item := a - b_start b; nt_slice := false; nt_vals := [v] |}). split; [exact Nb|].
      split; [split; change (zlen [v]) with 1; lia|].
      split; [apply ch_step; cbn [nt_table nt_block nt_item nt_vals]; change (zlen [v]) with 1; try reflexivity; try assumption; try lia; constructor|].
      split; [now apply put_block_data_blocks|]. split; reflexivity.
Qed.
Lemma do_truth w log s x : wf_slave s -> exists es s', w_do w log s x = (log ++ es, s') /\ told_truth w log s es s' /\ wf_slave s'.
Proof.
  intros Hw. destruct x as [pdu bc|name a v]; cbn [w_do].
  - destruct (request_effect w log s pdu bc Hw) as (es & x & s' & r & -> & _ & [(-> & -> & _)|(t & a & n & l1 & b & l2 & d & _ & Ht & Hs & _ & Ch & -> & _)]).
    + exists [], s. split; [reflexivity|]. split; [apply truth_nothing|exact Hw].
    + eexists es, _. split; [reflexivity|]. split; [eapply truth_chain; eauto; apply Hs|].
      eapply (upd1_wf s t l1 b l2 (with_data b d)); [|exact Hw]. repeat split; auto; [apply Hs|]. exact (chain_length _ _ _ _ _ _ _ _ Ch).
  - destruct (set_effect w log s name a v Hw) as (es & x & s' & r & -> & _ & [(-> & -> & _)|(t & l1 & b & l2 & d & (st & _ & Ht & Hb & _) & _ & Ch & -> & _)]).
    + exists [], s. split; [reflexivity|]. split; [apply truth_nothing|exact Hw].
    + eexists es, _. split; [reflexivity|]. split; [eapply truth_chain; eauto|].
      eapply (upd1_wf s t l1 b l2 (with_data b d)); [|exact Hw]. repeat split; auto. exact (chain_length _ _ _ _ _ _ _ _ Ch).
Qed.
Lemma run_truth w l : forall log s, wf_slave s -> exists es s', w_run w log s l = (log ++ es, s') /\ told_truth w log s es s'.
Proof.
  induction l as [|x l IH]; intros log s Hw.
  - exists [], s. rewrite app_nil_r. split; [reflexivity|apply truth_nothing].
  - cbn [w_run]. destruct (do_truth w log s x Hw) as (es & s' & -> & T & Hw'). destruct (IH (log ++ es) s' Hw') as (es' & s'' & -> & T').
    exists (es ++ es'), s''. rewrite app_assoc. split; [reflexivity|]. now apply truth_app with s'.
Qed.

(** ** C108 *)
(** Whatever the function does, what a listener believes about a block is what the block contains. *)
Theorem C108_mirror : forall w s l t k b, reachable s -> nth_error (blocks s t) k = Some b ->
  let '(log, s') := w_run w [] s l in
  exists b', nth_error (blocks s' t) k = Some b' /\ b_start b' = b_start b /\ b_size b' = b_size b /\ b_data b' = replayed s t k (b_data b) log.
Proof.
  intros w s l t k b R N. apply reachable_wf in R. destruct (run_truth w l [] s R) as (es & s' & -> & _ & M & _). cbn [List.app].
  destruct (M t k b N) as (b' & N' & (S1 & S2 & _) & D). exists b'. auto.
Qed.
(** The function is called before the change, about a block that exists and cells that exist in it. *)
Theorem C108_before : forall w s l before e after, reachable s -> fst (w_run w [] s l) = before ++ e :: after ->
  exists b, nth_error (blocks s (nt_table (td_note e))) (nt_block (td_note e)) = Some b /\
    td_cells e = replayed s (nt_table (td_note e)) (nt_block (td_note e)) (b_data b) before /\
    0 <= nt_item (td_note e) /\ nt_item (td_note e) + zlen (nt_vals (td_note e)) <= zlen (b_data b) /\
    td_raised e = w before (td_cells e) (td_note e).
Proof.
  intros w s l before e after R E. apply reachable_wf in R. destruct (run_truth w l [] s R) as (es & s' & Q & _ & _ & B). rewrite Q in E. cbn in E.
  exact (B _ _ _ E).
Qed.

(** A function that only listens changes nothing. *)
Section Silent.
Variables (w : watcher) (silent : forall log c n, w log c n = None).
Lemma quiet_set t k log c i v : exists log', w_set w t k log c i v = (log', py_set c i v).
Proof. unfold w_set, announce. rewrite silent. cbn [bind]. eauto. Qed.
Lemma quiet_regs t k fmt pdu base off : forall m i log d, exists log', w_write_regs_loop w t k fmt pdu base off m i log d = (log', fst (write_regs_loop fmt pdu base off m i d), snd (write_regs_loop fmt pdu base off m i d)).
Proof.
  induction m as [|m IH]; intros i log d; cbn [w_write_regs_loop write_regs_loop]; [eauto|]. destruct (unpack1 fmt _) as [v|e]; [|eauto].
  destruct (quiet_set t k log d (off + i) v) as (log' & ->). destruct (py_set d (off + i) v) as [d'|e]; [apply IH|eauto].
Qed.
Lemma quiet_inner t k bv pos q : forall m j count log d, exists log', w_write_bits_inner w t k m bv pos j count q log d = (log', fst (write_bits_inner m bv pos j count q d), snd (write_bits_inner m bv pos j count q d)).
Proof.
  induction m as [|m IH]; intros j count log d; cbn [w_write_bits_inner write_bits_inner]; [eauto|]. destruct (q <=? count); [eauto|].
  match goal with |- context [w_set w t k log d ?i ?v] => destruct (quiet_set t k log d i v) as (log' & ->); destruct (py_set d i v) as [d'|e]; [apply IH|eauto] end.
Qed.
Lemma quiet_outer t k fmt pdu off q : forall m i count log d, exists log', w_write_bits_outer w t k m fmt pdu off i count q log d = (log', fst (write_bits_outer m fmt pdu off i count q d), snd (write_bits_outer m fmt pdu off i count q d)).
Proof.
  induction m as [|m IH]; intros i count log d; cbn [w_write_bits_outer write_bits_outer]; [eauto|]. destruct (q <=? count); [eauto|].
  destruct (unpack1 fmt _) as [bv|e]; [|eauto]. destruct (quiet_inner t k bv (off + i * 8) q 8 0 count log d) as (log' & ->).
  destruct (write_bits_inner 8 bv (off + i * 8) 0 count q d) as [d' [c|e]]; cbn [fst snd]; [apply IH|eauto].
Qed.
Lemma quiet_map fc f g : w_fn_code_map w fc = Some f -> fn_code_map fc = Some g -> forall log s pdu, exists log', f log s pdu = (log', fst (g s pdu), snd (g s pdu)).
Proof.
  intros F G log s pdu.
  unfold w_fn_code_map, WRITE_SINGLE_COIL, WRITE_SINGLE_REGISTER, WRITE_MULTIPLE_COILS, WRITE_MULTIPLE_REGISTERS, MASK_WRITE_REGISTER, READ_WRITE_MULTIPLE_REGISTERS in F.
  destruct (fc =? 5) eqn:E5.
  { injection F as <-. assert (fc = 5) as -> by lia. injection G as <-. unfold w_write_single_coil, write_single_coil.
    destruct (unpack2 _ _) as [[a v]|e]; [|eauto]. destruct (get_block_and_offset _ _ _ _) as [[[i b] off]|e]; [|eauto].
    destruct (v =? 0); cbn [orb].
    - destruct (quiet_set COILS i log (b_data b) off 0) as (log' & ->). destruct (py_set _ _ _); eauto.
    - destruct (v =? 65280); [|eauto]. destruct (quiet_set COILS i log (b_data b) off 1) as (log' & ->). destruct (py_set _ _ _); eauto. }
  destruct (fc =? 6) eqn:E6.
  { injection F as <-. assert (fc = 6) as -> by lia. injection G as <-. unfold w_write_single_register, write_single_register.
    destruct (unpack2 _ _) as [[a v]|e]; [|eauto]. destruct (get_block_and_offset _ _ _ _) as [[[i b] off]|e]; [|eauto].
    destruct (quiet_set HOLDING_REGISTERS i log (b_data b) off v) as (log' & ->). destruct (py_set _ _ _); eauto. }
  destruct (fc =? 15) eqn:E15.
  { injection F as <-. assert (fc = 15) as -> by lia. injection G as <-. unfold w_write_multiple_coils, write_multiple_coils.
    destruct (unpack3 _ _) as [[[a q] bc]|e]; [|eauto]. destruct (_ || _ || _); [eauto|]. destruct (get_block_and_offset _ _ _ _) as [[[i b] off]|e]; [|eauto].
    destruct (quiet_outer COILS i (fmtB s) pdu off q (Z.to_nat bc) 0 0 log (b_data b)) as (log' & ->). destruct (write_bits_outer _ _ _ _ _ _ _ _) as [d [c|e]]; cbn [fst snd]; eauto. }
  destruct (fc =? 16) eqn:E16.
  { injection F as <-. assert (fc = 16) as -> by lia. injection G as <-. unfold w_write_multiple_registers, write_multiple_registers.
    destruct (unpack3 _ _) as [[[a q] bc]|e]; [|eauto]. destruct (_ || _ || _); [eauto|]. destruct (get_block_and_offset _ _ _ _) as [[[i b] off]|e]; [|eauto].
    destruct (quiet_regs HOLDING_REGISTERS i (fmtH s) pdu 6 off (Z.to_nat q) 0 log (b_data b)) as (log' & ->). destruct (write_regs_loop _ _ _ _ _ _ _) as [d [c|e]]; cbn [fst snd]; eauto. }
  destruct (fc =? 22) eqn:E22.
  { injection F as <-. assert (fc = 22) as -> by lia. injection G as <-. unfold w_mask_write_register, mask_write_register.
    destruct (unpack3 _ _) as [[[a am] om]|e]; [|eauto]. destruct (get_block_and_offset _ _ _ _) as [[[i b] off]|e]; [|eauto]. destruct (py_get _ _) as [old|e]; [|eauto].
    match goal with |- context [w_set w ?t ?k log ?d ?j ?v] => destruct (quiet_set t k log d j v) as (log' & ->); destruct (py_set d j v) end; eauto. }
  destruct (fc =? 23) eqn:E23.
  { injection F as <-. assert (fc = 23) as -> by lia. injection G as <-. unfold w_read_write_multiple_registers, read_write_multiple_registers.
    destruct (unpack5 _ _) as [[[[[ra rq] wa] wq] bc]|e]; [|eauto]. destruct (_ || _); [eauto|]. destruct (get_block_and_offset _ _ ra _) as [[[i b] off]|e]; [|eauto].
    destruct (header <- _ ;; _) as [resp|e]; [|eauto]. destruct (_ || _ || _); [eauto|]. destruct (get_block_and_offset _ _ _ _) as [[[i' b'] off']|e]; [|eauto].
    destruct (quiet_regs HOLDING_REGISTERS i' (fmtH s) pdu 10 off' (Z.to_nat wq) 0 log (b_data b')) as (log' & ->). destruct (write_regs_loop _ _ _ _ _ _ _) as [d [c|e]]; cbn [fst snd]; eauto. }
  rewrite G in F. injection F as <-. destruct (g s pdu); eauto.
Qed.
End Silent.
Theorem C108_silent : forall w, (forall log c n, w log c n = None) ->
  (forall log s pdu bc, exists log', w_handle_request w log s pdu bc = (log', fst (handle_request s pdu bc), snd (handle_request s pdu bc))) /\
  (forall log s name a v, exists log', w_set_values w log s name a v = (log', fst (set_values s name a v), snd (set_values s name a v))).
Proof.
  intros w Q. split.
  - intros log s pdu bc. unfold w_handle_request, handle_request. destruct (unpack1 ">B" _) as [fc|e]; [|eauto].
    destruct (w_fn_code_map w fc) as [f|] eqn:F, (fn_code_map fc) as [g|] eqn:G.
    + destruct (bc && cant_be_broadcasted fc); [eauto|]. destruct (quiet_map w Q fc f g F G log s pdu) as (log' & ->).
      destruct (g s pdu) as [s' [[|? ?]|e]]; cbn [fst snd]; [eauto|destruct bc; eauto|eauto].
    + apply w_map_none with (w := w) in G. congruence.
    + apply w_map_none in F. congruence.
    + eauto.
  - intros log s name a v. unfold w_set_values, set_values. destruct (get_block s name) as [[[t i] b]|e]; [|eauto]. destruct (_ || _); [eauto|].
    destruct v as [l|x].
    + unfold announce. rewrite Q. eauto.
    + destruct (quiet_set w Q t i log (b_data b) (a - b_start b) x) as (log' & ->). destruct (py_set _ _ _); eauto.
Qed.

Lemma chain_vetoed w t k log c es c' x : chain w t k log c es c' x -> forall before e after v, es = before ++ e :: after -> td_raised e = Some v -> after = [] /\ x = Some v.
Proof.
  induction 1 as [log c|log c n e N1 N2 I1 I2 W|log c n es c' x N1 N2 I1 I2 W Ch IH]; intros before e' after v E R.
  - destruct before; discriminate.
  - destruct before as [|y [|? ?]]; [injection E as <- <-|discriminate|discriminate]. cbn in R. auto.
  - destruct before as [|y before]; [injection E as <- <-; discriminate|]. injection E as _ E. eauto.
Qed.
(** A function that raises stops the request there: nothing more is announced or changed (see C108_mirror for what was), and the master is answered with the code of a
    ModbusError; any other exception leaves handle_request. *)
Theorem C108_veto : forall w log s pdu bc log' s' r before e after v, reachable s -> w_handle_request w log s pdu bc = (log', s', r) ->
  log' = log ++ before ++ e :: after -> td_raised e = Some v ->
  after = [] /\ r = match v with ModbusError code => if (0 <=? code) && (code <=? 255) then Ok [hd 0 pdu + 128; code] else Err StructError | _ => Err v end.
Proof.
  intros w log s pdu bc log' s' r before e after v R H E T. apply reachable_wf in R.
  destruct (request_effect w log s pdu bc R) as (es & x & s2 & r2 & H2 & V & [(-> & _)|(t & a & n & l1 & b & l2 & d & Wr & _ & _ & _ & Ch & _)]); rewrite H in H2; injection H2 as -> -> ->.
  - apply app_inv_head in E. destruct before; discriminate.
  - apply app_inv_head in E. destruct (chain_vetoed _ _ _ _ _ _ _ _ Ch _ _ _ _ E T) as (-> & ->). split; [reflexivity|]. rewrite (V v eq_refl).
    destruct v; try reflexivity. cbn [w_catch]. rewrite pack_BB.
    assert (F : 0 <= hd 0 pdu <= 23).
    { destruct pdu as [|fc rest]; [discriminate Wr|]. cbn [hd]. unfold write_range in Wr.
      repeat (match type of Wr with context [if fc =? ?m then _ else _] => destruct (fc =? m) eqn:?; [lia|] end). discriminate Wr. }
    unfold byte_b. replace ((0 <=? hd 0 pdu + 128) && (hd 0 pdu + 128 <? 256)) with true by lia. cbn [andb].
    replace (code <? 256) with (code <=? 255) by lia. reflexivity.
Qed.
Theorem C108_veto_set : forall w log s name a v log' s' r before e after x, reachable s -> w_set_values w log s name a v = (log', s', r) ->
  log' = log ++ before ++ e :: after -> td_raised e = Some x -> before = [] /\ after = [] /\ s' = s /\ r = Err x.
Proof.
  intros w log s name a v log' s' r before e after x R H E T. apply reachable_wf in R.
  destruct (set_effect w log s name a v R) as (es & y & s2 & r2 & H2 & V & [(-> & _)|(t & l1 & b & l2 & d & (st & _ & Ht & Hb & _) & _ & Ch & Es & No & _)]); rewrite H in H2; injection H2 as -> -> ->.
  - apply app_inv_head in E. destruct before; discriminate.
  - apply app_inv_head in E. destruct (chain_vetoed _ _ _ _ _ _ _ _ Ch _ _ _ _ E T) as (-> & ->).
    assert (before = []) as ->. { rewrite E, map_app in No. destruct before as [|? [|? ?]]; [reflexivity|discriminate|discriminate]. }
    split; [reflexivity|]. split; [reflexivity|]. split; [|exact (V x eq_refl)]. assert (Same : mem_set s t (l1 ++ with_data b (b_data b) :: l2) = s).
    { replace (with_data b (b_data b)) with b by (destruct b; reflexivity). rewrite <- Hb. unfold mem_set, blocks. destruct s as [u nm al ls]. cbn.
      unfold has_table in Ht. cbn in Ht. destruct (get4 al t) as [q|]; [|reflexivity]. f_equal. destruct ls, q; reflexivity. }
    assert (D : d = b_data b). { cbn in E. subst es. inversion Ch; subst; [reflexivity|cbn in T; discriminate]. }
    rewrite Es, D. exact Same.
Qed.

Definition val (e : told) : Z := hd 0 (nt_vals (td_note e)).
Lemma singles_cells w t k log c es c' x : chain w t k log c es c' x -> x = None -> forall off, 0 <= off -> off + zlen es <= zlen c -> singles off es ->
  c' = firstn (Z.to_nat off) c ++ map val es ++ skipn (Z.to_nat off + length es) c.
Proof.
  induction 1 as [log c|log c n e N1 N2 I1 I2 W|log c n es c' x N1 N2 I1 I2 W Ch IH]; intros X off O L Si; [|discriminate X|].
  - cbn. rewrite Nat.add_0_r. symmetry. apply firstn_skipn.
  - destruct Si as (S1 & _ & (v & S3) & S4). cbn [td_note] in *. rewrite zlen_cons in L. pose proof (zlen_nonneg es) as P. pose proof (changed_length c n I1 I2) as Le.
    rewrite (IH X (off + 1)); [|lia|unfold zlen in *; lia|exact S4]. cbn [map length]. replace (val _) with v by (unfold val; cbn; now rewrite S3).
    rewrite (changed_upd c n v S3) by (unfold zlen in *; lia). rewrite S1.
    replace (Z.to_nat (off + 1)) with (S (Z.to_nat off)) by lia. assert (Q : (Z.to_nat off < length c)%nat) by (unfold zlen in *; lia). revert Q. generalize (Z.to_nat off) as i.
    clear. revert es. induction c as [|y c IH]; intros es i Q; cbn in Q; [lia|]. destruct i as [|i]; [reflexivity|].
    exact (f_equal (cons y) (IH es i ltac:(lia))).
Qed.
(** What an accepted write announces: its cells one by one in ascending order, with the values they have afterwards; a request that writes nothing announces nothing. *)
Theorem C108_request : forall w log s pdu bc log' s' resp, reachable s -> w_handle_request w log s pdu bc = (log', s', Ok resp) -> hd 0 resp < 128 ->
  match write_range pdu with
  | None => log' = log /\ s' = s
  | Some (t, a, n) => exists es k b b', log' = log ++ es /\ nth_error (blocks s t) k = Some b /\ covers b a n /\ nth_error (blocks s' t) k = Some b' /\
      zlen es = n /\ forall j v, nth_error (values_at b' a n) j = Some v ->
        exists c, nth_error es j = Some {| td_note := {| nt_table := t; nt_block := k; nt_item := a - b_start b + Z.of_nat j; nt_slice := false; nt_vals := [v] |}; td_cells := c; td_raised := None |}
  end.
Proof.
  intros w log s pdu bc log' s' resp R H B. apply reachable_wf in R.
  destruct (request_effect w log s pdu bc R) as (es & x & s2 & r2 & H2 & V & [(-> & -> & _ & D)|(t & a & n & l1 & b & l2 & d & Wr & Ht & Hs & Wb & Ch & Es & Si & Le)]); rewrite H in H2; injection H2 as -> Hs' <-.
  - rewrite (D resp eq_refl B). rewrite app_nil_r. auto.
  - rewrite Wr. assert (x = None) as ->.
    { destruct x as [v|]; [|reflexivity]. specialize (V v eq_refl). destruct v; try discriminate V. cbn [w_catch] in V. exfalso. rewrite pack_BB in V. destruct (_ && _); [|discriminate V].
      injection V as ->. cbn in B. destruct pdu as [|fc rest]; [discriminate Wr|]. cbn [hd] in B. unfold write_range in Wr.
      repeat (match type of Wr with context [if fc =? ?m then _ else _] => destruct (fc =? m) eqn:?; [lia|] end). discriminate Wr. }
    specialize (Le resp eq_refl B). destruct Hs as (Hb & (C1 & C2) & Hn). destruct Wb as (W1 & W2 & W3).
    exists es, (length l1), b, (with_data b d). split; [reflexivity|]. split; [rewrite Hb, nth_error_app2, Nat.sub_diag by lia; reflexivity|]. split; [split; assumption|].
    split. { rewrite Hs', Es, blocks_mem_set by (assumption || reflexivity). rewrite nth_error_app2, Nat.sub_diag by lia. reflexivity. }
    split; [exact Le|]. intros j v N. pose proof (zlen_nonneg es) as P.
    assert (Cells := singles_cells _ _ _ _ _ _ _ _ Ch eq_refl (a - b_start b) ltac:(lia) ltac:(lia) Si).
    assert (E : values_at (with_data b d) a n = map val es).
    { unfold values_at. cbn [with_data b_data b_start]. rewrite Cells. rewrite skipn_app, skipn_all2 by (rewrite firstn_length; lia). rewrite firstn_length.
      replace (Z.to_nat (a - b_start b) - _)%nat with 0%nat by (unfold zlen in *; lia). cbn [List.app skipn]. rewrite firstn_app, firstn_all2 by (rewrite map_length; unfold zlen in *; lia).
      rewrite map_length. replace (Z.to_nat n - _)%nat with 0%nat by (unfold zlen in *; lia). cbn [firstn]. apply app_nil_r. }
    rewrite E, nth_error_map in N. destruct (nth_error es j) as [e|] eqn:Ne; [|discriminate N]. injection N as <-.
    destruct (nth_error_split _ _ Ne) as (before & after & Eq & Lb). destruct (chain_before _ _ _ _ _ _ _ _ Ch s _ _ _ Eq) as (P1 & P2 & _ & _).
    destruct (td_raised e) as [y|] eqn:Y; [destruct (chain_vetoed _ _ _ _ _ _ _ _ Ch _ _ _ _ Eq Y) as (_ & Bad); discriminate Bad|].
    assert (T : nt_item (td_note e) = a - b_start b + Z.of_nat j /\ nt_slice (td_note e) = false /\ nt_vals (td_note e) = [val e]).
    { clear - Si Ne. revert j Ne Si. generalize (a - b_start b) as off. induction es as [|y es IH]; intros off j Ne Si; [destruct j; discriminate|].
      destruct Si as (S1 & S2 & (v & S3) & S4). destruct j as [|j].
      - injection Ne as ->. split; [lia|]. split; [exact S2|]. unfold val. rewrite S3. reflexivity.
      - destruct (IH (off + 1) j Ne S4) as (T1 & T2 & T3). split; [lia|]. auto. }
    destruct T as (T1 & T2 & T3). exists (td_cells e). f_equal. clear - T1 T2 T3 P1 P2 Y. revert T3. generalize (val e) as ve. intros ve T3. destruct e as [nn cc rr]. cbn [td_note td_raised td_cells] in *. destruct nn as [nt nb ni ns nv]. cbn in *. subst. reflexivity.
Qed.
(** set_values announces one item, or one slice for a list or a tuple, at the index of the address in the block. *)
Theorem C108_set : forall w log s name a v log' s' r, reachable s -> w_set_values w log s name a v = (log', s', r) ->
  (log' = log /\ s' = s /\ r <> Ok tt) \/
  exists t k b c x, nth_error (blocks s t) k = Some b /\ covers b a (zlen (values_of v)) /\ (r = Ok tt <-> x = None) /\
    log' = log ++ [{| td_note := {| nt_table := t; nt_block := k; nt_item := a - b_start b; nt_slice := match v with SvSeq _ => true | SvNum _ => false end; nt_vals := values_of v |}; td_cells := c; td_raised := x |}].
Proof.
  intros w log s name a v log' s' r R H. apply reachable_wf in R.
  destruct (set_effect w log s name a v R) as (es & y & s2 & r2 & H2 & V & [(-> & -> & _ & N)|(t & l1 & b & l2 & d & (st & _ & Ht & Hb & _) & Co & Ch & Es & No & OK)]); rewrite H in H2; injection H2 as -> -> ->.
  - left. rewrite app_nil_r. auto.
  - right. destruct es as [|e [|? ?]]; [discriminate No|injection No as No|discriminate No]. exists t, (length l1), b, (td_cells e), (td_raised e).
    split; [rewrite Hb, nth_error_app2, Nat.sub_diag by lia; reflexivity|]. split; [exact Co|].
    assert (Y : td_raised e = y). { inversion Ch as [|? ? ? ? ? ? ? ? ?|? ? ? ? ? ? ? ? ? ? ? Ch']; subst; [reflexivity|]. inversion Ch'; subst. reflexivity. }
    split. { rewrite Y. split; [intros Q; destruct y as [z|]; [specialize (V z eq_refl); congruence|reflexivity]|exact OK]. }
    rewrite <- No. destruct e. reflexivity.
Qed.

(** *** What the announcements are not *)
Definition plant : slave := slave_run (new_slave true None) [OpAddBlock "r" 3 100 10; OpAddBlock "c" 1 0 20].
Lemma plant_reachable : reachable plant.
Proof. exists (new_slave true None), [OpAddBlock "r" 3 100 10; OpAddBlock "c" 1 0 20]. split; [constructor|reflexivity]. Qed.
Definition listener : watcher := fun _ _ _ => None.
(** The item is not the Modbus address that the master wrote. *)
Theorem C108_address_refuted : exists w s pdu log s' resp e, reachable s /\ write_range pdu = Some (HOLDING_REGISTERS, 103, 1) /\
  w_handle_request w [] s pdu false = (log, s', Ok resp) /\ log = [e] /\ nt_item (td_note e) = 3.
Proof. exists listener, plant, [6; 0; 103; 0; 7]. eexists _, _, _, _. split; [apply plant_reachable|]. split; [reflexivity|]. split; [vm_compute; reflexivity|]. split; reflexivity. Qed.
(** A write that changes nothing is announced as well. *)
Theorem C108_unchanged_refuted : exists w s pdu log resp e, reachable s /\ w_handle_request w [] s pdu false = (log, s, Ok resp) /\ log = [e].
Proof. exists listener, plant, [6; 0; 103; 0; 0]. eexists _, _, _. split; [apply plant_reachable|]. split; [vm_compute; reflexivity|]. reflexivity. Qed.
(** A function that refuses one value of a request does not undo those before it: the master is told that the request failed and the first register is changed. *)
Theorem C108_undone_refuted : exists w s pdu log s', reachable s /\ w_handle_request w [] s pdu false = (log, s', Ok [144; 6]) /\
  get_values s "r" 100 2 = Ok [0; 0] /\ get_values s' "r" 100 2 = Ok [1; 0].
Proof.
  exists (fun _ _ n => if existsb (Z.eqb 999) (nt_vals n) then Some (ModbusError 6) else None), plant, [16; 0; 100; 0; 2; 4; 0; 1; 3; 231].
  eexists _, _. split; [apply plant_reachable|]. split; [vm_compute; reflexivity|]. split; vm_compute; reflexivity.
Qed.

(** Examples: a history with reads, writes of masters and of the application, and a refused write. *)
Definition gate : watcher := fun log _ n => if existsb (Z.eqb 999) (nt_vals n) then Some (ModbusError 6) else if (3 <? zlen log)%Z then Some PyIndexError else None.
Definition day : list deed := [Ask [16; 0; 101; 0; 2; 4; 0; 5; 0; 6] false; Ask [3; 0; 100; 0; 2] false; Set_ "r" 105 (SvSeq [7; 8]); Ask [6; 0; 100; 3; 231] false; Set_ "c" 0 (SvNum 1)].
Example day_log : map (fun e => (nt_item (td_note e), nt_vals (td_note e), td_raised e)) (fst (w_run gate [] plant day)) =
  [(1, [5], None); (2, [6], None); (5, [7; 8], None); (0, [999], Some (ModbusError 6)); (0, [1], Some PyIndexError)].
Proof. vm_compute. reflexivity. Qed.
Example day_mirror : exists b b', nth_error (blocks plant HOLDING_REGISTERS) 0 = Some b /\ nth_error (blocks (snd (w_run gate [] plant day)) HOLDING_REGISTERS) 0 = Some b' /\
  b_data b' = [0; 5; 6; 0; 0; 7; 8; 0; 0; 0] /\ replayed plant HOLDING_REGISTERS 0 (b_data b) (fst (w_run gate [] plant day)) = [0; 5; 6; 0; 0; 7; 8; 0; 0; 0].
Proof. eexists _, _. split; [vm_compute; reflexivity|]. split; [vm_compute; reflexivity|]. split; vm_compute; reflexivity. Qed.
Example day_before : exists e after, fst (w_run gate [] plant day) = firstn 2 (fst (w_run gate [] plant day)) ++ e :: after /\ td_cells e = [0; 5; 6; 0; 0; 0; 0; 0; 0; 0] /\ nt_slice (td_note e) = true.
Proof. eexists _, _. split; [vm_compute; reflexivity|]. split; reflexivity. Qed.
Example coils_log : exists log s', w_handle_request listener [] plant [15; 0; 3; 0; 10; 2; 5; 2] false = (log, s', Ok [15; 0; 3; 0; 10]) /\
  map (fun e => (nt_item (td_note e), nt_vals (td_note e))) log = [(3, [1]); (4, [0]); (5, [1]); (6, [0]); (7, [0]); (8, [0]); (9, [0]); (10, [0]); (11, [0]); (12, [1])].
Proof. eexists _, _. split; [vm_compute; reflexivity|]. vm_compute. reflexivity. Qed.
Example veto_set : exists log, w_set_values gate [] plant "r" 100 (SvSeq [1; 999]) = (log, plant, Err (ModbusError 6)) /\ zlen log = 1.
Proof. eexists. split; [vm_compute; reflexivity|]. reflexivity. Qed.

Print Assumptions C108_mirror.
Print Assumptions C108_before.
Print Assumptions C108_silent.
Print Assumptions C108_veto.
Print Assumptions C108_veto_set.
Print Assumptions C108_request.
Print Assumptions C108_set.
Print Assumptions C108_address_refuted.
Print Assumptions C108_unchanged_refuted.
Print Assumptions C108_undone_refuted.
