(** Property C96: slaves created with the same memory.
    Vocabulary: SlaveModel.v, BlockSpec.v (outputs, reachable, registered), SharedMemModel.v (bank: slaves 0, 1, 2... over one dictionary). *)
From Coq Require Import Lia ZifyBool ZifyNat.
From Verif Require Import Base BaseFacts PyStruct Defines Spec SlaveModel StructFacts SlaveSpec SlaveProofs HandlerProofs RequestProofs BlockSpec AtomicProofs DatabankProofs ConcModel ConcSpec ConcProofs ConcSlave SharedMemModel.
Open Scope string_scope.
Open Scope list_scope.
Open Scope Z_scope.

(** ** A request does not look at the names *)
Lemma put_names s nm t i b d : put_block_data (with_names s nm) t i b d = with_names (put_block_data s t i b d) nm.
Proof.
  unfold put_block_data, mem_get. change (sl_alias (with_names s nm)) with (sl_alias s). change (sl_lists (with_names s nm)) with (sl_lists s).
  destruct (get4 (sl_alias s) t) eqn:E; [|reflexivity]. unfold mem_set. change (sl_alias (with_names s nm)) with (sl_alias s). rewrite E. reflexivity.
Qed.
Lemma hr_names s nm pdu bc : handle_request (with_names s nm) pdu bc = (with_names (fst (handle_request s pdu bc)) nm, snd (handle_request s pdu bc)).
Proof.
  unfold handle_request. destruct (unpack1 _ _) as [fc|]; [|reflexivity].
  assert (K : match fn_code_map fc with Some f => f (with_names s nm) pdu = (with_names (fst (f s pdu)) nm, snd (f s pdu)) | None => True end).
  { unfold fn_code_map. repeat match goal with |- context [if ?c then _ else _] => destruct c end; try exact Logic.I; try reflexivity.
    - unfold write_single_coil. destruct (unpack2 _ _) as [[a v]|]; [|reflexivity]. change (get_block_and_offset (with_names s nm)) with (get_block_and_offset s).
      destruct (get_block_and_offset s COILS a 1) as [[[i b] o]|]; [|reflexivity]. destruct (v =? 0); [|destruct (v =? 65280); [|reflexivity]]; destruct (py_set _ _ _); try reflexivity; now rewrite put_names.
    - unfold write_single_register. change (sl_unsigned (with_names s nm)) with (sl_unsigned s). destruct (unpack2 _ _) as [[a v]|]; [|reflexivity]. change (get_block_and_offset (with_names s nm)) with (get_block_and_offset s).
      destruct (get_block_and_offset s HOLDING_REGISTERS a 1) as [[[i b] o]|]; [|reflexivity]. destruct (py_set _ _ _); try reflexivity; now rewrite put_names.
    - unfold write_multiple_coils. destruct (unpack3 _ _) as [[[a q] c]|]; [|reflexivity]. destruct (_ || _); [reflexivity|]. change (get_block_and_offset (with_names s nm)) with (get_block_and_offset s).
      destruct (get_block_and_offset s COILS a q) as [[[i b] o]|]; [|reflexivity]. change (fmtB (with_names s nm)) with (fmtB s). destruct (write_bits_outer _ _ _ _ _ _ _ _) as [d [x|e]]; now rewrite put_names.
    - unfold write_multiple_registers. destruct (unpack3 _ _) as [[[a q] c]|]; [|reflexivity]. destruct (_ || _); [reflexivity|]. change (get_block_and_offset (with_names s nm)) with (get_block_and_offset s).
      destruct (get_block_and_offset s HOLDING_REGISTERS a q) as [[[i b] o]|]; [|reflexivity]. change (fmtH (with_names s nm)) with (fmtH s). destruct (write_regs_loop _ _ _ _ _ _ _) as [d [x|e]]; now rewrite put_names.
    - unfold mask_write_register. destruct (unpack3 _ _) as [[[a q] c]|]; [|reflexivity]. change (get_block_and_offset (with_names s nm)) with (get_block_and_offset s).
      destruct (get_block_and_offset s HOLDING_REGISTERS a 1) as [[[i b] o]|]; [|reflexivity]. destruct (py_get _ _); [|reflexivity]. cbv zeta. destruct (py_set _ _ _); try reflexivity; now rewrite put_names.
    - unfold read_write_multiple_registers. destruct (unpack5 _ _) as [[[[[ra rq] wa] wq] c]|]; [|reflexivity]. destruct (_ || _); [reflexivity|]. change (get_block_and_offset (with_names s nm)) with (get_block_and_offset s).
      change (fmtH (with_names s nm)) with (fmtH s). destruct (get_block_and_offset s HOLDING_REGISTERS ra rq) as [[[i b] o]|]; [|reflexivity]. cbv zeta. destruct (bind _ _); [|reflexivity]. destruct (_ || _); [reflexivity|].
      destruct (get_block_and_offset s HOLDING_REGISTERS wa wq) as [[[i' b'] o']|]; [|reflexivity]. destruct (write_regs_loop _ _ _ _ _ _ _) as [d [x|e]]; now rewrite put_names. }
  destruct (fn_code_map fc) as [f|]; [|reflexivity]. destruct (_ && _); [reflexivity|]. rewrite K. destruct (f s pdu) as [s1 [[|x l]|e]]; cbn [fst snd]; try reflexivity. destruct bc; reflexivity.
Qed.
Lemma hr_unsigned s pdu bc : sl_unsigned (fst (handle_request s pdu bc)) = sl_unsigned s.
Proof.
  assert (PS : forall t i b d, sl_unsigned (put_block_data s t i b d) = sl_unsigned s).
  { intros t i b d. unfold put_block_data. destruct (mem_get s t); [|reflexivity]. unfold mem_set. destruct (get4 (sl_alias s) t); reflexivity. }
  unfold handle_request. destruct (unpack1 _ _) as [fc|]; [|reflexivity].
  assert (K : match fn_code_map fc with Some f => sl_unsigned (fst (f s pdu)) = sl_unsigned s | None => True end).
  { unfold fn_code_map. repeat match goal with |- context [if ?c then _ else _] => destruct c end; try exact Logic.I; try reflexivity.
    - unfold write_single_coil. repeat match goal with |- context [match ?x with _ => _ end] => destruct x; cbn [fst]; auto end.
    - unfold write_single_register. repeat match goal with |- context [match ?x with _ => _ end] => destruct x; cbn [fst]; auto end.
    - unfold write_multiple_coils. destruct (unpack3 _ _) as [[[a q] c]|]; [|reflexivity]. destruct (_ || _); [reflexivity|].
      destruct (get_block_and_offset s COILS a q) as [[[i b] o]|]; [|reflexivity]. destruct (write_bits_outer _ _ _ _ _ _ _ _) as [d [x|e]]; apply PS.
    - unfold write_multiple_registers. destruct (unpack3 _ _) as [[[a q] c]|]; [|reflexivity]. destruct (_ || _); [reflexivity|].
      destruct (get_block_and_offset s HOLDING_REGISTERS a q) as [[[i b] o]|]; [|reflexivity]. destruct (write_regs_loop _ _ _ _ _ _ _) as [d [x|e]]; apply PS.
    - unfold mask_write_register. repeat match goal with |- context [match ?x with _ => _ end] => destruct x; cbn [fst]; auto end.
    - unfold read_write_multiple_registers. destruct (unpack5 _ _) as [[[[[ra rq] wa] wq] c]|]; [|reflexivity]. destruct (_ || _); [reflexivity|].
      destruct (get_block_and_offset s HOLDING_REGISTERS ra rq) as [[[i b] o]|]; [|reflexivity]. cbv zeta. destruct (bind _ _); [|reflexivity]. destruct (_ || _); [reflexivity|].
      destruct (get_block_and_offset s HOLDING_REGISTERS wa wq) as [[[i' b'] o']|]; [|reflexivity]. destruct (write_regs_loop _ _ _ _ _ _ _) as [d [x|e]]; apply PS. }
  destruct (fn_code_map fc) as [f|]; [|reflexivity]. destruct (_ && _); [reflexivity|]. destruct (f s pdu) as [s1 [[|x l]|e]]; cbn [fst] in *; auto. destruct bc; auto.
Qed.

(** ** One slave in place of several *)
(** Spec: [label i name] is a name for the block that slave [i] calls [name]; different slaves or different names give different labels. *)
Definition labels (label : nat -> string -> string) : Prop := forall i n j m, label i n = label j m -> i = j /\ n = m.
Definition relabel (label : nat -> string -> string) (io : nat * slave_op) : slave_op :=
  match io with
  | (i, OpAddBlock n t a z) => OpAddBlock (label i n) t a z
  | (i, OpRemoveBlock n) => OpRemoveBlock (label i n)
  | (i, OpRemoveAll) => OpRemoveAll
  | (i, OpSetValues n a v) => OpSetValues (label i n) a v
  | (i, OpGetValues n a z) => OpGetValues (label i n) a z
  | (i, OpRequest p bc) => OpRequest p bc
  end.
(** Spec: the calls are made on one of [n] slaves, and remove_all_blocks is not among them. *)
Definition on_slaves (n : nat) (ops : list (nat * slave_op)) : Prop := Forall (fun io => (fst io < n)%nat /\ snd io <> OpRemoveAll) ops.

Definition merged (label : nat -> string -> string) (u : bool) (b : bank) (m : slave) : Prop :=
  bk_alias b = sl_alias m /\ bk_lists b = sl_lists m /\ sl_unsigned m = u /\ NoDup (map fst (sl_names m)) /\
  forall i u' nm, nth_error (bk_slaves b) i = Some (u', nm) -> u' = u /\ NoDup (map fst nm) /\ forall n, assoc String.eqb (label i n) (sl_names m) = assoc String.eqb n nm.
Lemma put_nodup k (v : btype * Z) l : assoc String.eqb k l = None -> NoDup (map fst l) -> NoDup (map fst (assoc_put String.eqb k v l)).
Proof.
  intros A N. induction l as [|[k' v'] l IH]; cbn in *; [repeat constructor; auto|]. destruct (String.eqb k k') eqn:E; [discriminate|]. inversion N; subst. cbn. constructor; [|now apply IH].
  assert (X : forall x, In x (map fst (assoc_put String.eqb k v l)) -> x = k \/ In x (map fst l)).
  { clear. induction l as [|[k2 v2] l IH]; cbn; [intuition|]. destruct (String.eqb k k2); cbn; [intuition|]. intros x [->|I]; [auto|]. apply IH in I. intuition. }
  intros I. apply X in I as [->|I]; [apply String.eqb_neq in E; congruence|auto].
Qed.
Lemma del_nodup' k (l : list (string * (btype * Z))) : NoDup (map fst l) -> NoDup (map fst (assoc_del String.eqb k l)).
Proof. apply del_nodup. Qed.
Lemma names_of_mem_set s t l : sl_names (mem_set s t l) = sl_names s /\ sl_unsigned (mem_set s t l) = sl_unsigned s.
Proof. unfold mem_set. destruct (get4 (sl_alias s) t); auto. Qed.
Lemma put_names_kept s t i b d : sl_names (put_block_data s t i b d) = sl_names s /\ sl_unsigned (put_block_data s t i b d) = sl_unsigned s.
Proof. unfold put_block_data. destruct (mem_get s t); [apply names_of_mem_set|auto]. Qed.
Lemma mem_set_names s nm t l : mem_set (with_names s nm) t l = with_names (mem_set s t l) nm.
Proof. unfold mem_set. change (sl_alias (with_names s nm)) with (sl_alias s). destruct (get4 (sl_alias s) t); reflexivity. Qed.
Lemma names_twice s a b : with_names (with_names s a) b = with_names s b. Proof. reflexivity. Qed.
(** the slave after the call is the one with the names of slave [i], and those are the relabelled ones *)
Lemma merged_put label u b m i nm m' nm' : labels label -> merged label u b m -> nth_error (bk_slaves b) i = Some (u, nm) ->
  sl_unsigned m' = u -> NoDup (map fst (sl_names m')) -> NoDup (map fst nm') ->
  (forall n, assoc String.eqb (label i n) (sl_names m') = assoc String.eqb n nm') ->
  (forall j n, j <> i -> assoc String.eqb (label j n) (sl_names m') = assoc String.eqb (label j n) (sl_names m)) ->
  merged label u (put_view b i (with_names m' nm')) m'.
Proof.
  intros L (A & B & C & D & E) N U N1 N2 K1 K2. unfold put_view, merged. cbn [bk_alias bk_lists bk_slaves with_names sl_unsigned sl_names sl_alias sl_lists].
  split; [reflexivity|]. split; [reflexivity|]. split; [exact U|]. split; [exact N1|]. intros j u' nm2 Hj. destruct (Nat.eq_dec j i) as [-> | D2].
  - rewrite list_upd_same in Hj by (apply nth_error_Some; congruence). injection Hj as <- <-. auto.
  - rewrite list_upd_other in Hj by auto. destruct (E j u' nm2 Hj) as (E1 & E2 & E3). split; [exact E1|]. split; [exact E2|]. intros n. rewrite K2 by exact D2. apply E3.
Qed.
Lemma merged_step label u b m i o : labels label -> merged label u b m -> (i < length (bk_slaves b))%nat -> o <> OpRemoveAll ->
  snd (bank_step b (i, o)) = Some (snd (slave_step m (relabel label (i, o)))) /\
  merged label u (fst (bank_step b (i, o))) (fst (slave_step m (relabel label (i, o)))) /\
  length (bk_slaves (fst (bank_step b (i, o)))) = length (bk_slaves b).
Proof.
  intros L M I NR. destruct (nth_error (bk_slaves b) i) as [[u' nm]|] eqn:N; [|apply nth_error_None in N; lia].
  pose proof M as (A & B & C & D & E). destruct (E i u' nm N) as (-> & N2 & K). unfold bank_step, view. cbn [fst snd]. rewrite N.
  assert (V : {| sl_unsigned := u; sl_names := nm; sl_alias := bk_alias b; sl_lists := bk_lists b |} = with_names m nm) by (unfold with_names; rewrite A, B, C; reflexivity).
  rewrite V.
  assert (G : forall m' nm' (out out' : slave_out), out = out' -> sl_unsigned m' = u -> NoDup (map fst (sl_names m')) -> NoDup (map fst nm') ->
    (forall n, assoc String.eqb (label i n) (sl_names m') = assoc String.eqb n nm') ->
    (forall j n, j <> i -> assoc String.eqb (label j n) (sl_names m') = assoc String.eqb (label j n) (sl_names m)) ->
    snd (put_view b i (with_names m' nm'), Some out) = Some out' /\ merged label u (fst (put_view b i (with_names m' nm'), Some out)) m' /\
    length (bk_slaves (fst (put_view b i (with_names m' nm'), Some out))) = length (bk_slaves b)).
  { intros m' nm' out out' -> H1 H2 H3 H4 H5. cbn [fst snd]. split; [reflexivity|]. split; [now apply (merged_put label u b m i nm)|]. unfold put_view. cbn [bk_slaves]. apply list_upd_length. }
  assert (G0 : forall (out out' : slave_out), out = out' -> snd (put_view b i (with_names m nm), Some out) = Some out' /\ merged label u (fst (put_view b i (with_names m nm), Some out)) m /\
    length (bk_slaves (fst (put_view b i (with_names m nm), Some out))) = length (bk_slaves b)) by (intros out out' Ho; apply G; auto).
  assert (GB : forall n, get_block (with_names m nm) n = get_block m (label i n)) by (intros n; unfold get_block; cbn [with_names sl_names]; rewrite K; reflexivity).
  destruct o as [n t a z|n| |n a v|n a z|p bc]; cbn [slave_step relabel].
  - unfold add_block. cbn [with_names sl_names]. rewrite K. destruct (z <=? 0); [now apply G0|]. destruct (a <? 0); [now apply G0|].
    destruct (assoc String.eqb n nm) eqn:AN; [now apply G0|]. destruct (btype_of_Z t) as [bt|]; [|now apply G0].
    change (mem_get (with_names m nm) bt) with (mem_get m bt). destruct (mem_get m bt) as [l|]; [|now apply G0]. destruct (add_block_scan l 0 a z); [|now apply G0].
    rewrite names_twice. rewrite (mem_set_names m), (mem_set_names m). set (m1 := mem_set m bt _). destruct (names_of_mem_set m bt (list_insert l a0 (new_block a z))) as [Q1 Q2]. fold m1 in Q1, Q2.
    assert (AM : assoc String.eqb (label i n) (sl_names m) = None) by (rewrite K; exact AN).
    change (with_names m1 (assoc_put String.eqb n (bt, a) nm)) with (with_names (with_names m1 (assoc_put String.eqb (label i n) (bt, a) (sl_names m))) (assoc_put String.eqb n (bt, a) nm)).
    apply G; [reflexivity|cbn; congruence|now apply put_nodup|now apply put_nodup| |].
    + intros n'. cbn [with_names sl_names]. destruct (string_dec n' n) as [-> | D2]; [now rewrite !assoc_put_same|].
      rewrite assoc_put_other; [|intros X; apply L in X; destruct X; congruence]. rewrite (assoc_put_other n n') by congruence. apply K.
    + intros j n' D2. cbn [with_names sl_names]. apply assoc_put_other. intros X. apply L in X. destruct X; congruence.
  - unfold remove_block. rewrite GB. destruct (get_block m (label i n)) as [[[t k] bl]|]; [|now apply G0]. cbn [with_names sl_names].
    change (mem_get (with_names (with_names m nm) (assoc_del String.eqb n nm)) t) with (mem_get m t). change (mem_get (with_names m (assoc_del String.eqb (label i n) (sl_names m))) t) with (mem_get m t).
    assert (KD : (forall n', assoc String.eqb (label i n') (assoc_del String.eqb (label i n) (sl_names m)) = assoc String.eqb n' (assoc_del String.eqb n nm)) /\
                 (forall j n', j <> i -> assoc String.eqb (label j n') (assoc_del String.eqb (label i n) (sl_names m)) = assoc String.eqb (label j n') (sl_names m))).
    { split.
      - intros n'. destruct (string_dec n' n) as [-> | D2]; [now rewrite !assoc_del_same|].
        rewrite assoc_del_other; [|intros X; apply L in X; destruct X; congruence]. rewrite (assoc_del_other n n') by congruence. apply K.
      - intros j n' D2. apply assoc_del_other. intros X. apply L in X. destruct X; congruence. }
    destruct KD as [KD1 KD2]. destruct (mem_get m t) as [l|].
    + rewrite names_twice. rewrite (mem_set_names m), (mem_set_names m). set (m1 := mem_set m t _). destruct (names_of_mem_set m t (list_remove_at l k)) as [Q1 Q2]. fold m1 in Q1, Q2.
      change (with_names m1 (assoc_del String.eqb n nm)) with (with_names (with_names m1 (assoc_del String.eqb (label i n) (sl_names m))) (assoc_del String.eqb n nm)).
      apply G; [reflexivity|cbn; congruence|now apply del_nodup'|now apply del_nodup'|exact KD1|exact KD2].
    + change (with_names (with_names m nm) (assoc_del String.eqb n nm)) with (with_names (with_names m (assoc_del String.eqb (label i n) (sl_names m))) (assoc_del String.eqb n nm)).
      apply G; [reflexivity|cbn; congruence|now apply del_nodup'|now apply del_nodup'|exact KD1|exact KD2].
  - congruence.
  - unfold set_values. rewrite GB. destruct (get_block m (label i n)) as [[[t k] bl]|]; [|now apply G0]. cbv zeta. destruct (_ || _); [now apply G0|].
    assert (GP : forall d (out out' : slave_out), out = out' -> snd (put_view b i (with_names (put_block_data m t k bl d) nm), Some out) = Some out' /\
       merged label u (fst (put_view b i (with_names (put_block_data m t k bl d) nm), Some out)) (put_block_data m t k bl d) /\
       length (bk_slaves (fst (put_view b i (with_names (put_block_data m t k bl d) nm), Some out))) = length (bk_slaves b)).
    { intros d out out' Ho. destruct (put_names_kept m t k bl d) as [Q1 Q2]. apply G; auto; try congruence; intros; rewrite Q1; auto. }
    destruct v as [l|x]; [rewrite put_names; now apply GP|]. destruct (py_set _ _ _); [rewrite put_names; now apply GP|now apply G0].
  - unfold get_values. rewrite GB. now apply G0.
  - rewrite hr_names. destruct (handle_request m p bc) as [m' r] eqn:H. cbn [fst snd].
    assert (Q : sl_names m' = sl_names m /\ sl_unsigned m' = sl_unsigned m).
    { pose proof (hr_names m (sl_names m) p bc) as X. rewrite H in X. cbn [fst snd] in X. change (with_names m (sl_names m)) with {| sl_unsigned := sl_unsigned m; sl_names := sl_names m; sl_alias := sl_alias m; sl_lists := sl_lists m |} in X.
      destruct m as [mu mn ma ml]. cbn [sl_unsigned sl_names sl_alias sl_lists] in X. rewrite H in X. injection X as X. split; [rewrite X; reflexivity|].
      pose proof (hr_unsigned {| sl_unsigned := mu; sl_names := mn; sl_alias := ma; sl_lists := ml |} p bc) as Y. rewrite H in Y. exact Y. }
    destruct Q as [Q1 Q2]. apply G; auto; try congruence; intros; rewrite Q1; auto.
Qed.

(** ** C96 *)
(** (1) Slaves that share a memory behave as one slave, whose blocks are named by the slave and the name: every call and every request, in
    any order on any of the slaves, has the result it has on that one slave - as long as nobody calls remove_all_blocks. *)
Lemma new_merged label u n al ls : labels label -> merged label u (new_bank al ls (repeat u n)) (new_slave u (Some (al, ls))).
Proof.
  intros L. split; [reflexivity|]. split; [reflexivity|]. split; [reflexivity|]. split; [constructor|]. cbn [new_bank bk_slaves].
  intros i u' nm H. apply nth_error_In in H. apply in_map_iff in H as (x & [= <- <-] & H). apply repeat_spec in H. subst. repeat split. constructor.
Qed.
Lemma run_merged label u ops : forall b m, labels label -> merged label u b m -> on_slaves (length (bk_slaves b)) ops ->
  bank_outputs b ops = map Some (outputs m (map (relabel label) ops)) /\
  merged label u (bank_run b ops) (slave_run m (map (relabel label) ops)) /\ length (bk_slaves (bank_run b ops)) = length (bk_slaves b).
Proof.
  induction ops as [|[i o] ops IH]; intros b m L M O; [split; [reflexivity|split; [exact M|reflexivity]]|]. inversion O as [|x y [O1 O2] O3]; subst. cbn [fst snd] in O1, O2.
  destruct (merged_step label u b m i o L M O1 O2) as (S1 & S2 & S3). rewrite <- S3 in O3. destruct (IH _ _ L S2 O3) as (I1 & I2 & I3).
  cbn [bank_outputs outputs map]. change (bank_run b ((i, o) :: ops)) with (bank_run (fst (bank_step b (i, o))) ops).
  change (slave_run m (relabel label (i, o) :: map (relabel label) ops)) with (slave_run (fst (slave_step m (relabel label (i, o)))) (map (relabel label) ops)).
  rewrite S1, I1. split; [reflexivity|]. split; [exact I2|congruence].
Qed.
Theorem C96_one_slave : forall label u n al ls ops, labels label -> on_slaves n ops ->
  bank_outputs (new_bank al ls (repeat u n)) ops = map Some (outputs (new_slave u (Some (al, ls))) (map (relabel label) ops)).
Proof.
  intros label u n al ls ops L O. apply (run_merged label u); [exact L|now apply new_merged|]. cbn [new_bank bk_slaves]. now rewrite map_length, repeat_length.
Qed.
(** (2) At any time - remove_all_blocks or not - a master gets from every slave with the same "unsigned" flag the same answer, and the request
    has the same effect on the memory of all of them. *)
Theorem C96_same_answers : forall b i j si sj pdu bc, view b i = Some si -> view b j = Some sj -> sl_unsigned si = sl_unsigned sj ->
  let '(b1, r) := bank_step b (i, OpRequest pdu bc) in
  let '(b2, r') := bank_step b (j, OpRequest pdu bc) in
  r = r' /\ bk_alias b1 = bk_alias b2 /\ bk_lists b1 = bk_lists b2 /\ bk_slaves b1 = bk_slaves b /\ bk_slaves b2 = bk_slaves b.
Proof.
  intros b i j si sj pdu bc Vi Vj U. unfold bank_step. cbn [fst snd]. rewrite Vi, Vj. unfold view in Vi, Vj.
  destruct (nth_error (bk_slaves b) i) as [[ui ni]|] eqn:Ni; [|discriminate]. destruct (nth_error (bk_slaves b) j) as [[uj nj]|] eqn:Nj; [|discriminate].
  injection Vi as <-. injection Vj as <-. cbn [sl_unsigned] in U. subst uj. set (s := {| sl_unsigned := ui; sl_names := ni; sl_alias := bk_alias b; sl_lists := bk_lists b |}).
  change {| sl_unsigned := ui; sl_names := nj; sl_alias := bk_alias b; sl_lists := bk_lists b |} with (with_names s nj). cbn [slave_step]. rewrite hr_names.
  pose proof (hr_names s ni pdu bc) as Q. change (with_names s ni) with s in Q. pose proof (hr_unsigned s pdu bc) as UU. destruct (handle_request s pdu bc) as [s1 r]. cbn [fst snd] in *. injection Q as Q.
  unfold put_view. cbn [bk_alias bk_lists bk_slaves with_names sl_alias sl_lists sl_unsigned sl_names]. repeat split.
  - rewrite UU. rewrite Q. cbn [with_names sl_names]. apply list_upd_self. exact Ni.
  - rewrite UU. apply list_upd_self. exact Nj.
Qed.
(** (3) Without remove_all_blocks the names of every slave stay good, whatever the other slaves do: get_values and set_values work inside the
    block and refuse the rest, as C04 says of a slave alone. *)
Theorem C96_names_partial : forall u n al ls ops i s name a k v, (forall r, Forall wf_block (get4 ls r)) -> on_slaves n ops ->
  view (bank_run (new_bank al ls (repeat u n)) ops) i = Some s -> registered s name -> 0 <= k ->
  (inside s name a k -> exists vs, get_values s name a k = Ok vs /\ zlen vs = k) /\
  (~ inside s name a k -> get_values s name a k = Err OutOfModbusBlockError) /\
  (inside s name a (zlen (values_of v)) -> exists s', set_values s name a v = (s', Ok tt)) /\
  (~ inside s name a (zlen (values_of v)) -> set_values s name a v = (s, Err OutOfModbusBlockError)).
Proof.
  intros u n al ls ops i s name a k v W O V R K.
  set (label := fix label (i : nat) (name : string) := match i with O => String "." name | S i => String "/" (label i name) end).
  assert (L : labels label).
  { intros x p y q. revert y. induction x as [|x IH]; intros [|y] H; cbn in H; try discriminate; injection H as H; [auto|]. apply IH in H. destruct H; auto. }
  assert (O' : on_slaves (length (bk_slaves (new_bank al ls (repeat u n)))) ops) by (cbn [new_bank bk_slaves]; now rewrite map_length, repeat_length).
  destruct (run_merged label u ops _ _ L (new_merged label u n al ls L) O') as (_ & M & _).
  set (b := bank_run _ ops) in *. set (m := slave_run _ _) in *.
  assert (C : SlaveInv.inv m). { apply reachable_inv. exists (new_slave u (Some (al, ls))). eexists. split; [now constructor|reflexivity]. }
  unfold view in V. destruct (nth_error (bk_slaves b) i) as [[u' nm]|] eqn:N; [|discriminate]. destruct M as (A & B & Cu & D & E). destruct (E i u' nm N) as (-> & N2 & Q).
  assert (Es : s = with_names m nm) by (injection V as <-; unfold with_names; rewrite A, B, Cu; reflexivity). clear V. subst s.
  assert (RR : registered m (label i name)) by (unfold registered in *; rewrite Q; exact R).
  assert (INM : forall x y, inside (with_names m nm) name x y <-> inside m (label i name) x y).
  { intros x y. unfold inside, denotes, named. cbn [with_names sl_names]. change (blocks (with_names m nm)) with (blocks m). setoid_rewrite Q. reflexivity. }
  assert (GB : get_block (with_names m nm) name = get_block m (label i name)) by (unfold get_block; cbn [with_names sl_names]; rewrite Q; reflexivity).
  assert (GV : get_values (with_names m nm) name a k = get_values m (label i name) a k) by (unfold get_values; now rewrite GB).
  assert (SV : forall r, snd (set_values m (label i name) a v) = r -> set_values (with_names m nm) name a v = (with_names (fst (set_values m (label i name) a v)) nm, r)).
  { intros r. unfold set_values. rewrite GB. destruct (get_block m (label i name)) as [[[t j] bl]|]; [|intros <-; reflexivity]. cbv zeta. destruct (_ || _); [intros <-; reflexivity|].
    destruct v as [l|x]; [intros <-; cbn [fst snd]; now rewrite put_names|]. destruct (py_set _ _ _); intros <-; cbn [fst snd]; [now rewrite put_names|reflexivity]. }
  destruct (get_values_cases m (label i name) a k C K) as (_ & G1 & G2). destruct (set_values_cases m (label i name) a v C) as (_ & G3 & G4).
  assert (IN2 : forall x y, inside (with_names m nm) name x y <-> in_named_block m (label i name) x y) by (intros x y; rewrite INM; now apply inside_iff). rewrite !IN2, GV. split; [auto|]. split; [auto|]. split.
  - intros X. destruct (G3 RR X) as [s' H]. eexists. apply SV. rewrite H. reflexivity.
  - intros X. specialize (G4 RR X). rewrite (SV (Err OutOfModbusBlockError)); rewrite G4; reflexivity.
Qed.
(** (4) remove_all_blocks of one slave removes the blocks of all, but only the names of that slave: a name of another slave stays taken, and
    every use of it raises the generic Exception "Bug?: the block is not registered properly in memory". *)
Theorem C96_remove_all : forall b i j s name t start, j <> i -> view b j <> None -> 
  view (fst (bank_step b (j, OpRemoveAll))) i = Some s -> named s name t start -> has_table s t ->
  (forall t', blocks s t' = []) /\
  (forall a n, get_values s name a n = Err GenericException) /\
  (forall a v, set_values s name a v = (s, Err GenericException)) /\
  remove_block s name = (s, Err GenericException) /\
  (forall ty a n, 0 < n -> 0 <= a -> add_block s name ty a n = (s, Err DuplicatedKeyError)).
Proof.
  intros b i j s name t start D Vj V N H. unfold bank_step in V. cbn [fst snd] in V. destruct (view b j) as [sj|]; [|congruence]. cbn [slave_step fst] in V.
  unfold view in V. destruct (nth_error _ i) as [[u nm]|]; [|discriminate]. injection V as <-.
  assert (E : forall t', blocks {| sl_unsigned := u; sl_names := nm; sl_alias := bk_alias (put_view b j (remove_all_blocks sj)); sl_lists := bk_lists (put_view b j (remove_all_blocks sj)) |} t' = []).
  { intros t'. unfold blocks, put_view, remove_all_blocks. cbn. destruct (get4 _ t') as [r|]; [destruct r; reflexivity|reflexivity]. }
  set (s := {| sl_unsigned := u; sl_names := nm; sl_alias := _; sl_lists := _ |}) in *. split; [exact E|].
  assert (GB : get_block s name = Err GenericException).
  { unfold get_block. unfold named in N. rewrite N. unfold has_table in H. specialize (E t). unfold blocks in E. unfold mem_get. destruct (get4 (sl_alias s) t) as [r|]; [|congruence].
    rewrite E. reflexivity. }
  split; [intros a n; unfold get_values; rewrite GB; reflexivity|]. split; [intros a v; unfold set_values; rewrite GB; reflexivity|]. split; [unfold remove_block; rewrite GB; reflexivity|].
  intros ty a n P1 P2. unfold add_block. replace (n <=? 0) with false by lia. replace (a <? 0) with false by lia. unfold named in N. rewrite N. reflexivity.
Qed.
(** So (3) fails with remove_all_blocks; and when the other slave then adds a block at the same place, the old name means the new block, and
    removing it takes the block from the other slave, whose name is good no longer. *)
Definition shared_memory : bank := new_bank own_lists no_blocks [true; true].
Definition takeover : list (nat * slave_op) := [(0%nat, OpAddBlock "r" 3 100 10); (1%nat, OpRemoveAll); (1%nat, OpAddBlock "mine" 3 100 20)].
Theorem C96_refuted :
  ~ (forall b ops i s name, b = shared_memory -> view (bank_run b ops) i = Some s -> registered s name ->
       forall e, snd (remove_block s name) = Err e -> e <> GenericException) /\
  ~ (forall ops s0 s name a, view (bank_run shared_memory ops) 1 = Some s0 -> registered s0 name -> inside s0 name a 1 ->
       forall name0, view (bank_run shared_memory (ops ++ [(0%nat, OpRemoveBlock name0)])) 1 = Some s -> exists v, get_values s name a 1 = Ok v).
Proof.
  split; intros H.
  - specialize (H _ [(0%nat, OpAddBlock "r" 3 100 10); (1%nat, OpRemoveAll)] 0%nat _ "r" eq_refl eq_refl). apply (fun h => H h GenericException); try reflexivity. vm_compute. discriminate.
  - assert (I : inside {| sl_unsigned := true; sl_names := [("mine", (HOLDING_REGISTERS, 100))]; sl_alias := own_lists; sl_lists := {| v_co := []; v_di := []; v_hr := [new_block 100 20]; v_ai := [] |} |} "mine" 105 1).
    { exists HOLDING_REGISTERS, (new_block 100 20). split; [|vm_compute; intuition discriminate]. split; [reflexivity|]. exists [], []. split; [reflexivity|intros c []]. }
    destruct (H takeover _ {| sl_unsigned := true; sl_names := [("mine", (HOLDING_REGISTERS, 100))]; sl_alias := own_lists; sl_lists := no_blocks |} "mine" 105 eq_refl) with (name0 := "r") as [v Hv];
      [vm_compute; discriminate|exact I|reflexivity|vm_compute in Hv; discriminate].
Qed.
(** (5) The slaves do not share a lock: (1) holds for calls that are executed one at a time only. One thread writes registers 100 and 101
    through slave 0 while another reads them through slave 1, and sees half of the write; C54 excludes this on one slave. *)
Definition write_two : nat * slave_op := (0%nat, OpRequest [16; 0; 100; 0; 2; 4; 0; 7; 0; 7] false).
Definition read_two : nat * slave_op := (1%nat, OpRequest [3; 0; 100; 0; 2] false).
Definition shared_regs : bank := bank_run shared_memory [(0%nat, OpAddBlock "r" 3 100 2)].
Theorem C96_torn_refuted :
  ~ (forall schedule v w, In (1%nat, 0, read_two, Some (OutVals (Ok ([3; 4] ++ word v ++ word w))))
       (returned false bank_code schedule (start (fun _ => shared_regs) [just [(0, write_two)]; just [(0, read_two)]])) -> v = w).
Proof. intros H. specialize (H (repeat 0 5 ++ repeat 1 20 ++ repeat 0 20)%nat 7 0). assert (X : 7 = 0); [apply H; vm_compute; auto|discriminate]. Qed.
(** ... whereas a call that runs alone is the call of (1) - (4). *)
Lemma view_put b i s s' : view b i = Some s -> view (put_view b i s') i = Some s'.
Proof.
  unfold view. destruct (nth_error (bk_slaves b) i) eqn:N; [|discriminate]. intros _. cbn [put_view bk_slaves bk_alias bk_lists].
  rewrite list_upd_same by (apply nth_error_Some; congruence). destruct s'; reflexivity.
Qed.
Lemma put_view_self b i s : view b i = Some s -> put_view b i s = b.
Proof.
  unfold view. destruct (nth_error (bk_slaves b) i) as [[u nm]|] eqn:N; [|discriminate]. intros [= <-]. unfold put_view. cbn [sl_alias sl_lists sl_unsigned sl_names].
  rewrite (list_upd_self _ _ _ N). destruct b; reflexivity.
Qed.
Lemma upd_upd {A} (l : list A) i x y : list_upd (list_upd l i x) i y = list_upd l i y.
Proof. revert i. induction l as [|z l IH]; intros [|i]; cbn; f_equal; auto. Qed.
Lemma run_on_view {O} i (c : code slave O) : forall b s, view b i = Some s -> run (on_view i c) b = (put_view b i (fst (run c s)), Some (snd (run c s))).
Proof.
  induction c as [o|f IH] using code_induction; intros b s V; cbn [on_view run]; [cbn; now rewrite (put_view_self b i s V)|].
  rewrite V. specialize (IH s). destruct (f s) as [s' c']. cbn [snd] in IH. rewrite (IH _ s' (view_put b i s s' V)). unfold put_view. cbn [bk_slaves]. now rewrite upd_upd.
Qed.
Theorem C96_steps : forall b i o s, view b i = Some s -> run (bank_code (i, o)) b = bank_step b (i, o).
Proof.
  intros b i o s V. unfold bank_code, bank_step. cbn [fst snd]. rewrite (run_on_view i _ b s V), V, run_slave_code. now destruct (slave_step s o).
Qed.
Definition two_slaves : list (nat * slave_op) :=
  [(0%nat, OpAddBlock "r" 3 100 10); (1%nat, OpAddBlock "r" 3 200 10); (1%nat, OpAddBlock "q" 3 205 3); (1%nat, OpRequest (6 :: word 104 ++ word 77) false);
   (0%nat, OpGetValues "r" 104 1); (1%nat, OpGetValues "r" 104 1); (0%nat, OpRequest (3 :: word 200 ++ word 2) false)].
Example C96_ex : on_slaves 2 two_slaves /\ bank_outputs shared_memory two_slaves =
  map Some [OutUnit (Ok tt); OutUnit (Ok tt); OutUnit (Err OverlapModbusBlockError); OutVals (Ok (6 :: word 104 ++ word 77)); OutVals (Ok [77]);
            OutVals (Err OutOfModbusBlockError); OutVals (Ok [3; 4; 0; 0; 0; 0])].
Proof. split; [repeat (apply Forall_cons; [split; [cbn; lia|discriminate]|]); apply Forall_nil|vm_compute; reflexivity]. Qed.
Example C96_ex_labels : exists label, labels label.
Proof.
  exists (fix label (i : nat) (name : string) := match i with O => String "." name | S i => String "/" (label i name) end).
  intros x p y q. revert y. induction x as [|x IH]; intros [|y] H; cbn in H; try discriminate; injection H as H; [auto|]. apply IH in H. destruct H; auto.
Qed.
Example C96_ex_names : exists s, view (bank_run shared_memory two_slaves) 0 = Some s /\ registered s "r" /\ get_values s "r" 104 2 = Ok [77; 0].
Proof. eexists. split; [reflexivity|]. split; [vm_compute; discriminate|reflexivity]. Qed.
Example C96_ex_remove_all : exists s, view (fst (bank_step (bank_run shared_memory two_slaves) (1%nat, OpRemoveAll))) 0 = Some s /\ named s "r" HOLDING_REGISTERS 100 /\ has_table s HOLDING_REGISTERS.
Proof. eexists. split; [reflexivity|]. split; [reflexivity|discriminate]. Qed.

Print Assumptions C96_one_slave.
Print Assumptions C96_same_answers.
Print Assumptions C96_names_partial.
Print Assumptions C96_remove_all.
Print Assumptions C96_refuted.
Print Assumptions C96_torn_refuted.
Print Assumptions C96_steps.
