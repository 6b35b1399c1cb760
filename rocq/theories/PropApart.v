(** C111: masters that use different registers do not notice each other. *)
From Verif Require Import Base PyStruct Defines SlaveModel BaseFacts StructFacts SlaveSpec SlaveProofs HandlerProofs RequestProofs GeneralProofs SlaveInv BlockSpec AtomicProofs QueryModel DatabankModel DbSpec DatabankProofs.
From Coq Require Import Lia.
Open Scope string_scope. Open Scope list_scope. Open Scope Z_scope.

(** ** Specification *)
(** What a user of the slave does: a master sends a request, the application calls set_values or get_values. *)
Inductive act :=
| ARequest (pdu : list Z) (broadcast : bool)
| ASet (name : string) (address : Z) (values : setval)
| AGet (name : string) (address size : Z).
(** What the user gets back: a response, a result or an exception. *)
Inductive got :=
| GPdu (r : res (list Z))
| GDone (r : res unit)
| GValues (r : res (list Z)).
Definition act_step (s : slave) (x : act) : slave * got :=
  match x with
  | ARequest pdu bc => let '(s', r) := handle_request s pdu bc in (s', GPdu r)
  | ASet name a v => let '(s', r) := set_values s name a v in (s', GDone r)
  | AGet name a n => (s, GValues (get_values s name a n))
  end.
(** Users are numbered; a history is what they do, in the order in which it happens. *)
Definition history := list (nat * act).
Fixpoint happens (s : slave) (h : history) : slave * list (nat * got) :=
  match h with
  | [] => (s, [])
  | (w, x) :: rest => let '(s1, g) := act_step s x in let '(s2, gs) := happens s1 rest in (s2, (w, g) :: gs)
  end.
(** What concerns one user. *)
Definition own {A} (w : nat) (l : list (nat * A)) : list (nat * A) := filter (fun p => Nat.eqb (fst p) w) l.

(** Cells a user may use: addresses of tables. *)
Definition region := btype -> Z -> Prop.
(** The table and address range a request reads (Modbus specification). *)
Definition read_range (pdu : list Z) : option (btype * Z * Z) :=
  match pdu with
  | [] => None
  | fc :: _ =>
      if fc =? 1 then Some (COILS, be16 pdu 1, be16 pdu 3)
      else if fc =? 2 then Some (DISCRETE_INPUTS, be16 pdu 1, be16 pdu 3)
      else if fc =? 3 then Some (HOLDING_REGISTERS, be16 pdu 1, be16 pdu 3)
      else if fc =? 4 then Some (ANALOG_INPUTS, be16 pdu 1, be16 pdu 3)
      else if fc =? 22 then Some (HOLDING_REGISTERS, be16 pdu 1, 1)
      else if fc =? 23 then Some (HOLDING_REGISTERS, be16 pdu 1, be16 pdu 3)
      else None
  end.
Definition inside (m : region) (t : btype) (a n : Z) : Prop := forall x, a <= x < a + n -> m t x.
Definition inside_opt (m : region) (r : option (btype * Z * Z)) : Prop := match r with Some (t, a, n) => inside m t a n | None => True end.
Definition set_size (v : setval) : Z := match v with SvSeq l => zlen l | SvNum _ => 1 end.
(** The user asks only for cells of the region. *)
Definition keeps_to (s : slave) (m : region) (x : act) : Prop :=
  match x with
  | ARequest pdu _ => inside_opt m (read_range pdu) /\ inside_opt m (write_range pdu)
  | ASet name a v => forall t start, named s name t start -> inside m t a (set_size v)
  | AGet name a n => 0 <= n /\ forall t start, named s name t start -> inside m t a n
  end.
(** Two regions have no cell in common. *)
Definition apart (s : slave) (m m' : region) : Prop := forall t t' x, same_table s t t' -> m t x -> m' t' x -> False.
(** Two slaves with the same blocks, whose cells in the region are the same. *)
Definition near (P : Z -> Prop) (b b' : block) : Prop :=
  b_start b = b_start b' /\ b_size b = b_size b' /\ length (b_data b) = length (b_data b') /\ forall x, P x -> cell b x = cell b' x.
Definition agree (m : region) (s s' : slave) : Prop :=
  sl_unsigned s = sl_unsigned s' /\ sl_names s = sl_names s' /\ sl_alias s = sl_alias s' /\ forall t, Forall2 (near (m t)) (blocks s t) (blocks s' t).

(** ** Proofs *)
Definition on (Q : Z -> Prop) (st : Z) (d d' : list Z) : Prop := length d = length d' /\ forall k, Q (st + Z.of_nat k) -> nth_error d k = nth_error d' k.
Lemma near_iff P b b' : near P b b' <-> b_start b = b_start b' /\ b_size b = b_size b' /\ on P (b_start b) (b_data b) (b_data b').
Proof.
  unfold near, on. split; intros (A & B & C & D); (repeat split; auto).
  - intros k K. specialize (D _ K). unfold cell in D. rewrite <- A in D. replace (b_start b + Z.of_nat k <? b_start b) with false in D by lia.
    now replace (Z.to_nat (b_start b + Z.of_nat k - b_start b)) with k in D by lia.
  - intros x X. unfold cell. rewrite <- A. destruct (x <? b_start b) eqn:E; [reflexivity|]. apply D. now replace (b_start b + Z.of_nat (Z.to_nat (x - b_start b))) with x by lia.
Qed.
Lemma on_refl Q st d : on Q st d d. Proof. split; reflexivity. Qed.
Lemma near_refl P b : near P b b. Proof. repeat split. Qed.
Lemma agree_refl m s : agree m s s.
Proof. repeat split. intros t. induction (blocks s t); constructor; [apply near_refl|assumption]. Qed.
Lemma near_trans P a b c : near P a b -> near P b c -> near P a c.
Proof. intros (A1 & A2 & A3 & A4) (B1 & B2 & B3 & B4). repeat split; try congruence. intros x X. rewrite A4 by exact X. now apply B4. Qed.
Lemma near_sym P a b : near P a b -> near P b a.
Proof. intros (A1 & A2 & A3 & A4). repeat split; auto. intros x X. symmetry. now apply A4. Qed.
Lemma F2_trans {A} (R : A -> A -> Prop) : (forall a b c, R a b -> R b c -> R a c) -> forall l1 l2 l3, Forall2 R l1 l2 -> Forall2 R l2 l3 -> Forall2 R l1 l3.
Proof. intros T l1 l2 l3 H. revert l3. induction H; intros l3 K; inversion_clear K; constructor; eauto. Qed.
Lemma F2_sym {A} (R : A -> A -> Prop) : (forall a b, R a b -> R b a) -> forall l1 l2, Forall2 R l1 l2 -> Forall2 R l2 l1.
Proof. intros T l1 l2 H. induction H; constructor; auto. Qed.
Lemma agree_trans m a b c : agree m a b -> agree m b c -> agree m a c.
Proof. intros (A1 & A2 & A3 & A4) (B1 & B2 & B3 & B4). repeat split; try congruence. intros t. eapply F2_trans; [apply near_trans|apply A4|apply B4]. Qed.
Lemma agree_sym m a b : agree m a b -> agree m b a.
Proof. intros (A1 & A2 & A3 & A4). repeat split; auto. intros t. apply F2_sym; [apply near_sym|apply A4]. Qed.

Lemma set_on Q st d d' i v : on Q st d d' -> match py_set d i v, py_set d' i v with Ok x, Ok y => on Q st x y | Err e, Err e' => e = e' | _, _ => False end.
Proof.
  intros (L & H). unfold py_set. assert (zlen d = zlen d') as <- by (unfold zlen; lia). set (i' := if i <? 0 then i + zlen d else i). destruct ((i' <? 0) || (zlen d <=? i')) eqn:E; [reflexivity|].
  split; [now rewrite !list_upd_length|]. intros k K. destruct (Nat.eq_dec k (Z.to_nat i')) as [->|N].
  - rewrite !list_upd_same; [reflexivity|unfold zlen in E; lia|unfold zlen in E; lia].
  - rewrite !list_upd_other by congruence. now apply H.
Qed.
Lemma regs_on Q st fmt pdu base off : forall n i d d', on Q st d d' ->
  on Q st (fst (write_regs_loop fmt pdu base off n i d)) (fst (write_regs_loop fmt pdu base off n i d')) /\ snd (write_regs_loop fmt pdu base off n i d) = snd (write_regs_loop fmt pdu base off n i d').
Proof.
  induction n as [|n IH]; intros i d d' H; [auto|]. cbn [write_regs_loop]. destruct (unpack1 _ _) as [v|]; [|auto]. pose proof (set_on Q st d d' (off + i) v H) as K.
  destruct (py_set d (off + i) v), (py_set d' (off + i) v); try contradiction; [now apply IH|]. subst. auto.
Qed.
Lemma inner_on Q st bv pos q : forall m j count d d', on Q st d d' ->
  on Q st (fst (write_bits_inner m bv pos j count q d)) (fst (write_bits_inner m bv pos j count q d')) /\ snd (write_bits_inner m bv pos j count q d) = snd (write_bits_inner m bv pos j count q d').
Proof.
  induction m as [|m IH]; intros j count d d' H; [auto|]. cbn [write_bits_inner]. destruct (q <=? count); [auto|].
  set (v := if Z.land bv (Z.shiftl 1 j) =? 0 then 0 else 1). clearbody v. pose proof (set_on Q st d d' (pos + j) v H) as K.
  destruct (py_set d (pos + j) v), (py_set d' (pos + j) v); try contradiction; [now apply IH|]. subst. auto.
Qed.
Lemma outer_on Q st fmt pdu off q : forall n i count d d', on Q st d d' ->
  on Q st (fst (write_bits_outer n fmt pdu off i count q d)) (fst (write_bits_outer n fmt pdu off i count q d')) /\ snd (write_bits_outer n fmt pdu off i count q d) = snd (write_bits_outer n fmt pdu off i count q d').
Proof.
  induction n as [|n IH]; intros i count d d' H; [auto|]. cbn [write_bits_outer]. destruct (q <=? count); [auto|]. destruct (unpack1 _ _) as [bv|]; [|auto].
  destruct (inner_on Q st bv (off + i * 8) q 8 0 count d d' H) as (A & B).
  destruct (write_bits_inner 8 bv (off + i * 8) 0 count q d) as [d1 r1], (write_bits_inner 8 bv (off + i * 8) 0 count q d') as [d2 r2]. cbn [fst snd] in *. subst r2. destruct r1 as [c|e]; [now apply IH|auto].
Qed.
Lemma slice_on Q st d d' a n : on Q st d d' -> 0 <= a -> 0 <= n -> (forall x, st + a <= x < st + a + n -> Q x) -> py_slice d a (a + n) = py_slice d' a (a + n).
Proof.
  intros (L & H) A N I. rewrite !py_slice_nonneg by lia. apply nth_error_ext. intros k. destruct (Nat.lt_ge_cases k (Z.to_nat (a + n - a))) as [K|K].
  - rewrite !nth_error_firstn, !nth_error_skipn by exact K. apply H. apply I. lia.
  - assert (X : forall l : list Z, nth_error (firstn (Z.to_nat (a + n - a)) l) k = None) by (intros l; apply nth_error_None; rewrite firstn_length; lia). now rewrite !X.
Qed.
Lemma get_on Q st d d' a : on Q st d d' -> 0 <= a -> Q (st + a) -> py_get d a = py_get d' a.
Proof.
  intros (L & H) A I. unfold py_get. assert (zlen d = zlen d') as <- by (unfold zlen; lia). destruct (a <? 0) eqn:E; [lia|]. destruct (_ || _); [reflexivity|].
  rewrite H; [reflexivity|]. now replace (st + Z.of_nat (Z.to_nat a)) with (st + a) by lia.
Qed.
Lemma find_near P a n : forall l l' i, Forall2 (near P) l l' ->
  match find_block l a n i, find_block l' a n i with
  | Some (j, b, o), Some (j', b', o') => j = j' /\ o = o' /\ near P b b' /\ o = a - b_start b /\ 0 <= o /\ (i <= j)%nat /\ nth_error l (j - i) = Some b /\ nth_error l' (j - i) = Some b'
  | None, None => True
  | _, _ => False
  end.
Proof.
  intros l l' i H. revert i. induction H as [|b b' l l' Hb H IH]; intros i; cbn [find_block]; [exact I|]. pose proof Hb as (E1 & E2 & _). rewrite <- E1, <- E2.
  destruct (_ && _) eqn:C; [repeat split; try apply Hb; try lia; now rewrite Nat.sub_diag|].
  specialize (IH (S i)). destruct (find_block l a n (S i)) as [[[j x] o]|], (find_block l' a n (S i)) as [[[j' x'] o']|]; try contradiction; [|exact I].
  destruct IH as (-> & -> & A1 & A2 & A3 & A4 & A5 & A6). replace (j' - i)%nat with (S (j' - S i)) by lia. cbn [nth_error]. repeat split; try apply A1; auto; lia.
Qed.
Definition pair_at (m : region) (s s' : slave) (t : btype) (i : nat) (b b' : block) : Prop :=
  has_table s t /\ nth_error (blocks s t) i = Some b /\ nth_error (blocks s' t) i = Some b' /\ near (m t) b b'.
Lemma gbo_near m s s' t a n : agree m s s' ->
  (exists e, get_block_and_offset s t a n = Err e /\ get_block_and_offset s' t a n = Err e) \/
  exists i b b' off, get_block_and_offset s t a n = Ok (i, b, off) /\ get_block_and_offset s' t a n = Ok (i, b', off) /\ off = a - b_start b /\ 0 <= off /\ pair_at m s s' t i b b'.
Proof.
  intros (A1 & A2 & A3 & A4). unfold get_block_and_offset. destruct (has_table_dec s t) as [T|T].
  - assert (T' : has_table s' t) by (unfold has_table in *; now rewrite <- A3). rewrite !mem_get_ok by assumption. cbn [bind].
    pose proof (find_near (m t) a n _ _ 0%nat (A4 t)) as F. destruct (find_block _ a n 0) as [[[j x] o]|], (find_block _ a n 0) as [[[j' x'] o']|]; try contradiction; [|left; eexists; split; reflexivity].
    destruct F as (-> & -> & B1 & B2 & B3 & B4 & B5 & B6). rewrite Nat.sub_0_r in *. right. exists j', x, x', o'. repeat split; auto; apply B1.
  - assert (T' : ~ has_table s' t) by (unfold has_table in *; now rewrite <- A3). rewrite !mem_get_err by assumption. left. eexists; split; reflexivity.
Qed.
Lemma F2_upd {A} (R : A -> A -> Prop) : forall l l' i x x', Forall2 R l l' -> R x x' -> Forall2 R (list_upd l i x) (list_upd l' i x').
Proof. intros l l' i x x' H K. revert i. induction H; intros [|i]; cbn [list_upd]; constructor; auto. Qed.
Lemma F2_nth {A} (R : A -> A -> Prop) l l' i x x' : Forall2 R l l' -> nth_error l i = Some x -> nth_error l' i = Some x' -> R x x'.
Proof. intros H. revert i. induction H; intros [|i] E E'; cbn in E, E'; try discriminate; [congruence|eauto]. Qed.
Lemma put_table s t i b d : has_table s t -> put_block_data s t i b d = mem_set s t (list_upd (blocks s t) i (with_data b d)).
Proof. intros T. unfold put_block_data. now rewrite mem_get_ok. Qed.
Lemma same_dec s t t' : same_table s t t' \/ ~ same_table s t t'.
Proof.
  unfold same_table. destruct (get4 (sl_alias s) t) as [a|], (get4 (sl_alias s) t') as [b|]; [|right; congruence|right; congruence|now left].
  destruct (btype_eqb a b) eqn:E; [apply btype_eqb_spec in E; left; congruence|right; intros [= ->]]. assert (X : btype_eqb b b = true) by now apply btype_eqb_spec. congruence.
Qed.
Lemma put_near m s s' t i b b' d d' : agree m s s' -> pair_at m s s' t i b b' ->
  (forall Q, on Q (b_start b) (b_data b) (b_data b') -> on Q (b_start b) d d') -> agree m (put_block_data s t i b d) (put_block_data s' t i b' d').
Proof.
  intros G (T & N1 & N2 & Nb) H. pose proof G as (A1 & A2 & A3 & A4). assert (T' : has_table s' t) by (unfold has_table in *; now rewrite <- A3).
  rewrite !put_table by assumption. unfold agree. rewrite !mem_set_unsigned, !mem_set_names, !mem_set_alias. repeat split; auto. intros t2.
  destruct (same_dec s t t2) as [Q|Q].
  - assert (Q' : same_table s' t t2) by (unfold same_table in *; now rewrite <- A3). rewrite !blocks_mem_set by assumption.
    assert (E : blocks s t = blocks s t2) by (unfold blocks; now rewrite Q). assert (E' : blocks s' t = blocks s' t2) by (unfold blocks; now rewrite Q'). rewrite E, E' in *. apply F2_upd; [apply A4|].
    pose proof (F2_nth _ _ _ _ _ _ (A4 t2) N1 N2) as N3. apply near_iff in N3 as (B1 & B2 & B3). apply near_iff. cbn [with_data b_start b_size b_data]. auto.
  - assert (Q' : ~ same_table s' t t2) by (unfold same_table in *; now rewrite <- A3). rewrite !blocks_mem_set_other by assumption. apply A4.
Qed.
Lemma unsigned_fmtH s s' : sl_unsigned s = sl_unsigned s' -> fmtH s = fmtH s'. Proof. unfold fmtH. now intros ->. Qed.
Lemma unsigned_fmtB s s' : sl_unsigned s = sl_unsigned s' -> fmtB s = fmtB s'. Proof. unfold fmtB. now intros ->. Qed.

(** the same request to two slaves that agree on what it uses *)
Definition alike (m : region) (x y : slave * res (list Z)) : Prop := agree m (fst x) (fst y) /\ snd x = snd y.
Ltac fail_alike := split; [assumption|reflexivity].
Lemma data_near m s s' t i b b' a n off : pair_at m s s' t i b b' -> off = a - b_start b -> 0 <= off -> 0 <= n -> inside m t a n -> py_slice (b_data b) off (off + n) = py_slice (b_data b') off (off + n).
Proof.
  intros (_ & _ & _ & N) O P Nn I. apply near_iff in N as (B1 & B2 & B3). eapply slice_on; [exact B3|exact P|exact Nn|]. intros x X. apply I. lia.
Qed.
Lemma digital_alike m s s' t pdu : agree m s s' -> inside m t (be16 pdu 1) (be16 pdu 3) -> read_digital s t pdu = read_digital s' t pdu.
Proof.
  intros G I. unfold read_digital. destruct (unpack2 _ _) as [[a n]|] eqn:U; [|reflexivity]. cbn [bind]. destruct (_ || _) eqn:R; [reflexivity|]. assert (Np : 0 <= n) by lia. clear R.
  destruct (unpack2_inv ">HH" false pdu a n eq_refl U) as (_ & -> & ->).
  destruct (gbo_near m s s' t (be16 pdu 1) (be16 pdu 3) G) as [(e & -> & ->)|(i & b & b' & off & -> & -> & O & P & Pa)]; [reflexivity|]. cbn [bind].
  rewrite (data_near _ _ _ _ _ _ _ _ _ _ Pa O P Np I). destruct (pack _ _); [|reflexivity]. cbn [bind]. now rewrite (unsigned_fmtB s s') by apply G.
Qed.
Lemma registers_alike m s s' t pdu : agree m s s' -> inside m t (be16 pdu 1) (be16 pdu 3) -> read_registers s t pdu = read_registers s' t pdu.
Proof.
  intros G I. unfold read_registers. destruct (unpack2 _ _) as [[a n]|] eqn:U; [|reflexivity]. cbn [bind]. destruct (_ || _) eqn:R; [reflexivity|]. assert (Np : 0 <= n) by lia. clear R.
  destruct (unpack2_inv ">HH" false pdu a n eq_refl U) as (_ & -> & ->).
  destruct (gbo_near m s s' t (be16 pdu 1) (be16 pdu 3) G) as [(e & -> & ->)|(i & b & b' & off & -> & -> & O & P & Pa)]; [reflexivity|]. cbn [bind].
  rewrite (data_near _ _ _ _ _ _ _ _ _ _ Pa O P Np I). destruct (pack _ _); [|reflexivity]. cbn [bind]. now rewrite (unsigned_fmtH s s') by apply G.
Qed.
Lemma one_alike m s s' t i b b' off v r : agree m s s' -> pair_at m s s' t i b b' ->
  alike m (match py_set (b_data b) off v with Err e => (s, Err e) | Ok d => (put_block_data s t i b d, Ok r) end)
          (match py_set (b_data b') off v with Err e => (s', Err e) | Ok d => (put_block_data s' t i b' d, Ok r) end).
Proof.
  intros G Pa. pose proof Pa as (_ & _ & _ & Nb). apply near_iff in Nb as (B1 & B2 & B3). pose proof (set_on _ _ _ _ off v B3) as K.
  destruct (py_set (b_data b) off v) as [d|] eqn:S1, (py_set (b_data b') off v) as [d'|] eqn:S2; try contradiction; [|subst; fail_alike].
  split; [|reflexivity]. apply put_near; [exact G|exact Pa|]. intros Q O. pose proof (set_on Q _ _ _ off v O) as K2. now rewrite S1, S2 in K2.
Qed.
Ltac near_block m s s' t a n G :=
  destruct (gbo_near m s s' t a n G) as [(?e & -> & ->)|(?i & ?b & ?b' & ?off & -> & -> & ?O & ?P & ?Pa)]; [fail_alike|].
Lemma wsc_alike m s s' pdu : agree m s s' -> alike m (write_single_coil s pdu) (write_single_coil s' pdu).
Proof.
  intros G. unfold write_single_coil. destruct (unpack2 _ _) as [[a v]|]; [|fail_alike]. near_block m s s' COILS a 1 G.
  destruct (v =? 0); [now apply one_alike|]. destruct (v =? 65280); [now apply one_alike|fail_alike].
Qed.
Lemma wsr_alike m s s' pdu : agree m s s' -> alike m (write_single_register s pdu) (write_single_register s' pdu).
Proof.
  intros G. unfold write_single_register. pose proof G as (U & _). rewrite <- U. destruct (unpack2 _ _) as [[a v]|]; [|fail_alike]. near_block m s s' HOLDING_REGISTERS a 1 G. now apply one_alike.
Qed.
Lemma mwr_alike m s s' pdu : agree m s s' -> inside m HOLDING_REGISTERS (be16 pdu 1) 1 -> alike m (mask_write_register s pdu) (mask_write_register s' pdu).
Proof.
  intros G I. unfold mask_write_register. destruct (unpack3 _ _) as [[[a x] y]|] eqn:U; [|fail_alike]. apply unpack3m_inv in U as (_ & -> & _). near_block m s s' HOLDING_REGISTERS (be16 pdu 1) 1 G.
  pose proof Pa as (_ & _ & _ & Nb). apply near_iff in Nb as (B1 & B2 & B3). rewrite <- (get_on _ _ _ _ off B3 P) by (apply I; lia).
  destruct (py_get _ _) as [old|]; [|fail_alike]. now apply one_alike.
Qed.
Lemma many_alike m s s' t i b b' d d' w w' (f : unit -> res (list Z)) : agree m s s' -> pair_at m s s' t i b b' -> (forall Q, on Q (b_start b) (b_data b) (b_data b') -> on Q (b_start b) d d') -> w = w' ->
  alike m (match w with Err e => (put_block_data s t i b d, Err e) | Ok u => (put_block_data s t i b d, f u) end)
          (match w' with Err e => (put_block_data s' t i b' d', Err e) | Ok u => (put_block_data s' t i b' d', f u) end).
Proof. intros G Pa H <-. pose proof (put_near _ _ _ _ _ _ _ _ _ G Pa H). destruct w; fail_alike. Qed.
Lemma regs_pair fmt pdu base off n i d d' : 
  (forall Q st, on Q st d d' -> on Q st (fst (write_regs_loop fmt pdu base off n i d)) (fst (write_regs_loop fmt pdu base off n i d'))) /\
  (length d = length d' -> snd (write_regs_loop fmt pdu base off n i d) = snd (write_regs_loop fmt pdu base off n i d')).
Proof. split; [intros Q st H; now apply regs_on|]. intros L. apply (regs_on (fun _ => False) 0). split; [exact L|contradiction]. Qed.
Lemma wmr_alike m s s' pdu : agree m s s' -> alike m (write_multiple_registers s pdu) (write_multiple_registers s' pdu).
Proof.
  intros G. unfold write_multiple_registers. destruct (unpack3 _ _) as [[[a q] bc]|]; [|fail_alike]. destruct (_ || _ || _); [fail_alike|]. near_block m s s' HOLDING_REGISTERS a q G.
  rewrite (unsigned_fmtH s s') by apply G. pose proof Pa as (_ & _ & _ & (_ & _ & L & _)).
  destruct (regs_pair (fmtH s') pdu 6 off (Z.to_nat q) 0 (b_data b) (b_data b')) as (H1 & H2). specialize (H2 L).
  destruct (write_regs_loop _ _ _ _ _ _ (b_data b)) as [d w], (write_regs_loop _ _ _ _ _ _ (b_data b')) as [d' w']. cbn [fst snd] in *. subst w'.
  assert (N : agree m (put_block_data s HOLDING_REGISTERS i b d) (put_block_data s' HOLDING_REGISTERS i b' d')) by (apply put_near; auto). destruct w; fail_alike.
Qed.
Lemma wmc_alike m s s' pdu : agree m s s' -> alike m (write_multiple_coils s pdu) (write_multiple_coils s' pdu).
Proof.
  intros G. unfold write_multiple_coils. destruct (unpack3 _ _) as [[[a q] bc]|]; [|fail_alike]. destruct (_ || _ || _); [fail_alike|]. near_block m s s' COILS a q G.
  rewrite (unsigned_fmtB s s') by apply G. pose proof Pa as (_ & _ & _ & (_ & _ & L & _)).
  assert (H1 : forall Q, on Q (b_start b) (b_data b) (b_data b') -> on Q (b_start b) (fst (write_bits_outer (Z.to_nat bc) (fmtB s') pdu off 0 0 q (b_data b))) (fst (write_bits_outer (Z.to_nat bc) (fmtB s') pdu off 0 0 q (b_data b')))) by (intros Q; apply outer_on).
  assert (H2 : snd (write_bits_outer (Z.to_nat bc) (fmtB s') pdu off 0 0 q (b_data b)) = snd (write_bits_outer (Z.to_nat bc) (fmtB s') pdu off 0 0 q (b_data b'))).
  { apply (outer_on (fun _ => False) 0). split; [exact L|contradiction]. }
  destruct (write_bits_outer _ _ _ _ _ _ _ (b_data b)) as [d w], (write_bits_outer _ _ _ _ _ _ _ (b_data b')) as [d' w']. cbn [fst snd] in *. subst w'.
  assert (N : agree m (put_block_data s COILS i b d) (put_block_data s' COILS i b' d')) by (apply put_near; auto). destruct w; fail_alike.
Qed.
Lemma rw_alike m s s' pdu : agree m s s' -> inside m HOLDING_REGISTERS (be16 pdu 1) (be16 pdu 3) -> alike m (read_write_multiple_registers s pdu) (read_write_multiple_registers s' pdu).
Proof.
  intros G I. unfold read_write_multiple_registers. destruct (unpack5 _ _) as [[[[[ra rq] wa] wq] bc]|] eqn:U; [|fail_alike].
  destruct ((rq <=? 0) || _) eqn:R; [fail_alike|]. assert (Np : 0 <= rq) by lia. clear R. apply unpack5_inv in U as (_ & -> & -> & _).
  near_block m s s' HOLDING_REGISTERS (be16 pdu 1) (be16 pdu 3) G. rewrite <- (data_near _ _ _ _ _ _ _ _ _ _ Pa O P Np I). rewrite (unsigned_fmtH s s') by apply G.
  destruct (bind _ _) as [resp|]; [|fail_alike]. destruct (_ || _ || _); [fail_alike|]. clear b b' i off O P Pa. near_block m s s' HOLDING_REGISTERS wa wq G.
  pose proof Pa as (_ & _ & _ & (_ & _ & L & _)).
  destruct (regs_pair (fmtH s') pdu 10 off (Z.to_nat wq) 0 (b_data b) (b_data b')) as (H1 & H2). specialize (H2 L).
  destruct (write_regs_loop _ _ _ _ _ _ (b_data b)) as [d w], (write_regs_loop _ _ _ _ _ _ (b_data b')) as [d' w']. cbn [fst snd] in *. subst w'.
  assert (N : agree m (put_block_data s HOLDING_REGISTERS i b d) (put_block_data s' HOLDING_REGISTERS i b' d')) by (apply put_near; auto). destruct w; fail_alike.
Qed.
Lemma map_alike m fc rest f s s' : fn_code_map fc = Some f -> agree m s s' -> inside_opt m (read_range (fc :: rest)) -> alike m (f s (fc :: rest)) (f s' (fc :: rest)).
Proof.
  intros M G I. unfold fn_code_map in M. cbn [read_range] in I.
  unfold READ_COILS, READ_DISCRETE_INPUTS, READ_INPUT_REGISTERS, READ_HOLDING_REGISTERS, READ_EXCEPTION_STATUS, WRITE_SINGLE_COIL, WRITE_SINGLE_REGISTER, WRITE_MULTIPLE_COILS,
    WRITE_MULTIPLE_REGISTERS, MASK_WRITE_REGISTER, READ_WRITE_MULTIPLE_REGISTERS in M.
  destruct (fc =? 1) eqn:E1; [injection M as <-; split; [exact G|cbn [snd]; now apply digital_alike with m]|].
  destruct (fc =? 2) eqn:E2; [injection M as <-; split; [exact G|cbn [snd]; now apply digital_alike with m]|].
  destruct (fc =? 4) eqn:E4; [replace (fc =? 3) with false in I by lia; injection M as <-; split; [exact G|cbn [snd]; now apply registers_alike with m]|].
  destruct (fc =? 3) eqn:E3; [injection M as <-; split; [exact G|cbn [snd]; now apply registers_alike with m]|].
  destruct (fc =? 7); [injection M as <-; split; [exact G|reflexivity]|].
  destruct (fc =? 5) eqn:E5; [injection M as <-; now apply wsc_alike|]. destruct (fc =? 6) eqn:E6; [injection M as <-; now apply wsr_alike|].
  destruct (fc =? 15) eqn:E15; [injection M as <-; now apply wmc_alike|]. destruct (fc =? 16) eqn:E16; [injection M as <-; now apply wmr_alike|].
  destruct (fc =? 22) eqn:E22; [injection M as <-; now apply mwr_alike|]. destruct (fc =? 23) eqn:E23; [injection M as <-; now apply rw_alike|]. discriminate M.
Qed.
Lemma hr_alike m pdu bc s s' : agree m s s' -> inside_opt m (read_range pdu) -> alike m (handle_request s pdu bc) (handle_request s' pdu bc).
Proof.
  intros G I. unfold handle_request. destruct pdu as [|fc rest]; [fail_alike|]. rewrite unpack_fc. destruct (fn_code_map fc) as [f|] eqn:F; [|fail_alike].
  destruct (bc && _); [fail_alike|]. destruct (map_alike m fc rest f s s' F G I) as (A & B). destruct (f s _) as [s1 r1], (f s' _) as [s2 r2]. cbn [fst snd] in *. subst r2.
  destruct r1 as [[|]|]; [fail_alike|destruct bc; fail_alike|fail_alike].
Qed.

(** the application's calls *)
Lemma F2_split {A} (R : A -> A -> Prop) : forall l1 l1' b b' l2 l2', length l1 = length l1' -> Forall2 R (l1 ++ b :: l2) (l1' ++ b' :: l2') -> Forall2 R l1 l1' /\ R b b' /\ Forall2 R l2 l2'.
Proof.
  induction l1 as [|x l1 IH]; intros [|x' l1'] b b' l2 l2' L H; try discriminate L; cbn [List.app] in H; inversion_clear H; [auto|]. injection L as L. destruct (IH _ _ _ _ _ L H1) as (A1 & A2 & A3). auto.
Qed.
Lemma mem_near m s s' t l1 b l2 l1' b' l2' c c' : agree m s s' -> has_table s t -> blocks s t = l1 ++ b :: l2 -> blocks s' t = l1' ++ b' :: l2' -> length l1 = length l1' ->
  (forall Q, near Q b b' -> near Q c c') -> agree m (mem_set s t (l1 ++ c :: l2)) (mem_set s' t (l1' ++ c' :: l2')).
Proof.
  intros G T N1 N2 L H. pose proof G as (A1 & A2 & A3 & A4). assert (T' : has_table s' t) by (unfold has_table in *; now rewrite <- A3).
  unfold agree. rewrite !mem_set_unsigned, !mem_set_names, !mem_set_alias. repeat split; auto. intros t2. destruct (same_dec s t t2) as [Q|Q].
  - assert (Q' : same_table s' t t2) by (unfold same_table in *; now rewrite <- A3). rewrite !blocks_mem_set by assumption.
    assert (E : blocks s t = blocks s t2) by (unfold blocks; now rewrite Q). assert (E' : blocks s' t = blocks s' t2) by (unfold blocks; now rewrite Q').
    pose proof (A4 t2) as F. rewrite <- E, <- E', N1, N2 in F. apply F2_split in F as (F1 & F2 & F3); [|exact L]. apply Forall2_app; [exact F1|constructor; auto].
  - assert (Q' : ~ same_table s' t t2) by (unfold same_table in *; now rewrite <- A3). rewrite !blocks_mem_set_other by assumption. apply A4.
Qed.
Lemma start_near P start : forall l l' i, Forall2 (near P) l l' ->
  match find_start l start i, find_start l' start i with
  | Some (j, b), Some (j', b') => j = j' /\ near P b b'
  | None, None => True
  | _, _ => False
  end.
Proof.
  intros l l' i H. revert i. induction H as [|b b' l l' Hb H IH]; intros i; cbn [find_start]; [exact I|]. pose proof Hb as (E1 & _). rewrite <- E1. destruct (_ =? _); [auto|]. apply IH.
Qed.
Lemma get_block_near m s s' name : agree m s s' ->
  (exists e, get_block s name = Err e /\ get_block s' name = Err e) \/ exists t start i b b', named s name t start /\ get_block s name = Ok (t, i, b) /\ get_block s' name = Ok (t, i, b') /\ near (m t) b b'.
Proof.
  intros (A1 & A2 & A3 & A4). unfold get_block. rewrite <- A2. unfold named. destruct (assoc String.eqb name (sl_names s)) as [[t start]|]; [|left; eexists; split; reflexivity].
  destruct (has_table_dec s t) as [T|T].
  - assert (T' : has_table s' t) by (unfold has_table in *; now rewrite <- A3). rewrite !mem_get_ok by assumption. cbn [bind].
    pose proof (start_near (m t) start _ _ 0%nat (A4 t)) as F. destruct (find_start (blocks s t) start 0) as [[j x]|], (find_start (blocks s' t) start 0) as [[j' x']|]; try contradiction; [|left; eexists; split; reflexivity].
    destruct F as (-> & F). right. exists t, start, j', x, x'. auto.
  - assert (T' : ~ has_table s' t) by (unfold has_table in *; now rewrite <- A3). rewrite !mem_get_err by assumption. left. eexists; split; reflexivity.
Qed.
Lemma overlay_near Q b b' a vals : near Q b b' -> covers b a (zlen vals) -> wf_block b -> wf_block b' -> near Q (overlay b a vals) (overlay b' a vals).
Proof.
  intros (B1 & B2 & B3 & B4) C (_ & _ & W) (_ & _ & W'). assert (C' : covers b' a (zlen vals)) by (unfold covers in *; lia). unfold near. cbn [overlay b_start b_size].
  split; [exact B1|]. split; [exact B2|]. split.
  - pose proof (overlay_length b a vals C W) as L. pose proof (overlay_length b' a vals C' W') as L'. unfold zlen in L, L'. cbn [overlay b_size] in *. lia.
  - intros x X. destruct (Z.lt_ge_cases x a) as [H|H]; [rewrite !cell_overlay_out by (assumption || lia); now apply B4|].
    destruct (Z.lt_ge_cases x (a + zlen vals)) as [K|K]; [|rewrite !cell_overlay_out by (assumption || lia); now apply B4].
    replace x with (a + (x - a)) by lia. now rewrite !cell_overlay_in by (assumption || lia).
Qed.
Lemma set_cases s name a v : wf_slave s ->
  (exists e, set_values s name a v = (s, Err e)) \/
  exists t start l1 b l2, named s name t start /\ names_block s name t l1 b l2 /\ covers b a (zlen (sv_list v)) /\ wf_block b /\ set_values s name a v = (mem_set s t (l1 ++ overlay b a (sv_list v) :: l2), Ok tt).
Proof.
  intros W. destruct (get_block s name) as [[[t i] b]|e] eqn:G; [|left; exists e; unfold set_values; now rewrite G].
  pose proof G as G0. apply get_block_ok in G0 as (l1 & l2 & Nb & ->).
  destruct ((a - b_start b <? 0) || (b_size b <? a - b_start b + zlen (sv_list v))) eqn:R.
  - left. exists OutOfModbusBlockError. unfold set_values. rewrite G. destruct v as [l|y]; cbn [sv_list] in R; try (change (zlen [y]) with 1 in R); now rewrite R.
  - right. assert (C : covers b a (zlen (sv_list v))) by (unfold covers; lia). destruct (set_values_ok s name a v t l1 b l2 W Nb C) as (E & _).
    pose proof Nb as (start & N1 & _). exists t, start, l1, b, l2. repeat split; auto; try apply C; apply (names_block_wf _ _ _ _ _ _ W Nb).
Qed.
Lemma size_list v : set_size v = zlen (sv_list v). Proof. destruct v; reflexivity. Qed.
Lemma set_alike m s s' name a v : agree m s s' -> wf_slave s -> wf_slave s' ->
  agree m (fst (set_values s name a v)) (fst (set_values s' name a v)) /\ snd (set_values s name a v) = snd (set_values s' name a v).
Proof.
  intros G W W'. destruct (get_block_near m s s' name G) as [(e & E1 & E2)|(t & start & i & b & b' & Nm & E1 & E2 & Nb)]; [unfold set_values; rewrite E1, E2; auto|].
  pose proof E1 as K1. pose proof E2 as K2. apply get_block_ok in K1 as (l1 & l2 & N1 & ->). apply get_block_ok in K2 as (l1' & l2' & N2 & L).
  pose proof Nb as (B1 & B2 & _).
  destruct ((a - b_start b <? 0) || (b_size b <? a - b_start b + set_size v)) eqn:R.
  - unfold set_values. rewrite E1, E2, <- B1, <- B2. unfold set_size in R. rewrite R. auto.
  - rewrite size_list in R. assert (C : covers b a (zlen (sv_list v))) by (unfold covers; lia). assert (C' : covers b' a (zlen (sv_list v))) by (unfold covers in *; lia).
    destruct (set_values_ok s name a v t l1 b l2 W N1 C) as (-> & _). destruct (set_values_ok s' name a v t l1' b' l2' W' N2 C') as (-> & _). cbn [fst snd]. split; [|reflexivity].
    pose proof N1 as (st1 & _ & T & Hb & _). pose proof N2 as (st2 & _ & _ & Hb' & _).
    eapply mem_near; [exact G|exact T|exact Hb|exact Hb'|exact L|]. intros Q Hq. apply overlay_near; [exact Hq|exact C|apply (names_block_wf _ _ _ _ _ _ W N1)|apply (names_block_wf _ _ _ _ _ _ W' N2)].
Qed.
Lemma get_alike m s s' name a n : agree m s s' -> 0 <= n -> (forall t start, named s name t start -> inside m t a n) -> get_values s name a n = get_values s' name a n.
Proof.
  intros G Hn I. unfold get_values. destruct (get_block_near m s s' name G) as [(e & -> & ->)|(t & start & i & b & b' & Nm & E1 & E2 & Nb)]; [reflexivity|].
  rewrite E1, E2. cbn [bind]. pose proof Nb as (B1 & B2 & _). rewrite <- B1, <- B2. destruct (_ || _) eqn:R; [reflexivity|]. apply I in Nm. apply near_iff in Nb as (_ & _ & O).
  destruct (n =? 1) eqn:N1.
  - rewrite (get_on _ _ _ _ (a - b_start b) O); [reflexivity|lia|]. apply Nm. lia.
  - rewrite (slice_on _ _ _ _ (a - b_start b) n O); [reflexivity|lia|lia|]. intros x X. apply Nm. lia.
Qed.

Lemma act_alike m s s' x : agree m s s' -> wf_slave s -> wf_slave s' -> keeps_to s m x ->
  agree m (fst (act_step s x)) (fst (act_step s' x)) /\ snd (act_step s x) = snd (act_step s' x).
Proof.
  intros G W W' K. destruct x as [pdu bc|name a v|name a n]; cbn [act_step keeps_to] in *.
  - destruct K as (K & _). destruct (hr_alike m pdu bc s s' G K) as (A & B). destruct (handle_request s pdu bc), (handle_request s' pdu bc). cbn [fst snd] in *. split; [exact A|congruence].
  - destruct (set_alike m s s' name a v G W W') as (A & B). destruct (set_values s name a v), (set_values s' name a v). cbn [fst snd] in *. split; [exact A|congruence].
  - destruct K as (K0 & K). cbn [fst snd]. split; [exact G|]. f_equal. now apply get_alike with m.
Qed.
(** somebody else's act *)
Lemma over_agree m s t a vals l1 b l2 : has_table s t -> blocks s t = l1 ++ b :: l2 -> covers b a (zlen vals) -> wf_block b ->
  (forall t2 x, same_table s t t2 -> a <= x < a + zlen vals -> ~ m t2 x) -> agree m s (mem_set s t (l1 ++ overlay b a vals :: l2)).
Proof.
  intros T Hb C (_ & _ & W) D. unfold agree. rewrite !mem_set_unsigned, !mem_set_names, !mem_set_alias. repeat split; auto. intros t2. destruct (same_dec s t t2) as [Q|Q].
  - rewrite !blocks_mem_set by assumption. assert (E : blocks s t = blocks s t2) by (unfold blocks; now rewrite Q). rewrite <- E, Hb.
    assert (Re : forall l, Forall2 (near (m t2)) l l) by (induction l; constructor; [apply near_refl|assumption]). apply Forall2_app; [apply Re|]. constructor; [|apply Re].
    unfold near. cbn [overlay b_start b_size]. split; [reflexivity|]. split; [reflexivity|]. split.
    + pose proof (overlay_length b a vals C W) as L. unfold zlen in L, W. cbn [overlay] in *. lia.
    + intros x X. symmetry. apply cell_overlay_out; auto. intros Y. exact (D t2 x Q Y X).
  - rewrite !blocks_mem_set_other by assumption. induction (blocks s t2); constructor; [apply near_refl|assumption].
Qed.
Lemma act_apart m m' s x : wf_slave s -> keeps_to s m' x -> apart s m m' -> agree m s (fst (act_step s x)).
Proof.
  intros W K Ap. destruct x as [pdu bc|name a v|name a n]; cbn [act_step keeps_to] in *.
  - destruct K as (_ & K). pose proof (hr_state s pdu bc W) as Hs. destruct (handle_request s pdu bc) as [s1 r]. cbn [fst snd] in *.
    destruct Hs as [-> | (fc & rest & t & a & n & vals & _ & Wr & (l1 & b & l2 & T & Sv & Lv & ->) & _)]; [apply agree_refl|]. rewrite Wr in K. cbn [inside_opt] in K.
    pose proof (wf_served _ _ _ _ _ _ _ W Sv) as Wb. destruct Sv as (Hb & (C1 & C2) & _). apply over_agree; auto; [unfold covers; lia|].
    intros t2 y Q Y Hy. apply (Ap t2 t y); [unfold same_table in *; congruence|exact Hy|]. apply K. lia.
  - destruct (set_cases s name a v W) as [(e & ->)|(t & start & l1 & b & l2 & Nm & (st & _ & T & Hb & _) & C & Wb & ->)]; [apply agree_refl|]. cbn [fst]. apply over_agree; auto.
    intros t2 y Q Y Hy. apply (Ap t2 t y); [unfold same_table in *; congruence|exact Hy|]. apply (K t start Nm). rewrite size_list. lia.
  - apply agree_refl.
Qed.

Lemma keeps_names s s' m x : sl_names s' = sl_names s -> keeps_to s m x -> keeps_to s' m x.
Proof. intros E. destruct x; cbn [keeps_to]; unfold named; try rewrite E; auto. Qed.
Lemma apart_alias s s' m m' : sl_alias s' = sl_alias s -> apart s m m' -> apart s' m m'.
Proof. intros E. unfold apart, same_table. now rewrite E. Qed.
Lemma act_same s x : wf_slave s -> sl_names (fst (act_step s x)) = sl_names s /\ sl_alias (fst (act_step s x)) = sl_alias s.
Proof.
  intros W. destruct x as [pdu bc|name a v|name a n]; cbn [act_step]; [| |auto].
  - pose proof (hr_state s pdu bc W) as Hs. destruct (handle_request s pdu bc) as [s1 r]. cbn [fst snd] in *.
    destruct Hs as [-> | (fc & rest & t & a & n & vals & _ & Wr & (l1 & b & l2 & T & Sv & Lv & ->) & _)]; [auto|]. now rewrite mem_set_names, mem_set_alias.
  - destruct (set_cases s name a v W) as [(e & ->)|(t & start & l1 & b & l2 & Nm & _ & C & Wb & ->)]; cbn [fst]; [auto|]. now rewrite mem_set_names, mem_set_alias.
Qed.
Lemma act_reachable s x : reachable s -> reachable (fst (act_step s x)).
Proof.
  intros R. destruct x as [pdu bc|name a v|name a n]; cbn [act_step]; [| |exact R].
  - pose proof (reachable_step s (OpRequest pdu bc) R) as H. cbn [slave_step] in H. now destruct (handle_request s pdu bc).
  - pose proof (reachable_step s (OpSetValues name a v) R) as H. cbn [slave_step] in H. now destruct (set_values s name a v).
Qed.
Definition all_keep (s : slave) (regions : nat -> region) (h : history) : Prop := Forall (fun p => keeps_to s (regions (fst p)) (snd p)) h.
Lemma all_keep_names s s' regions h : sl_names s' = sl_names s -> all_keep s regions h -> all_keep s' regions h.
Proof. intros E. apply Forall_impl. intros p. now apply keeps_names. Qed.

Lemma alone_from w regions : forall h s s2, reachable s -> reachable s2 -> agree (regions w) s s2 -> all_keep s regions h -> (forall v, v <> w -> apart s (regions w) (regions v)) ->
  own w (snd (happens s h)) = snd (happens s2 (own w h)) /\ agree (regions w) (fst (happens s h)) (fst (happens s2 (own w h))).
Proof.
  induction h as [|(v, x) h IH]; intros s s2 R R2 G K Ap; [auto|]. inversion_clear K as [|? ? K1 K2]. cbn [fst snd] in K1. cbn [happens own filter fst].
  pose proof (reachable_wf _ R) as W. pose proof (reachable_wf _ R2) as W2. pose proof (act_reachable s x R) as R'. destruct (act_same s x W) as (E1 & E2).
  destruct (Nat.eqb v w) eqn:Q.
  - apply Nat.eqb_eq in Q as ->. destruct (act_alike (regions w) s s2 x G W W2 K1) as (A & B). pose proof (act_reachable s2 x R2) as R2'. cbn [happens].
    destruct (act_step s x) as [s1 g], (act_step s2 x) as [s3 g3]. cbn [fst snd] in *. subst g3.
    destruct (IH s1 s3 R' R2' A) as (I1 & I2); [now apply all_keep_names with s|intros v V; now apply apart_alias with s, Ap|]. fold (own w h).
    destruct (happens s1 h) as [s4 gs], (happens s3 (own w h)) as [s5 gs5]. cbn [fst snd own filter] in *. rewrite Nat.eqb_refl. cbn [fst]. rewrite <- I1. split; [reflexivity|exact I2].
  - apply Nat.eqb_neq in Q. pose proof (act_apart (regions w) (regions v) s x W K1 (Ap v Q)) as A. fold (own w h).
    destruct (act_step s x) as [s1 g]. cbn [fst snd] in *. destruct (IH s1 s2 R' R2) as (I1 & I2); [eapply agree_trans; [apply agree_sym, A|exact G]|now apply all_keep_names with s|intros u U; now apply apart_alias with s, Ap|].
    destruct (happens s1 h) as [s4 gs]. cbn [fst snd own filter] in *. replace (Nat.eqb v w) with false by (symmetry; now apply Nat.eqb_neq). auto.
Qed.
(** If everybody keeps to its own cells, then everybody gets exactly what it would get if it were alone, and finds in its cells what it would find there,
    however the acts of the others are mixed in. *)
Theorem C111_alone : forall s h regions w, reachable s -> all_keep s regions h -> (forall v, v <> w -> apart s (regions w) (regions v)) ->
  let '(s1, gs) := happens s h in let '(s2, gs2) := happens s (own w h) in own w gs = gs2 /\ agree (regions w) s1 s2.
Proof.
  intros s h regions w R K Ap. pose proof (alone_from w regions h s s R R (agree_refl _ _) K Ap) as H. destruct (happens s h), (happens s (own w h)). exact H.
Qed.
(** Cells that belong to nobody do not change. *)
Definition nobodys (s : slave) (regions : nat -> region) : region := fun t x => forall w t', same_table s t t' -> ~ regions w t' x.
Lemma rest_from regions : forall h s s0, reachable s -> sl_alias s = sl_alias s0 -> all_keep s regions h -> agree (nobodys s0 regions) s (fst (happens s h)).
Proof.
  induction h as [|(v, x) h IH]; intros s s0 R E K; [apply agree_refl|]. inversion_clear K as [|? ? K1 K2]. cbn [fst snd] in K1. cbn [happens].
  pose proof (reachable_wf _ R) as W. pose proof (act_reachable s x R) as R'. destruct (act_same s x W) as (E1 & E2).
  assert (A : agree (nobodys s0 regions) s (fst (act_step s x))). { apply act_apart with (regions v); auto. intros t t' y S1 N Y. apply (N v t'); [|exact Y]. unfold same_table in *. now rewrite <- E. }
  destruct (act_step s x) as [s1 g]. cbn [fst] in *. specialize (IH s1 s0 R' ltac:(congruence)). destruct (happens s1 h) as [s2 gs]. cbn [fst] in *.
  eapply agree_trans; [exact A|apply IH]. now apply all_keep_names with s.
Qed.
Theorem C111_rest : forall s h regions, reachable s -> all_keep s regions h -> agree (nobodys s regions) s (fst (happens s h)).
Proof. intros s h regions R K. now apply rest_from. Qed.
Lemma near_eq b b' : near (fun _ => True) b b' -> b = b'.
Proof.
  intros N. apply near_iff in N as (A & B & L & N). destruct b as [st sz d], b' as [st' sz' d']. cbn [b_start b_size b_data] in *. subst. f_equal. apply nth_error_ext. intros k. now apply N.
Qed.
Lemma optZ_dec (a b : option Z) : {a = b} + {a <> b}. Proof. decide equality. apply Z.eq_dec. Qed.
(** The order in which the acts of different users are mixed does not matter: same answers for everybody, same memory. *)
Theorem C111_order : forall s h h' regions, reachable s -> all_keep s regions h -> all_keep s regions h' -> (forall v w, v <> w -> apart s (regions v) (regions w)) -> (forall w, own w h = own w h') ->
  let '(s1, gs) := happens s h in let '(s2, gs') := happens s h' in
  (forall w, own w gs = own w gs') /\ sl_unsigned s1 = sl_unsigned s2 /\ sl_names s1 = sl_names s2 /\ sl_alias s1 = sl_alias s2 /\ forall t, blocks s1 t = blocks s2 t.
Proof.
  intros s h h' regions R K K' Ap O.
  assert (F : forall w, own w (snd (happens s h)) = own w (snd (happens s h')) /\ agree (regions w) (fst (happens s h)) (fst (happens s h'))).
  { intros w. assert (Aw : forall v, v <> w -> apart s (regions w) (regions v)) by (intros v V; apply Ap; congruence).
    destruct (alone_from w regions h s s R R (agree_refl _ _) K Aw) as (A1 & A2). destruct (alone_from w regions h' s s R R (agree_refl _ _) K' Aw) as (B1 & B2). rewrite <- (O w) in B1, B2.
    split; [congruence|]. eapply agree_trans; [exact A2|apply agree_sym, B2]. }
  pose proof (C111_rest s h regions R K) as N1. pose proof (C111_rest s h' regions R K') as N2. pose proof (agree_trans _ _ _ _ (agree_sym _ _ _ N1) N2) as N.
  destruct (happens s h) as [s1 gs], (happens s h') as [s2 gs']. cbn [fst snd] in *. split; [intros w; apply F|]. pose proof N as (U1 & U2 & U3 & U4). repeat split; auto. intros t.
  assert (Al : sl_alias s1 = sl_alias s) by (symmetry; apply N1). assert (Al2 : sl_alias s2 = sl_alias s) by (symmetry; apply N2).
  assert (P : forall k b b', nth_error (blocks s1 t) k = Some b -> nth_error (blocks s2 t) k = Some b' -> b = b').
  { intros k b b' E E'. apply near_eq. pose proof (F2_nth _ _ _ _ _ _ (U4 t) E E') as (A1 & A2 & A3 & A4). repeat split; auto. intros x _. destruct (optZ_dec (cell b x) (cell b' x)) as [Y|Y]; [exact Y|]. apply A4.
    intros w t' Q H. apply Y. destruct (F w) as (_ & (_ & _ & _ & Fw)). specialize (Fw t').
    assert (T1 : blocks s1 t' = blocks s1 t) by (unfold blocks, same_table in *; rewrite Al, Q; reflexivity). assert (T2 : blocks s2 t' = blocks s2 t) by (unfold blocks, same_table in *; rewrite Al2, Q; reflexivity).
    rewrite T1, T2 in Fw. pose proof (F2_nth _ _ _ _ _ _ Fw E E') as (_ & _ & _ & C). now apply C. }
  specialize (U4 t). clear -U4 P. revert P. induction U4 as [|b b' l l' Hb H IH]; intros P; [reflexivity|]. f_equal; [now apply (P 0%nat)|]. apply IH. intros k. apply (P (S k)).
Qed.

Definition bench : slave := slave_run (new_slave true None) [OpAddBlock "r" 3 0 10; OpAddBlock "c" 1 0 16].
Lemma bench_reachable : reachable bench.
Proof. exists (new_slave true None), [OpAddBlock "r" 3 0 10; OpAddBlock "c" 1 0 16]. split; [constructor|reflexivity]. Qed.
(** user 1 has the registers 0..4, user 2 the registers 5..9 and the coils *)
Definition bench_regions (w : nat) : region := fun t x =>
  match w with
  | 1%nat => t = HOLDING_REGISTERS /\ 0 <= x < 5
  | 2%nat => (t = HOLDING_REGISTERS /\ 5 <= x < 10) \/ t = COILS
  | _ => False
  end.
Definition bench_history : history :=
  [(1%nat, ARequest [16; 0; 0; 0; 2; 4; 0; 7; 0; 8] false); (2%nat, ASet "r" 6 (SvSeq [60; 61])); (1%nat, ARequest [23; 0; 0; 0; 2; 0; 3; 0; 1; 2; 0; 9] false);
   (2%nat, ARequest [5; 0; 3; 255; 0] false); (1%nat, AGet "r" 0 5); (2%nat, ARequest [3; 0; 5; 0; 5] false)].
(** The hypotheses are met by a history in which both read and write, through the network and as an application, in one block. *)
Example C111_ex : all_keep bench bench_regions bench_history /\ (forall v w, v <> w -> apart bench (bench_regions v) (bench_regions w)) /\
  own 1 (snd (happens bench bench_history)) = [(1%nat, GPdu (Ok [16; 0; 0; 0; 2])); (1%nat, GPdu (Ok [23; 4; 0; 7; 0; 8])); (1%nat, GValues (Ok [7; 8; 0; 9; 0]))].
Proof.
  split; [|split].
  - repeat apply Forall_cons; [..|apply Forall_nil]; cbn [fst snd keeps_to].
    + split; [exact I|]. change (write_range _) with (Some (HOLDING_REGISTERS, 0, 2)). intros x X. cbn. split; [reflexivity|lia].
    + intros t start N. injection N as <- <-. intros x X. left. split; [reflexivity|]. change (set_size _) with 2 in X. lia.
    + split; [change (read_range _) with (Some (HOLDING_REGISTERS, 0, 2))|change (write_range _) with (Some (HOLDING_REGISTERS, 3, 1))]; intros x X; cbn; (split; [reflexivity|lia]).
    + split; [exact I|]. change (write_range _) with (Some (COILS, 3, 1)). intros x X. now right.
    + split; [lia|]. intros t start N. injection N as <- <-. intros x X. cbn. split; [reflexivity|lia].
    + split; [|exact I]. change (read_range _) with (Some (HOLDING_REGISTERS, 5, 5)). intros x X. left. split; [reflexivity|lia].
  - intros v w V t t' x S1 H H'. destruct v as [|[|[|v]]], w as [|[|[|w]]]; try contradiction; try congruence; cbn in H, H'.
    + destruct H as (-> & H), H' as [(-> & H')| ->]; [lia|discriminate S1].
    + destruct H' as (-> & H'), H as [(-> & H)| ->]; [lia|discriminate S1].
  - vm_compute. reflexivity.
Qed.
(** get_values with a negative size asks for no cell, but may return cells from the end of the block, also those of somebody else. *)
Theorem C111_negative_refuted : exists s name a n s', reachable s /\ n < 0 /\ s' = fst (set_values s name 6 (SvNum 77)) /\
  get_values s name a n = Ok [0; 0; 0] /\ get_values s' name a n = Ok [0; 77; 0].
Proof. exists bench, "r", 5, (-7). eexists. split; [apply bench_reachable|]. split; [lia|]. split; [reflexivity|]. split; vm_compute; reflexivity. Qed.

Print Assumptions C111_alone.
Print Assumptions C111_rest.
Print Assumptions C111_order.
Print Assumptions C111_negative_refuted.
