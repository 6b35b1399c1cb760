(** Property C105: the application (set_values, get_values of a slave, by the name of a block) and a master (function codes, by address) see the same
    registers.  What the master does is [round_trip] of EndSpec.v, what the application does is get_values and set_values of SlaveModel.v. *)
From Coq Require Import ZArith List String Lia ZifyBool ZifyNat.
From Verif Require Import Base BaseFacts Spec Defines SlaveModel SlaveSpec BlockSpec SlaveInv SlaveMore SlaveProofs AtomicProofs BlockProofs FrameSpec QueryModel DatabankModel MasterModel MasterSpec DbSpec DatabankProofs EndSpec EndProofs PropDatabank PropSlave PropMaster.
Import ListNotations.
Open Scope string_scope.
Open Scope list_scope.
Open Scope Z_scope.

(** ** Vocabulary *)
(** set_values by the application on slave [u]: accepted, and the databank afterwards *)
Definition app_sets (d : databank) (u : Z) (name : string) (a : Z) (v : setval) (d' : databank) : Prop :=
  d' = db_run d [DbCall u (OpSetValues name a v)] /\ exists s s', get_slave d u = Ok s /\ set_values s name a v = (s', Ok tt).
(** get_values by the application on slave [u] *)
Definition app_gets (d : databank) (u : Z) (name : string) (a n : Z) (vals : list Z) : Prop :=
  exists s, get_slave d u = Ok s /\ get_values s name a n = Ok vals.
(** the block [name] of slave [u] was added to table [t], whose blocks do not overlap *)
Definition block_in (d : databank) (u : Z) (name : string) (t : btype) : Prop :=
  exists s start, get_slave d u = Ok s /\ named s name t start /\ disjoint_blocks (blocks s t).
Definition is_unsigned (d : databank) (u : Z) (b : bool) : Prop := exists s, get_slave d u = Ok s /\ sl_unsigned s = b.
(** where a write of the master goes, and what the application finds there *)
Definition lands (unsigned : bool) (c : call) : option (btype * Z * list Z) :=
  match c with
  | WriteReg a v => Some (HOLDING_REGISTERS, a, [reg_of_word unsigned (as_word v)])
  | WriteRegs a vs => Some (HOLDING_REGISTERS, a, map (fun v => reg_of_word unsigned (as_word v)) vs)
  | WriteCoil a v => Some (COILS, a, [as_bit v])
  | WriteCoils a vs => Some (COILS, a, map on_off vs)
  | _ => None
  end.
Definition at_most (c : call) : Prop := match c with WriteRegs _ vs => 1 <= zlen vs <= 123 | WriteCoils _ vs => 1 <= zlen vs <= 1968 | _ => True end.

(** ** Proofs *)
Lemma get_values_inv s name a n vals t start : reachable s -> named s name t start -> 0 <= n -> get_values s name a n = Ok vals ->
  exists l1 b l2, names_block s name t l1 b l2 /\ covers b a n /\ vals = values_at b a n.
Proof.
  intros R N Hn G. pose proof (reachable_wf s R) as W. destruct (get_block s name) as [[[t' i] b]|e] eqn:B; [|unfold get_values in G; rewrite B in G; discriminate G].
  pose proof B as B'. apply get_block_ok in B' as (l1 & l2 & NB & _). exists l1, b, l2.
  assert (t' = t) by (destruct NB as (st & A & _); unfold named in N; congruence). subst t'. split; [exact NB|].
  assert (C : covers b a n).
  { unfold get_values in G. rewrite B in G. cbn [bind] in G. destruct ((a - b_start b <? 0) || (b_size b <? a - b_start b + n)) eqn:E; [discriminate G|]. unfold covers. lia. }
  split; [exact C|]. rewrite (get_values_ok s name a n t l1 b l2 W NB C Hn) in G. now injection G as <-.
Qed.
Lemma disjoint_unique l a n l1 b l2 l1' b' l2' : disjoint_blocks l -> 1 <= n -> l = l1 ++ b :: l2 -> l = l1' ++ b' :: l2' -> covers b a n -> covers b' a n -> l1 = l1' /\ b = b' /\ l2 = l2'.
Proof.
  intros D Hn E E' C C'. assert (L : length l1 = length l1').
  { destruct (Nat.eq_dec (length l1) (length l1')) as [|X]; [assumption|]. exfalso.
    apply (D (length l1) (length l1') b b' X) with (a := a); [rewrite E|rewrite E'| |]; try (rewrite nth_error_app2, Nat.sub_diag by lia; reflexivity); unfold covers, holds in *; lia. }
  subst l. revert l1' L E'. clear - l1. induction l1 as [|x l1 IH]; intros [|y l1'] L E; try discriminate L; cbn [app] in E; injection E as -> E; [subst; auto|].
  injection L as L. destruct (IH l1' L E) as (-> & -> & ->). auto.
Qed.
Lemma get_is_stored s name t start a n vals : reachable s -> named s name t start -> disjoint_blocks (blocks s t) -> 1 <= n -> get_values s name a n = Ok vals -> stored s t a n vals.
Proof.
  intros R N D Hn G. destruct (get_values_inv s name a n vals t start R N ltac:(lia) G) as (l1 & b & l2 & (st & A & Ht & Hb & _) & C & ->). split; [exact Ht|]. exists b. split; [|reflexivity].
  exists l1, l2. split; [exact Hb|]. split; [exact C|]. intros c Hc Cc. apply in_split in Hc as (k1 & k2 & ->).
  destruct (disjoint_unique (blocks s t) a n _ _ _ k1 c (k2 ++ b :: l2) D Hn Hb ltac:(rewrite Hb, <- app_assoc; reflexivity) C Cc) as (X & _). apply (f_equal (@length block)) in X. rewrite app_length in X. cbn in X. lia.
Qed.
(** a name's view of a table after a write to it *)
Lemma wrote_get s name t start a vals old s' : reachable s -> wf_slave s' -> named s name t start -> disjoint_blocks (blocks s t) -> 1 <= zlen vals ->
  get_values s name a (zlen vals) = Ok old -> wrote s t a vals s' -> get_values s' name a (zlen vals) = Ok vals.
Proof.
  intros R W N D Hn G (l1 & b & l2 & (Hb & C & _) & Hb' & F). destruct (get_values_inv s name a (zlen vals) old t start R N ltac:(lia) G) as (k1 & b' & k2 & (st & A & Ht & Hk & Hst & Hnone) & C' & _).
  destruct (disjoint_unique _ a _ _ _ _ _ _ _ D Hn Hb Hk C C') as (<- & <- & <-). pose proof F as (_ & F2 & F3 & _).
  rewrite (get_values_ok s' name a (zlen vals) t l1 (overlay b a vals) l2 W); [|exists st; rewrite F2; unfold has_table; rewrite F3; repeat split; try assumption|exact C|lia].
  f_equal. apply values_at_overlay; [exact C|]. pose proof (reachable_wf s R t) as WF. rewrite Hb in WF. rewrite Forall_forall in WF. apply (WF b). apply in_elt.
Qed.
Lemma find_start_upd l1 b b1 l2 st : b_start b1 = b_start b -> forall k i c, find_start (l1 ++ b :: l2) st k = Some (i, c) ->
  exists c', find_start (l1 ++ b1 :: l2) st k = Some (i, c') /\ (c' = c \/ c = b /\ c' = b1).
Proof.
  intros E. induction l1 as [|x l1 IH]; intros k i c F; cbn [app find_start] in *.
  - rewrite E. destruct (b_start b =? st); [injection F as <- <-; exists b1; auto|exists c; auto].
  - destruct (b_start x =? st); [injection F as <- <-; exists x; auto|]. now apply IH.
Qed.
Lemma nth_error_ext {A} : forall l l' : list A, (forall k, nth_error l k = nth_error l' k) -> l = l'.
Proof.
  induction l as [|x l IH]; intros [|y l'] H; [reflexivity|specialize (H O); discriminate H|specialize (H O); discriminate H|].
  pose proof (H O) as H0. injection H0 as ->. f_equal. apply IH. intros k. exact (H (S k)).
Qed.
Lemma overlay_elsewhere b a vals a' n : covers b a (zlen vals) -> covers b a' n -> 0 <= n -> zlen (b_data b) = b_size b -> a' + n <= a \/ a + zlen vals <= a' -> values_at (overlay b a vals) a' n = values_at b a' n.
Proof.
  intros C C' Hn Z0 O. apply nth_error_ext. intros k. pose proof (values_at_length b a' n C' Hn Z0) as L1.
  pose proof (values_at_length (overlay b a vals) a' n C' Hn (overlay_length b a vals C Z0)) as L2. unfold zlen in L1, L2.
  destruct (Z.lt_ge_cases (Z.of_nat k) n) as [K|K].
  - replace k with (Z.to_nat (Z.of_nat k)) by lia. rewrite (values_at_nth (overlay b a vals) a' n) by (try exact C'; lia). rewrite (values_at_nth b a' n) by (try exact C'; lia). apply cell_overlay_out; auto. lia.
  - rewrite (proj2 (nth_error_None _ _)) by lia. symmetry. apply nth_error_None. lia.
Qed.
Lemma wrote_elsewhere s name t start a vals s' t' a' n vs : reachable s -> wf_slave s' -> named s name t' start -> 0 <= n ->
  get_values s name a' n = Ok vs -> wrote s t a vals s' -> ~ same_table s t t' \/ a' + n <= a \/ a + zlen vals <= a' -> get_values s' name a' n = Ok vs.
Proof.
  intros R W N Hn G (l1 & b & l2 & (Hb & C & _) & Hb' & F) O. pose proof (reachable_wf s R) as Ws. destruct (get_values_inv s name a' n vs t' start R N Hn G) as (k1 & b' & k2 & NB & C' & ->).
  pose proof F as (_ & F2 & F3 & F4 & F5). pose proof (names_block_wf _ _ _ _ _ _ Ws NB) as Wb. pose proof NB as (st & A & Ht & Hk & Hst & Hnone).
  assert (T' : has_table s' t') by (unfold has_table; rewrite F3; exact Ht).
  assert (K : exists j1 c j2, names_block s' name t' j1 c j2 /\ covers c a' n /\ values_at c a' n = values_at b' a' n).
  { destruct (Bool.bool_dec (match get4 (sl_alias s) t, get4 (sl_alias s) t' with Some r, Some r' => if btype_eq_dec r r' then true else false | None, None => true | _, _ => false end) true) as [Q|Q].
    - assert (ST : same_table s t t') by (unfold same_table; destruct (get4 (sl_alias s) t) as [r|], (get4 (sl_alias s) t') as [r'|]; try discriminate Q; [destruct (btype_eq_dec r r'); [now subst|discriminate Q]|reflexivity]).
      destruct O as [O|O]; [contradiction|]. pose proof (F4 t' ST) as E. rewrite Hb' in E. assert (E0 : blocks s t' = l1 ++ b :: l2) by (rewrite <- Hb; unfold blocks; unfold same_table in ST; now rewrite ST).
      assert (GB : find_start (blocks s t') st 0 = Some (length k1, b')).
      { assert (G' : get_block s name = Ok (t', length k1, b')) by (apply get_block_ok; eauto). unfold get_block in G'. rewrite A in G'. unfold mem_get in G'. unfold blocks. unfold has_table in Ht. destruct (get4 (sl_alias s) t') as [r|]; [|discriminate G'].
        cbn [bind] in G'. destruct (find_start (get4 (sl_lists s) r) st 0) as [[i c]|]; [|discriminate G']. now injection G' as -> ->. }
      rewrite E0 in GB. destruct (find_start_upd l1 b (overlay b a vals) l2 st eq_refl 0%nat _ _ GB) as (c & FS & Hc).
      assert (G2 : get_block s' name = Ok (t', length k1, c)).
      { unfold get_block. rewrite F2, A. unfold mem_get. unfold blocks in E. unfold has_table in T'. destruct (get4 (sl_alias s') t') as [r|]; [|now destruct T']. cbn [bind]. rewrite E, FS. reflexivity. }
      apply get_block_ok in G2 as (j1 & j2 & NB2 & _). exists j1, c, j2. split; [exact NB2|]. destruct Hc as [-> | (-> & ->)]; [auto|]. split; [exact C'|]. apply overlay_elsewhere; auto. apply Wb.
    - assert (NT : ~ same_table s t t') by (intros X; apply Q; unfold same_table in X; rewrite X; destruct (get4 (sl_alias s) t') as [r'|]; [destruct (btype_eq_dec r' r'); [reflexivity|contradiction]|reflexivity]).
      exists k1, b', k2. split; [|auto]. exists st. rewrite F2, (F5 t' NT). auto. }
  destruct K as (j1 & c & j2 & NB2 & C2 & <-). exact (get_values_ok s' name a' n t' j1 c j2 W NB2 C2 Hn).
Qed.
Lemma calls_reachable d ops : db_reachable d -> Forall sane_op ops -> db_reachable (db_run d ops).
Proof. intros (e & ops0 & F & ->) S. exists e, (ops0 ++ ops). split; [now apply Forall_app|]. unfold db_run. now rewrite fold_left_app. Qed.

(** ** C105 *)
(** At every moment: what get_values gives is what a master reads there, by the function code of the table ... *)
Theorem C105_registers : forall p last d u name (holding : bool) a n vals unsigned,
  0 <= last <= 65535 -> db_reachable d -> block_in d u name (if holding then HOLDING_REGISTERS else ANALOG_INPUTS) -> is_unsigned d u unsigned ->
  app_gets d u name a n vals -> 1 <= n <= 125 -> fits true a -> Forall (fits unsigned) vals ->
  ex_result (snd (round_trip p last d u (ReadRegs holding a n))) = Some (Ok (RTuple (map as_word vals))).
Proof.
  intros p last d u name holding a n vals un T D (s & start & G & N & Dj) (s0 & G0 & <-) (s1 & G1 & V) Hn Ha F.
  assert (s0 = s) by congruence. assert (s1 = s) by congruence. subst s0 s1. destruct (db_reachable_slave d u s D G) as [R _].
  pose proof (C39_read_registers p last d u holding a n s vals T D G Hn Ha (get_is_stored s name _ start a n vals R N Dj ltac:(lia) V) F) as H.
  destruct (round_trip p last d u (ReadRegs holding a n)) as [d' e]. exact (proj1 H).
Qed.
Theorem C105_bits : forall p last d u name (coils : bool) a n vals,
  0 <= last <= 65535 -> db_reachable d -> block_in d u name (if coils then COILS else DISCRETE_INPUTS) ->
  app_gets d u name a n vals -> 1 <= n <= 2000 -> fits true a ->
  ex_result (snd (round_trip p last d u (ReadBits coils a n))) = Some (Ok (RTuple (map as_bit vals))).
Proof.
  intros p last d u name coils a n vals T D (s & start & G & N & Dj) (s1 & G1 & V) Hn Ha.
  assert (s1 = s) by congruence. subst s1. destruct (db_reachable_slave d u s D G) as [R _].
  pose proof (C39_read_bits p last d u coils a n s vals T D G Hn Ha (get_is_stored s name _ start a n vals R N Dj ltac:(lia) V)) as H.
  destruct (round_trip p last d u (ReadBits coils a n)) as [d' e]. exact (proj1 H).
Qed.
(** ... so what set_values has stored is what the master reads. *)
Lemma set_app d u name a v d' : db_reachable d -> app_sets d u name a v d' ->
  db_reachable d' /\ app_gets d' u name a (zlen (values_of v)) (values_of v) /\
  (forall t, block_in d u name t -> block_in d' u name t) /\ (forall b, is_unsigned d u b -> is_unsigned d' u b).
Proof.
  intros D (-> & s & s' & G & S). destruct (db_reachable_slave d u s D G) as [R _].
  assert (G' : get_slave (db_run d [DbCall u (OpSetValues name a v)]) u = Ok s').
  { cbn [db_run fold_left db_step]. rewrite G. cbn [slave_step]. rewrite S. apply get_slave_put_same. }
  destruct (C03_set_get s name a v s' R S) as (H1 & (L1 & L2 & L3 & L4) & _).
  split; [apply calls_reachable; [exact D|repeat constructor]|]. split; [exists s'; auto|]. split.
  - intros t (s0 & st & G0 & N & Dj). assert (s0 = s) by congruence. subst s0. exists s', st. split; [exact G'|]. split; [unfold named in *; now rewrite L2|]. exact (disjoint_shape _ _ (L4 t) Dj).
  - intros b (s0 & G0 & <-). exists s'. split; [exact G'|congruence].
Qed.
Theorem C105_set_then_read_registers : forall p last d u name (holding : bool) a v d' unsigned,
  0 <= last <= 65535 -> db_reachable d -> block_in d u name (if holding then HOLDING_REGISTERS else ANALOG_INPUTS) -> is_unsigned d u unsigned ->
  app_sets d u name a v d' -> 1 <= zlen (values_of v) <= 125 -> fits true a -> Forall (fits unsigned) (values_of v) ->
  ex_result (snd (round_trip p last d' u (ReadRegs holding a (zlen (values_of v))))) = Some (Ok (RTuple (map as_word (values_of v)))).
Proof.
  intros p last d u name holding a v d' un T D B U S L Ha F. destruct (set_app d u name a v d' D S) as (D' & A & B' & U').
  now apply (C105_registers p last d' u name holding a _ _ un T D' (B' _ B) (U' _ U) A).
Qed.
Theorem C105_set_then_read_bits : forall p last d u name (coils : bool) a v d',
  0 <= last <= 65535 -> db_reachable d -> block_in d u name (if coils then COILS else DISCRETE_INPUTS) ->
  app_sets d u name a v d' -> 1 <= zlen (values_of v) <= 2000 -> fits true a ->
  ex_result (snd (round_trip p last d' u (ReadBits coils a (zlen (values_of v))))) = Some (Ok (RTuple (map as_bit (values_of v)))).
Proof.
  intros p last d u name coils a v d' T D B S L Ha. destruct (set_app d u name a v d' D S) as (D' & A & B' & U').
  now apply (C105_bits p last d' u name coils a _ _ T D' (B' _ B) A).
Qed.
(** What a master has written is what get_values gives; every other range of every block of the slave, and every other slave, is as before. *)
Theorem C105_write_then_get : forall p last d u c t a vals unsigned name old,
  0 <= last <= 65535 -> db_reachable d -> is_unsigned d u unsigned -> lands unsigned c = Some (t, a, vals) -> at_most c -> encodable c ->
  block_in d u name t -> app_gets d u name a (zlen vals) old ->
  let '(d', e) := round_trip p last d u c in
  (exists echo, ex_result e = Some (Ok (RTuple [a; echo]))) /\ app_gets d' u name a (zlen vals) vals /\
  (forall name' t' start' s, get_slave d u = Ok s -> named s name' t' start' -> forall a' n' vs, 0 <= n' -> app_gets d u name' a' n' vs ->
     ~ same_table s t t' \/ a' + n' <= a \/ a + zlen vals <= a' -> app_gets d' u name' a' n' vs) /\
  (forall w name' a' n' vs, w <> u -> (app_gets d' w name' a' n' vs <-> app_gets d w name' a' n' vs)).
Proof.
  intros p last d u c t a vals un name old T D (s & G & <-) Lc Am E (s0 & start & G0 & N & Dj) (s1 & G1 & V).
  assert (s0 = s) by congruence. assert (s1 = s) by congruence. subst s0 s1. destruct (db_reachable_slave d u s D G) as [R _].
  assert (PW : exists echo, plain_write (sl_unsigned s) c t a vals echo /\ 1 <= zlen vals).
  { destruct c as [| | |a0 v|a0 v| |a0 vs|a0 vs| | | | |]; try discriminate Lc; cbn [lands] in Lc; injection Lc as <- <- <-; cbn [at_most] in Am; eexists.
    - split; [exact (PWCoil _ _ _)|]. change (1 <= 1). lia.
    - split; [exact (PWReg _ _ _)|]. change (1 <= 1). lia.
    - split; [exact (PWCoils _ _ _ Am)|]. unfold zlen in *; rewrite map_length; lia.
    - split; [exact (PWRegs _ _ _ Am)|]. unfold zlen in *; rewrite map_length; lia. }
  destruct PW as (echo & PW & L1).
  pose proof (write_read p last d u c t a vals echo s T D G PW E (ex_intro _ old (get_is_stored s name t start a _ old R N Dj L1 V))) as H.
  destruct (round_trip p last d u c) as [d' e]. destruct H as (H1 & _ & H3 & s' & G' & W & WF & _). split; [now exists echo|]. split; [|split].
  - exists s'. split; [exact G'|]. now apply (wrote_get s name t start a vals old s').
  - intros name' t' start' s0 E0 N' a' n' vs Hn (s2 & G2 & V2) O. assert (s0 = s) by congruence. assert (s2 = s) by congruence. subst s0 s2. exists s'. split; [exact G'|].
    now apply (wrote_elsewhere s name' t start' a vals s' t' a' n' vs).
  - intros w name' a' n' vs Hw. unfold app_gets. now rewrite (H3 w Hw).
Qed.

(** ** what does not hold *)
(** Where blocks overlap (C01) the application and the master work on different registers. *)
Definition overlapping : databank := db_run (new_databank true)
  [DbAdd 5 true None; DbCall 5 (OpAddBlock "a" 3 0 100); DbCall 5 (OpAddBlock "b" 3 100 100); DbCall 5 (OpAddBlock "c" 3 50 10)].
Theorem C105_refuted :
  ~ (forall p last d u name a v d', 0 <= last <= 65535 -> db_reachable d -> (exists s start, get_slave d u = Ok s /\ named s name HOLDING_REGISTERS start) -> app_sets d u name a v d' ->
     1 <= zlen (values_of v) <= 125 -> fits true a -> Forall (fits true) (values_of v) ->
     ex_result (snd (round_trip p last d' u (ReadRegs true a (zlen (values_of v))))) = Some (Ok (RTuple (map as_word (values_of v))))).
Proof.
  intros H. specialize (H TCP 0 overlapping 5 "a" 55 (SvNum 7) (db_run overlapping [DbCall 5 (OpSetValues "a" 55 (SvNum 7))]) ltac:(lia)).
  assert (D : db_reachable overlapping) by (exists true; eexists; split; [|reflexivity]; repeat constructor).
  specialize (H D ltac:(eexists; eexists; split; vm_compute; reflexivity) ltac:(split; [reflexivity|]; eexists; eexists; split; vm_compute; reflexivity) ltac:(vm_compute; split; congruence) ltac:(vm_compute; split; congruence) ltac:(repeat constructor; vm_compute; congruence)).
  vm_compute in H. discriminate H.
Qed.
(** A number that is no register value is accepted by set_values and given back by get_values; the master gets an answer without a header for the whole range (C28), and so a ModbusInvalidResponseError. *)
Theorem C105_any_value_refuted : exists d', app_sets demo_db 3 "r" 104 (SvNum 70000) d' /\ app_gets d' 3 "r" 104 1 [70000] /\
  forall p, ex_result (snd (round_trip p 0 d' 3 (ReadRegs true 100 10))) = Some (Err ModbusInvalidResponseError).
Proof.
  eexists. split; [split; [reflexivity|]; eexists; eexists; split; vm_compute; reflexivity|]. split; [eexists; split; vm_compute; reflexivity|]. intros []; vm_compute; reflexivity.
Qed.
(** A coil set to 2 by the application is 2 for it and 1 for the master. *)
Theorem C105_coil_refuted : exists d', app_sets demo_db 3 "c" 4 (SvNum 2) d' /\ app_gets d' 3 "c" 4 1 [2] /\
  ex_result (snd (round_trip TCP 0 d' 3 (ReadBits true 4 1))) = Some (Ok (RTuple [1])).
Proof.
  eexists. split; [split; [reflexivity|]; eexists; eexists; split; vm_compute; reflexivity|]. split; [eexists; split; vm_compute; reflexivity|]. vm_compute; reflexivity.
Qed.
Example C105_ex : block_in demo_db 9 "r" HOLDING_REGISTERS /\ is_unsigned demo_db 9 false /\ app_sets demo_db 9 "r" 102 (SvSeq [-5; 7]) (db_run demo_db [DbCall 9 (OpSetValues "r" 102 (SvSeq [-5; 7]))]) /\
  lands false (WriteRegs 102 [-5; 65534]) = Some (HOLDING_REGISTERS, 102, [-5; -2]) /\ app_gets demo_db 9 "r" 102 2 [0; 0] /\ encodable (WriteRegs 102 [-5; 65534]).
Proof.
  split. { eexists. eexists. split; [vm_compute; reflexivity|]. split; [vm_compute; reflexivity|]. intros [|[|i]] [|[|j]] b b' X B B'; vm_compute in B, B'; try discriminate B; try discriminate B'. now destruct X. }
  split; [eexists; split; vm_compute; reflexivity|]. split; [split; [reflexivity|]; eexists; eexists; split; vm_compute; reflexivity|]. split; [reflexivity|]. split; [eexists; split; vm_compute; reflexivity|].
  repeat split; cbn; try lia. repeat constructor; unfold reg_value; lia.
Qed.

Print Assumptions C105_registers.
Print Assumptions C105_bits.
Print Assumptions C105_set_then_read_registers.
Print Assumptions C105_set_then_read_bits.
Print Assumptions C105_write_then_get.
Print Assumptions C105_refuted.
Print Assumptions C105_any_value_refuted.
Print Assumptions C105_coil_refuted.
