(** C123: blocks are added and removed while masters and the application use others. *)
From Verif Require Import Base PyStruct Defines SlaveModel BaseFacts StructFacts SlaveSpec SlaveProofs HandlerProofs RequestProofs GeneralProofs SlaveInv BlockSpec AtomicProofs QueryModel DatabankModel DbSpec DatabankProofs PropApart.
From Coq Require Import Lia.
Open Scope string_scope. Open Scope list_scope. Open Scope Z_scope.

(** ** Specification *)
(** What happens to the slave: a numbered user does something (PropApart.v: a request of a master, set_values, get_values), or somebody adds or removes a block. *)
Inductive deed :=
| Use (w : nat) (x : act)
| AddBlock (name : string) (block_type start size : Z)
| RemoveBlock (name : string).
Definition deed_step (s : slave) (d : deed) : slave * option (nat * got) :=
  match d with
  | Use w x => let '(s', g) := act_step s x in (s', Some (w, g))
  | AddBlock name ty start size => (fst (add_block s name ty start size), None)
  | RemoveBlock name => (fst (remove_block s name), None)
  end.
Fixpoint deeds (s : slave) (l : list deed) : slave * list (nat * got) :=
  match l with
  | [] => (s, [])
  | d :: rest => let '(s1, g) := deed_step s d in let '(s2, gs) := deeds s1 rest in (s2, match g with Some x => x :: gs | None => gs end)
  end.
(** The acts of one user. *)
Definition acts_of (w : nat) (l : list deed) : history := flat_map (fun d => match d with Use v x => if Nat.eqb v w then [(w, x)] else [] | _ => [] end) l.
(** The block names an act mentions. *)
Definition mentions (x : act) (name : string) : Prop := match x with ARequest _ _ => False | ASet n _ _ | AGet n _ _ => n = name end.
(** No cell of start..start+size of table [t] (nor of a table that shares its list) is in the region. *)
Definition clear_of (m : region) (s : slave) (t : btype) (start size : Z) : Prop := forall t' x, same_table s t t' -> start <= x < start + size -> ~ m t' x.
(** The deeds keep out of each other's way, as seen by user [w], who has the cells of [regions w] and the names [mine]: he and the others ask for
    cells of their own; the blocks added and removed have no cell in his region, and their names are not his. *)
Definition proper (w : nat) (regions : nat -> region) (mine : string -> Prop) (s : slave) (d : deed) : Prop :=
  match d with
  | Use v x => keeps_to s (regions v) x /\ (v = w -> forall name, mentions x name -> mine name)
  | AddBlock name ty start size => ~ mine name /\ forall t, btype_of_Z ty = Some t -> clear_of (regions w) s t start size
  | RemoveBlock name => ~ mine name /\ forall t l1 b l2, names_block s name t l1 b l2 -> clear_of (regions w) s t (b_start b) (b_size b)
  end.
Fixpoint properly (w : nat) (regions : nat -> region) (mine : string -> Prop) (s : slave) (l : list deed) : Prop :=
  match l with [] => True | d :: rest => proper w regions mine s d /\ properly w regions mine (fst (deed_step s d)) rest end.

(** ** Lists of blocks without some blocks that are of no interest *)
Inductive sub (D : block -> Prop) : list block -> list block -> Prop :=
| sub_nil : sub D [] []
| sub_skip b l l' : D b -> sub D l l' -> sub D (b :: l) l'
| sub_keep b l l' : sub D l l' -> sub D (b :: l) (b :: l').
Lemma sub_refl D l : sub D l l. Proof. induction l; [apply sub_nil|now apply sub_keep]. Qed.
Lemma sub_app D l1 l1' l2 l2' : sub D l1 l1' -> sub D l2 l2' -> sub D (l1 ++ l2) (l1' ++ l2').
Proof. intros H K. induction H; cbn [List.app]; [exact K|now apply sub_skip|now apply sub_keep]. Qed.
Lemma sub_mono (D E : block -> Prop) l l' : (forall b, D b -> E b) -> sub D l l' -> sub E l l'.
Proof. intros I H. induction H; [apply sub_nil|apply sub_skip; auto|now apply sub_keep]. Qed.
Lemma find_sub (D : block -> Prop) a n : (forall b, D b -> (b_start b <=? a) && (a - b_start b + n <=? b_size b) = false) -> forall l l' i i', sub D l l' ->
  match find_block l a n i, find_block l' a n i' with
  | Some (j, b, o), Some (j', b', o') => b = b' /\ o = o' /\ (i <= j)%nat /\ (i' <= j')%nat /\ forall c, sub D (list_upd l (j - i) c) (list_upd l' (j' - i') c)
  | None, None => True
  | _, _ => False
  end.
Proof.
  intros K l l' i i' H. revert i i'. induction H as [|b l l' Hb H IH|b l l' H IH]; intros i i'; cbn [find_block]; [exact I| |].
  - rewrite (K b Hb). specialize (IH (S i) i'). destruct (find_block l a n (S i)) as [[[j x] o]|], (find_block l' a n i') as [[[j' x'] o']|]; auto.
    destruct IH as (-> & -> & A1 & A2 & A3). repeat split; try lia. intros c. replace (j - i)%nat with (S (j - S i)) by lia. cbn [list_upd]. now apply sub_skip.
  - destruct (_ && _); [repeat split; auto; intros c; rewrite !Nat.sub_diag; cbn [list_upd]; now apply sub_keep|].
    specialize (IH (S i) (S i')). destruct (find_block l a n (S i)) as [[[j x] o]|], (find_block l' a n (S i')) as [[[j' x'] o']|]; auto.
    destruct IH as (-> & -> & A1 & A2 & A3). repeat split; try lia. intros c. replace (j - i)%nat with (S (j - S i)) by lia. replace (j' - i')%nat with (S (j' - S i')) by lia. cbn [list_upd]. now apply sub_keep.
Qed.
Lemma start_sub (D : block -> Prop) a : (forall b, D b -> (b_start b =? a) = false) -> forall l l' i i', sub D l l' ->
  match find_start l a i, find_start l' a i' with
  | Some (j, b), Some (j', b') => b = b' /\ (i <= j)%nat /\ (i' <= j')%nat /\ forall c, sub D (list_upd l (j - i) c) (list_upd l' (j' - i') c)
  | None, None => True
  | _, _ => False
  end.
Proof.
  intros K l l' i i' H. revert i i'. induction H as [|b l l' Hb H IH|b l l' H IH]; intros i i'; cbn [find_start]; [exact I| |].
  - rewrite (K b Hb). specialize (IH (S i) i'). destruct (find_start l a (S i)) as [[j x]|], (find_start l' a i') as [[j' x']|]; auto.
    destruct IH as (-> & A1 & A2 & A3). repeat split; try lia. intros c. replace (j - i)%nat with (S (j - S i)) by lia. cbn [list_upd]. now apply sub_skip.
  - destruct (_ =? _); [repeat split; auto; intros c; rewrite !Nat.sub_diag; cbn [list_upd]; now apply sub_keep|].
    specialize (IH (S i) (S i')). destruct (find_start l a (S i)) as [[j x]|], (find_start l' a (S i')) as [[j' x']|]; auto.
    destruct IH as (-> & A1 & A2 & A3). repeat split; try lia. intros c. replace (j - i)%nat with (S (j - S i)) by lia. replace (j' - i')%nat with (S (j' - S i')) by lia. cbn [list_upd]. now apply sub_keep.
Qed.
(** [p] is [s] without some blocks outside of the region, and with the same names of interest *)
Definition out (m : region) (s : slave) (t : btype) (b : block) : Prop := 0 < b_size b /\ clear_of m s t (b_start b) (b_size b).
Definition pruned (m : region) (N : string -> Prop) (s p : slave) : Prop :=
  sl_unsigned s = sl_unsigned p /\ sl_alias s = sl_alias p /\ (forall n, N n -> assoc String.eqb n (sl_names s) = assoc String.eqb n (sl_names p)) /\
  (forall n t start, N n -> named s n t start -> m t start) /\ forall t, sub (out m s t) (blocks s t) (blocks p t).
Lemma out_alias m s s' t b : sl_alias s' = sl_alias s -> out m s t b -> out m s' t b.
Proof. intros E (A & B). split; [exact A|]. unfold clear_of, same_table in *. now rewrite E. Qed.
Lemma out_table m s t t' b : same_table s t t' -> out m s t b -> out m s t' b.
Proof. intros Q (A & B). split; [exact A|]. intros t2 x Q2. apply B. unfold same_table in *. congruence. Qed.
Lemma put_pruned m N s p t i i' b d : pruned m N s p -> has_table s t -> (forall c, sub (out m s t) (list_upd (blocks s t) i c) (list_upd (blocks p t) i' c)) ->
  pruned m N (put_block_data s t i b d) (put_block_data p t i' b d).
Proof.
  intros (A1 & A2 & A3 & A4 & A5) T H. assert (T' : has_table p t) by (unfold has_table in *; now rewrite <- A2). rewrite !put_table by assumption.
  unfold pruned, named. rewrite !mem_set_unsigned, !mem_set_names, !mem_set_alias. repeat split; auto. intros t2.
  assert (Al : forall l x, out m s x l -> out m (mem_set s t (list_upd (blocks s t) i (with_data b d))) x l) by (intros l x; apply out_alias; apply mem_set_alias).
  destruct (same_dec s t t2) as [Q|Q].
  - assert (Q' : same_table p t t2) by (unfold same_table in *; now rewrite <- A2). rewrite !blocks_mem_set by assumption. eapply sub_mono; [|apply H]. intros c Hc. apply Al. now apply out_table with t.
  - assert (Q' : ~ same_table p t t2) by (unfold same_table in *; now rewrite <- A2). rewrite !blocks_mem_set_other by assumption. eapply sub_mono; [|apply A5]. intros c. apply Al.
Qed.
Lemma gbo_pruned m N s p t a n : pruned m N s p -> 1 <= n -> inside m t a n ->
  (exists e, get_block_and_offset s t a n = Err e /\ get_block_and_offset p t a n = Err e) \/
  exists i i' b off, get_block_and_offset s t a n = Ok (i, b, off) /\ get_block_and_offset p t a n = Ok (i', b, off) /\ forall d, pruned m N (put_block_data s t i b d) (put_block_data p t i' b d).
Proof.
  intros P Hn I. pose proof P as (A1 & A2 & A3 & A4 & A5). unfold get_block_and_offset. destruct (has_table_dec s t) as [T|T].
  - assert (T' : has_table p t) by (unfold has_table in *; now rewrite <- A2). rewrite !mem_get_ok by assumption. cbn [bind].
    assert (K : forall b, out m s t b -> (b_start b <=? a) && (a - b_start b + n <=? b_size b) = false).
    { intros b (Sz & C). destruct (_ && _) eqn:E; [|reflexivity]. exfalso. apply (C t a eq_refl); [lia|]. apply I. lia. }
    pose proof (find_sub _ a n K _ _ 0%nat 0%nat (A5 t)) as F. destruct (find_block _ a n 0) as [[[j x] o]|], (find_block _ a n 0) as [[[j' x'] o']|]; try contradiction; [|left; eexists; split; reflexivity].
    destruct F as (-> & -> & _ & _ & F). right. exists j, j', x', o'. split; [reflexivity|]. split; [reflexivity|]. intros d. apply put_pruned; auto. intros c. specialize (F c). now rewrite !Nat.sub_0_r in F.
  - assert (T' : ~ has_table p t) by (unfold has_table in *; now rewrite <- A2). rewrite !mem_get_err by assumption. left. eexists; split; reflexivity.
Qed.
(** ** The same request to a slave and to the slave without the other blocks *)
Definition same_do (m : region) (N : string -> Prop) (x y : slave * res (list Z)) : Prop := pruned m N (fst x) (fst y) /\ snd x = snd y.
Ltac fail_same := split; [assumption|reflexivity].
Ltac block_of m N s p t a n G H :=
  destruct (gbo_pruned m N s p t a n G ltac:(lia) ltac:(assumption)) as [(?e & -> & ->)|(?i & ?i' & ?b & ?off & -> & -> & H)]; [fail_same|].
Lemma p_fmtH m N s p : pruned m N s p -> fmtH s = fmtH p. Proof. intros (U & _). now apply unsigned_fmtH. Qed.
Lemma p_fmtB m N s p : pruned m N s p -> fmtB s = fmtB p. Proof. intros (U & _). now apply unsigned_fmtB. Qed.
Lemma digital_same m N s p t pdu : pruned m N s p -> inside m t (be16 pdu 1) (be16 pdu 3) -> read_digital s t pdu = read_digital p t pdu.
Proof.
  intros G I. unfold read_digital. destruct (unpack2 _ _) as [[a n]|] eqn:U; [|reflexivity]. cbn [bind]. destruct (_ || _) eqn:R; [reflexivity|].
  destruct (unpack2_inv ">HH" false pdu a n eq_refl U) as (_ & -> & ->).
  destruct (gbo_pruned m N s p t (be16 pdu 1) (be16 pdu 3) G ltac:(lia) I) as [(e & -> & ->)|(i & i' & b & off & -> & -> & _)]; [reflexivity|]. cbn [bind]. destruct (pack _ _); [|reflexivity]. cbn [bind]. now rewrite (p_fmtB m N s p G).
Qed.
Lemma registers_same m N s p t pdu : pruned m N s p -> inside m t (be16 pdu 1) (be16 pdu 3) -> read_registers s t pdu = read_registers p t pdu.
Proof.
  intros G I. unfold read_registers. destruct (unpack2 _ _) as [[a n]|] eqn:U; [|reflexivity]. cbn [bind]. destruct (_ || _) eqn:R; [reflexivity|].
  destruct (unpack2_inv ">HH" false pdu a n eq_refl U) as (_ & -> & ->).
  destruct (gbo_pruned m N s p t (be16 pdu 1) (be16 pdu 3) G ltac:(lia) I) as [(e & -> & ->)|(i & i' & b & off & -> & -> & _)]; [reflexivity|]. cbn [bind]. destruct (pack _ _); [|reflexivity]. cbn [bind]. now rewrite (p_fmtH m N s p G).
Qed.
Lemma wsc_same m N s p pdu : pruned m N s p -> inside m COILS (be16 pdu 1) 1 -> same_do m N (write_single_coil s pdu) (write_single_coil p pdu).
Proof.
  intros G I. unfold write_single_coil. destruct (unpack2 _ _) as [[a v]|] eqn:U; [|fail_same]. destruct (unpack2_inv ">HH" false pdu a v eq_refl U) as (_ & -> & _). block_of m N s p COILS (be16 pdu 1) 1 G H.
  destruct (v =? 0); [destruct (py_set _ _ _); [split; [apply H|reflexivity]|fail_same]|]. destruct (v =? 65280); [destruct (py_set _ _ _); [split; [apply H|reflexivity]|fail_same]|fail_same].
Qed.
Lemma wsr_same m N s p pdu : pruned m N s p -> inside m HOLDING_REGISTERS (be16 pdu 1) 1 -> same_do m N (write_single_register s pdu) (write_single_register p pdu).
Proof.
  intros G I. unfold write_single_register. pose proof G as (U & _). rewrite <- U. destruct (unpack2 _ _) as [[a v]|] eqn:E; [|fail_same].
  assert (A : a = be16 pdu 1) by (destruct (sl_unsigned s); [destruct (unpack2_inv ">HH" false pdu a v eq_refl E) as (_ & X & _)|destruct (unpack2_inv ">Hh" true pdu a v eq_refl E) as (_ & X & _)]; exact X). subst a.
  block_of m N s p HOLDING_REGISTERS (be16 pdu 1) 1 G H. destruct (py_set _ _ _); [split; [apply H|reflexivity]|fail_same].
Qed.
Lemma mwr_same m N s p pdu : pruned m N s p -> inside m HOLDING_REGISTERS (be16 pdu 1) 1 -> same_do m N (mask_write_register s pdu) (mask_write_register p pdu).
Proof.
  intros G I. unfold mask_write_register. destruct (unpack3 _ _) as [[[a x] y]|] eqn:U; [|fail_same]. apply unpack3m_inv in U as (_ & -> & _). block_of m N s p HOLDING_REGISTERS (be16 pdu 1) 1 G H.
  destruct (py_get _ _); [|fail_same]. destruct (py_set _ _ _); [split; [apply H|reflexivity]|fail_same].
Qed.
Lemma wmr_same m N s p pdu : pruned m N s p -> inside m HOLDING_REGISTERS (be16 pdu 1) (be16 pdu 3) -> same_do m N (write_multiple_registers s pdu) (write_multiple_registers p pdu).
Proof.
  intros G I. unfold write_multiple_registers. destruct (unpack3 _ _) as [[[a q] bc]|] eqn:U; [|fail_same]. destruct (_ || _ || _) eqn:R; [fail_same|]. apply unpack3_inv in U as (_ & -> & -> & _).
  block_of m N s p HOLDING_REGISTERS (be16 pdu 1) (be16 pdu 3) G H. rewrite (p_fmtH m N s p G). destruct (write_regs_loop _ _ _ _ _ _ _) as [d []]; (split; [apply H|reflexivity]).
Qed.
Lemma wmc_same m N s p pdu : pruned m N s p -> inside m COILS (be16 pdu 1) (be16 pdu 3) -> same_do m N (write_multiple_coils s pdu) (write_multiple_coils p pdu).
Proof.
  intros G I. unfold write_multiple_coils. destruct (unpack3 _ _) as [[[a q] bc]|] eqn:U; [|fail_same]. destruct (_ || _ || _) eqn:R; [fail_same|]. apply unpack3_inv in U as (_ & -> & -> & _).
  block_of m N s p COILS (be16 pdu 1) (be16 pdu 3) G H. rewrite (p_fmtB m N s p G). destruct (write_bits_outer _ _ _ _ _ _ _ _) as [d []]; (split; [apply H|reflexivity]).
Qed.
Lemma rw_same m N s p pdu : pruned m N s p -> inside m HOLDING_REGISTERS (be16 pdu 1) (be16 pdu 3) -> inside m HOLDING_REGISTERS (be16 pdu 5) (be16 pdu 7) ->
  same_do m N (read_write_multiple_registers s pdu) (read_write_multiple_registers p pdu).
Proof.
  intros G I J. unfold read_write_multiple_registers. destruct (unpack5 _ _) as [[[[[ra rq] wa] wq] bc]|] eqn:U; [|fail_same].
  destruct ((rq <=? 0) || _) eqn:R; [fail_same|]. apply unpack5_inv in U as (_ & -> & -> & -> & -> & _).
  block_of m N s p HOLDING_REGISTERS (be16 pdu 1) (be16 pdu 3) G H. rewrite (p_fmtH m N s p G). destruct (bind _ _) as [resp|]; [|fail_same]. destruct (_ || _ || _) eqn:R2; [fail_same|]. clear H.
  block_of m N s p HOLDING_REGISTERS (be16 pdu 5) (be16 pdu 7) G H. destruct (write_regs_loop _ _ _ _ _ _ _) as [d []]; (split; [apply H|reflexivity]).
Qed.
Lemma map_same m N fc rest f s p : fn_code_map fc = Some f -> pruned m N s p -> inside_opt m (read_range (fc :: rest)) -> inside_opt m (write_range (fc :: rest)) -> same_do m N (f s (fc :: rest)) (f p (fc :: rest)).
Proof.
  intros M G I J. unfold fn_code_map in M. cbn [read_range] in I. cbn [write_range] in J.
  unfold READ_COILS, READ_DISCRETE_INPUTS, READ_INPUT_REGISTERS, READ_HOLDING_REGISTERS, READ_EXCEPTION_STATUS, WRITE_SINGLE_COIL, WRITE_SINGLE_REGISTER, WRITE_MULTIPLE_COILS,
    WRITE_MULTIPLE_REGISTERS, MASK_WRITE_REGISTER, READ_WRITE_MULTIPLE_REGISTERS in M.
  destruct (fc =? 1) eqn:E1; [injection M as <-; split; [exact G|cbn [snd]; now apply digital_same with m N]|].
  destruct (fc =? 2) eqn:E2; [injection M as <-; split; [exact G|cbn [snd]; now apply digital_same with m N]|].
  destruct (fc =? 4) eqn:E4; [replace (fc =? 3) with false in I by lia; injection M as <-; split; [exact G|cbn [snd]; now apply registers_same with m N]|].
  destruct (fc =? 3) eqn:E3; [injection M as <-; split; [exact G|cbn [snd]; now apply registers_same with m N]|].
  destruct (fc =? 7); [injection M as <-; split; [exact G|reflexivity]|].
  destruct (fc =? 5) eqn:E5; [injection M as <-; now apply wsc_same|]. destruct (fc =? 6) eqn:E6; [injection M as <-; now apply wsr_same|].
  destruct (fc =? 15) eqn:E15; [injection M as <-; now apply wmc_same|]. destruct (fc =? 16) eqn:E16; [injection M as <-; now apply wmr_same|].
  destruct (fc =? 22) eqn:E22; [injection M as <-; now apply mwr_same|]. destruct (fc =? 23) eqn:E23; [injection M as <-; now apply rw_same|]. discriminate M.
Qed.
Lemma hr_same m N pdu bc s p : pruned m N s p -> inside_opt m (read_range pdu) -> inside_opt m (write_range pdu) -> same_do m N (handle_request s pdu bc) (handle_request p pdu bc).
Proof.
  intros G I J. unfold handle_request. destruct pdu as [|fc rest]; [fail_same|]. rewrite unpack_fc. destruct (fn_code_map fc) as [f|] eqn:F; [|fail_same].
  destruct (bc && _); [fail_same|]. destruct (map_same m N fc rest f s p F G I J) as (A & B). destruct (f s _) as [s1 r1], (f p _) as [s2 r2]. cbn [fst snd] in *. subst r2.
  destruct r1 as [[|]|]; [fail_same|destruct bc; fail_same|fail_same].
Qed.
Lemma get_block_pruned m N s p name : pruned m N s p -> N name ->
  (exists e, get_block s name = Err e /\ get_block p name = Err e) \/
  exists t i i' b, get_block s name = Ok (t, i, b) /\ get_block p name = Ok (t, i', b) /\ forall d, pruned m N (put_block_data s t i b d) (put_block_data p t i' b d).
Proof.
  intros P Hn. pose proof P as (A1 & A2 & A3 & A4 & A5). unfold get_block. rewrite <- (A3 name Hn). specialize (A4 name). unfold named in A4. destruct (assoc String.eqb name (sl_names s)) as [[t start]|]; [|left; eexists; split; reflexivity].
  destruct (has_table_dec s t) as [T|T].
  - assert (T' : has_table p t) by (unfold has_table in *; now rewrite <- A2). rewrite !mem_get_ok by assumption. cbn [bind].
    assert (K : forall b, out m s t b -> (b_start b =? start) = false).
    { intros b (Sz & C). destruct (_ =? _) eqn:E; [|reflexivity]. exfalso. apply (C t start eq_refl); [lia|]. now apply A4. }
    pose proof (start_sub _ start K _ _ 0%nat 0%nat (A5 t)) as F. destruct (find_start (blocks s t) start 0) as [[j x]|], (find_start (blocks p t) start 0) as [[j' x']|]; try contradiction; [|left; eexists; split; reflexivity].
    destruct F as (-> & _ & _ & F). right. exists t, j, j', x'. split; [reflexivity|]. split; [reflexivity|]. intros d. apply put_pruned; auto. intros c. specialize (F c). now rewrite !Nat.sub_0_r in F.
  - assert (T' : ~ has_table p t) by (unfold has_table in *; now rewrite <- A2). rewrite !mem_get_err by assumption. left. eexists; split; reflexivity.
Qed.
Lemma act_pruned m N s p x : pruned m N s p -> keeps_to s m x -> (forall name, mentions x name -> N name) -> pruned m N (fst (act_step s x)) (fst (act_step p x)) /\ snd (act_step s x) = snd (act_step p x).
Proof.
  intros G K M. destruct x as [pdu bc|name a v|name a n]; cbn [act_step keeps_to mentions] in *.
  - destruct K as (K1 & K2). destruct (hr_same m N pdu bc s p G K1 K2) as (A & B). destruct (handle_request s pdu bc), (handle_request p pdu bc). cbn [fst snd] in *. split; [exact A|congruence].
  - unfold set_values. destruct (get_block_pruned m N s p name G (M _ eq_refl)) as [(e & -> & ->)|(t & i & i' & b & -> & -> & H)]; [auto|]. destruct (_ || _); [auto|]. destruct v as [l|y]; [cbn [fst snd]; auto|].
    destruct (py_set _ _ _); cbn [fst snd]; auto.
  - cbn [fst snd]. split; [exact G|]. f_equal. unfold get_values. destruct (get_block_pruned m N s p name G (M _ eq_refl)) as [(e & -> & ->)|(t & i & i' & b & -> & -> & H)]; reflexivity.
Qed.
(** ** What the others do *)
Lemma sub_all D (P : block -> Prop) l l' : sub D l l' -> Forall P l -> Forall P l'.
Proof. intros H F. induction H; inversion_clear F || constructor; auto. Qed.
Lemma pruned_wf m N s p : pruned m N s p -> wf_slave s -> wf_slave p.
Proof. intros (_ & _ & _ & _ & H) W t. eapply sub_all; [apply H|apply W]. Qed.
Lemma sub_at (D : block -> Prop) b b' : (D b -> D b') -> forall l1 l2 l', sub D (l1 ++ b :: l2) l' ->
  sub D (l1 ++ b' :: l2) l' \/ exists k1 k2, l' = k1 ++ b :: k2 /\ sub D (l1 ++ b' :: l2) (k1 ++ b' :: k2).
Proof.
  intros K. induction l1 as [|x l1 IH]; intros l2 l' H; cbn [List.app] in *; inversion H as [|? ? ? Dx H'|? ? ? H']; subst.
  - left. apply sub_skip; auto.
  - right. exists [], l'0. split; [reflexivity|]. now apply sub_keep.
  - destruct (IH l2 l' H') as [A|(k1 & k2 & -> & A)]; [left; now apply sub_skip|]. right. exists k1, k2. split; [reflexivity|]. now apply sub_skip.
  - destruct (IH l2 l'0 H') as [A|(k1 & k2 & -> & A)]; [left; now apply sub_keep|]. right. exists (x :: k1), k2. split; [reflexivity|]. now apply sub_keep.
Qed.
Lemma sub_cut (D : block -> Prop) b : forall l1 l2 l', sub D (l1 ++ b :: l2) l' -> sub D (l1 ++ l2) l' \/ exists k1 k2, l' = k1 ++ b :: k2 /\ sub D (l1 ++ l2) (k1 ++ k2).
Proof.
  induction l1 as [|x l1 IH]; intros l2 l' H; cbn [List.app] in *; inversion H as [|? ? ? Dx H'|? ? ? H']; subst.
  - now left.
  - right. exists [], l'0. now split.
  - destruct (IH l2 l' H') as [A|(k1 & k2 & -> & A)]; [left; now apply sub_skip|]. right. exists k1, k2. split; [reflexivity|]. now apply sub_skip.
  - destruct (IH l2 l'0 H') as [A|(k1 & k2 & -> & A)]; [left; now apply sub_keep|]. right. exists (x :: k1), k2. split; [reflexivity|]. now apply sub_keep.
Qed.
Lemma sub_drop (D : block -> Prop) b : D b -> forall l l', sub D l l' -> forall k1 k2, l' = k1 ++ b :: k2 -> sub D l (k1 ++ k2).
Proof.
  intros K l l' H. induction H as [|x l l' Dx H IH|x l l' H IH]; intros k1 k2 E; [destruct k1; discriminate E|apply sub_skip; auto|].
  destruct k1 as [|y k1]; cbn [List.app] in *; injection E as -> E; [subst; now apply sub_skip|]. apply sub_keep. now apply IH.
Qed.
Lemma sub_insert (D : block -> Prop) b : D b -> forall l1 l2 l', sub D (l1 ++ l2) l' -> sub D (l1 ++ b :: l2) l'.
Proof.
  intros K. induction l1 as [|x l1 IH]; intros l2 l' H; cbn [List.app] in *; [now apply sub_skip|]. inversion H; subst; [apply sub_skip|apply sub_keep]; auto.
Qed.
(** a change of one table and of the names, in the slave and in the slave without the other blocks *)
Lemma pruned_set m N s p t nm l k : pruned m N s p -> has_table s t -> (forall n, N n -> assoc String.eqb n nm = assoc String.eqb n (sl_names s)) -> sub (out m s t) l k ->
  pruned m N (mem_set (with_names s nm) t l) (mem_set p t k).
Proof.
  intros (A1 & A2 & A3 & A4 & A5) T Nm H. unfold pruned, named. rewrite !mem_set_unsigned, !mem_set_names, !mem_set_alias. cbn [with_names sl_unsigned sl_names sl_alias].
  split; [exact A1|]. split; [exact A2|]. split; [intros n Hn; now rewrite Nm, A3|]. split; [intros n t0 st Hn; rewrite Nm by exact Hn; now apply A4|]. intros t2.
  assert (Tw : has_table (with_names s nm) t) by exact T. assert (T' : has_table p t) by (unfold has_table in *; now rewrite <- A2).
  assert (Al : forall c x, out m s x c -> out m (mem_set (with_names s nm) t l) x c) by (intros c x; apply out_alias; exact (mem_set_alias (with_names s nm) t l)).
  destruct (same_dec s t t2) as [Q|Q].
  - assert (Q' : same_table p t t2) by (unfold same_table in *; now rewrite <- A2). rewrite (blocks_mem_set (with_names s nm) t l t2 Tw Q), (blocks_mem_set p t k t2 T' Q'). eapply sub_mono; [|exact H]. intros c Hc. apply Al. now apply out_table with t.
  - assert (Q' : ~ same_table p t t2) by (unfold same_table in *; now rewrite <- A2). rewrite (blocks_mem_set_other (with_names s nm) t l t2) by assumption. rewrite blocks_mem_set_other by assumption. eapply sub_mono; [|apply A5]. intros c. apply Al.
Qed.
Lemma agree_set m p q t k k' : agree m p q -> has_table p t -> (forall t2, same_table p t t2 -> Forall2 (near (m t2)) k k') -> agree m (mem_set p t k) (mem_set q t k').
Proof.
  intros (A1 & A2 & A3 & A4) T H. unfold agree. rewrite !mem_set_unsigned, !mem_set_names, !mem_set_alias. repeat split; auto. intros t2. assert (T' : has_table q t) by (unfold has_table in *; now rewrite <- A3).
  destruct (same_dec p t t2) as [Q|Q].
  - assert (Q' : same_table q t t2) by (unfold same_table in *; now rewrite <- A3). rewrite !blocks_mem_set by assumption. now apply H.
  - assert (Q' : ~ same_table q t t2) by (unfold same_table in *; now rewrite <- A3). rewrite !blocks_mem_set_other by assumption. apply A4.
Qed.
Lemma set_same m p t : has_table p t -> agree m p (mem_set p t (blocks p t)).
Proof.
  intros T. unfold agree. rewrite !mem_set_unsigned, !mem_set_names, !mem_set_alias. repeat split; auto. intros t2. assert (R : forall l, Forall2 (near (m t2)) l l) by (induction l; constructor; [apply near_refl|assumption]).
  destruct (same_dec p t t2) as [Q|Q]; [rewrite blocks_mem_set by assumption|rewrite blocks_mem_set_other by assumption; apply R]. unfold blocks. rewrite Q. apply R.
Qed.
(** the two runs: with everybody, and [w] alone *)
Definition twins (m : region) (N : string -> Prop) (s s2 : slave) : Prop := exists p p2, pruned m N s p /\ pruned m N s2 p2 /\ agree m p p2.
Lemma names_id s : with_names s (sl_names s) = s. Proof. now destruct s. Qed.
Lemma over_pruned m N s p t a vals l1 b l2 : pruned m N s p -> wf_slave s -> has_table s t -> blocks s t = l1 ++ b :: l2 -> covers b a (zlen vals) ->
  (forall t2 x, same_table s t t2 -> a <= x < a + zlen vals -> ~ m t2 x) -> exists p1, pruned m N (mem_set s t (l1 ++ overlay b a vals :: l2)) p1 /\ agree m p p1.
Proof.
  intros P W T Hb C D. pose proof P as (A1 & A2 & A3 & A4 & A5). assert (T' : has_table p t) by (unfold has_table in *; now rewrite <- A2).
  pose proof (A5 t) as S5. rewrite Hb in S5. assert (K : out m s t b -> out m s t (overlay b a vals)) by (intros X; exact X).
  assert (X : forall k, sub (out m s t) (l1 ++ overlay b a vals :: l2) k -> pruned m N (mem_set s t (l1 ++ overlay b a vals :: l2)) (mem_set p t k)).
  { intros k H. pose proof (pruned_set m N s p t (sl_names s) _ k P T ltac:(auto) H) as Y. now rewrite names_id in Y. }
  destruct (sub_at _ b (overlay b a vals) K l1 l2 _ S5) as [H|(k1 & k2 & E & H)].
  - exists (mem_set p t (blocks p t)). split; [now apply X|now apply set_same].
  - exists (mem_set p t (k1 ++ overlay b a vals :: k2)). split; [now apply X|]. apply over_agree; auto.
    + pose proof (pruned_wf m N s p P W t) as F. rewrite E in F. apply Forall_app in F as (_ & F). now inversion F.
    + intros t2 x Q. apply D. unfold same_table in *. now rewrite A2.
Qed.
Lemma others_pruned m m' N s p x : wf_slave s -> keeps_to s m' x -> apart s m m' -> pruned m N s p -> exists p1, pruned m N (fst (act_step s x)) p1 /\ agree m p p1.
Proof.
  intros W K Ap P. assert (Same : exists p1, pruned m N s p1 /\ agree m p p1) by (exists p; split; [exact P|apply agree_refl]).
  destruct x as [pdu bc|name a v|name a n]; cbn [act_step keeps_to] in *; [| |exact Same].
  - destruct K as (_ & K). pose proof (hr_state s pdu bc W) as Hs. destruct (handle_request s pdu bc) as [s1 r]. cbn [fst snd] in *.
    destruct Hs as [-> | (fc & rest & t & a & n & vals & _ & Wr & (l1 & b & l2 & T & Sv & Lv & ->) & _)]; [exact Same|]. rewrite Wr in K. cbn [inside_opt] in K.
    destruct Sv as (Hb & (C1 & C2) & _). apply over_pruned; auto; [unfold covers; lia|].
    intros t2 y Q Y Hy. apply (Ap t2 t y); [unfold same_table in *; congruence|exact Hy|]. apply K. lia.
  - destruct (set_cases s name a v W) as [(e & ->)|(t & start & l1 & b & l2 & Nm & (st & _ & T & Hb & _) & C & Wb & ->)]; [exact Same|]. cbn [fst]. apply over_pruned; auto.
    intros t2 y Q Y Hy. apply (Ap t2 t y); [unfold same_table in *; congruence|exact Hy|]. apply (K t start Nm). rewrite size_list. lia.
Qed.
Lemma add_cases s name ty start size : (exists e, add_block s name ty start size = (s, Err e)) \/
  exists t i, btype_of_Z ty = Some t /\ has_table s t /\ 0 < size /\
    add_block s name ty start size = (mem_set (with_names s (assoc_put String.eqb name (t, start) (sl_names s))) t (list_insert (blocks s t) i (new_block start size)), Ok tt).
Proof.
  unfold add_block. destruct (size <=? 0) eqn:Z0; [left; eexists; reflexivity|]. destruct (start <? 0); [left; eexists; reflexivity|]. destruct (assoc _ _ _); [left; eexists; reflexivity|].
  destruct (btype_of_Z ty) as [t|]; [|left; eexists; reflexivity]. destruct (has_table_dec s t) as [T|T]; [rewrite mem_get_ok by exact T|rewrite mem_get_err by exact T; left; eexists; reflexivity].
  destruct (add_block_scan _ _ _ _) as [i|e]; [|left; eexists; reflexivity]. right. exists t, i. split; [reflexivity|]. split; [exact T|]. split; [lia|reflexivity].
Qed.
Lemma remove_cases s name : (exists e, remove_block s name = (s, Err e)) \/
  exists t l1 b l2, names_block s name t l1 b l2 /\ remove_block s name = (mem_set (with_names s (assoc_del String.eqb name (sl_names s))) t (l1 ++ l2), Ok tt).
Proof.
  unfold remove_block. destruct (get_block s name) as [[[t i] b]|e] eqn:G; [|left; eexists; reflexivity]. apply get_block_ok in G as (l1 & l2 & Nb & ->). right. exists t, l1, b, l2. split; [exact Nb|].
  pose proof Nb as (st & _ & T & Hb & _). assert (Tw : has_table (with_names s (assoc_del String.eqb name (sl_names s))) t) by exact T. rewrite (mem_get_ok _ _ Tw). change (blocks (with_names s (assoc_del String.eqb name (sl_names s))) t) with (blocks s t). rewrite Hb. unfold list_remove_at.
  rewrite firstn_app, Nat.sub_diag, firstn_all, app_nil_r. now rewrite skipn_app, skipn_all2, Nat.sub_succ_l, Nat.sub_diag by lia.
Qed.
Lemma add_twins m N s s2 name ty start size : twins m N s s2 -> ~ N name -> (forall t, btype_of_Z ty = Some t -> clear_of m s t start size) -> twins m N (fst (add_block s name ty start size)) s2.
Proof.
  intros (p & p2 & P & P2 & G) Hn C. destruct (add_cases s name ty start size) as [(e & ->)|(t & i & Ty & T & Sz & ->)]; cbn [fst]; [exists p, p2; auto|].
  exists (mem_set p t (blocks p t)), p2. split; [|split; [exact P2|]].
  - pose proof P as (_ & _ & _ & _ & A5). apply pruned_set with (1 := P); auto; [intros n Nn; apply assoc_put_other; congruence|]. unfold list_insert. apply sub_insert; [|rewrite firstn_skipn; apply A5]. assert (Bs : b_size (new_block start size) = size) by (cbn [b_size new_block]; unfold zlen; rewrite repeat_length; lia). unfold out. rewrite Bs. split; [exact Sz|]. now apply C.
  - eapply agree_trans; [apply agree_sym, set_same|exact G]. destruct P as (_ & A2 & _). unfold has_table in *. now rewrite <- A2.
Qed.
Lemma remove_twins m N s s2 name : wf_slave s -> twins m N s s2 -> ~ N name -> (forall t l1 b l2, names_block s name t l1 b l2 -> clear_of m s t (b_start b) (b_size b)) -> twins m N (fst (remove_block s name)) s2.
Proof.
  intros W (p & p2 & P & P2 & G) Hn C. destruct (remove_cases s name) as [(e & ->)|(t & l1 & b & l2 & Nb & ->)]; cbn [fst]; [exists p, p2; auto|].
  specialize (C _ _ _ _ Nb). pose proof Nb as (st & _ & T & Hb & _). pose proof P as (_ & A2 & _ & _ & A5). pose proof P2 as (_ & B2 & _ & _ & B5). pose proof G as (_ & _ & G3 & G4). specialize (A5 t). rewrite Hb in A5.
  assert (Tp : has_table p t) by (unfold has_table in *; now rewrite <- A2). assert (Tp2 : has_table p2 t) by (unfold has_table in *; now rewrite <- G3). assert (T2 : has_table s2 t) by (unfold has_table in *; now rewrite B2).
  assert (Nm : forall n, N n -> assoc String.eqb n (assoc_del String.eqb name (sl_names s)) = assoc String.eqb n (sl_names s)) by (intros n Nn; apply assoc_del_other; congruence).
  assert (O : out m s t b). { split; [|exact C]. specialize (W t). rewrite Hb in W. apply Forall_app in W as (_ & W). inversion_clear W as [|? ? (_ & X & _)]. exact X. }
  destruct (sub_cut _ b l1 l2 _ A5) as [H|(k1 & k2 & E & H)].
  - exists (mem_set p t (blocks p t)), p2. split; [apply pruned_set with (1 := P); auto|]. split; [exact P2|]. eapply agree_trans; [apply agree_sym, set_same, Tp|exact G].
  - pose proof (G4 t) as F. rewrite E in F. apply Forall2_app_inv_l in F as (k1' & K2 & F1 & F2 & E2). inversion F2 as [|? b' ? k2' Nb' F3]; subst K2.
    assert (L1 : length k1 = length k1') by (clear - F1; induction F1; cbn; auto).
    exists (mem_set p t (k1 ++ k2)), (mem_set p2 t (k1' ++ k2')). split; [apply pruned_set with (1 := P); auto|]. split.
    + specialize (B5 t). pose proof (pruned_set m N s2 p2 t (sl_names s2) (blocks s2 t) (k1' ++ k2') P2 T2 ltac:(auto)) as X. rewrite names_id in X.
      assert (O2 : out m s2 t b'). { destruct O as (O1 & O2), Nb' as (N1 & N2 & _). split; [lia|]. rewrite <- N1, <- N2. intros t' ? Q. apply O2. unfold same_table in *. now rewrite A2, G3, <- B2. }
      specialize (X (sub_drop _ b' O2 _ _ B5 _ _ E2)). destruct X as (X1 & X2 & X3 & X4 & X5). destruct P2 as (Y1 & Y2 & Y3 & Y4 & Y5). 
      unfold pruned. rewrite !mem_set_unsigned, !mem_set_names, !mem_set_alias in *. repeat split; auto.
      intros t2. specialize (X5 t2). eapply sub_mono; [|replace (blocks s2 t2) with (blocks (mem_set s2 t (blocks s2 t)) t2); [exact X5|]]; [intros c; apply out_alias; symmetry; apply mem_set_alias|].
      destruct (same_dec s2 t t2) as [Q|Q]; [rewrite blocks_mem_set by assumption; unfold blocks; now rewrite Q|now rewrite blocks_mem_set_other by assumption].
    + apply agree_set; auto. intros t2 Q. assert (Q2 : same_table p2 t t2) by (unfold same_table in *; now rewrite <- G3). pose proof (G4 t2) as F.
      assert (E3 : blocks p t2 = k1 ++ b :: k2) by (rewrite <- E; unfold blocks; now rewrite Q). assert (E4 : blocks p2 t2 = k1' ++ b' :: k2') by (rewrite <- E2; unfold blocks; now rewrite Q2).
      rewrite E3, E4 in F. apply F2_split in F as (Fa & _ & Fb); [now apply Forall2_app|exact L1].
Qed.
Lemma deed_reachable s d : reachable s -> reachable (fst (deed_step s d)).
Proof.
  intros R. destruct d as [w x|name ty start size|name]; cbn [deed_step].
  - pose proof (act_reachable s x R) as H. now destruct (act_step s x).
  - pose proof (reachable_step s (OpAddBlock name ty start size) R) as H. cbn [slave_step] in H. now destruct (add_block s name ty start size).
  - pose proof (reachable_step s (OpRemoveBlock name) R) as H. cbn [slave_step] in H. now destruct (remove_block s name).
Qed.
Lemma deed_alias s d : wf_slave s -> sl_alias (fst (deed_step s d)) = sl_alias s.
Proof.
  intros W. destruct d as [w x|name ty start size|name]; cbn [deed_step fst].
  - destruct (act_same s x W) as (_ & E). now destruct (act_step s x).
  - destruct (add_cases s name ty start size) as [(e & ->)|(t & i & _ & _ & _ & ->)]; cbn [fst]; [reflexivity|]. exact (mem_set_alias (with_names s _) t _).
  - destruct (remove_cases s name) as [(e & ->)|(t & l1 & b & l2 & _ & ->)]; cbn [fst]; [reflexivity|]. exact (mem_set_alias (with_names s _) t _).
Qed.
Lemma undisturbed w regions mine : forall l s s2, reachable s -> reachable s2 -> twins (regions w) mine s s2 -> properly w regions mine s l -> (forall v, v <> w -> apart s (regions w) (regions v)) ->
  own w (snd (deeds s l)) = snd (happens s2 (acts_of w l)).
Proof.
  induction l as [|d l IH]; intros s s2 R R2 T K Ap; [reflexivity|]. destruct K as (K1 & K2). cbn [deeds acts_of flat_map]. fold (acts_of w l).
  pose proof (reachable_wf _ R) as W. pose proof (reachable_wf _ R2) as W2. pose proof (deed_reachable s d R) as R'. pose proof (deed_alias s d W) as Al.
  assert (Ap' : forall v, v <> w -> apart (fst (deed_step s d)) (regions w) (regions v)) by (intros v V; now apply apart_alias with s, Ap).
  destruct d as [v x|name ty start size|name]; cbn [proper] in K1.
  - destruct K1 as (K0 & K1). destruct T as (p & p2 & P & P2 & G). destruct (Nat.eqb v w) eqn:Q.
    + apply Nat.eqb_eq in Q as ->. specialize (K1 eq_refl). destruct (act_pruned _ _ s p x P K0 K1) as (X1 & X2).
      assert (Kp : forall q, sl_names q = sl_names p \/ (forall n, mine n -> assoc String.eqb n (sl_names q) = assoc String.eqb n (sl_names p)) -> keeps_to q (regions w) x).
      { intros q Hq. assert (Hq' : forall n, mine n -> assoc String.eqb n (sl_names q) = assoc String.eqb n (sl_names s)).
        { destruct P as (_ & _ & A3 & _). intros n Hn. rewrite (A3 n Hn). destruct Hq as [-> |Hq]; auto. }
        destruct x as [pdu bc|nm a vs|nm a n]; cbn [keeps_to mentions] in *; unfold named in *; [exact K0|rewrite (Hq' nm) by (apply K1; reflexivity); exact K0|]. rewrite (Hq' nm) by (apply K1; reflexivity). exact K0. }
      destruct (act_alike (regions w) p p2 x G (pruned_wf _ _ _ _ P W) (pruned_wf _ _ _ _ P2 W2) (Kp p ltac:(now left))) as (Y1 & Y2).
      destruct (act_pruned _ _ s2 p2 x P2) as (Z1 & Z2); [apply Kp; right; destruct P2 as (_ & _ & A3 & _), G as (_ & G2 & _); intros n Hn; now rewrite (A3 n Hn), G2|exact K1|].
      pose proof (act_reachable s2 x R2) as R2'. cbn [List.app happens deed_step] in *. destruct (act_step s x) as [s1 g], (act_step s2 x) as [s3 g3]. cbn [fst snd] in *.
      specialize (IH s1 s3 R' R2' ltac:(eexists; eexists; eauto) K2 Ap'). destruct (deeds s1 l) as [s4 gs], (happens s3 (acts_of w l)) as [s5 gs5]. cbn [fst snd own filter] in *. rewrite Nat.eqb_refl. rewrite <- IH. congruence.
    + apply Nat.eqb_neq in Q. destruct (others_pruned (regions w) (regions v) mine s p x W K0 (Ap v Q) P) as (p1 & P1 & A1). cbn [List.app deed_step] in *. destruct (act_step s x) as [s1 g]. cbn [fst snd] in *.
      assert (T1 : twins (regions w) mine s1 s2) by (exists p1, p2; split; [exact P1|]; split; [exact P2|]; eapply agree_trans; [apply agree_sym, A1|exact G]).
      specialize (IH s1 s2 R' R2 T1 K2 Ap'). destruct (deeds s1 l) as [s4 gs]. cbn [fst snd own filter] in *. replace (Nat.eqb v w) with false by (symmetry; now apply Nat.eqb_neq). exact IH.
  - destruct K1 as (K0 & K1). pose proof (add_twins _ _ s s2 name ty start size T K0 K1) as T1. cbn [deed_step fst List.app] in *. specialize (IH _ s2 R' R2 T1 K2 Ap'). destruct (deeds (fst (add_block s name ty start size)) l) as [s4 gs]. exact IH.
  - destruct K1 as (K0 & K1). pose proof (remove_twins _ _ s s2 name W T K0 K1) as T1. cbn [deed_step fst List.app] in *. specialize (IH _ s2 R' R2 T1 K2 Ap'). destruct (deeds (fst (remove_block s name)) l) as [s4 gs]. exact IH.
Qed.
(** ** C123 *)
(** Whatever blocks are added and removed and whatever the others do meanwhile: a user gets, act by act, what he would get if he were alone with the slave as it was. *)
Theorem C123_undisturbed : forall s l w regions mine, reachable s -> properly w regions mine s l -> (forall v, v <> w -> apart s (regions w) (regions v)) ->
  (forall name t start, mine name -> named s name t start -> regions w t start) -> own w (snd (deeds s l)) = snd (happens s (acts_of w l)).
Proof.
  intros s l w regions mine R K Ap Nm. apply undisturbed with regions mine; auto. exists s, s. assert (P : pruned (regions w) mine s s) by (repeat split; auto; intros t; apply sub_refl). split; [exact P|]. split; [exact P|apply agree_refl].
Qed.

(** ** A concrete case: user 0 has the registers 0..3 of block "r", user 1 the registers 20..24; blocks come and go *)
Definition maint_regions (w : nat) : region := fun t x => t = HOLDING_REGISTERS /\ match w with 0%nat => 0 <= x < 4 | 1%nat => 20 <= x < 25 | _ => False end.
Definition maint_mine : string -> Prop := fun n => n = "r".
Definition maint_deeds : list deed :=
  [Use 0 (ARequest [6; 0; 1; 0; 7] false); Use 1 (ARequest [3; 0; 20; 0; 2] false); AddBlock "x" 3 20 5; Use 1 (ARequest [6; 0; 21; 1; 1] false); Use 0 (ARequest [3; 0; 0; 0; 3] false);
   AddBlock "z" 3 90 5; RemoveBlock "c"; AddBlock "y" 3 15 5; Use 0 (ASet "r" 2 (SvSeq [8; 9])); RemoveBlock "x"; Use 1 (AGet "x" 20 2); Use 0 (ARequest [3; 0; 0; 0; 4] false); Use 0 (AGet "r" 1 3)].
Example C123_ex : reachable bench /\ (forall v, v <> 0%nat -> apart bench (maint_regions 0) (maint_regions v)) /\ (forall name t start, maint_mine name -> named bench name t start -> maint_regions 0 t start) /\
  snd (deeds bench maint_deeds) = [(0%nat, GPdu (Ok [6; 0; 1; 0; 7])); (1%nat, GPdu (Ok [131; 2])); (1%nat, GPdu (Ok [6; 0; 21; 1; 1])); (0%nat, GPdu (Ok [3; 6; 0; 0; 0; 7; 0; 0]));
    (0%nat, GDone (Ok tt)); (1%nat, GValues (Err MissingKeyError)); (0%nat, GPdu (Ok [3; 8; 0; 0; 0; 7; 0; 8; 0; 9])); (0%nat, GValues (Ok [7; 8; 9]))] /\
  properly 0 maint_regions maint_mine bench maint_deeds.
Proof.
  split; [apply bench_reachable|]. split.
  { intros v V t t' x S1 (E & H) (E' & H'). unfold maint_regions in *. destruct v as [|[|v]]; [congruence| |destruct H']; cbn in H, H'; lia. }
  split. { intros name t start -> H. vm_compute in H. injection H as <- <-. split; [reflexivity|lia]. }
  split; [vm_compute; reflexivity|].
  assert (In0 : forall a n, 0 <= a -> a + n <= 4 -> inside (maint_regions 0) HOLDING_REGISTERS a n) by (intros a n A B x X; split; [reflexivity|lia]).
  assert (In1 : forall a n, 20 <= a -> a + n <= 25 -> inside (maint_regions 1) HOLDING_REGISTERS a n) by (intros a n A B x X; split; [reflexivity|lia]).
  assert (Far : forall s t start size, 4 <= start -> clear_of (maint_regions 0) s t start size) by (intros s t start size A t' x _ X (_ & H); lia).
  assert (NotIt : forall n, n <> "r" -> ~ maint_mine n) by (intros n N H; exact (N H)).
  assert (Rm : forall s name x, get_block s name = x -> match x with Ok (t, _, b) => clear_of (maint_regions 0) s t (b_start b) (b_size b) | Err _ => True end ->
            forall t l1 b l2, names_block s name t l1 b l2 -> clear_of (maint_regions 0) s t (b_start b) (b_size b)).
  { intros s name x G H t l1 b l2 Nb. assert (E : get_block s name = Ok (t, length l1, b)) by (apply get_block_ok; eauto). rewrite E in G. subst x. exact H. }
  unfold maint_deeds. cbn [properly].
  repeat match goal with |- proper _ _ _ _ _ /\ _ => split end; try exact I; cbn [proper keeps_to mentions].
  all: try (split; [|intros _ name []]; split; try exact I; first [apply In0; vm_compute; discriminate|apply In1; vm_compute; discriminate]).
  all: try (split; [apply NotIt; discriminate|intros; apply Far; vm_compute; discriminate]).
  1,3: (split; [apply NotIt; discriminate|]; intros t l1 b l2 Nb; eapply Rm; [vm_compute; reflexivity| |exact Nb]).
  - intros t' x S1 X (E & _). subst t'. discriminate S1.
  - apply Far. vm_compute. discriminate.
  - split; [|intros _ name <-; reflexivity]. intros t start N. vm_compute in N. injection N as <- <-. apply In0; vm_compute; discriminate.
  - split; [|discriminate]. split; [vm_compute; discriminate|]. intros t start N. vm_compute in N. discriminate N.
  - split; [|intros _ name <-; reflexivity]. split; [vm_compute; discriminate|]. intros t start N. vm_compute in N. injection N as <- <-. apply In0; vm_compute; discriminate.
Qed.
(** The condition on the blocks added is needed: add_block lets blocks through that lie on others (C01), and then a master finds another register there. *)
Theorem C123_accepted_refuted : exists s s1, reachable s /\ add_block s "x" 3 55 10 = (s1, Ok tt) /\
  snd (handle_request s [3; 0; 57; 0; 1] false) = Ok [3; 2; 0; 7] /\ snd (handle_request s1 [3; 0; 57; 0; 1] false) = Ok [3; 2; 0; 0] /\ get_values s1 "b" 57 1 = Ok [7].
Proof.
  exists (slave_run (new_slave true None) [OpAddBlock "b" 3 50 10; OpAddBlock "a" 3 100 10; OpSetValues "b" 57 (SvNum 7)]). eexists. split; [eexists; eexists; split; [|reflexivity]; constructor|].
  split; [vm_compute; reflexivity|]. repeat split; vm_compute; reflexivity.
Qed.

Print Assumptions C123_undisturbed.
Print Assumptions C123_accepted_refuted.
