(** Property C95: slaves whose cells hold Python objects other than integers.
    Vocabulary: Spec.v (be16), SlaveModel.v (the slave of integers, properties C03 - C23) and the definitions marked "spec" below. *)
From Coq Require Import Lia ZifyBool ZifyNat.
From Verif Require Import Base BaseFacts PyStruct Defines Spec SlaveModel StructFacts SlaveSpec SlaveProofs HandlerProofs RequestProofs GeneralProofs BlockSpec AtomicProofs DatabankProofs ValueModel.
Open Scope string_scope.
Open Scope list_scope.
Open Scope Z_scope.

(** Spec: the integer [z] can stand for the object [v]: it is v if v is an integer (False is 0, True is 1); otherwise z is any integer that
    has the truth value of v. *)
Definition stands (v : pv) (z : Z) : Prop :=
  match v with
  | VInt i => z = i
  | VBool b => z = if b then 1 else 0
  | VObj _ t => t = negb (z =? 0)
  end.
(** Spec: a slave of integers with the same blocks, whose cells stand for the cells of the slave of objects. *)
Definition same_block (R : pv -> Z -> Prop) (b : vblock) (b' : block) : Prop :=
  vb_start b = b_start b' /\ vb_size b = b_size b' /\ Forall2 R (vb_data b) (b_data b').
Definition represents_by (R : pv -> Z -> Prop) (s : vslave) (s' : slave) : Prop :=
  vs_unsigned s = sl_unsigned s' /\ vs_names s = sl_names s' /\ vs_alias s = sl_alias s' /\
  forall t, Forall2 (same_block R) (get4 (vs_lists s) t) (get4 (sl_lists s') t).
Definition represents : vslave -> slave -> Prop := represents_by stands.
(** Spec: the cells that a request for [n] items at [a] looks at: those of the first block of the type that has them all. *)
Definition has_all (b : vblock) (a n : Z) : Prop := vb_start b <= a /\ a + n <= vb_start b + vb_size b.
Definition sees (s : vslave) (t : btype) (a n : Z) (cells : list pv) : Prop :=
  exists before b after, vmem_get s t = Ok (before ++ b :: after) /\ has_all b a n /\ (forall b', In b' before -> ~ has_all b' a n) /\
    cells = py_slice (vb_data b) (a - vb_start b) (a - vb_start b + n).
(** Spec: the request looks at [n] registers at [a] as numbers: function codes 3, 4, 23 (what it reads) and 22. *)
Definition reads_registers (pdu : list Z) (t : btype) (a n : Z) : Prop :=
  exists fc rest, pdu = fc :: rest /\ a = be16 pdu 1 /\
  ((fc = 3 /\ t = HOLDING_REGISTERS /\ n = be16 pdu 3) \/ (fc = 4 /\ t = ANALOG_INPUTS /\ n = be16 pdu 3) \/
   (fc = 23 /\ t = HOLDING_REGISTERS /\ n = be16 pdu 3) \/ (fc = 22 /\ t = HOLDING_REGISTERS /\ n = 1)).
Definition not_a_number (v : pv) : Prop := match v with VObj _ _ => True | _ => False end.
Definition reads_an_object (s : vslave) (pdu : list Z) : Prop :=
  exists t a n cells v, reads_registers pdu t a n /\ sees s t a n cells /\ In v cells /\ not_a_number v.

(** ** Lists *)
Lemma stands_as v z : stands v z = match as_int v with Some i => z = i | None => truth v = negb (z =? 0) end.
Proof. destruct v as [i|[]|i t]; reflexivity. Qed.
Lemma not_as v : not_a_number v -> as_int v = None.
Proof. destruct v; [intros []|intros []|reflexivity]. Qed.
Lemma as_not v : as_int v = None -> not_a_number v.
Proof. destruct v; [discriminate|discriminate|intros _; exact Logic.I]. Qed.
Lemma stands_truth v z : stands v z -> truth v = negb (z =? 0).
Proof. unfold stands. destruct v as [i|b|i t]; cbn; [now intros ->|intros ->; destruct b; reflexivity|auto]. Qed.
Lemma stands_int z : stands (VInt z) z. Proof. reflexivity. Qed.
Lemma F2_zlen {A B} (R : A -> B -> Prop) l l' : Forall2 R l l' -> zlen l = zlen l'.
Proof. intros H. unfold zlen. induction H; cbn [length]; lia. Qed.
Lemma F2_firstn {A B} (R : A -> B -> Prop) n : forall l l', Forall2 R l l' -> Forall2 R (firstn n l) (firstn n l').
Proof. induction n; intros l l' H; [constructor|]. destruct H; cbn; [constructor|constructor; auto]. Qed.
Lemma F2_skipn {A B} (R : A -> B -> Prop) n : forall l l', Forall2 R l l' -> Forall2 R (skipn n l) (skipn n l').
Proof. induction n; intros l l' H; [exact H|]. destruct H; cbn; [constructor|auto]. Qed.
Lemma F2_slice {A B} (R : A -> B -> Prop) l l' a b : Forall2 R l l' -> Forall2 R (py_slice l a b) (py_slice l' a b).
Proof. intros H. unfold py_slice. rewrite (F2_zlen _ _ _ H). apply F2_firstn, F2_skipn, H. Qed.
Lemma F2_upd {A B} (R : A -> B -> Prop) x y : R x y -> forall l l', Forall2 R l l' -> forall i, Forall2 R (list_upd l i x) (list_upd l' i y).
Proof. intros E l l' H. induction H; intros [|i]; cbn; try constructor; auto. Qed.
Lemma F2_nth {A B} (R : A -> B -> Prop) l l' : Forall2 R l l' -> forall i,
  match nth_error l i, nth_error l' i with Some x, Some y => R x y | None, None => True | _, _ => False end.
Proof. intros H. induction H; intros [|i]; cbn; auto. apply IHForall2. Qed.
Definition both {A B} (R : A -> B -> Prop) (r : res A) (r' : res B) : Prop :=
  match r, r' with Ok x, Ok y => R x y | Err e, Err e' => e = e' | _, _ => False end.
Lemma F2_set {A B} (R : A -> B -> Prop) l l' i x y : Forall2 R l l' -> R x y -> both (Forall2 R) (py_set l i x) (py_set l' i y).
Proof. intros H E. unfold py_set. rewrite (F2_zlen _ _ _ H). destruct (_ || _); [reflexivity|]. now apply F2_upd. Qed.
Lemma F2_get {A B} (R : A -> B -> Prop) l l' i : Forall2 R l l' -> both R (py_get l i) (py_get l' i).
Proof.
  intros H. unfold py_get. rewrite (F2_zlen _ _ _ H). destruct (_ || _); [reflexivity|].
  pose proof (F2_nth R l l' H (Z.to_nat (if i <? 0 then i + zlen l' else i))) as K.
  destruct (nth_error l _), (nth_error l' _); cbn in *; try contradiction; auto.
Qed.
Lemma F2_app {A B} (R : A -> B -> Prop) l1 l1' l2 l2' : Forall2 R l1 l1' -> Forall2 R l2 l2' -> Forall2 R (l1 ++ l2) (l1' ++ l2').
Proof. intros H. induction H; intros H2; cbn; auto. Qed.
Lemma F2_assign {A B} (R : A -> B -> Prop) l l' a b v v' : Forall2 R l l' -> Forall2 R v v' ->
  Forall2 R (py_slice_assign l a b v) (py_slice_assign l' a b v').
Proof.
  intros H K. unfold py_slice_assign. rewrite (F2_zlen _ _ _ H). apply F2_app; [now apply F2_firstn|]. apply F2_app; [exact K|now apply F2_skipn].
Qed.

(** ** Blocks *)
Lemma mem_same R s s' t : represents_by R s s' -> both (Forall2 (same_block R)) (vmem_get s t) (mem_get s' t).
Proof. intros (_ & _ & A & L). unfold vmem_get, mem_get. rewrite A. destruct (get4 (sl_alias s') t); [apply L|reflexivity]. Qed.
Lemma get_set {A} (m : per4 A) t t' x : get4 (set4 m t x) t' = if match t, t' with COILS, COILS | DISCRETE_INPUTS, DISCRETE_INPUTS | HOLDING_REGISTERS, HOLDING_REGISTERS | ANALOG_INPUTS, ANALOG_INPUTS => true | _, _ => false end then x else get4 m t'.
Proof. destruct t, t'; reflexivity. Qed.
Lemma set_same R s s' t l l' : represents_by R s s' -> Forall2 (same_block R) l l' -> represents_by R (vmem_set s t l) (mem_set s' t l').
Proof.
  intros (U & N & A & L) H. unfold vmem_set, mem_set. rewrite A. destruct (get4 (sl_alias s') t) as [r|]; [|repeat split; auto].
  repeat split; cbn; auto. intros t'. rewrite !get_set. destruct (match r, t' with COILS, COILS => true | _, _ => _ end); auto.
Qed.
Lemma names_same R s s' n : represents_by R s s' -> represents_by R (vwith_names s n) (with_names s' n).
Proof. intros (U & N & A & L). repeat split; auto. Qed.
Lemma find_same R l l' a n : Forall2 (same_block R) l l' -> forall i,
  match vfind_block l a n i, find_block l' a n i with
  | Some (j, b, o), Some (j', b', o') => j = j' /\ o = o' /\ same_block R b b'
  | None, None => True
  | _, _ => False
  end.
Proof.
  intros H. induction H as [|b b' l l' B H IH]; intros i; cbn [vfind_block find_block]; [exact Logic.I|].
  pose proof B as (B1 & B2 & B3). rewrite B1, B2. destruct (_ && _); [auto|apply IH].
Qed.
Definition same_place (R : pv -> Z -> Prop) (x : nat * vblock * Z) (y : nat * block * Z) : Prop :=
  let '(j, b, o) := x in let '(j', b', o') := y in j = j' /\ o = o' /\ same_block R b b'.
Lemma place_same R s s' t a n : represents_by R s s' -> both (same_place R) (vget_block_and_offset s t a n) (get_block_and_offset s' t a n).
Proof.
  intros RR. unfold vget_block_and_offset, get_block_and_offset. pose proof (mem_same R s s' t RR) as M. unfold both in M.
  destruct (vmem_get s t) as [l|], (mem_get s' t) as [l'|]; try contradiction; [|exact M]. cbn [bind].
  pose proof (find_same R l l' a n M 0%nat) as F. destruct (vfind_block l a n 0) as [[[j b] o]|], (find_block l' a n 0) as [[[j' b'] o']|]; try contradiction; [exact F|reflexivity].
Qed.
Lemma put_same R s s' t i b b' d d' : represents_by R s s' -> same_block R b b' -> Forall2 R d d' ->
  represents_by R (vput_block_data s t i b d) (put_block_data s' t i b' d').
Proof.
  intros RR (B1 & B2 & B3) D. unfold vput_block_data, put_block_data. pose proof (mem_same R s s' t RR) as M. unfold both in M.
  destruct (vmem_get s t) as [l|], (mem_get s' t) as [l'|]; try contradiction; [|exact RR].
  apply set_same; [exact RR|]. apply F2_upd; [|exact M]. repeat split; auto.
Qed.
Lemma find_sees l a n i j b o : vfind_block l a n i = Some (j, b, o) -> exists before after, l = before ++ b :: after /\ has_all b a n /\
  (forall b', In b' before -> ~ has_all b' a n) /\ o = a - vb_start b.
Proof.
  revert i. induction l as [|x l IH]; intros i; [discriminate|]. cbn [vfind_block].
  destruct ((vb_start x <=? a) && (a - vb_start x + n <=? vb_size x)) eqn:E.
  - intros [= <- <- <-]. exists [], l. unfold has_all. repeat split; auto; try lia; intros ? [].
  - intros H. destruct (IH _ H) as (before & after & -> & P & Q & O). exists (x :: before), after. repeat split; auto; try apply P.
    intros b' [<-|I]; [unfold has_all; lia|auto].
Qed.
Lemma sees_place s t a n j b o : vget_block_and_offset s t a n = Ok (j, b, o) -> sees s t a n (py_slice (vb_data b) o (o + n)).
Proof.
  unfold vget_block_and_offset. destruct (vmem_get s t) as [l|] eqn:M; [|discriminate]. cbn [bind].
  destruct (vfind_block l a n 0) as [[[j' b'] o']|] eqn:F; [|discriminate]. intros [= -> -> ->].
  destruct (find_sees _ _ _ _ _ _ _ F) as (before & after & -> & P & Q & ->). exists before, b, after. auto.
Qed.

(** ** Loops *)
Lemma bits_same f vals vals' : Forall2 stands vals vals' -> forall i bv resp, vpack_bits_loop vals i bv resp f = pack_bits_loop vals' i bv resp f.
Proof.
  intros H. induction H as [|v z vals vals' E H IH]; intros i bv resp; cbn [vpack_bits_loop pack_bits_loop]; [reflexivity|].
  rewrite (stands_truth _ _ E). destruct (z =? 0); cbn [negb]; destruct (7 <=? i); try apply IH; destruct (pack ">B" _); cbn [bind]; auto.
Qed.
Lemma regs_same f vals vals' : Forall2 stands vals vals' -> forall resp,
  vpack_regs_loop f vals resp = pack_regs_loop f vals' resp \/
  (vpack_regs_loop f vals resp = Err StructError /\ exists v, In v vals /\ not_a_number v).
Proof.
  intros H. induction H as [|v z vals vals' E H IH]; intros resp; cbn [vpack_regs_loop pack_regs_loop]; [auto|].
  unfold vpack. rewrite stands_as in E. destruct (as_int v) as [i|] eqn:Ei.
  - subst z. destruct (pack f [i]) as [b|]; cbn [bind]; [|auto]. destruct (IH (resp ++ b)) as [K|(K & w & W1 & W2)]; [auto|].
    right. split; [exact K|]. exists w. split; [now right|exact W2].
  - right. split; [reflexivity|]. exists v. split; [now left|exact (as_not _ Ei)].
Qed.
Lemma write_same f pdu base off n : forall i d d', Forall2 stands d d' ->
  Forall2 stands (fst (vwrite_regs_loop f pdu base off n i d)) (fst (write_regs_loop f pdu base off n i d')) /\
  snd (vwrite_regs_loop f pdu base off n i d) = snd (write_regs_loop f pdu base off n i d').
Proof.
  induction n as [|n IH]; intros i d d' H; cbn [vwrite_regs_loop write_regs_loop]; [auto|].
  destruct (unpack1 f _) as [v|]; [|auto]. pose proof (F2_set stands d d' (off + i) (VInt v) v H (stands_int v)) as K. unfold both in K.
  destruct (py_set d _ _), (py_set d' _ _); try contradiction; [now apply IH|]. subst. auto.
Qed.
Lemma inner_same bv pos q n : forall j c d d', Forall2 stands d d' ->
  Forall2 stands (fst (vwrite_bits_inner n bv pos j c q d)) (fst (write_bits_inner n bv pos j c q d')) /\
  snd (vwrite_bits_inner n bv pos j c q d) = snd (write_bits_inner n bv pos j c q d').
Proof.
  induction n as [|n IH]; intros j c d d' H; cbn [vwrite_bits_inner write_bits_inner]; [auto|].
  destruct (q <=? c); [auto|]. cbv zeta. set (v := if _ =? 0 then 0 else 1). pose proof (F2_set stands d d' (pos + j) (VInt v) v H (stands_int v)) as K. unfold both in K.
  destruct (py_set d _ _), (py_set d' _ _); try contradiction; [now apply IH|]. subst. auto.
Qed.
Lemma outer_same f pdu off q n : forall i c d d', Forall2 stands d d' ->
  Forall2 stands (fst (vwrite_bits_outer n f pdu off i c q d)) (fst (write_bits_outer n f pdu off i c q d')) /\
  snd (vwrite_bits_outer n f pdu off i c q d) = snd (write_bits_outer n f pdu off i c q d').
Proof.
  induction n as [|n IH]; intros i c d d' H; cbn [vwrite_bits_outer write_bits_outer]; [auto|].
  destruct (q <=? c); [auto|]. destruct (unpack1 f _) as [bv|]; [|auto].
  destruct (inner_same bv (off + i * 8) q 8 0 c d d' H) as [K1 K2].
  destruct (vwrite_bits_inner 8 bv (off + i * 8) 0 c q d) as [d1 [c1|]], (write_bits_inner 8 bv (off + i * 8) 0 c q d') as [d1' [c1'|]]; cbn [fst snd] in *; try discriminate K2.
  - injection K2 as ->. now apply IH.
  - injection K2 as ->. auto.
Qed.

(** ** Requests *)
Definition goes_along (s : vslave) (pdu : list Z) (x : vslave * res (list Z)) (y : slave * res (list Z)) : Prop :=
  (snd x = snd y /\ represents (fst x) (fst y)) \/
  (fst x = s /\ (snd x = Err StructError \/ snd x = Err PyTypeError) /\ reads_an_object s pdu).
Lemma fmtB_same s s' : represents s s' -> vfmtB s = fmtB s'.
Proof. intros (U & _). unfold vfmtB, fmtB. now rewrite U. Qed.
Lemma fmtH_same s s' : represents s s' -> vfmtH s = fmtH s'.
Proof. intros (U & _). unfold vfmtH, fmtH. now rewrite U. Qed.
Lemma digital_same s s' t pdu : represents s s' -> vread_digital s t pdu = read_digital s' t pdu.
Proof.
  intros R. unfold vread_digital, read_digital. destruct (unpack2 ">HH" _) as [[a q]|]; [|reflexivity]. cbn [bind]. destruct (_ || _); [reflexivity|].
  pose proof (place_same stands s s' t a q R) as P. unfold both in P. destruct (vget_block_and_offset s t a q) as [[[j b] o]|], (get_block_and_offset s' t a q) as [[[j' b'] o']|]; try contradiction; cbn [bind].
  - destruct P as (_ & <- & _ & _ & D). destruct (pack ">B" _); cbn [bind]; [|reflexivity]. rewrite (fmtB_same _ _ R). apply bits_same. now apply F2_slice.
  - now subst.
Qed.
Lemma registers_same s s' t pdu fc rest : represents s s' -> pdu = fc :: rest -> (fc = 3 /\ t = HOLDING_REGISTERS \/ fc = 4 /\ t = ANALOG_INPUTS) ->
  goes_along s pdu (s, vread_registers s t pdu) (s', read_registers s' t pdu).
Proof.
  intros R Ep FC. unfold vread_registers, read_registers. destruct (unpack2 ">HH" (py_slice pdu 1 5)) as [[a q]|] eqn:U; [|left; auto]. cbn [bind].
  apply (unpack2_inv ">HH" false) in U; [|reflexivity]. destruct U as (_ & -> & ->). set (a := be16 pdu 1) in *. set (q := be16 pdu 3) in *.
  destruct (_ || _); [left; auto|].
  pose proof (place_same stands s s' t a q R) as P. unfold both in P. destruct (vget_block_and_offset s t a q) as [[[j b] o]|] eqn:G, (get_block_and_offset s' t a q) as [[[j' b'] o']|]; try contradiction; cbn [bind].
  - destruct P as (_ & <- & _ & _ & D). destruct (pack ">B" _) as [hd|]; cbn [bind]; [|left; auto]. rewrite (fmtH_same _ _ R).
    destruct (regs_same (fmtH s') _ _ (F2_slice stands _ _ o (o + q) D) hd) as [K|(K & v & V1 & V2)]; [left; cbn [fst snd]; auto|].
    right. cbn [fst snd]. split; [reflexivity|]. split; [auto|]. exists t, a, q, (py_slice (vb_data b) o (o + q)), v.
    split; [|split; [exact (sees_place _ _ _ _ _ _ _ G)|auto]]. exists fc, rest. unfold a, q. destruct FC as [[-> ->]|[-> ->]]; auto 8.
  - left. subst. auto.
Qed.
Lemma read_write_same s s' pdu rest : represents s s' -> pdu = 23 :: rest ->
  goes_along s pdu (vread_write_multiple_registers s pdu) (read_write_multiple_registers s' pdu).
Proof.
  intros R Ep. unfold vread_write_multiple_registers, read_write_multiple_registers.
  destruct (unpack5 ">HHHHB" (py_slice pdu 1 10)) as [[[[[ra rq] wa] wq] bc]|] eqn:U; [|left; auto].
  apply unpack5_inv in U. destruct U as (_ & -> & -> & -> & -> & ->). set (a := be16 pdu 1) in *. set (q := be16 pdu 3) in *.
  destruct (_ || _); [left; auto|].
  pose proof (place_same stands s s' HOLDING_REGISTERS a q R) as P. unfold both in P.
  destruct (vget_block_and_offset s HOLDING_REGISTERS a q) as [[[j b] o]|] eqn:G, (get_block_and_offset s' HOLDING_REGISTERS a q) as [[[j' b'] o']|]; try contradiction; [|left; subst; auto].
  destruct P as (_ & <- & _ & _ & D). cbv zeta. destruct (pack ">B" [2 * q]) as [hd|]; cbn [bind]; [|left; auto].
  rewrite (fmtH_same _ _ R).
  destruct (regs_same (fmtH s') _ _ (F2_slice stands _ _ o (o + q) D) hd) as [K|(K & v & V1 & V2)].
  - rewrite K. destruct (pack_regs_loop _ _ hd) as [resp|]; [|left; auto]. destruct (_ || _); [left; auto|].
    pose proof (place_same stands s s' HOLDING_REGISTERS (be16 pdu 5) (be16 pdu 7) R) as P'. unfold both in P'.
    destruct (vget_block_and_offset s HOLDING_REGISTERS (be16 pdu 5) (be16 pdu 7)) as [[[i wb] wo]|], (get_block_and_offset s' HOLDING_REGISTERS (be16 pdu 5) (be16 pdu 7)) as [[[i' wb'] wo']|]; try contradiction; [|left; subst; auto].
    destruct P' as (<- & <- & W). destruct (write_same (fmtH s') pdu 10 wo (Z.to_nat (be16 pdu 7)) 0 (vb_data wb) (b_data wb') (proj2 (proj2 W))) as [L1 L2].
    destruct (vwrite_regs_loop _ pdu 10 wo _ 0 (vb_data wb)) as [d r], (write_regs_loop _ pdu 10 wo _ 0 (b_data wb')) as [d' r']. cbn [fst snd] in L1, L2. subst r'.
    left. destruct r; cbn [fst snd]; (split; [reflexivity|now apply put_same]).
  - rewrite K. right. cbn [fst snd]. split; [reflexivity|]. split; [auto|]. exists HOLDING_REGISTERS, a, q, (py_slice (vb_data b) o (o + q)), v.
    split; [|split; [exact (sees_place _ _ _ _ _ _ _ G)|auto]]. exists 23, rest. unfold a, q. auto 8.
Qed.
Lemma slice_one (d : list pv) o v : 0 <= o -> py_get d o = Ok v -> In v (py_slice d o (o + 1)).
Proof.
  intros O H. assert (H' : nth_error d (Z.to_nat o) = Some v).
  { unfold py_get in H. replace (o <? 0) with false in H by lia. destruct (_ || _); [discriminate|]. destruct (nth_error d (Z.to_nat o)); [now injection H as ->|discriminate]. }
  clear H. rename H' into H. rewrite py_slice_nonneg by lia. replace (Z.to_nat (o + 1 - o)) with 1%nat by lia.
  apply nth_error_split in H as (l1 & l2 & -> & L). rewrite <- L, skipn_app, skipn_all, Nat.sub_diag. cbn. auto.
Qed.
Lemma mask_same s s' pdu rest : represents s s' -> pdu = 22 :: rest ->
  goes_along s pdu (vmask_write_register s pdu) (mask_write_register s' pdu).
Proof.
  intros R Ep. unfold vmask_write_register, mask_write_register. destruct (unpack3 ">HHH" (py_slice pdu 1 7)) as [[[a m] om]|] eqn:U; [|left; auto].
  apply unpack3m_inv in U. destruct U as (_ & -> & -> & ->). set (a := be16 pdu 1) in *.
  pose proof (place_same stands s s' HOLDING_REGISTERS a 1 R) as P. unfold both in P.
  destruct (vget_block_and_offset s HOLDING_REGISTERS a 1) as [[[j b] o]|] eqn:G, (get_block_and_offset s' HOLDING_REGISTERS a 1) as [[[j' b'] o']|]; try contradiction; [|left; subst; auto].
  destruct P as (<- & <- & B). pose proof (F2_get stands _ _ o (proj2 (proj2 B))) as Q. unfold both in Q.
  destruct (py_get (vb_data b) o) as [v|] eqn:Gv, (py_get (b_data b') o) as [z|]; try contradiction; [|left; subst; auto].
  rewrite stands_as in Q. destruct (as_int v) as [i|] eqn:Ei.
  - subst z. cbv zeta. set (w := Z.lor _ _). pose proof (F2_set stands _ _ o (VInt w) w (proj2 (proj2 B)) (stands_int w)) as K. unfold both in K.
    destruct (py_set (vb_data b) o _), (py_set (b_data b') o _); try contradiction; left; cbn [fst snd]; [|subst; auto]. split; [reflexivity|now apply put_same].
  - right. cbn [fst snd]. split; [reflexivity|]. split; [auto|]. exists HOLDING_REGISTERS, a, 1, (py_slice (vb_data b) o (o + 1)), v.
    split; [|split; [exact (sees_place _ _ _ _ _ _ _ G)|split; [|exact (as_not _ Ei)]]].
    + exists 22, rest. unfold a. auto 8.
    + pose proof G as G'. unfold vget_block_and_offset in G'. destruct (vmem_get s HOLDING_REGISTERS) as [l|]; [|discriminate]. cbn [bind] in G'.
      destruct (vfind_block l a 1 0) as [[[? ?] ?]|] eqn:F; [|discriminate]. injection G' as -> -> ->. apply find_sees in F as (? & ? & _ & (H1 & H2) & _ & ->).
      apply slice_one; [lia|exact Gv].
Qed.
(** the others never look at what is stored *)
Lemma write_registers_same s s' pdu : represents s s' -> goes_along s pdu (vwrite_multiple_registers s pdu) (write_multiple_registers s' pdu).
Proof.
  intros R. left. unfold vwrite_multiple_registers, write_multiple_registers. destruct (unpack3 ">HHB" _) as [[[a q] bc]|]; [|auto]. destruct (_ || _); [auto|].
  pose proof (place_same stands s s' HOLDING_REGISTERS a q R) as P. unfold both in P.
  destruct (vget_block_and_offset s HOLDING_REGISTERS a q) as [[[j b] o]|], (get_block_and_offset s' HOLDING_REGISTERS a q) as [[[j' b'] o']|]; try contradiction; [|subst; auto].
  destruct P as (<- & <- & B). rewrite (fmtH_same _ _ R). destruct (write_same (fmtH s') pdu 6 o (Z.to_nat q) 0 (vb_data b) (b_data b') (proj2 (proj2 B))) as [L1 L2].
  destruct (vwrite_regs_loop _ pdu 6 o _ 0 (vb_data b)) as [d r], (write_regs_loop _ pdu 6 o _ 0 (b_data b')) as [d' r']. cbn [fst snd] in L1, L2. subst r'.
  destruct r; cbn [fst snd]; (split; [reflexivity|now apply put_same]).
Qed.
Lemma write_coils_same s s' pdu : represents s s' -> goes_along s pdu (vwrite_multiple_coils s pdu) (write_multiple_coils s' pdu).
Proof.
  intros R. left. unfold vwrite_multiple_coils, write_multiple_coils. destruct (unpack3 ">HHB" _) as [[[a q] bc]|]; [|auto]. destruct (_ || _); [auto|].
  pose proof (place_same stands s s' COILS a q R) as P. unfold both in P.
  destruct (vget_block_and_offset s COILS a q) as [[[j b] o]|], (get_block_and_offset s' COILS a q) as [[[j' b'] o']|]; try contradiction; [|subst; auto].
  destruct P as (<- & <- & B). rewrite (fmtB_same _ _ R). destruct (outer_same (fmtB s') pdu o q (Z.to_nat bc) 0 0 (vb_data b) (b_data b') (proj2 (proj2 B))) as [L1 L2].
  destruct (vwrite_bits_outer _ _ pdu o 0 0 q (vb_data b)) as [d r], (write_bits_outer _ _ pdu o 0 0 q (b_data b')) as [d' r']. cbn [fst snd] in L1, L2. subst r'.
  destruct r; cbn [fst snd]; (split; [reflexivity|now apply put_same]).
Qed.
Lemma write_register_same s s' pdu : represents s s' -> goes_along s pdu (vwrite_single_register s pdu) (write_single_register s' pdu).
Proof.
  intros R. left. unfold vwrite_single_register, write_single_register. pose proof R as (U & _). rewrite U. destruct (unpack2 _ _) as [[a v]|]; [|auto].
  pose proof (place_same stands s s' HOLDING_REGISTERS a 1 R) as P. unfold both in P.
  destruct (vget_block_and_offset s HOLDING_REGISTERS a 1) as [[[j b] o]|], (get_block_and_offset s' HOLDING_REGISTERS a 1) as [[[j' b'] o']|]; try contradiction; [|subst; auto].
  destruct P as (<- & <- & B). pose proof (F2_set stands _ _ o (VInt v) v (proj2 (proj2 B)) (stands_int v)) as K. unfold both in K.
  destruct (py_set (vb_data b) o _), (py_set (b_data b') o _); try contradiction; cbn [fst snd]; [|subst; auto]. split; [reflexivity|now apply put_same].
Qed.
Lemma write_coil_same s s' pdu : represents s s' -> goes_along s pdu (vwrite_single_coil s pdu) (write_single_coil s' pdu).
Proof.
  intros R. left. unfold vwrite_single_coil, write_single_coil. destruct (unpack2 _ _) as [[a v]|]; [|auto].
  pose proof (place_same stands s s' COILS a 1 R) as P. unfold both in P.
  destruct (vget_block_and_offset s COILS a 1) as [[[j b] o]|], (get_block_and_offset s' COILS a 1) as [[[j' b'] o']|]; try contradiction; [|subst; auto].
  destruct P as (<- & <- & B). destruct (v =? 0); [|destruct (v =? 65280); [|auto]].
  - pose proof (F2_set stands _ _ o (VInt 0) 0 (proj2 (proj2 B)) (stands_int 0)) as K. unfold both in K.
    destruct (py_set (vb_data b) o _), (py_set (b_data b') o _); try contradiction; cbn [fst snd]; [|subst; auto]. split; [reflexivity|now apply put_same].
  - pose proof (F2_set stands _ _ o (VInt 1) 1 (proj2 (proj2 B)) (stands_int 1)) as K. unfold both in K.
    destruct (py_set (vb_data b) o _), (py_set (b_data b') o _); try contradiction; cbn [fst snd]; [|subst; auto]. split; [reflexivity|now apply put_same].
Qed.

(** ** C95 *)
(** (1) A request is handled exactly as by a slave of integers, whatever integers stand for the objects - so their value has no influence -
    except that a request that looks at a register holding an object raises and changes nothing. *)
Theorem C95_requests : forall s s' pdu broadcast, represents s s' ->
  let '(s1, r) := vhandle_request s pdu broadcast in
  let '(s1', r') := handle_request s' pdu broadcast in
  (r = r' /\ represents s1 s1') \/
  (s1 = s /\ (r = Err StructError \/ r = Err PyTypeError) /\ reads_an_object s pdu).
Proof.
  intros s s' pdu bc R. unfold vhandle_request, handle_request. destruct pdu as [|fc rest]; [left; auto|]. rewrite unpack_fc.
  assert (K : match vfn_code_map fc, fn_code_map fc with
              | Some f, Some f' => goes_along s (fc :: rest) (f s (fc :: rest)) (f' s' (fc :: rest))
              | None, None => True
              | _, _ => False
              end).
  { unfold vfn_code_map, fn_code_map, READ_COILS, READ_DISCRETE_INPUTS, READ_INPUT_REGISTERS, READ_HOLDING_REGISTERS, READ_EXCEPTION_STATUS, WRITE_SINGLE_COIL,
      WRITE_SINGLE_REGISTER, WRITE_MULTIPLE_COILS, WRITE_MULTIPLE_REGISTERS, MASK_WRITE_REGISTER, READ_WRITE_MULTIPLE_REGISTERS.
    destruct (fc =? 1); [left; cbn [fst snd]; rewrite (digital_same s s') by exact R; auto|].
    destruct (fc =? 2); [left; cbn [fst snd]; rewrite (digital_same s s') by exact R; auto|].
    destruct (fc =? 4) eqn:E4; [apply (registers_same s s' _ _ fc rest R eq_refl); right; split; [lia|reflexivity]|].
    destruct (fc =? 3) eqn:E3; [apply (registers_same s s' _ _ fc rest R eq_refl); left; split; [lia|reflexivity]|].
    destruct (fc =? 7); [left; auto|].
    destruct (fc =? 5); [now apply write_coil_same|]. destruct (fc =? 6); [now apply write_register_same|].
    destruct (fc =? 15); [now apply write_coils_same|]. destruct (fc =? 16); [now apply write_registers_same|].
    destruct (fc =? 22) eqn:E22; [apply (mask_same s s' _ rest R); f_equal; lia|].
    destruct (fc =? 23) eqn:E23; [apply (read_write_same s s' _ rest R); f_equal; lia|]. exact Logic.I. }
  destruct (vfn_code_map fc) as [f|], (fn_code_map fc) as [f'|]; try contradiction; [|left; auto].
  destruct (bc && cant_be_broadcasted fc); [left; auto|].
  unfold goes_along in K. destruct (f s (fc :: rest)) as [s1 r], (f' s' (fc :: rest)) as [s1' r']. destruct K as [[K1 K2]|(K1 & K2 & K3)]; cbn [fst snd] in *.
  - subst r'. destruct r as [[|x l]|e]; [left; auto| |left; auto]. destruct bc; left; auto.
  - subst s1. destruct K2 as [-> | ->]; destruct r' as [[|x l]|e]; try destruct bc; cbn [catch_modbus_error]; auto.
Qed.
(** ... and it is the object that makes it fail: reading it as a number, or masking it, raises and changes nothing. *)
Lemma sees_finds s t a n cells : sees s t a n cells -> exists j b o, vget_block_and_offset s t a n = Ok (j, b, o) /\ 0 <= o /\ cells = py_slice (vb_data b) o (o + n).
Proof.
  intros (before & b & after & M & P & Q & ->). unfold vget_block_and_offset. rewrite M. cbn [bind].
  assert (F : forall k, exists j, vfind_block (before ++ b :: after) a n k = Some (j, b, a - vb_start b)).
  { clear M. induction before as [|x l IH]; intros k; cbn [app vfind_block].
    - unfold has_all in P. replace (_ && _) with true by lia. eauto.
    - pose proof (Q x (or_introl eq_refl)) as Qx. unfold has_all in Qx. replace (_ && _) with false by lia. apply IH. intros b' I. apply Q. now right. }
  destruct (F 0%nat) as [j ->]. exists j, b, (a - vb_start b). repeat split. destruct P. lia.
Qed.
Lemma pack_reg_err (u : bool) z e : pack (if u then ">H" else ">h") [z] = Err e -> e = StructError.
Proof. destruct u; [rewrite pack_H|rewrite pack_h]; destruct (fits_b _ z); congruence. Qed.
Lemma regs_object s vals v : In v vals -> not_a_number v -> forall resp, vpack_regs_loop (vfmtH s) vals resp = Err StructError.
Proof.
  induction vals as [|w vals IH]; intros I N resp; [destruct I|]. cbn [vpack_regs_loop]. unfold vpack. destruct (as_int w) as [i|] eqn:Ei; [|reflexivity].
  destruct I as [->|I]; [apply not_as in N; congruence|].
  destruct (pack (vfmtH s) [i]) as [b|e] eqn:P; cbn [bind]; [now apply IH|]. unfold vfmtH in P. apply pack_reg_err in P. now subst.
Qed.
Lemma get_one (d : list pv) o v : In v (py_slice d o (o + 1)) -> 0 <= o -> py_get d o = Ok v.
Proof.
  intros I O. rewrite py_slice_nonneg in I by lia. replace (Z.to_nat (o + 1 - o)) with 1%nat in I by lia.
  assert (X : nth_error d (Z.to_nat o) = Some v).
  { revert I. generalize (Z.to_nat o). intros k. revert d. induction k as [|k IH]; intros [|x d]; cbn; try tauto.
    - intros [->|[]]; reflexivity.
    - apply IH. }
  apply py_get_nth; [exact O|exact X].
Qed.
Theorem C95_unreadable : forall s fc rest t a n cells v, let pdu := fc :: rest in
  reads_registers pdu t a n -> sees s t a n cells -> In v cells -> not_a_number v ->
  1 <= n <= 125 -> (match fc with 22 => 7 | 23 => 10 | _ => 5 end <= zlen pdu) ->
  vhandle_request s pdu false = (s, Err (if fc =? 22 then PyTypeError else StructError)).
Proof.
  intros s fc rest t a n cells v pdu (fc' & rest' & E & Ea & FC) S I N Hn L. injection E as <- <-. fold pdu in Ea, FC.
  destruct (sees_finds _ _ _ _ _ S) as (j & b & o & G & O & ->).
  unfold vhandle_request. unfold pdu. rewrite unpack_fc. fold pdu. cbn [andb].
  assert (HP : pack ">B" [2 * n] = Ok [2 * n]) by (rewrite pack_B; replace (byte_b (2 * n)) with true by (unfold byte_b; lia); reflexivity).
  assert (KR : fc <> 22 -> fc <> 23 -> n = be16 pdu 3 -> vread_registers s t pdu = Err StructError).
  { intros D22 D23 En. unfold vread_registers. assert (U : unpack2 ">HH" (py_slice pdu 1 5) = Ok (a, n)).
    { rewrite Ea, En. assert (L5 : 5 <= zlen pdu) by (destruct fc as [|p|p]; try lia; do 5 (destruct p as [p|p|]; try lia)).
      unfold pdu in *. destruct rest as [|p1 [|p2 [|p3 [|p4 r]]]]; try (cbn in L5; lia). rewrite py_slice_nonneg by lia; change (Z.to_nat (5 - 1)) with 4%nat; change (Z.to_nat 1) with 1%nat; cbn [skipn firstn]; unfold unpack2; rewrite unpack_HH; reflexivity. }
    rewrite U. cbn [bind]. replace (_ || _) with false by lia. rewrite G. cbn [bind]. rewrite HP. cbn [bind]. now apply (regs_object s _ v). }
  destruct FC as [(-> & -> & En)|[(-> & -> & En)|[(-> & -> & En)|(-> & -> & En)]]]; cbn [vfn_code_map].
  - change (vfn_code_map 3) with (Some (fun s p => (s, vread_registers s HOLDING_REGISTERS p))). cbv iota beta. rewrite KR by (lia || exact En). reflexivity.
  - change (vfn_code_map 4) with (Some (fun s p => (s, vread_registers s ANALOG_INPUTS p))). cbv iota beta. rewrite KR by (lia || exact En). reflexivity.
  - change (vfn_code_map 23) with (Some vread_write_multiple_registers). cbv iota beta.
    assert (X : vread_write_multiple_registers s pdu = (s, Err StructError)); [|rewrite X; reflexivity].
    unfold vread_write_multiple_registers. assert (U : exists wa wq bc, unpack5 ">HHHHB" (py_slice pdu 1 10) = Ok (a, n, wa, wq, bc)).
    { rewrite Ea, En. unfold pdu in *. destruct rest as [|p1 [|p2 [|p3 [|p4 [|p5 [|p6 [|p7 [|p8 [|p9 r]]]]]]]]]; try (cbn in L; lia). do 3 eexists. rewrite py_slice_nonneg by lia; change (Z.to_nat (10 - 1)) with 9%nat; change (Z.to_nat 1) with 1%nat; cbn [skipn firstn]; unfold unpack5; rewrite unpack_HHHHB; reflexivity. }
    destruct U as (wa & wq & bc & U). rewrite U. replace (_ || _) with false by lia. rewrite G. cbv zeta. rewrite HP. cbn [bind]. now rewrite (regs_object s _ v).
  - change (vfn_code_map 22) with (Some vmask_write_register). cbv iota beta.
    assert (X : vmask_write_register s pdu = (s, Err PyTypeError)); [|rewrite X; reflexivity].
    unfold vmask_write_register. assert (U : exists m om, unpack3 ">HHH" (py_slice pdu 1 7) = Ok (a, m, om)).
    { rewrite Ea. unfold pdu in *. destruct rest as [|p1 [|p2 [|p3 [|p4 [|p5 [|p6 r]]]]]]; try (cbn in L; lia). do 2 eexists. rewrite py_slice_nonneg by lia; change (Z.to_nat (7 - 1)) with 6%nat; change (Z.to_nat 1) with 1%nat; cbn [skipn firstn]; unfold unpack3; rewrite unpack_HHH; reflexivity. }
    destruct U as (m & om & U). rewrite U. rewrite En in *. rewrite G. rewrite (get_one _ _ _ I O). apply not_as in N. rewrite N. reflexivity.
Qed.

(** (2) add_block, remove_block, remove_all_blocks, set_values and get_values never look at what is stored: whatever relation between
    objects and integers holds for all cells and for the values given holds afterwards, and for what is returned. *)
Definition values_by (R : pv -> Z -> Prop) (v : vsetval) (v' : setval) : Prop :=
  match v, v' with VSeq l, SvSeq l' => Forall2 R l l' | VOne x, SvNum x' => R x x' | _, _ => False end.
Lemma block_same R s s' name : represents_by R s s' ->
  both (fun x y => fst x = fst y /\ same_block R (snd x) (snd y)) (vget_block s name) (get_block s' name).
Proof.
  intros RR. unfold vget_block, get_block. pose proof RR as (_ & N & _). rewrite N. destruct (assoc String.eqb name (sl_names s')) as [[t st]|]; [|reflexivity].
  pose proof (mem_same R s s' t RR) as M. unfold both in M. destruct (vmem_get s t) as [l|], (mem_get s' t) as [l'|]; try contradiction; [|exact M]. cbn [bind].
  assert (F : forall i, match vfind_start l st i, find_start l' st i with Some (j, b), Some (j', b') => j = j' /\ same_block R b b' | None, None => True | _, _ => False end).
  { clear -M. induction M as [|b b' l l' B M IH]; intros i; cbn [vfind_start find_start]; [exact Logic.I|]. pose proof B as (B1 & _). rewrite B1.
    destruct (b_start b' =? st); [auto|apply IH]. }
  specialize (F 0%nat). destruct (vfind_start l st 0) as [[j b]|], (find_start l' st 0) as [[j' b']|]; try contradiction; cbn; [|reflexivity].
  destruct F as [-> F]. auto.
Qed.
Lemma remove_same {A B} (R : A -> B -> Prop) l l' i : Forall2 R l l' -> Forall2 R (list_remove_at l i) (list_remove_at l' i).
Proof. intros H. unfold list_remove_at. apply F2_app; [now apply F2_firstn|now apply F2_skipn]. Qed.
Lemma new_block_same (R : pv -> Z -> Prop) start size : R (VInt 0) 0 -> same_block R (vnew_block start size) (new_block start size).
Proof.
  intros Z0. unfold vnew_block, new_block, same_block. cbn [vb_start vb_size vb_data b_start b_size b_data].
  assert (F : forall n, Forall2 R (repeat (VInt 0) n) (repeat 0 n)) by (induction n; cbn; constructor; auto).
  split; [reflexivity|]. split; [exact (F2_zlen _ _ _ (F _))|apply F].
Qed.
Theorem C95_calls : forall (R : pv -> Z -> Prop) s s', R (VInt 0) 0 -> represents_by R s s' ->
  (forall name t start size, let '(s1, r) := vadd_block s name t start size in let '(s1', r') := add_block s' name t start size in
     r = r' /\ represents_by R s1 s1') /\
  (forall name, let '(s1, r) := vremove_block s name in let '(s1', r') := remove_block s' name in r = r' /\ represents_by R s1 s1') /\
  represents_by R (vremove_all_blocks s) (remove_all_blocks s') /\
  (forall name a v v', values_by R v v' -> let '(s1, r) := vset_values s name a v in let '(s1', r') := set_values s' name a v' in
     r = r' /\ represents_by R s1 s1') /\
  (forall name a n, match vget_values s name a n, get_values s' name a n with
                    | Ok l, Ok l' => Forall2 R l l'
                    | Err e, Err e' => e = e'
                    | _, _ => False
                    end).
Proof.
  intros R s s' Z0 RR. split; [|split; [|split; [|split]]].
  - intros name t start size. unfold vadd_block, add_block. destruct (size <=? 0); [auto|]. destruct (start <? 0); [auto|].
    pose proof RR as (_ & N & _). rewrite N. destruct (assoc String.eqb name (sl_names s')); [auto|]. destruct (btype_of_Z t) as [bt|]; [|auto].
    pose proof (mem_same R s s' bt RR) as M. unfold both in M. destruct (vmem_get s bt) as [l|], (mem_get s' bt) as [l'|]; try contradiction; [|auto].
    assert (F : forall i, vadd_block_scan l i start size = add_block_scan l' i start size).
    { clear -M. induction M as [|b b' l l' B M IH]; intros i; cbn [vadd_block_scan add_block_scan]; [reflexivity|]. pose proof B as (B1 & B2 & _).
      unfold vis_in, is_in. rewrite B1, B2. rewrite IH. reflexivity. }
    rewrite F. destruct (add_block_scan l' 0 start size) as [i|]; [|auto]. split; [reflexivity|]. apply set_same; [now apply names_same|].
    unfold list_insert. apply F2_app; [now apply F2_firstn|]. constructor; [now apply new_block_same|now apply F2_skipn].
  - intros name. unfold vremove_block, remove_block. pose proof (block_same R s s' name RR) as G. unfold both in G.
    destruct (vget_block s name) as [[[t i] b]|], (get_block s' name) as [[[t' i'] b']|]; try contradiction; [|subst; auto]. cbn [fst snd] in G. destruct G as [[= <- <-] B].
    pose proof RR as (_ & N & _). rewrite N. pose proof (names_same R s s' (assoc_del String.eqb name (sl_names s')) RR) as RN.
    pose proof (mem_same R _ _ t RN) as M. unfold both in M. destruct (vmem_get (vwith_names s _) t) as [l|], (mem_get (with_names s' _) t) as [l'|]; try contradiction; [|subst; auto].
    split; [reflexivity|]. apply set_same; [exact RN|now apply remove_same].
  - destruct RR as (U & N & A & L). unfold vremove_all_blocks, remove_all_blocks, represents_by. cbn. rewrite A. repeat split; auto. intros []; constructor.
  - intros name a v v' V. unfold vset_values, set_values. pose proof (block_same R s s' name RR) as G. unfold both in G.
    destruct (vget_block s name) as [[[t i] b]|], (get_block s' name) as [[[t' i'] b']|]; try contradiction; [|subst; auto]. cbn [fst snd] in G. destruct G as [[= <- <-] B].
    pose proof B as (B1 & B2 & B3). rewrite B1, B2. destruct v as [l|x], v' as [l'|x']; cbn in V; try contradiction.
    + rewrite (F2_zlen _ _ _ V). destruct (_ || _); [auto|]. split; [reflexivity|]. apply put_same; [exact RR|exact B|now apply F2_assign].
    + destruct (_ || _); [auto|]. pose proof (F2_set R _ _ (a - b_start b') x x' B3 V) as K. unfold both in K.
      destruct (py_set (vb_data b) _ x), (py_set (b_data b') _ x'); try contradiction; [|subst; auto]. split; [reflexivity|now apply put_same].
  - intros name a n. unfold vget_values, get_values. pose proof (block_same R s s' name RR) as G. unfold both in G.
    destruct (vget_block s name) as [[[t i] b]|], (get_block s' name) as [[[t' i'] b']|]; try contradiction; cbn [bind]; [|exact G]. cbn [fst snd] in G. destruct G as [_ B].
    pose proof B as (B1 & B2 & B3). rewrite B1, B2. destruct (_ || _); [reflexivity|]. destruct (n =? 1); [|now apply F2_slice].
    pose proof (F2_get R _ _ (a - b_start b') B3) as K. unfold both in K. destruct (py_get (vb_data b) _), (py_get (b_data b') _); try contradiction; cbn [bind]; auto.
Qed.

(** (3) After any history, the slave is represented by a slave of integers that a program can obtain: what C03 - C23 say of the requests to
    that one holds of this one, up to the exception of (1). *)
Definition standin (v : pv) : Z := match as_int v with Some z => z | None => if truth v then 1 else 0 end.
Lemma standin_stands v : stands v (standin v).
Proof. unfold stands, standin. destruct v as [z|b|i t]; cbn; try reflexivity. destruct t; reflexivity. Qed.
Lemma standin_list l : Forall2 stands l (map standin l).
Proof. induction l; cbn; constructor; auto using standin_stands. Qed.
Theorem C95_history : forall unsigned ops, exists s', reachable s' /\ represents (vrun (vnew_slave unsigned) ops) s'.
Proof.
  intros u ops. unfold vrun. assert (B : exists s', reachable s' /\ represents (vnew_slave u) s').
  { exists (new_slave u None). split; [exists (new_slave u None), []; split; [constructor|reflexivity]|]. repeat split; cbn; auto. intros []; constructor. }
  revert B. generalize (vnew_slave u). induction ops as [|o ops IH]; intros s (s' & C & R); cbn [fold_left]; [eauto|]. apply IH. clear IH.
  destruct (C95_calls stands s s' (stands_int 0) R) as (K1 & K2 & K3 & K4 & _). destruct o as [n t a z|n| |n a v|p bc]; cbn [vstep].
  - specialize (K1 n t a z). destruct (vadd_block s n t a z) as [s1 r]. destruct (add_block s' n t a z) as [s1' r'] eqn:E. exists s1'. split; [|apply K1].
    pose proof (reachable_step s' (OpAddBlock n t a z) C) as X. cbn [slave_step] in X. rewrite E in X. exact X.
  - specialize (K2 n). destruct (vremove_block s n) as [s1 r]. destruct (remove_block s' n) as [s1' r'] eqn:E. exists s1'. split; [|apply K2].
    pose proof (reachable_step s' (OpRemoveBlock n) C) as X. cbn [slave_step] in X. rewrite E in X. exact X.
  - eexists. split; [|exact K3]. exact (reachable_step s' OpRemoveAll C).
  - set (v' := match v with VSeq l => SvSeq (map standin l) | VOne x => SvNum (standin x) end).
    assert (V : values_by stands v v') by (destruct v; [apply standin_list|apply standin_stands]).
    specialize (K4 n a v v' V). destruct (vset_values s n a v) as [s1 r]. destruct (set_values s' n a v') as [s1' r'] eqn:E. exists s1'. split; [|apply K4].
    pose proof (reachable_step s' (OpSetValues n a v') C) as X. cbn [slave_step] in X. rewrite E in X. exact X.
  - pose proof (C95_requests s s' p bc R) as K. destruct (vhandle_request s p bc) as [s1 r]. destruct (handle_request s' p bc) as [s1' r'] eqn:E. cbn [fst].
    destruct K as [[_ K]|(-> & _)]; [|eauto]. exists s1'. split; [|exact K].
    pose proof (reachable_step s' (OpRequest p bc) C) as X. cbn [slave_step] in X. rewrite E in X. exact X.
Qed.

(** (4) set_values stores the objects themselves: get_values gives them back, and every other cell is what it was. A list or a tuple fills
    several cells, any other object - even one that is a sequence: a range, an array, a string - one. *)
Definition objects (v : vsetval) : list pv := match v with VSeq l => l | VOne x => [x] end.
Lemma find_upd st b' : forall l i k, (forall b, nth_error l i = Some b -> vb_start b' = vb_start b) ->
  vfind_start (list_upd l i b') st k = match vfind_start l st k with Some (j, b) => Some (j, if (j =? k + i)%nat then b' else b) | None => None end.
Proof.
  induction l as [|x l IH]; intros i k H; [reflexivity|]. destruct i as [|i]; cbn [list_upd vfind_start].
  - rewrite (H x eq_refl). destruct (vb_start x =? st); [replace (k =? k + 0)%nat with true by (symmetry; apply Nat.eqb_eq; lia); reflexivity|].
    assert (Z : forall k2, match vfind_start l st k2 with Some (j, _) => (k2 <= j)%nat | None => True end).
    { clear. induction l as [|y l IH]; intros k2; cbn [vfind_start]; [exact Logic.I|]. destruct (vb_start y =? st); [lia|]. specialize (IH (S k2)). destruct (vfind_start l st (S k2)) as [[j b]|]; [lia|exact Logic.I]. }
    specialize (Z (S k)). destruct (vfind_start l st (S k)) as [[j b]|]; [|reflexivity]. replace (j =? k + 0)%nat with false by (symmetry; apply Nat.eqb_neq; lia). reflexivity.
  - destruct (vb_start x =? st); [replace (k =? k + S i)%nat with false by (symmetry; apply Nat.eqb_neq; lia); reflexivity|].
    rewrite IH by exact H. replace (S k + i)%nat with (k + S i)%nat by lia. reflexivity.
Qed.
Lemma find_start_at l st : forall k j b, vfind_start l st k = Some (j, b) -> (k <= j)%nat /\ nth_error l (j - k) = Some b /\ vb_start b = st.
Proof.
  induction l as [|x l IH]; intros k j b; [discriminate|]. cbn [vfind_start]. destruct (vb_start x =? st) eqn:E.
  - intros [= <- <-]. rewrite Nat.sub_diag. repeat split; auto. lia.
  - intros H. apply IH in H as (H1 & H2 & H3). replace (j - k)%nat with (S (j - S k)) by lia. repeat split; auto. lia.
Qed.
Lemma upd_split {A} (l : list A) i x : (i < length l)%nat -> list_upd l i x = firstn i l ++ [x] ++ skipn (i + 1) l.
Proof. revert i. induction l as [|y l IH]; intros [|i] H; cbn in *; try lia; [reflexivity|]. f_equal. apply IH. lia. Qed.
Lemma own_alias u ops : vs_alias (vrun (vnew_slave u) ops) = own_lists.
Proof.
  unfold vrun. assert (B : vs_alias (vnew_slave u) = own_lists) by reflexivity. revert B. generalize (vnew_slave u).
  assert (MS : forall s t l, vs_alias (vmem_set s t l) = vs_alias s) by (intros s t l; unfold vmem_set; destruct (get4 (vs_alias s) t); reflexivity).
  assert (PS : forall s t i b d, vs_alias (vput_block_data s t i b d) = vs_alias s) by (intros s t i b d; unfold vput_block_data; destruct (vmem_get s t); [apply MS|reflexivity]).
  induction ops as [|o ops IH]; intros s B; cbn [fold_left]; [exact B|]. apply IH. destruct o as [n t a z|n| |n a v|p bc]; cbn [vstep].
  - unfold vadd_block. repeat match goal with |- context [match ?x with _ => _ end] => destruct x; cbn [fst]; auto end. rewrite MS. exact B.
  - unfold vremove_block. destruct (vget_block s n) as [[[t i] b]|]; [|exact B]. destruct (vmem_get _ t); cbn [fst]; [rewrite MS|]; exact B.
  - unfold vremove_all_blocks. cbn. rewrite B. reflexivity.
  - unfold vset_values. destruct (vget_block s n) as [[[t i] b]|]; [|exact B]. cbv zeta. destruct (_ || _); [exact B|]. destruct v; [cbn [fst]; now rewrite PS|]. destruct (py_set _ _ _); cbn [fst]; [now rewrite PS|exact B].
  - destruct (C95_history u []) as (s0 & _). unfold vhandle_request. destruct (unpack1 _ _) as [fc|]; [|exact B]. destruct (vfn_code_map fc) as [f|] eqn:F; [|exact B]. destruct (_ && _); [exact B|].
    assert (K : vs_alias (fst (f s p)) = vs_alias s).
    { unfold vfn_code_map in F. repeat match type of F with (if ?c then _ else _) = _ => destruct c end; try discriminate F; injection F as <-; try reflexivity.
      - unfold vwrite_single_coil. repeat match goal with |- context [match ?x with _ => _ end] => destruct x; cbn [fst]; auto end.
      - unfold vwrite_single_register. repeat match goal with |- context [match ?x with _ => _ end] => destruct x; cbn [fst]; auto end.
      - unfold vwrite_multiple_coils. destruct (unpack3 _ _) as [[[a q] c]|]; [|reflexivity]. destruct (_ || _); [reflexivity|]. destruct (vget_block_and_offset s COILS a q) as [[[i b] o]|]; [|reflexivity].
        destruct (vwrite_bits_outer _ _ _ _ _ _ _ _) as [d [x|e]]; apply PS.
      - unfold vwrite_multiple_registers. destruct (unpack3 _ _) as [[[a q] c]|]; [|reflexivity]. destruct (_ || _); [reflexivity|]. destruct (vget_block_and_offset s HOLDING_REGISTERS a q) as [[[i b] o]|]; [|reflexivity].
        destruct (vwrite_regs_loop _ _ _ _ _ _ _) as [d [x|e]]; apply PS.
      - unfold vmask_write_register. repeat match goal with |- context [match ?x with _ => _ end] => destruct x; cbn [fst]; auto end.
      - unfold vread_write_multiple_registers. destruct (unpack5 _ _) as [[[[[ra rq] wa] wq] c]|]; [|reflexivity]. destruct (_ || _); [reflexivity|].
        destruct (vget_block_and_offset s HOLDING_REGISTERS ra rq) as [[[i b] o]|]; [|reflexivity]. cbv zeta. destruct (bind _ _); [|reflexivity]. destruct (_ || _); [reflexivity|].
        destruct (vget_block_and_offset s HOLDING_REGISTERS wa wq) as [[[i' b'] o']|]; [|reflexivity]. destruct (vwrite_regs_loop _ _ _ _ _ _ _) as [d [x|e]]; apply PS. }
    destruct (f s p) as [s1 r]. cbn [fst] in K. destruct r as [[|x l]|]; cbn [fst]; try congruence. destruct bc; cbn [fst]; congruence.
Qed.
Lemma cells_of u ops t b l : let s := vrun (vnew_slave u) ops in vmem_get s t = Ok l -> In b l -> zlen (vb_data b) = vb_size b.
Proof.
  intros s M I. destruct (C95_history u ops) as (s' & C & R). fold s in R. pose proof (reachable_wf s' C t) as W.
  pose proof (mem_same stands s s' t R) as K. rewrite M in K. unfold both in K. destruct (mem_get s' t) as [l'|] eqn:M'; [|contradiction].
  unfold mem_get in M'. unfold blocks in W. destruct (get4 (sl_alias s') t) as [r|]; [|discriminate]. injection M' as M'. rewrite M' in W. clear -K W I.
  induction K as [|x y l l' B K IH]; [destruct I|]. inversion W; subst. destruct I as [->|I]; [|now apply IH].
  destruct B as (B1 & B2 & B3). rewrite (F2_zlen _ _ _ B3), B2. apply H1.
Qed.
Theorem C95_kept : forall unsigned ops name a v s1, let s := vrun (vnew_slave unsigned) ops in
  vset_values s name a v = (s1, Ok tt) ->
  vget_values s1 name a (zlen (objects v)) = Ok (objects v) /\
  forall name' x, vget_values s1 name' x 1 = vget_values s name' x 1 \/
    (assoc String.eqb name' (vs_names s) = assoc String.eqb name (vs_names s) /\ a <= x < a + zlen (objects v)).
Proof.
  intros u ops name a v s1 s E. pose proof (own_alias u ops) as OA. fold s in OA. pose proof (cells_of u ops) as W. cbv zeta in W. fold s in W.
  unfold vset_values in E. destruct (vget_block s name) as [[[t i] b]|e] eqn:G; [|discriminate]. cbv zeta in E.
  unfold vget_block in G. destruct (assoc String.eqb name (vs_names s)) as [[t0 st]|] eqn:N; [|discriminate].
  destruct (vmem_get s t0) as [l|] eqn:M; [|discriminate]. cbn [bind] in G. destruct (vfind_start l st 0) as [[j c]|] eqn:F; [|discriminate]. injection G as <- <- <-.
  destruct (find_start_at _ _ _ _ _ F) as (_ & F2 & F3). rewrite Nat.sub_0_r in F2. pose proof (W t0 c l M (nth_error_In _ _ F2)) as Wc.
  set (o := a - vb_start c) in *. set (n := zlen (objects v)).
  assert (Hn : match v with VSeq l => zlen l | VOne _ => 1 end = n) by (destruct v; reflexivity). rewrite Hn in E.
  destruct ((o <? 0) || (vb_size c <? o + n)) eqn:O; [discriminate|]. assert (P : 0 <= n) by (unfold n, zlen; lia).
  set (d := firstn (Z.to_nat o) (vb_data c) ++ objects v ++ skipn (Z.to_nat (o + n)) (vb_data c)).
  assert (E1 : s1 = vput_block_data s t0 j c d).
  { destruct v as [lv|x]; cbn [objects] in *.
    - injection E as <-. unfold d. f_equal. unfold py_slice_assign, slice_bound. change (zlen lv) with n. rewrite Wc.
      replace (o <? 0) with false by lia. replace (o + n <? 0) with false by lia. replace (Z.min o (vb_size c)) with o by lia. replace (Z.max o (Z.min (o + n) (vb_size c))) with (o + n) by lia. reflexivity.
    - change n with 1 in *. rewrite py_set_in in E by lia. injection E as <-. f_equal. unfold d. rewrite upd_split by (unfold zlen in Wc; lia). change (zlen [x]) with 1. do 3 f_equal. lia. }
  clear E. assert (DL : zlen d = vb_size c).
  { unfold d. rewrite !zlen_app. unfold n in *. unfold zlen in *. rewrite firstn_length, skipn_length. lia. }
  assert (M1 : vmem_get s1 t0 = Ok (list_upd l j (vwith_data c d))).
  { rewrite E1. unfold vput_block_data. rewrite M. unfold vmem_get, vmem_set. rewrite OA. destruct t0; reflexivity. }
  assert (MO : forall t', t' <> t0 -> vmem_get s1 t' = vmem_get s t').
  { intros t' D. rewrite E1. unfold vput_block_data. rewrite M. unfold vmem_get, vmem_set. rewrite OA. destruct t0, t'; try congruence; cbn; rewrite ?OA; reflexivity. }
  assert (NN : vs_names s1 = vs_names s).
  { rewrite E1. unfold vput_block_data. rewrite M. unfold vmem_set. rewrite OA. destruct t0; reflexivity. }
  assert (FU : forall st', vfind_start (list_upd l j (vwith_data c d)) st' 0 = match vfind_start l st' 0 with Some (k, b) => Some (k, if (k =? j)%nat then vwith_data c d else b) | None => None end).
  { intros st'. rewrite find_upd; [reflexivity|]. intros b0 Hb. assert (b0 = c) by congruence. subst. reflexivity. }
  split.
  - unfold vget_values, vget_block. rewrite NN, N, M1. cbn [bind]. rewrite FU, F. rewrite Nat.eqb_refl. cbn [bind]. cbv zeta. cbn [vwith_data vb_start vb_size vb_data]. fold o n. rewrite O.
    assert (SL : py_slice d o (o + n) = objects v).
    { rewrite py_slice_nonneg by lia. unfold d. rewrite skipn_app. assert (LF : length (firstn (Z.to_nat o) (vb_data c)) = Z.to_nat o) by (rewrite firstn_length; unfold zlen in *; lia).
      rewrite (skipn_all2 (firstn _ _)) by lia. rewrite LF, Nat.sub_diag. cbn [app skipn]. rewrite firstn_app. replace (Z.to_nat (o + n - o)) with (length (objects v)) by (unfold n, zlen; lia).
      rewrite firstn_all, Nat.sub_diag. cbn [firstn]. apply app_nil_r. }
    destruct (n =? 1) eqn:N1; [|now rewrite SL].
    assert (n = 1) by lia. rewrite H in SL. destruct (objects v) as [|x [|y r]] eqn:OV; try (unfold n, zlen in H; cbn in H; lia).
    rewrite (get_one d o x); [reflexivity| |lia]. rewrite SL. now left.
  - intros name' x. destruct (assoc String.eqb name' (vs_names s)) as [[t' st']|] eqn:N'.
    2:{ left. unfold vget_values, vget_block. now rewrite NN, N'. }
    assert (DT : t' = t0 \/ t' <> t0) by (destruct t', t0; auto; right; discriminate). destruct DT as [-> | D].
    2:{ left. unfold vget_values, vget_block. rewrite NN, N', MO by exact D. reflexivity. }
    destruct (vfind_start l st' 0) as [[k b]|] eqn:F'.
    2:{ left. unfold vget_values, vget_block. rewrite NN, N', M1, M. cbn [bind]. now rewrite FU, F'. }
    destruct (Nat.eq_dec k j) as [-> | D].
    2:{ left. unfold vget_values, vget_block. rewrite NN, N', M1, M. cbn [bind]. rewrite FU, F'. apply Nat.eqb_neq in D. now rewrite D. }
    destruct (find_start_at _ _ _ _ _ F') as (_ & F2' & F3'). rewrite Nat.sub_0_r in F2'. assert (b = c) by congruence. subst b.
    destruct (Z_lt_le_dec x a) as [Lx|Lx]; [|destruct (Z_lt_le_dec x (a + n)) as [Ux|Ux]].
    2:{ right. split; [congruence|lia]. }
    all: left; unfold vget_values, vget_block; rewrite NN, N', M1, M; cbn [bind]; rewrite FU, F', Nat.eqb_refl; cbn [bind]; cbv zeta; cbn [vwith_data vb_start vb_size vb_data];
      destruct ((x - vb_start c <? 0) || (vb_size c <? x - vb_start c + 1)) eqn:OX; [reflexivity|]; change (1 =? 1) with true; cbv iota;
      assert (KK : nth_error d (Z.to_nat (x - vb_start c)) = nth_error (vb_data c) (Z.to_nat (x - vb_start c)));
      [unfold d|unfold py_get; rewrite DL, Wc; replace (x - vb_start c <? 0) with false by lia; rewrite KK; reflexivity].
    + rewrite nth_error_app1 by (rewrite firstn_length; unfold zlen in *; lia). rewrite nth_error_firstn by lia. reflexivity.
    + rewrite nth_error_app2 by (rewrite firstn_length; unfold zlen in *; lia). rewrite nth_error_app2 by (rewrite firstn_length; unfold n, zlen in *; lia). rewrite nth_error_skipn. f_equal.
      rewrite firstn_length. unfold n, zlen in *. lia.
Qed.

(** (5) Masters read the truth value of a coil or of a discrete input, whatever is in it. *)
Definition bit_of (v : pv) : Z := if truth v then 1 else 0.
Theorem C95_coils : forall s fc t a n rest cells,
  (fc = 1 /\ t = COILS \/ fc = 2 /\ t = DISCRETE_INPUTS) -> 0 <= a <= 65535 -> 1 <= n <= 2000 -> sees s t a n cells ->
  exists out, vhandle_request s (fc :: word a ++ word n ++ rest) false = (s, Ok (fc :: bytes_for_bits n :: out)) /\ packs_bits (map bit_of cells) out.
Proof.
  intros s fc t a n rest cells T A N S. destruct (sees_finds _ _ _ _ _ S) as (j & b & o & G & O & ->).
  set (cells := py_slice (vb_data b) o (o + n)).
  assert (L : forall (u : bool) resp, exists out, vpack_bits_loop cells 0 0 resp (if u then ">B" else ">b") = Ok (resp ++ out) /\ packs_bits (map bit_of cells) out).
  { intros u resp. destruct (pack_bits_loop_ok (new_slave u None) (map bit_of cells) [] resp eq_refl) as (out & H & P). exists out. split; [|exact P].
    change (zlen (@nil Z)) with 0 in H. change (bits_val []) with 0 in H. change (fmtB (new_slave u None)) with (if u then ">B" else ">b") in H. rewrite <- H. clear.
    generalize 0 at 1 3. generalize 0. generalize resp. induction cells as [|v l IH]; intros r i bv; cbn [vpack_bits_loop pack_bits_loop map]; [reflexivity|].
    assert (E : negb (bit_of v =? 0) = truth v) by (unfold bit_of; destruct (truth v); reflexivity).
    destruct (bit_of v =? 0); cbn [negb] in E; rewrite <- E; destruct (7 <=? _); try apply IH; destruct (pack ">B" _); cbn [bind]; auto. }
  destruct (L (vs_unsigned s) [bytes_for_bits n]) as (out & H & P). exists out. split; [|exact P].
  assert (X : vread_digital s t (fc :: word a ++ word n ++ rest) = Ok (bytes_for_bits n :: out)).
  { unfold vread_digital. rewrite unpack2_head by (unfold fits; lia). cbn [bind]. replace (_ || _) with false by lia. rewrite G. cbn [bind].
    rewrite bit_byte_count_spec by lia. rewrite pack_B_ok. 2:{ unfold is_byte, bytes_for_bits. pose proof (Z.div_lt_upper_bound (n + 7) 8 256). pose proof (Z.div_pos (n + 7) 8). lia. }
    cbn [bind]. exact H. }
  unfold vhandle_request. rewrite unpack_fc. cbn [andb]. destruct T as [[-> ->]|[-> ->]].
  - change (vfn_code_map 1) with (Some (fun s p => (s, vread_digital s COILS p))). cbv iota beta. rewrite X. reflexivity.
  - change (vfn_code_map 2) with (Some (fun s p => (s, vread_digital s DISCRETE_INPUTS p))). cbv iota beta. rewrite X. reflexivity.
Qed.

(** What one would want: a slave that accepted the values of set_values answers the requests of masters. A register that holds a float makes
    every request that reads it raise struct.error (function codes 3, 23) or TypeError (22) out of handle_request: no exception response. *)
Definition half : pv := VObj 1 true.
Definition float_slave : vslave := vrun (vnew_slave true)
  [VAddBlock "r" 3 100 10; VAddBlock "c" 1 0 9; VSetValues "r" 103 (VOne half); VSetValues "c" 0 (VSeq [VObj 2 false; half; VBool true; VInt (-7); VInt 0])].
Theorem C95_refuted :
  ~ (forall unsigned ops name a v s1 pdu, vset_values (vrun (vnew_slave unsigned) ops) name a v = (s1, Ok tt) ->
       reads_registers pdu HOLDING_REGISTERS a 1 -> zlen pdu = 5 -> exists r, snd (vhandle_request s1 pdu false) = Ok r).
Proof.
  intros H. destruct (H true [VAddBlock "r" 3 100 10] "r" 103 (VOne half) (fst (vset_values (vrun (vnew_slave true) [VAddBlock "r" 3 100 10]) "r" 103 (VOne half))) [3; 0; 103; 0; 1]) as [r Hr].
  - vm_compute. reflexivity.
  - exists 3, [0; 103; 0; 1]. repeat split. left. auto.
  - reflexivity.
  - vm_compute in Hr. discriminate.
Qed.
Example C95_ex_unreadable :
  vhandle_request float_slave (3 :: word 100 ++ word 10) false = (float_slave, Err StructError) /\
  vhandle_request float_slave (22 :: word 103 ++ word 1 ++ word 2) false = (float_slave, Err PyTypeError) /\
  snd (vhandle_request float_slave (3 :: word 100 ++ word 3) false) = Ok [3; 6; 0; 0; 0; 0; 0; 0] /\
  vget_values (fst (vhandle_request float_slave (6 :: word 103 ++ word 7) false)) "r" 102 3 = Ok [VInt 0; VInt 7; VInt 0].
Proof. vm_compute. auto. Qed.
Example C95_ex_coils : snd (vhandle_request float_slave (1 :: word 0 ++ word 9) false) = Ok [1; 2; 14; 0].
Proof. reflexivity. Qed.
Example C95_ex_kept : vget_values float_slave "c" 0 5 = Ok [VObj 2 false; half; VBool true; VInt (-7); VInt 0] /\ vget_values float_slave "r" 103 1 = Ok [half].
Proof. vm_compute. auto. Qed.
Example C95_ex_sees : sees float_slave HOLDING_REGISTERS 102 3 [VInt 0; half; VInt 0] /\ reads_an_object float_slave (23 :: word 102 ++ word 3 ++ word 100 ++ word 1 ++ [2; 0; 5]).
Proof.
  assert (S : sees float_slave HOLDING_REGISTERS 102 3 [VInt 0; half; VInt 0]).
  { exists [], {| vb_start := 100; vb_size := 10; vb_data := [VInt 0; VInt 0; VInt 0; half; VInt 0; VInt 0; VInt 0; VInt 0; VInt 0; VInt 0] |}, []. split; [reflexivity|]. split; [unfold has_all; cbn; lia|]. split; [intros b' []|reflexivity]. }
  split; [exact S|]. exists HOLDING_REGISTERS, 102, 3, [VInt 0; half; VInt 0], half. split; [|split; [exact S|split; [right; left; reflexivity|reflexivity]]].
  eexists _, _. split; [reflexivity|]. split; [reflexivity|]. right. right. left. repeat split.
Qed.

Print Assumptions C95_requests.
Print Assumptions C95_unreadable.
Print Assumptions C95_calls.
Print Assumptions C95_history.
Print Assumptions C95_kept.
Print Assumptions C95_coils.
Print Assumptions C95_refuted.
