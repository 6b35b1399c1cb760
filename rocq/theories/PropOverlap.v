(** C01, exactly: which blocks add_block compares the new one with, and where it puts it. *)
From Verif Require Import Base SlaveModel Spec SlaveSpec SlaveInv BlockSpec BlockProofs AtomicProofs PropSlave.
From Coq Require Import Lia.
Open Scope string_scope. Open Scope list_scope. Open Scope Z_scope.

(** The block and the range have an address in common. *)
Definition shares (b : block) (start size : Z) : Prop := exists a, holds b a /\ start <= a < start + size.
(** A block that does not stop the search: it lies below the new one. *)
Definition passed (b : block) (start : Z) : Prop := b_start b + b_size b <= start.

Lemma is_in_shares b start size : 0 < b_size b -> 0 < size -> (is_in b start size = true <-> shares b start size).
Proof.
  intros Hb Hs. split; [apply is_in_true; assumption|]. intros (a & H & R). destruct (is_in b start size) eqn:E; [reflexivity|]. apply is_in_false in E. unfold holds in H. lia.
Qed.
(** Of the blocks of the type, in the order in which they are kept, the first that does not lie below the new block decides: if it shares
    an address with it, the error is raised; if not, the new block is put before it.  If all lie below, it is put first. *)
Theorem C01_outcome : forall s name z t start size, reachable s -> 0 < size -> 0 <= start -> ~ registered s name -> btype_of_Z z = Some t -> has_table s t ->
  (exists before b after, blocks s t = before ++ b :: after /\ Forall (fun c => passed c start) before /\ ~ passed b start /\
     ((shares b start size /\ add_block s name z start size = (s, Err OverlapModbusBlockError)) \/
      (~ shares b start size /\ exists s' new, add_block s name z start size = (s', Ok tt) /\ blocks s' t = before ++ new :: b :: after /\
         b_start new = start /\ b_data new = repeat 0 (Z.to_nat size)))) \/
  (Forall (fun c => passed c start) (blocks s t) /\ exists s' new, add_block s name z start size = (s', Ok tt) /\ blocks s' t = new :: blocks s t /\
         b_start new = start /\ b_data new = repeat 0 (Z.to_nat size)).
Proof.
  intros s name z t start size Hr Hs Hst Hna Hz Ht. pose proof (reachable_wf s Hr) as Hw. pose proof (Hw t) as Hwt. rewrite Forall_forall in Hwt.
  assert (Hna' : assoc String.eqb name (sl_names s) = None) by (unfold registered in Hna; destruct (assoc String.eqb name (sl_names s)); [exfalso; apply Hna; discriminate|reflexivity]).
  unfold add_block. replace (size <=? 0) with false by lia. replace (start <? 0) with false by lia. rewrite Hna', Hz, (mem_get_ok _ _ Ht).
  assert (Pf : forall l, (forall c, In c l -> is_in c start size = false /\ b_start c < start) -> Forall (fun c => passed c start) l).
  { intros l H. apply Forall_forall. intros c Hc. destruct (H c Hc) as [Hi Hb]. apply is_in_false in Hi. unfold passed. lia. }
  destruct (add_scan_spec (blocks s t) 0 start size) as [(l1 & b & l2 & Hl & H1 & H2 & H3)|[(l1 & b & l2 & Hl & H1 & H2 & H3 & H4)|[H1 H2]]].
  - left. exists l1, b, l2. assert (Hb : In b (blocks s t)) by (rewrite Hl; apply in_elt). destruct (Hwt _ Hb) as (_ & Hb2 & _).
    apply is_in_shares in H2; auto. split; [exact Hl|]. split; [auto|]. split; [|left; rewrite H3; auto]. destruct H2 as (a & A & R). unfold passed, holds in *. lia.
  - left. exists l1, b, l2. assert (Hb : In b (blocks s t)) by (rewrite Hl; apply in_elt). destruct (Hwt _ Hb) as (_ & Hb2 & _).
    split; [exact Hl|]. split; [auto|]. split; [unfold passed; lia|]. right. split; [rewrite <- is_in_shares by auto; congruence|].
    rewrite H4. eexists _, (new_block start size). split; [reflexivity|]. cbn [Nat.add]. rewrite Hl, list_insert_app. split; [|split; reflexivity].
    apply blocks_mem_set; [exact Ht|reflexivity].
  - right. split; [auto|]. rewrite H2. eexists _, (new_block start size). split; [reflexivity|]. split; [|split; reflexivity]. apply blocks_mem_set; [exact Ht|reflexivity].
Qed.
(** With blocks at 0 and at 100 a block at 50 of 10 registers is refused; once they are kept in the other order it is accepted (C01_refuted). *)
Example C01_outcome_ex : let s := slave_run (new_slave true None) [OpAddBlock "b" 3 100 100; OpAddBlock "a" 3 0 100] in
  add_block s "c" 3 50 10 = (s, Err OverlapModbusBlockError) /\ reachable s.
Proof. split; [vm_compute; reflexivity|]. eexists (new_slave true None), _. split; [constructor|reflexivity]. Qed.

Print Assumptions C01_outcome.
