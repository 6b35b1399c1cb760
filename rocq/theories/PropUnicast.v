(** Property C79: requests for one slave while other threads use and change the databank.
    Vocabulary: ConcModel.v (machine), ConcSpec.v, SharedModel.v. *)
From Coq Require Import Lia ZifyBool ZifyNat.
From Verif Require Import Base BaseFacts Spec Defines SlaveModel SlaveSpec BlockSpec DatabankModel DatabankProofs ConcModel ConcSpec ConcProofs ConcSlave SharedModel PropConc.
Open Scope string_scope.
Open Scope list_scope.
Open Scope Z_scope.

(** What the objects were before a call of a sequential history. *)
Lemma sequential_at {S Op O} (atomic : S -> Op -> S * O) init h1 h2 i k op o final : sequential atomic init (h1 ++ (i, k, op, o) :: h2) final ->
  exists mid, sequential atomic init h1 mid /\ snd (atomic (mid k) op) = o.
Proof.
  revert final. induction h2 as [|x h2 IH] using rev_ind; intros final H.
  - inversion H as [f E Q|h b i' k' op' s' o' f Sq At E1 E2 Q]; [destruct h1; discriminate Q|]. apply app_inj_tail in Q as [-> Q]. injection Q as -> -> -> ->.
    exists b. rewrite At. auto.
  - inversion H as [f E Q|h b i' k' op' s' o' f Sq At E1 E2 Q]; [destruct h1; discriminate Q|].
    rewrite app_comm_cons, app_assoc in Q. apply app_inj_tail in Q as [-> _]. eauto.
Qed.
Lemma calls_of_split {Op O} i (h : list (@event Op O)) before c after : calls_of i h = before ++ c :: after ->
  exists h1 h2, h = h1 ++ (i, fst (fst c), snd (fst c), snd c) :: h2 /\ calls_of i h1 = before /\ calls_of i h2 = after.
Proof.
  revert before. induction h as [|[[[j k] op] o] h IH]; intros before E; [destruct before; discriminate E|]. cbn in E.
  destruct (Nat.eqb i j) eqn:J.
  - apply Nat.eqb_eq in J. subst j. destruct before as [|b before]; cbn in E.
    + injection E as <- E. exists [], h. auto.
    + injection E as <- E. destruct (IH before E) as (h1 & h2 & -> & <- & E2). exists ((i, k, op, o) :: h1), h2. cbn. now rewrite Nat.eqb_refl.
  - destruct (IH before E) as (h1 & h2 & -> & E1 & E2). exists ((j, k, op, o) :: h1), h2. cbn. now rewrite J.
Qed.
Lemma request_shape id pdu calls : follows (request_calls id pdu) calls ->
  calls = [] \/ (exists o, calls = [(0, ShGet id, o)] /\ (request_calls id pdu calls = None <-> forall ref, o <> SoRef (Ok ref))) \/
  (exists ref o, calls = [(0, ShGet id, SoRef (Ok ref)); (ref, SlaveOp (OpRequest pdu false), o)]).
Proof.
  intros F. destruct calls as [|[[k1 op1] o1] d1]; [now left|]. right. pose proof (F [] k1 op1 o1 d1 eq_refl) as F1. cbn in F1. injection F1 as <- <-.
  destruct d1 as [|[[k2 op2] o2] d2].
  - left. exists o1. split; [reflexivity|]. cbn. destruct o1 as [|[ref|e]| | |]; split; try congruence; try (intros H; now destruct (H ref)).
  - right. pose proof (F [_] k2 op2 o2 d2 eq_refl) as F2. cbn in F2. destruct o1 as [|[ref|e]| | |]; try discriminate F2. injection F2 as <- <-.
    destruct d2 as [|[[k3 op3] o3] d3]; [eauto|]. pose proof (F [_; _] k3 op3 o3 d3 eq_refl) as F3. discriminate F3.
Qed.

(** Whatever other threads do: the request is handed to at most one slave, once, as a request (not a broadcast); that slave was the one
    registered under the id when it was looked up; what comes back is what that slave answers in the state in which it is at one moment
    between, and that is all that happens to it. *)
Theorem C79_at_most_one : forall id pdu i programs objects schedule,
  nth_error programs i = Some (request_calls id pdu) ->
  let h := returned true shared_code schedule (start objects programs) in
  let calls := calls_of i h in
  handed calls = [] \/
  exists ref o h1 h2 h3 objects1 l objects2,
    calls = [(0, ShGet id, SoRef (Ok ref)); (ref, SlaveOp (OpRequest pdu false), o)] /\ handed calls = [ref] /\
    h = h1 ++ (i, 0, ShGet id, SoRef (Ok ref)) :: h2 ++ (i, ref, SlaveOp (OpRequest pdu false), o) :: h3 /\
    sequential shared_step objects h1 objects1 /\ objects1 0 = SDatabank l /\ assoc Z.eqb id l = Some ref /\
    sequential shared_step objects (h1 ++ (i, 0, ShGet id, SoRef (Ok ref)) :: h2) objects2 /\
    (forall s, objects2 ref = SSlave s -> o = SoSlave (OutVals (snd (handle_request s pdu false)))).
Proof.
  intros id pdu i programs objects schedule N h calls.
  destruct (one_at_a_time shared_code shared_step run_shared objects programs schedule) as (fin & Sq & _ & Fo). fold h in Sq, Fo. specialize (Fo i _ N). fold calls in Fo.
  destruct (request_shape id pdu calls Fo) as [E|[(o & E & _)|(ref & o & E)]]; [left; now rewrite E|left; now rewrite E|]. right.
  destruct (calls_of_split i h [] _ _ E) as (h1 & h2' & E1 & _ & E2). cbn [fst snd] in E1.
  destruct (calls_of_split i h2' [] _ _ E2) as (h2 & h3 & E3 & _ & _). cbn [fst snd] in E3. subst h2'.
  pose proof Sq as Sq1. rewrite E1 in Sq1. destruct (sequential_at _ _ _ _ _ _ _ _ _ Sq1) as (ob1 & S1 & O1).
  rewrite app_comm_cons, app_assoc in Sq1. destruct (sequential_at _ _ _ _ _ _ _ _ _ Sq1) as (ob2 & S2 & O2).
  destruct (ob1 0) as [l|s0] eqn:D; cbn in O1; [|discriminate O1]. destruct (assoc Z.eqb id l) as [r|] eqn:As; [|discriminate O1]. injection O1 as ->.
  exists ref, o, h1, h2, h3, ob1, l, ob2. 
  rewrite E. split; [reflexivity|]. split; [reflexivity|]. split; [exact E1|]. split; [exact S1|]. split; [exact D|]. split; [exact As|]. split; [exact S2|].
  intros s D2. rewrite D2 in O2. subst o. cbn. destruct (handle_request s pdu false). reflexivity.
Qed.
(** Spec: the operation takes the slave [id] out, or puts it in. *)
Definition takes_out (id : Z) (o : shared_op) : Prop := o = ShRemove id \/ o = ShRemoveAll.
Definition puts_in (id : Z) (o : shared_op) : Prop := exists ref, o = ShAdd id ref.
Lemma del_other id id' (l : list (Z * Z)) : id <> id' -> assoc Z.eqb id (assoc_del Z.eqb id' l) = assoc Z.eqb id l.
Proof.
  intros N. unfold assoc_del. induction l as [|[k v] l IH]; [reflexivity|]. cbn. destruct (Z.eqb_spec id' k); cbn; destruct (Z.eqb_spec id k); try lia; auto.
Qed.
(** A slave that stays registered gets the request exactly once. *)
Theorem C79_present : forall id ref pdu i programs objects l schedule,
  nth_error programs i = Some (request_calls id pdu) -> objects 0 = SDatabank l -> assoc Z.eqb id l = Some ref ->
  (forall p before op, In p programs -> p before = Some (0, op) -> ~ takes_out id op) ->
  let calls := calls_of i (returned true shared_code schedule (start objects programs)) in
  (handed calls = [] \/ handed calls = [ref]) /\ (request_calls id pdu calls = None -> handed calls = [ref]).
Proof.
  intros id ref pdu i programs objects l schedule N O0 As HP calls.
  destruct (one_at_a_time shared_code shared_step run_shared objects programs schedule) as (fin & Sq & _ & Fo). specialize (Fo i _ N). fold calls in Fo.
  set (h := returned true shared_code schedule (start objects programs)) in *.
  destruct (sequential_invariant shared_step (fun k x => k = 0 -> exists l, x = SDatabank l /\ assoc Z.eqb id l = Some ref) (fun k op => k = 0 -> ~ takes_out id op)
    (fun k op o => k = 0 -> op = ShGet id -> o = SoRef (Ok ref)) objects h fin) as [_ Q].
  - intros k ->. exists l. auto.
  - intros k x op HPk HA. split; intros ->; destruct (HPk eq_refl) as (l' & -> & A'); specialize (HA eq_refl).
    + destruct op; cbn; try (eexists; split; [reflexivity|exact A']).
      * destruct (_ || _); [eexists; split; [reflexivity|exact A']|]. destruct (assoc Z.eqb id0 l') eqn:E; cbn; eexists; (split; [reflexivity|]); [exact A'|].
        rewrite zassoc_put_other; [exact A'|]. intros ->. congruence.
      * destruct (assoc Z.eqb id0 l') eqn:E; cbn; eexists; (split; [reflexivity|]); [|exact A']. rewrite del_other; [exact A'|]. intros ->. apply HA. now left.
      * exfalso. apply HA. now right.
    + intros ->. cbn. now rewrite A'.
  - exact Sq.
  - intros j k op o Hin ->. destruct (returned_program shared_code shared_step run_shared _ _ _ _ _ _ _ Hin) as (p & before & Ip & Ep). eapply HP; eassumption.
  - assert (Qc : forall o, In (0, ShGet id, o) calls -> o = SoRef (Ok ref)).
    { intros o Hin. assert (X : In (i, 0, ShGet id, o) h).
      { revert Hin. unfold calls. clear. induction h as [|[[[j k'] op'] o'] h IH]; cbn; [easy|]. destruct (Nat.eqb_spec i j); cbn; [|intros H; right; auto].
        intros [H|H]; [injection H as -> -> ->; left; congruence|right; auto]. }
      eapply Q; [exact X|reflexivity|reflexivity]. }
    destruct (request_shape id pdu calls Fo) as [E|[(o & E & Zn)|(ref' & o & E)]].
    + rewrite E. split; [now left|discriminate].
    + assert (o = SoRef (Ok ref)) by (apply Qc; rewrite E; now left). split; [left; now rewrite E|]. intros H'. now destruct (proj1 Zn H' ref).
    + assert (R : SoRef (Ok ref') = SoRef (Ok ref)) by (apply Qc; rewrite E; now left). injection R as ->. split; [right|intros _]; now rewrite E.
Qed.
(** No slave gets a request for an id under which no slave is registered meanwhile; the caller gets MissingKeyError. *)
Theorem C79_absent : forall id pdu i programs objects l schedule,
  nth_error programs i = Some (request_calls id pdu) -> objects 0 = SDatabank l -> assoc Z.eqb id l = None ->
  (forall p before op, In p programs -> p before = Some (0, op) -> ~ puts_in id op) ->
  let calls := calls_of i (returned true shared_code schedule (start objects programs)) in
  handed calls = [] /\ (calls = [] \/ calls = [(0, ShGet id, SoRef (Err MissingKeyError))]).
Proof.
  intros id pdu i programs objects l schedule N O0 As HP calls.
  destruct (one_at_a_time shared_code shared_step run_shared objects programs schedule) as (fin & Sq & _ & Fo). specialize (Fo i _ N). fold calls in Fo.
  set (h := returned true shared_code schedule (start objects programs)) in *.
  destruct (sequential_invariant shared_step (fun k x => k = 0 -> exists l, x = SDatabank l /\ assoc Z.eqb id l = None) (fun k op => k = 0 -> ~ puts_in id op)
    (fun k op o => k = 0 -> op = ShGet id -> o = SoRef (Err MissingKeyError)) objects h fin) as [_ Q].
  - intros k ->. exists l. auto.
  - intros k x op HPk HA. split; intros ->; destruct (HPk eq_refl) as (l' & -> & A'); specialize (HA eq_refl).
    + destruct op; cbn; try (eexists; split; [reflexivity|exact A']).
      * destruct (_ || _); [eexists; split; [reflexivity|exact A']|]. destruct (assoc Z.eqb id0 l') eqn:E; cbn; eexists; (split; [reflexivity|]); [exact A'|].
        rewrite zassoc_put_other; [exact A'|]. intros ->. apply HA. eexists. reflexivity.
      * destruct (assoc Z.eqb id0 l') eqn:E; cbn; eexists; (split; [reflexivity|]); [|exact A']. rewrite del_other; [exact A'|]. intros ->. congruence.
      * eexists. split; reflexivity.
    + intros ->. cbn. now rewrite A'.
  - exact Sq.
  - intros j k op o Hin ->. destruct (returned_program shared_code shared_step run_shared _ _ _ _ _ _ _ Hin) as (p & before & Ip & Ep). eapply HP; eassumption.
  - assert (Qc : forall o, In (0, ShGet id, o) calls -> o = SoRef (Err MissingKeyError)).
    { intros o Hin. assert (X : In (i, 0, ShGet id, o) h).
      { revert Hin. unfold calls. clear. induction h as [|[[[j k'] op'] o'] h IH]; cbn; [easy|]. destruct (Nat.eqb_spec i j); cbn; [|intros H; right; auto].
        intros [H|H]; [injection H as -> -> ->; left; congruence|right; auto]. }
      eapply Q; [exact X|reflexivity|reflexivity]. }
    destruct (request_shape id pdu calls Fo) as [E|[(o & E & Zn)|(ref' & o & E)]].
    + rewrite E. split; auto.
    + assert (o = SoRef (Err MissingKeyError)) as -> by (apply Qc; rewrite E; now left). rewrite E. auto.
    + assert (R : SoRef (Ok ref') = SoRef (Err MissingKeyError)) by (apply Qc; rewrite E; now left). discriminate R.
Qed.
(** A slave that has been removed can still be written: remove_slave does not wait for a request that has looked the slave up. *)
Theorem C79_removed_refuted :
  ~ (forall id pdu objects l schedule h1 h2 r,
       objects 0 = SDatabank l ->
       returned true shared_code schedule (start objects [request_calls id pdu; just [(0, ShRemove id)]]) = h1 ++ (1%nat, 0, ShRemove id, SoUnit (Ok r)) :: h2 ->
       forall ref o, ~ In (0%nat, ref, SlaveOp (OpRequest pdu false), o) h2).
Proof.
  intros H.
  specialize (H 3 [6; 0; 100; 0; 7] (fun k => if k =? 0 then SDatabank [(3, 100)] else SSlave two_regs) [(3, 100)] (repeat 0 3 ++ repeat 1 5 ++ repeat 0 30)%nat
    [(0%nat, 0, ShGet 3, SoRef (Ok 100))] [(0%nat, 100, SlaveOp (OpRequest [6; 0; 100; 0; 7] false), SoSlave (OutVals (Ok [6; 0; 100; 0; 7])))] tt eq_refl).
  assert (E : returned true shared_code (repeat 0 3 ++ repeat 1 5 ++ repeat 0 30)%nat
      (start (fun k => if k =? 0 then SDatabank [(3, 100)] else SSlave two_regs) [request_calls 3 [6; 0; 100; 0; 7]; just [(0, ShRemove 3)]])
    = [(0%nat, 0, ShGet 3, SoRef (Ok 100))] ++ (1%nat, 0, ShRemove 3, SoUnit (Ok tt)) :: [(0%nat, 100, SlaveOp (OpRequest [6; 0; 100; 0; 7] false), SoSlave (OutVals (Ok [6; 0; 100; 0; 7])))])
    by (vm_compute; reflexivity).
  specialize (H E 100 (SoSlave (OutVals (Ok [6; 0; 100; 0; 7])))). apply H. now left.
Qed.
(** Slave 5 is removed and added while a request for slave 3 is handled. *)
Example C79_ex : calls_of 0 (returned true shared_code (repeat 0 3 ++ repeat 1 5 ++ repeat 0 10 ++ repeat 1 5 ++ repeat 0 30)%nat
     (start (fun k => if k =? 0 then SDatabank [(3, 100); (5, 101)] else SSlave two_regs) [request_calls 3 [6; 0; 100; 0; 7]; just [(0, ShRemove 5); (0, ShAdd 5 102)]]))
  = [(0, ShGet 3, SoRef (Ok 100)); (100, SlaveOp (OpRequest [6; 0; 100; 0; 7] false), SoSlave (OutVals (Ok [6; 0; 100; 0; 7])))].
Proof. vm_compute. reflexivity. Qed.

Print Assumptions C79_at_most_one.
Print Assumptions C79_present.
Print Assumptions C79_absent.
Print Assumptions C79_removed_refuted.
