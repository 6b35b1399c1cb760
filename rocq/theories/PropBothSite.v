(** C135: a CompositeServer with a serial line and TCP: masters on both sides and the application work on one site of devices.
    Vocabulary: BuiltSpec.v and PropBuiltPlant.v (site, site_run, lawful, stages), LinkSpec.v (over_tcp, over_serial: calls byte by byte through
    the server), PropBuiltNet.v (news_over), PropBuiltSerial.v (news_line), PropPlantNet.v (call_event) and the definitions below. *)
From Coq Require Import ZArith Lia ZifyBool ZifyNat.
From Verif Require Import Base BaseFacts PyStruct Spec StructFacts StructMore Defines SlaveModel SlaveSpec SlaveProofs BlockSpec BlockProofs HandlerProofs RequestProofs GeneralProofs SlaveInv PropSlave.
From Verif Require Import FrameSpec QueryModel DatabankModel MasterModel MasterSpec DbSpec DatabankProofs MasterProofs EndSpec EndProofs PropDatabank PropMaster TransportModel TransportSpec TransportProofs LinkSpec PropTransport PropBroadcast.
From Verif Require Import NetModel NetSpec NetProofs PropNet PropNetApart PropPlantNet DeviceSpec PropDevice PropPlant BuiltSpec PropBuilt PropBuiltPlant PropBuiltNet PropBuiltSerial.
Open Scope string_scope.
Open Scope list_scope.
Open Scope Z_scope.

(** ** Spec *)
(** simulator.CompositeServer (simulator.py 50-83) gives all its servers one databank (C78).  An event: a call of one of the TcpMasters
    (unit 0: a broadcast), a call of the RtuMaster with the ways the line cuts the two frames, or the application. *)
Inductive both :=
| ByTcp (master : nat) (u : Z) (c : call)
| BySerial (cut_req cut_resp : list Z -> list (list Z)) (u : Z) (c : call)
| Local (e : event).
Definition both_event (x : both) : event := match x with ByTcp _ u c | BySerial _ _ u c => call_event u c | Local e => e end.
(** The transaction numbers of the TcpMasters and the databank. *)
Definition both_step (lasts : nat -> Z) (d : databank) (x : both) : (nat -> Z) * databank * effect :=
  match x with
  | ByTcp i u c => let '(d', e) := over_tcp in_one_piece in_one_piece (lasts i) d u c in (fun j => if Nat.eqb j i then ex_last e else lasts j, d', FromCall (ex_result e))
  | BySerial cut_req cut_resp u c => let '(d', e) := over_serial cut_req cut_resp 0 d u c in (lasts, d', FromCall (ex_result e))
  | Local e => let '(d', _, y) := program_step TCP 0 d e in (lasts, d', y)
  end.
Fixpoint both_run (lasts : nat -> Z) (d : databank) (l : list both) : databank * list effect :=
  match l with [] => (d, []) | x :: l => let '(lasts1, d1, y) := both_step lasts d x in let '(d2, ys) := both_run lasts1 d1 l in (d2, y :: ys) end.
(** What the caller sees of the news: the two transports end a call without answer with different exceptions. *)
Definition both_news (x : both) (y : effect) (o : news) : Prop :=
  match x with ByTcp _ _ _ => news_over y o | BySerial _ _ _ _ => news_line y o | Local _ => same_news y o end.
Definition lawful_both (x : both) : Prop :=
  match x with
  | ByTcp _ u c => lawful TCP (call_event u c)
  | BySerial cut_req cut_resp u c => cutting cut_req /\ cutting cut_resp /\ lawful RTU (call_event u c)
  | Local e => match e with Store _ _ _ _ => True | Fetch _ _ _ n => 0 <= n | _ => False end
  end.

(** ** Proofs *)
Lemma both_well lasts d w x : (forall i, 0 <= lasts i <= 65535) -> db_reachable d -> stages d w -> lawful_both x ->
  let '(lasts', d', y) := both_step lasts d x in
  both_news x y (snd (site_step w (both_event x))) /\ stages d' (fst (site_step w (both_event x))) /\ db_reachable d' /\ (forall i, 0 <= lasts' i <= 65535).
Proof.
  intros T D P L. destruct x as [i u c|cq cr u c|e]; cbn [both_step both_event both_news lawful_both] in *.
  - pose proof (over_step (lasts i) d w u c (T i) D P L) as O. unfold over_well in O. destruct (over_tcp in_one_piece in_one_piece (lasts i) d u c) as [d' e]. destruct O as (O1 & O2 & O3 & O4).
    repeat (split; [assumption|]). intros j. destruct (Nat.eqb j i); auto.
  - destruct L as (C1 & C2 & L). pose proof (line_well 0 d w {| lu_request := cq; lu_response := cr; lu_event := call_event u c |} ltac:(lia) D P (conj C1 (conj C2 L))) as LW.
    unfold line_step in LW. cbn [lu_request lu_response lu_event] in LW. unfold call_event in *. destruct (Z.eqb_spec u 0) as [->|U].
    + destruct (over_serial cq cr 0 d 0 c) as [d' e]. destruct LW as (L1 & L2 & L3 & _). auto.
    + destruct (over_serial cq cr 0 d u c) as [d' e]. destruct LW as (L1 & L2 & L3 & _). auto.
  - assert (W : step_well TCP 0 d w e) by (destruct e; try contradiction; [apply well_store|apply well_fetch]; auto; lia). unfold step_well in W. destruct (program_step TCP 0 d e) as [[d' l'] y]. destruct W as (W1 & W2 & W3 & _). auto.
Qed.
(** ** C135 *)
Theorem C135_both : forall l lasts d w, (forall i, 0 <= lasts i <= 65535) -> db_reachable d -> stages d w -> Forall lawful_both l ->
  Forall2 (fun xy o => both_news (fst xy) (snd xy) o) (combine l (snd (both_run lasts d l))) (snd (site_run w (map both_event l))) /\
  length (snd (both_run lasts d l)) = length l /\ stages (fst (both_run lasts d l)) (fst (site_run w (map both_event l))).
Proof.
  induction l as [|x l IH]; intros lasts d w T D P F; [split; [constructor|auto]|]. inversion_clear F as [|? ? F1 F2].
  pose proof (both_well lasts d w x T D P F1) as SW. cbn [both_run map site_run]. destruct (both_step lasts d x) as [[lasts1 d1] y]. destruct (site_step w (both_event x)) as [w1 o]. cbn [fst snd] in SW. destruct SW as (S1 & S2 & S3 & S4).
  destruct (IH lasts1 d1 w1 S4 S3 S2 F2) as (I1 & I2 & I3). destruct (both_run lasts1 d1 l) as [d2 ys]. destruct (site_run w1 (map both_event l)) as [w2 os]. cbn [fst snd combine length] in *.
  split; [constructor; [exact S1|exact I1]|]. split; [now rewrite I2|exact I3].
Qed.
Theorem C135_from_databank : forall l lasts d, (forall i, 0 <= lasts i <= 65535) -> db_reachable d -> (forall v s, get_slave d v = Ok s -> plain s) -> Forall lawful_both l ->
  Forall2 (fun xy o => both_news (fst xy) (snd xy) o) (combine l (snd (both_run lasts d l))) (snd (site_run (site_of d) (map both_event l))) /\
  length (snd (both_run lasts d l)) = length l /\ stages (fst (both_run lasts d l)) (fst (site_run (site_of d) (map both_event l))).
Proof.
  intros l lasts d T D H F. apply C135_both; auto. intros v. unfold site_of. destruct (get_slave d v) as [s|e] eqn:G.
  - destruct (db_reachable_slave d v s D G) as [R _]. exists s. split; [reflexivity|]. split; [eapply H; eauto|]. split; [apply built_of_pictures; [now apply reachable_wf|eapply H; eauto]|]. apply post_areas; [exact R|eapply H; eauto].
  - now apply get_slave_err in G as ->.
Qed.
(** ** A concrete case: demo_db, two TcpMasters and a serial line that cuts every two bytes *)
Definition both_uses : list both :=
  [ByTcp 0 3 (WriteReg 103 9); BySerial by_two by_two 3 (ReadRegs true 103 1); Local (Store 3 "r" 104 (SvSeq [70000])); ByTcp 1 3 (ReadRegs true 103 2); BySerial by_two in_one_piece 3 (ReadRegs true 103 2);
   BySerial by_two by_two 0 (WriteReg 104 5); ByTcp 1 3 (ReadRegs true 103 2); ByTcp 0 0 (WriteReg 103 1); Local (Fetch 9 "r" 103 2); BySerial by_two by_two 77 (ReadRegs true 103 1)].
Example C135_ex : Forall lawful_both both_uses /\ (forall v s, get_slave demo_db v = Ok s -> plain s) /\
  snd (both_run (fun _ => 65535) demo_db both_uses) =
    [FromCall (Some (Ok (RTuple [103; 9]))); FromCall (Some (Ok (RTuple [9]))); FromSet (Ok tt); FromCall (Some (Err SocketTimeout)); FromCall (Some (Err ModbusInvalidResponseError));
     FromCall (Some (Err ModbusInvalidResponseError)); FromCall (Some (Ok (RTuple [9; 5]))); FromCall (Some (Err SocketTimeout)); FromGet (Ok [1; 5]); FromCall (Some (Err ModbusInvalidResponseError))].
Proof.
  split; [|split; [intros v s G; destruct (demo_tidy v s G) as (A & B & C & _); exact (conj A (conj B C))|vm_compute; reflexivity]].
  unfold both_uses.
  repeat (apply Forall_cons; [cbn [lawful_both]; try (split; [first [exact by_two_cuts|exact one_piece_cutting]|]; split; [first [exact by_two_cuts|exact one_piece_cutting]|]); unfold call_event; cbn [Z.eqb lawful Pos.eqb]; first
    [ exact Logic.I
    | lia
    | eapply askable_intro; [lia|discriminate|cbn [encodable]; unfold fits, bytes, is_byte, zlen, reg_value; cbn [length Z.of_nat repeat]; repeat constructor; lia|reflexivity|vm_compute; discriminate]
    | split; [cbn [fc_of In]; tauto|]; intros last0 T0; split; [cbn [encodable]; unfold fits, reg_value; repeat split; lia|]; split; [exact T0|]; split; [lia|]; intros pdu P; apply framable_small; rewrite P; vm_compute; discriminate ]|]).
  apply Forall_nil.
Qed.

Print Assumptions C135_both.
Print Assumptions C135_from_databank.
