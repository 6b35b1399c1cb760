(** C122: masters over TCP and the application work on one data model.
    Vocabulary: DeviceSpec.v, PropPlant.v (plant of reference devices), NetModel.v (the network of masters and their server), NetSpec.v (explains). *)
From Coq Require Import ZArith Lia ZifyBool ZifyNat.
From Verif Require Import Base BaseFacts PyStruct Spec StructFacts StructMore Defines SlaveModel SlaveSpec SlaveProofs BlockSpec PropSlave.
From Verif Require Import FrameSpec QueryModel DatabankModel MasterModel MasterSpec DbSpec DatabankProofs MasterProofs EndSpec EndProofs PropDatabank PropMaster TransportModel TransportSpec TransportProofs LinkSpec PropTransport PropBroadcast.
From Verif Require Import NetModel NetSpec NetProofs PropNet PropServerApart PropNetApart DeviceSpec PropDevice PropPlant.
Open Scope string_scope.
Open Scope list_scope.
Open Scope Z_scope.

(** ** Spec *)
(** The event of the plant a happening stands for (the application: set_values only). *)
Definition call_event (u : Z) (c : call) : event := if u =? 0 then Announce c else Ask u c.
Definition event_of (x : happening) : event :=
  match x with
  | Called _ u c _ => call_event u c
  | Did (DbCall u (OpSetValues name a v)) => Store u name a v
  | Did _ => Fetch 0 "" 0 0                                  (* does not occur below *)
  end.
Definition is_store (o : db_op) : Prop := match o with DbCall _ (OpSetValues _ _ _) => True | _ => False end.
(** the result of a happening is that of the plant *)
Definition as_planned (x : happening) (y : outcome) : Prop :=
  match x with Called _ _ _ r => same_outcome (FromCall r) y | Did _ => exists r, same_outcome (FromSet r) y end.

(** ** A call over TCP is a round trip *)
Lemma call_well_formed c pdu : encodable c -> prescribed c pdu -> (forall raw, c <> Raw raw) -> bytes pdu -> well_formed pdu.
Proof.
  intros E P W B. split; [exact B|].
  destruct c as [coils a m|holding a m|subs|a v|a v|a am om|a vals|a vals| |sub data|a m wa vals|code object|raw]; cbn [prescribed] in P; [| | | | | | | | | | | |now destruct (W raw)].
  all: try (destruct P as (out & _ & ->)); try rewrite P; unfold word; cbn [app hd nth fc_of]; (split; [discriminate|]; split; [try (destruct coils); try (destruct holding); lia|]).
  all: try (destruct (v =? 0)); try (destruct coils); try (destruct holding); cbn [app fixed_length complete hd nth].
  all: repeat rewrite zlen_cons; repeat rewrite words_zlen.
  all: try (pose proof (zlen_nonneg out)); try (pose proof (zlen_nonneg vals)); try (pose proof (zlen_nonneg data)); try (match goal with |- context [zlen (flat_map ?f ?l)] => pose proof (zlen_nonneg (flat_map f l)) end).
  all: try change (zlen (@nil Z)) with 0; try lia.
Qed.

Lemma over_is_round last d u c : can_send TCP last u c -> (u = 0 -> writes c) -> (forall raw, c <> Raw raw) -> db_reachable d -> (forall v s, get_slave d v = Ok s -> tidy s) ->
  over_tcp in_one_piece in_one_piece last d u c = round_trip TCP last d u c.
Proof.
  intros CS W NR D TY. pose proof CS as (E & T & U & F). destruct (build_call u c E) as (pdu & P & B & _). specialize (F pdu P).
  destruct (execute_exact TCP last u c pdu E P F T U) as (h & last' & _ & SD & _ & X).
  destruct (Z.eq_dec u 0) as [U0|U0]; [|destruct (get_slave d u) as [s|e] eqn:G].
  3:{ assert (DB : db_handle_request d TCP (on_wire (ids_for TCP last) u pdu) = (d, Ok (Some []))).
      { apply get_slave_err in G as GE. subst e. exact (db_absent d (ids_for TCP last) u pdu SD ltac:(lia) G). }
      rewrite (call_as last d u c _ _ T ltac:(intros raw ->; now destruct (NR raw)) ltac:(intros ex; rewrite X; reflexivity)).
      unfold round_trip, round_trip_args. rewrite !X. cbn [ex_sent fst]. unfold served_request, answer. rewrite DB. reflexivity. }
  2:{ destruct (db_reachable_slave d u s D G) as [R _]. destruct (C61_always_answered s pdu R) as (fc & resp & H & _); [apply (TY u s G)|apply (TY u s G)|now apply call_well_formed with c|].
      apply (C64_tcp in_one_piece in_one_piece last d u c pdu s (fc :: resp)); auto using one_piece_cutting. lia. }
  subst u. destruct (broadcast_served TCP last c d pdu E P F T (W eq_refl) D) as (R1 & _); [intros v s G; split; [apply (TY v s G)|intros _; apply (TY v s G)]|].
  rewrite (call_as last d 0 c _ _ T ltac:(intros raw ->; now destruct (NR raw)) ltac:(intros ex; rewrite X; reflexivity)).
  unfold round_trip, round_trip_args. rewrite !X. cbn [ex_sent fst]. rewrite R1. f_equal. unfold answer. unfold served_request in R1. cbn [snd] in R1.
  destruct (snd (db_handle_request d TCP (on_wire (ids_for TCP last) 0 pdu))) as [r|]; [rewrite R1|]; reflexivity.
Qed.
Lemma plant_run_snoc l : forall w e, plant_run w (l ++ [e]) = (fst (plant_step (fst (plant_run w l)) e), snd (plant_run w l) ++ [snd (plant_step (fst (plant_run w l)) e)]).
Proof.
  induction l as [|x l IH]; intros w e; cbn [app plant_run].
  - cbn [fst snd app]. now destruct (plant_step w e).
  - destruct (plant_step w x) as [w1 y]. rewrite IH. destruct (plant_run w1 l) as [w2 ys]. reflexivity.
Qed.
Lemma plays_tidy d w : plays d w -> forall v s, get_slave d v = Ok s -> tidy s.
Proof. intros P v s G. specialize (P v). destruct (w v); [|congruence]. destruct P as (s' & G' & TY & _). congruence. Qed.
Lemma kept_trans d d1 d2 : kept d d1 -> kept d1 d2 -> kept d d2.
Proof. intros K L v s2 G. destruct (L v s2 G) as (s1 & G1 & E1). destruct (K v s1 G1) as (s & G0 & E0). exists s. split; [exact G0|congruence]. Qed.
Lemma planned d0 w0 : db_reachable d0 -> plays d0 w0 -> forall h d lasts, one_by_one d0 h d lasts ->
  (forall i u c r, In (Called i u c r) h -> fair TCP d0 (call_event u c)) -> (forall o, In (Did o) h -> is_store o /\ fair TCP d0 (event_of (Did o))) ->
  db_reachable d /\ plays d (fst (plant_run w0 (map event_of h))) /\ Forall2 as_planned h (snd (plant_run w0 (map event_of h))) /\ (forall i, 0 <= lasts i <= 65535) /\ kept d0 d.
Proof.
  intros D0 P0 h d lasts O. induction O as [lasts L|h d lasts i u c d' e lasts' O IH OT L1 L2|h d lasts o O IH]; intros FC FD.
  - split; [exact D0|]. split; [exact P0|]. split; [constructor|]. split; [intros i; rewrite L; lia|apply kept_refl].
  - destruct IH as (D & P & A & T & K); [intros; apply (FC i0 u0 c0 r), in_or_app; now left|intros o I; apply FD, in_or_app; now left|].
    assert (FE : fair TCP d (call_event u c)) by (apply (fair_kept TCP d0 d _ K), (FC i u c (ex_result e)), in_or_app; right; now left).
    rewrite map_app. cbn [map event_of]. rewrite plant_run_snoc. cbn [fst snd]. set (w := fst (plant_run w0 (map event_of h))) in *.
    assert (CS : can_send TCP (lasts i) u c /\ (u = 0 -> writes c) /\ (forall raw, c <> Raw raw)).
    { unfold call_event in FE. destruct (u =? 0) eqn:U.
      - destruct FE as (Wr & US & CS & _). replace u with 0 by lia. split; [now apply CS|]. split; [auto|]. intros raw ->. exact US.
      - destruct FE as (U1 & US & CS & _). cbn [fst snd] in *. split; [now apply CS|]. split; [lia|]. intros raw ->. exact US. }
    destruct CS as (CS & WR & NR). rewrite (over_is_round (lasts i) d u c CS WR NR D (plays_tidy d w P)) in OT.
    assert (G : step_good TCP (lasts i) d w (call_event u c)) by (unfold call_event in *; destruct (u =? 0); [apply good_announce|apply good_ask]; auto).
    assert (PS : program_step TCP (lasts i) d (call_event u c) = (d', ex_last e, FromCall (ex_result e))).
    { unfold call_event. destruct (u =? 0) eqn:U; cbn [program_step]; [replace 0 with u by lia|]; now rewrite OT. }
    unfold step_good in G. rewrite PS in G. destruct G as (G1 & G2 & G3 & G4 & G5). split; [exact G3|]. split; [exact G2|]. split; [apply Forall2_app; [exact A|constructor; [exact G1|constructor]]|].
    split; [|now apply kept_trans with d]. intros j. destruct (Nat.eq_dec j i) as [->|N]; [rewrite L1; exact G4|rewrite L2 by exact N; apply T].
  - destruct IH as (D & P & A & T & K); [intros; apply (FC i u c r), in_or_app; now left|intros o0 I; apply FD, in_or_app; now left|].
    destruct (FD o) as (IS & FE); [apply in_or_app; right; now left|]. rewrite map_app. cbn [map]. rewrite plant_run_snoc. cbn [fst snd]. set (w := fst (plant_run w0 (map event_of h))) in *.
    destruct o as [ | | | |u op]; try destruct IS. destruct op; try destruct IS. cbn [event_of] in *. apply (fair_kept TCP d0 d _ K) in FE.
    pose proof (good_store TCP 0 d w ltac:(lia) D P u name address values FE) as G. unfold step_good in G. cbn [program_step] in G. cbn [db_step].
    destruct (get_slave d u) as [s|x] eqn:GS.
    + cbn [slave_step]. destruct (set_values s name address values) as [s' r]. cbn [fst snd]. destruct G as (G1 & G2 & G3 & G4 & G5).
      split; [exact G3|]. split; [exact G2|]. split; [apply Forall2_app; [exact A|constructor; [exists r; exact G1|constructor]]|]. split; [exact T|now apply kept_trans with d].
    + destruct G as (G1 & G2 & G3 & G4 & G5).
      split; [exact G3|]. split; [exact G2|]. split; [apply Forall2_app; [exact A|constructor; [exists (Err x); exact G1|constructor]]|]. split; [exact T|now apply kept_trans with d].
Qed.
(** ** C122 *)
(** Any number of masters with their own connections, any schedule, the frames cut in any way, set_values of the application in between: there
    is one order of all calls and stores - each at one instant, the calls of a master in its order, and past before future - in which every
    call has the result it has on the plant of reference devices, and the slaves show the devices afterwards. *)
Theorem C122_linear_partial : forall d0 w0 programs past future, db_reachable d0 -> plays d0 w0 -> fair_cuts (past ++ future) ->
  (forall program u c, In program programs -> In (u, c) program -> fair TCP d0 (call_event u c)) ->
  (forall o, In (Direct o) (past ++ future) -> is_store o /\ fair TCP d0 (event_of (Did o))) ->
  exists h h', explains d0 programs past (net_run (network_of d0 programs) past) h /\
    explains d0 programs (past ++ future) (net_run (network_of d0 programs) (past ++ future)) (h ++ h') /\
    Forall2 as_planned (h ++ h') (snd (plant_run w0 (map event_of (h ++ h')))) /\
    plays (net_db (net_run (network_of d0 programs) past)) (fst (plant_run w0 (map event_of h))) /\
    plays (net_db (net_run (network_of d0 programs) (past ++ future))) (fst (plant_run w0 (map event_of (h ++ h')))).
Proof.
  intros d0 w0 programs past future D P F FC FD.
  assert (B : byte_strings programs).
  { intros program u pdu I J. pose proof (FC program u (Raw pdu) I J) as X. unfold call_event in X. destruct (u =? 0); [destruct X as (_ & [] & _)|destruct X as (_ & [] & _)]. }
  destruct (C85_one_by_one d0 programs past future B F) as (h & h' & X1 & X2). exists h, h'. split; [exact X1|]. split; [exact X2|].
  assert (IN : forall schedule h0, explains d0 programs schedule (net_run (network_of d0 programs) schedule) h0 -> (forall o, In (Direct o) schedule -> In (Direct o) (past ++ future)) ->
    (forall i u c r, In (Called i u c r) h0 -> fair TCP d0 (call_event u c)) /\ (forall o, In (Did o) h0 -> is_store o /\ fair TCP d0 (event_of (Did o)))).
  { intros schedule h0 (_ & Dd & Len & Lt & X) Sub. split; [|intros o I; apply FD, Sub, direct_in; rewrite <- Dd; now apply did_in].
    intros j u c r In0. pose proof (Lt _ _ _ _ In0) as Lj. destruct (nth_error programs j) as [p|] eqn:Nj; [|apply nth_error_None in Nj; lia].
    destruct (nth_error (net_peers (net_run (network_of d0 programs) schedule)) j) as [kj|] eqn:Nk; [|apply nth_error_None in Nk; lia].
    assert (Pre : exists rest, p = calls_by j h0 ++ rest).
    { destruct (X j p kj Nj Nk) as (ret & Hp & _ & [[C _]|(u' & c' & r' & Ph & C & _)]); [rewrite C; eexists; exact Hp|]. exists (k_todo kj). rewrite C, Hp, <- app_assoc. now destruct Ph as [-> | ->]. }
    destruct Pre as (rest & E). apply (FC p); [now apply nth_error_In with j|]. rewrite E. apply in_or_app. left. eapply called_in; eauto. }
  destruct (IN past h X1 ltac:(intros; apply in_or_app; now left)) as (I1 & I2). destruct (IN (past ++ future) (h ++ h') X2 ltac:(auto)) as (I3 & I4).
  destruct X1 as ((lasts1 & O1) & _). destruct X2 as ((lasts2 & O2) & _).
  destruct (planned d0 w0 D P h _ lasts1 O1 I1 I2) as (_ & P1 & _). destruct (planned d0 w0 D P (h ++ h') _ lasts2 O2 I3 I4) as (_ & P2 & A2 & _). auto.
Qed.

(** ** A concrete case: two masters, a store of the application between the sending and the serving of a read, a broadcast *)
Definition plant_programs : list (list (Z * call)) :=
  [[(9, WriteRegs 105 [7; 8]); (9, ReadRegs true 104 3)]; [(0, WriteReg 101 9); (3, ReadRegs true 100 2); (12, ReadRegs true 100 1)]].
Definition plant_past : list action :=
  [Send 0 by_two; Send 1 in_one_piece; Serve 1 by_two; Serve 0 in_one_piece; Receive 0; Send 0 by_two].
Definition plant_future : list action :=
  [Direct (DbCall 9 (OpSetValues "r" 104 (SvSeq [-2]))); Serve 0 by_two; Receive 1; Send 1 by_two; Serve 1 by_two; Receive 0; Receive 1; Send 1 by_two; Serve 1 in_one_piece; Receive 1].
Lemma by_two_cuts : cutting by_two.
Proof. intros [|a [|b [|c t]]]; (split; [cbn; rewrite ?app_nil_r; reflexivity|]); repeat constructor; discriminate. Qed.
Example C122_ex : db_reachable demo_db /\ plays demo_db (plant_of demo_db) /\ fair_cuts (plant_past ++ plant_future) /\
  (forall program u c, In program plant_programs -> In (u, c) program -> fair TCP demo_db (call_event u c)) /\
  (forall o, In (Direct o) (plant_past ++ plant_future) -> is_store o /\ fair TCP demo_db (event_of (Did o))) /\
  map k_done (net_peers (net_run (network_of demo_db plant_programs) (plant_past ++ plant_future))) =
    [[Some (Ok (RTuple [105; 2])); Some (Ok (RTuple [65534; 7; 8]))]; [Some (Err SocketTimeout); Some (Ok (RTuple [0; 9])); Some (Err (ModbusError 2))]].
Proof.
  split; [apply demo_db_reachable|]. split; [apply plant_of_plays; [apply demo_db_reachable|apply demo_tidy]|]. split.
  { pose proof by_two_cuts as C. pose proof one_piece_cutting as C'. cbn [app plant_past plant_future]. repeat (constructor; [assumption || exact Logic.I|]); constructor. }
  split.
  { assert (Q : forall u c pdu, 1 <= u <= 255 -> usual c -> encodable c -> prescribed c pdu -> zlen pdu <= 65534 -> (forall a am om, c <> MaskWrite a am om) -> fair TCP demo_db (call_event u c)).
    { intros u c pdu U US E PR L N. unfold call_event. replace (u =? 0) with false by lia. cbn [fair]. apply (fine_intro TCP demo_db u c pdu); auto. intros s a am om _ C. now apply N in C. }
    intros program u c I J. cbn [plant_programs In] in I. destruct I as [<-|[<-|[]]]; cbn [In] in J; intuition (try discriminate); match goal with H : (_, _) = (_, _) |- _ => injection H as <- <- end.
    all: try (eapply Q; [lia|exact Logic.I|cbn [encodable]; unfold fits; repeat split; try lia; try (vm_compute; discriminate); try (repeat constructor; unfold reg_value; lia)|reflexivity|vm_compute; discriminate|discriminate]).
    cbn [call_event Z.eqb fair]. split; [vm_compute; auto|]. split; [exact Logic.I|]. split; [|discriminate].
    intros last L. split; [cbn [encodable]; unfold fits, reg_value; lia|]. split; [exact L|]. split; [lia|]. intros pdu P; cbn [prescribed] in P; rewrite P; vm_compute; discriminate. }
  split.
  { intros o J. cbn [app plant_past plant_future In] in J. repeat (destruct J as [J|J]; [try discriminate J|]); [|destruct J]. injection J as <-. split; [exact Logic.I|].
    cbn [event_of fair]. intros s G. vm_compute in G. injection G as <-. repeat constructor; discriminate. }
  vm_compute. reflexivity.
Qed.

Print Assumptions C122_linear_partial.
