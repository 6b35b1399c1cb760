(** C130: masters over TCP and the application work on the devices the library is.
    Vocabulary: BuiltSpec.v and PropBuiltPlant.v (site, site_run, stages, lawful, same_news), NetModel.v (masters, their connections, the server), NetSpec.v
    (explains), PropPlantNet.v (call_event, event_of, is_store) and the definitions below. *)
From Coq Require Import ZArith Lia ZifyBool ZifyNat.
From Verif Require Import Base BaseFacts PyStruct Spec StructFacts StructMore Defines SlaveModel SlaveSpec SlaveProofs BlockSpec BlockProofs HandlerProofs RequestProofs GeneralProofs SlaveInv PropSlave.
From Verif Require Import FrameSpec QueryModel DatabankModel MasterModel MasterSpec DbSpec DatabankProofs MasterProofs EndSpec EndProofs PropDatabank PropMaster TransportModel TransportSpec TransportProofs LinkSpec PropTransport PropBroadcast.
From Verif Require Import NetModel NetSpec NetProofs PropNet PropServerApart PropNetApart DeviceSpec PropDevice PropPlant PropPlantNet BuiltSpec PropBuilt PropBuiltPlant.
Open Scope string_scope.
Open Scope list_scope.
Open Scope Z_scope.

(** ** Spec *)
(** Over TCP a call the device fails at ends with a timeout: what the server sends is no frame. *)
Definition news_over (x : effect) (y : news) : Prop :=
  match y with Heard (Some Fails) => x = FromCall (Some (Err SocketTimeout)) | _ => same_news x y end.
Definition as_sited (x : happening) (y : news) : Prop :=
  match x with Called _ _ _ r => news_over (FromCall r) y | Did _ => exists r, same_news (FromSet r) y end.

(** ** Proofs *)
(** the calls a device fails at are those the slave raises struct.error for *)
Lemma fails_raises d u s b c pdu : db_reachable d -> get_slave d u = Ok s -> plain s -> pictures s b -> encodable c -> prescribed c pdu ->
  snd (built_call b c) = Fails -> snd (handle_request s pdu false) = Err StructError.
Proof.
  intros D G P M E PR F. pose proof (proj1 P) as AT. pose proof (proj1 M) as MI.
  assert (ODD : forall t a n bl, is_register t = true -> served_by s t a n bl -> 0 <= n -> odd_in b t a n = true -> ~ Forall (fits (sl_unsigned s)) (values_at bl a n)) by exact (bs_unodd d u s b D G M).
  destruct c as [coils a m|holding a m|subs|a v|a v|a am om|a vals|a vals| |sub data|a m wa vals|code object|raw]; cbn [built_call] in F; unfold guard in F; try discriminate F.
  all: try (repeat match type of F with context [if ?c then (_, _) else _] => destruct c end; discriminate F).
  - destruct E as (Ha & Hn). set (t := if holding then HOLDING_REGISTERS else ANALOG_INPUTS) in *. destruct ((1 <=? m) && (m <=? 125)) eqn:N; [|discriminate F]. destruct (present (bt_device b) t a m) eqn:Q; [|discriminate F].
    destruct (odd_in b t a m) eqn:O; [|discriminate F]. destruct (present_served s _ t a m MI Q) as (bl & SB).
    assert (IR : is_register t = true) by (unfold t; now destruct holding).
    cbn [prescribed] in PR. set (fc := if holding then 3 else 4). assert (RT : reg_table fc t) by (unfold fc, t; destruct holding; [left|right]; auto).
    replace pdu with (fc :: word a ++ word m ++ []) by (rewrite app_nil_r; now symmetry).
    rewrite (hr_err s fc _ (fun s pdu => (s, read_registers s t pdu)) s StructError false); [reflexivity|now apply reg_table_map| |discriminate|reflexivity].
    cbn beta. rewrite (read_registers_unfit s t fc a m bl); auto; [lia|]. apply (ODD t a m bl IR SB); [lia|exact O].
  - destruct E as (Ha & Hn & Hwa & Hl & Hv). set (H := HOLDING_REGISTERS) in *. destruct ((1 <=? m) && (m <=? 125)) eqn:N; [|discriminate F]. destruct (present (bt_device b) H a m) eqn:Q; [|discriminate F].
    destruct (odd_in b H a m) eqn:O; [|repeat match type of F with context [if ?c then _ else _] => destruct c end; discriminate F].
    destruct (present_served s _ H a m MI Q) as (bl & SB). cbn [prescribed] in PR. rewrite PR. pose proof (zlen_nonneg vals).
    rewrite (read_write_unfit s P a m wa (zlen vals) (2 * zlen vals) _ bl); auto; [unfold fits; lia|lia|]. apply (ODD H a m bl eq_refl SB); [lia|exact O].
Qed.
(** two bytes are no frame *)
Lemma two_bytes x y : bytes [x; y] -> received (Some [x; y]) = Err SocketTimeout.
Proof.
  intros B. unfold received. destruct (C45_stalled {| c_segs := in_one_piece [x; y]; c_end := Stalled |} [x; y] [0; 0; 0; 0]) as (c' & ->); [|discriminate|reflexivity|reflexivity|reflexivity].
  exists x, y, 0, 0, 0, 0, []. split; [reflexivity|]. split; [reflexivity|]. apply Forall_app. split; [exact B|]. repeat constructor; unfold is_byte; lia.
Qed.
(** what the databank answers to a request the slave raises an exception for *)
Lemma caught e pdu : bytes pdu -> match db_catch e pdu with Ok r => sent r = None \/ exists x y, sent r = Some [x; y] /\ bytes [x; y] | Err _ => True end.
Proof.
  intros B. assert (X : match failure_response pdu with Ok r => sent r = None \/ exists x y, sent r = Some [x; y] /\ bytes [x; y] | Err _ => True end).
  { unfold failure_response. destruct pdu as [|fc rest]; [right; do 2 eexists; split; [reflexivity|]; repeat constructor; unfold is_byte; lia|].
    cbn [py_slice]. rewrite unpack_fc. cbn [bind]. rewrite pack_BB. destruct (byte_b (fc + 128) && byte_b SLAVE_DEVICE_FAILURE) eqn:K; [|exact Logic.I]. cbn [bind sent].
    right. exists (fc + 128), SLAVE_DEVICE_FAILURE. split; [reflexivity|]. apply andb_true_iff in K as (K1 & K2). unfold byte_b in *. repeat constructor; unfold is_byte; lia. }
  destruct e; try exact X; left; reflexivity.
Qed.
Lemma over_cases last d u c s pdu : can_send TCP last u c -> (forall raw, c <> Raw raw) -> 1 <= u <= 255 -> get_slave d u = Ok s -> prescribed c pdu ->
  (exists r, snd (handle_request s pdu false) = Ok r /\ over_tcp in_one_piece in_one_piece last d u c = round_trip TCP last d u c) \/
  (exists x, snd (handle_request s pdu false) = Err x /\ fst (over_tcp in_one_piece in_one_piece last d u c) = fst (round_trip TCP last d u c) /\
    ex_last (snd (over_tcp in_one_piece in_one_piece last d u c)) = ex_last (snd (round_trip TCP last d u c)) /\
    ex_result (snd (over_tcp in_one_piece in_one_piece last d u c)) = Some (Err SocketTimeout) /\
    (ex_result (snd (round_trip TCP last d u c)) = Some (Err SocketTimeout) \/ ex_result (snd (round_trip TCP last d u c)) = Some (Err ModbusInvalidResponseError))).
Proof.
  intros CS NR U G PR. destruct (snd (handle_request s pdu false)) as [r|x] eqn:H; [left; exists r; split; [reflexivity|]; apply (C64_tcp in_one_piece in_one_piece last d u c pdu s r); auto using one_piece_cutting|].
  right. exists x. split; [reflexivity|]. destruct CS as (E & T & U' & F). destruct (execute_exact TCP last u c pdu E PR (F _ PR) T U') as (h & last' & _ & SD & _ & X).
  rewrite (call_as last d u c _ _ T ltac:(intros raw ->; now destruct (NR raw)) ltac:(intros ex; rewrite X; reflexivity)).
  unfold round_trip, round_trip_args. rewrite !X. cbn [ex_sent ex_last ex_result fst snd]. split; [reflexivity|]. split; [reflexivity|].
  pose proof (db_present d (ids_for TCP last) u pdu s SD U G) as DB. rewrite H in DB. change (proto_of (ids_for TCP last)) with TCP in DB.
  unfold served_request, answer. rewrite DB. cbn [fst snd]. pose proof (caught x pdu (proj1 SD)) as K. destruct (db_catch x pdu) as [resp|y]; [|split; [reflexivity|left; reflexivity]].
  destruct K as [-> | (a & b & -> & B)]; [split; [reflexivity|left; reflexivity]|]. rewrite two_bytes by exact B. cbn [bind]. rewrite too_short. split; [reflexivity|right; reflexivity].
Qed.
Definition over_well (last : Z) (d : databank) (w : site) (u : Z) (c : call) : Prop :=
  let '(d', e) := over_tcp in_one_piece in_one_piece last d u c in
  news_over (FromCall (ex_result e)) (snd (site_step w (call_event u c))) /\ stages d' (fst (site_step w (call_event u c))) /\ db_reachable d' /\ 0 <= ex_last e <= 65535.
Lemma over_step last d w u c : 0 <= last <= 65535 -> db_reachable d -> stages d w -> lawful TCP (call_event u c) -> over_well last d w u c.
Proof.
  intros T D P L. unfold over_well, call_event in *. destruct (u =? 0) eqn:U0.
  - replace u with 0 in * by lia. clear u U0. assert (SW : step_well TCP last d w (Announce c)) by now apply well_announce. destruct L as (FC & CS). specialize (CS last T).
    assert (W : writes c) by (unfold writes; cbn [In] in *; tauto). assert (NR : forall pdu, c <> Raw pdu) by (intros pdu ->; cbn [fc_of In] in FC; lia).
    assert (O : over_tcp in_one_piece in_one_piece last d 0 c = round_trip TCP last d 0 c).
    { pose proof CS as (E & _ & U & F). destruct (build_call 0 c E) as (pdu & PR & B & _). specialize (F pdu PR).
      destruct (execute_exact TCP last 0 c pdu E PR F T U) as (h & last' & _ & SD & _ & X).
      assert (Q : forall v s, get_slave d v = Ok s -> all_tables s /\ (fc_of c = 23 -> all_fit s)).
      { intros v s G. specialize (P v). destruct (w v); [|congruence]. destruct P as (s' & G' & TY & _). rewrite G in G'. injection G' as <-. split; [apply TY|]. intros K. rewrite K in FC. cbn [In] in FC. lia. }
      destruct (broadcast_served TCP last c d pdu E PR F T W D Q) as (R1 & _).
      rewrite (call_as last d 0 c _ _ T ltac:(intros raw ->; now destruct (NR raw)) ltac:(intros ex; rewrite X; reflexivity)).
      unfold round_trip, round_trip_args. rewrite !X. cbn [ex_sent fst]. rewrite R1. f_equal. unfold answer. unfold served_request in R1. cbn [snd] in R1.
      destruct (snd (db_handle_request d TCP (on_wire (ids_for TCP last) 0 pdu))) as [r|]; [rewrite R1|]; reflexivity. }
    rewrite O. unfold step_well in SW. cbn [program_step] in SW. destruct (round_trip TCP last d 0 c) as [d1 e]. exact SW.
  - assert (SW : step_well TCP last d w (Ask u c)) by now apply well_ask. destruct L as (U & NR & CS). cbn [fst snd] in U, NR, CS. specialize (CS last T).
    unfold step_well in SW. cbn [program_step] in SW. pose proof CS as (E & _ & U' & F). destruct (build_call u c E) as (pdu & PR & B & _). specialize (F pdu PR).
    pose proof (P u) as PU. cbn [site_step] in *. destruct (w u) as [x|] eqn:WU.
    + destruct PU as (s & G & TY & M & A). pose proof (fails_raises d u s (po_built x) c pdu D G TY M E PR) as FR. cbn [fst snd] in *.
      destruct (over_cases last d u c s pdu CS NR U G PR) as [(r & H & O)|(y & H & O1 & O2 & O3 & O4)].
      * rewrite O. destruct (round_trip TCP last d u c) as [d1 e]. destruct SW as (S1 & S2). split; [|exact S2]. unfold news_over. destruct (snd (built_call (po_built x) c)); [exact S1|]. rewrite FR in H by reflexivity. discriminate H.
      * destruct (over_tcp in_one_piece in_one_piece last d u c) as [d2 e2]. destruct (round_trip TCP last d u c) as [d1 e]. cbn [fst snd] in *. subst d2. rewrite O2. destruct SW as (S1 & S2). split; [|exact S2].
        unfold news_over. destruct (snd (built_call (po_built x) c)) as [[l|code]|]; [| |now rewrite O3].
        all: destruct S1 as (r & S1 & S1'); injection S1 as <-; cbn [told_as ends_as] in S1'; unfold shows_as in S1'; destruct O4; congruence.
    + assert (O : over_tcp in_one_piece in_one_piece last d u c = round_trip TCP last d u c).
      { destruct (execute_exact TCP last u c pdu E PR F T U') as (h & last' & _ & SD & _ & X).
        assert (DB : db_handle_request d TCP (on_wire (ids_for TCP last) u pdu) = (d, Ok (Some []))) by exact (db_absent d (ids_for TCP last) u pdu SD U PU).
        rewrite (call_as last d u c _ _ T ltac:(intros raw ->; now destruct (NR raw)) ltac:(intros ex; rewrite X; reflexivity)).
        unfold round_trip, round_trip_args. rewrite !X. cbn [ex_sent fst]. unfold served_request, answer. rewrite DB. reflexivity. }
      rewrite O. destruct (round_trip TCP last d u c) as [d1 e]. exact SW.
Qed.
Lemma site_run_snoc l : forall w e, site_run w (l ++ [e]) = (fst (site_step (fst (site_run w l)) e), snd (site_run w l) ++ [snd (site_step (fst (site_run w l)) e)]).
Proof.
  induction l as [|x l IH]; intros w e; cbn [app site_run].
  - cbn [fst snd app]. now destruct (site_step w e).
  - destruct (site_step w x) as [w1 y]. rewrite IH. destruct (site_run w1 l) as [w2 ys]. reflexivity.
Qed.
Lemma sited d0 w0 : db_reachable d0 -> stages d0 w0 -> forall h d lasts, one_by_one d0 h d lasts ->
  (forall i u c r, In (Called i u c r) h -> lawful TCP (call_event u c)) -> (forall o, In (Did o) h -> is_store o) ->
  db_reachable d /\ stages d (fst (site_run w0 (map event_of h))) /\ Forall2 as_sited h (snd (site_run w0 (map event_of h))) /\ (forall i, 0 <= lasts i <= 65535).
Proof.
  intros D0 P0 h d lasts O. induction O as [lasts L|h d lasts i u c d' e lasts' O IH OT L1 L2|h d lasts o O IH]; intros FC FD.
  - split; [exact D0|]. split; [exact P0|]. split; [constructor|]. intros i; rewrite L; lia.
  - destruct IH as (D & P & A & T); [intros; apply (FC i0 u0 c0 r), in_or_app; now left|intros o I; apply FD, in_or_app; now left|].
    assert (FE : lawful TCP (call_event u c)) by (apply (FC i u c (ex_result e)), in_or_app; right; now left).
    rewrite map_app. cbn [map event_of]. rewrite site_run_snoc. cbn [fst snd]. set (w := fst (site_run w0 (map event_of h))) in *.
    pose proof (over_step (lasts i) d w u c (T i) D P FE) as G. unfold over_well in G. rewrite OT in G. destruct G as (G1 & G2 & G3 & G4).
    split; [exact G3|]. split; [exact G2|]. split; [apply Forall2_app; [exact A|constructor; [exact G1|constructor]]|].
    intros j. destruct (Nat.eq_dec j i) as [->|N]; [rewrite L1; exact G4|rewrite L2 by exact N; apply T].
  - destruct IH as (D & P & A & T); [intros; apply (FC i u c r), in_or_app; now left|intros o0 I; apply FD, in_or_app; now left|].
    assert (IS : is_store o) by (apply FD, in_or_app; right; now left). rewrite map_app. cbn [map]. rewrite site_run_snoc. cbn [fst snd]. set (w := fst (site_run w0 (map event_of h))) in *.
    destruct o as [ | | | |u op]; try destruct IS. destruct op; try destruct IS. cbn [event_of] in *.
    pose proof (well_store TCP 0 d w ltac:(lia) D P u name address values) as G. unfold step_well in G. cbn [program_step] in G. cbn [db_step].
    destruct (get_slave d u) as [s|x] eqn:GS.
    + cbn [slave_step]. destruct (set_values s name address values) as [s' r]. cbn [fst snd]. destruct G as (G1 & G2 & G3 & G4).
      split; [exact G3|]. split; [exact G2|]. split; [apply Forall2_app; [exact A|constructor; [exists r; exact G1|constructor]]|exact T].
    + destruct G as (G1 & G2 & G3 & G4).
      split; [exact G3|]. split; [exact G2|]. split; [apply Forall2_app; [exact A|constructor; [exists (Err x); exact G1|constructor]]|exact T].
Qed.
(** ** C130 *)
(** Any number of masters with their own connections, any schedule, the frames cut in any way, set_values of the application with any numbers in
    between: there is one order of all calls and stores - each at one instant, the calls of a master in its order, and past before future - in which
    every call has the result it has at the site, and the slaves show the site afterwards. *)
Theorem C130_linear : forall d0 w0 programs past future, db_reachable d0 -> stages d0 w0 -> fair_cuts (past ++ future) ->
  (forall program u c, In program programs -> In (u, c) program -> lawful TCP (call_event u c)) ->
  (forall o, In (Direct o) (past ++ future) -> is_store o) ->
  exists h h', explains d0 programs past (net_run (network_of d0 programs) past) h /\
    explains d0 programs (past ++ future) (net_run (network_of d0 programs) (past ++ future)) (h ++ h') /\
    Forall2 as_sited (h ++ h') (snd (site_run w0 (map event_of (h ++ h')))) /\
    stages (net_db (net_run (network_of d0 programs) past)) (fst (site_run w0 (map event_of h))) /\
    stages (net_db (net_run (network_of d0 programs) (past ++ future))) (fst (site_run w0 (map event_of (h ++ h')))).
Proof.
  intros d0 w0 programs past future D P F FC FD.
  assert (B : byte_strings programs).
  { intros program u pdu I J. pose proof (FC program u (Raw pdu) I J) as X. unfold call_event in X. destruct (u =? 0).
    - destruct X as (X & _). cbn [fc_of In] in X. lia.
    - destruct X as (_ & X & _). cbn [snd] in X. now destruct (X pdu). }
  destruct (C85_one_by_one d0 programs past future B F) as (h & h' & X1 & X2). exists h, h'. split; [exact X1|]. split; [exact X2|].
  assert (IN : forall schedule h0, explains d0 programs schedule (net_run (network_of d0 programs) schedule) h0 -> (forall o, In (Direct o) schedule -> In (Direct o) (past ++ future)) ->
    (forall i u c r, In (Called i u c r) h0 -> lawful TCP (call_event u c)) /\ (forall o, In (Did o) h0 -> is_store o)).
  { intros schedule h0 (_ & Dd & Len & Lt & X) Sub. split; [|intros o I; apply FD, Sub, direct_in; rewrite <- Dd; now apply did_in].
    intros j u c r In0. pose proof (Lt _ _ _ _ In0) as Lj. destruct (nth_error programs j) as [p|] eqn:Nj; [|apply nth_error_None in Nj; lia].
    destruct (nth_error (net_peers (net_run (network_of d0 programs) schedule)) j) as [kj|] eqn:Nk; [|apply nth_error_None in Nk; lia].
    assert (Pre : exists rest, p = calls_by j h0 ++ rest).
    { destruct (X j p kj Nj Nk) as (ret & Hp & _ & [[C _]|(u' & c' & r' & Ph & C & _)]); [rewrite C; eexists; exact Hp|]. exists (k_todo kj). rewrite C, Hp, <- app_assoc. now destruct Ph as [-> | ->]. }
    destruct Pre as (rest & E). apply (FC p); [now apply nth_error_In with j|]. rewrite E. apply in_or_app. left. eapply called_in; eauto. }
  destruct (IN past h X1 ltac:(intros; apply in_or_app; now left)) as (I1 & I2). destruct (IN (past ++ future) (h ++ h') X2 ltac:(auto)) as (I3 & I4).
  destruct X1 as ((lasts1 & O1) & _). destruct X2 as ((lasts2 & O2) & _).
  destruct (sited d0 w0 D P h _ lasts1 O1 I1 I2) as (_ & P1 & _). destruct (sited d0 w0 D P (h ++ h') _ lasts2 O2 I3 I4) as (_ & P2 & A2 & _). auto.
Qed.
(** Every databank with plain slaves is such a site. *)
Lemma site_of_stages d : db_reachable d -> (forall v s, get_slave d v = Ok s -> plain s) -> stages d (site_of d).
Proof.
  intros D H v. unfold site_of. destruct (get_slave d v) as [s|e] eqn:G.
  - destruct (db_reachable_slave d v s D G) as [R _]. exists s. split; [reflexivity|]. split; [eapply H; eauto|]. split; [apply built_of_pictures; [now apply reachable_wf|eapply H; eauto]|]. apply post_areas; [exact R|eapply H; eauto].
  - now apply get_slave_err in G as ->.
Qed.
Theorem C130_from_databank : forall d programs schedule, db_reachable d -> (forall v s, get_slave d v = Ok s -> plain s) -> fair_cuts schedule ->
  (forall program u c, In program programs -> In (u, c) program -> lawful TCP (call_event u c)) ->
  (forall o, In (Direct o) schedule -> is_store o) ->
  exists h, explains d programs schedule (net_run (network_of d programs) schedule) h /\
    Forall2 as_sited h (snd (site_run (site_of d) (map event_of h))) /\
    stages (net_db (net_run (network_of d programs) schedule)) (fst (site_run (site_of d) (map event_of h))).
Proof.
  intros d programs schedule D H F FC FD. destruct (C130_linear d (site_of d) programs [] schedule D (site_of_stages d D H) F FC FD) as (h & h' & _ & X & A & _ & S). cbn [List.app] in *. eauto.
Qed.
(** ** A concrete case: 70000 is stored while a read is under way; the read, served afterwards, times out, and so does one of another master; the first
    master's next call, a mask write, which this slave keeps within a word, makes the register readable again *)
Definition odd_programs : list (list (Z * call)) :=
  [[(3, ReadRegs true 104 1); (3, MaskWrite 104 65535 0); (3, ReadRegs true 103 3)]; [(3, ReadRegs true 103 3); (0, WriteReg 103 40000); (9, ReadRegs true 103 1)]].
Definition odd_schedule : list action :=
  [Send 0 by_two; Direct (DbCall 3 (OpSetValues "r" 103 (SvSeq [-2; 70000; 5]))); Serve 0 in_one_piece; Receive 0; Send 1 by_two; Serve 1 by_two; Receive 1; Send 0 in_one_piece; Serve 0 by_two; Receive 0;
   Send 1 by_two; Serve 1 by_two; Receive 1; Send 0 by_two; Send 1 by_two; Serve 0 by_two; Serve 1 by_two; Receive 1; Receive 0].
Example C130_ex : db_reachable demo_db /\ (forall v s, get_slave demo_db v = Ok s -> plain s) /\ fair_cuts odd_schedule /\
  (forall program u c, In program odd_programs -> In (u, c) program -> lawful TCP (call_event u c)) /\
  (forall o, In (Direct o) odd_schedule -> is_store o) /\
  map k_done (net_peers (net_run (network_of demo_db odd_programs) odd_schedule)) =
    [[Some (Err SocketTimeout); Some (Ok (RTuple [104; 65535; 0])); Some (Ok (RTuple [40000; 4464; 5]))]; [Some (Err SocketTimeout); Some (Err SocketTimeout); Some (Ok (RTuple [40000]))]].
Proof.
  split; [apply demo_db_reachable|]. split; [intros v s G; destruct (demo_tidy v s G) as (A & B & C & _); exact (conj A (conj B C))|]. split.
  { pose proof by_two_cuts as C. pose proof one_piece_cutting as C'. cbn [List.app odd_schedule]. repeat (constructor; [assumption || exact Logic.I|]); constructor. }
  split.
  { intros program u c I J. cbn [odd_programs In] in I. destruct I as [<-|[<-|[]]]; cbn [In] in J; intuition (try discriminate); match goal with H : (_, _) = (_, _) |- _ => injection H as <- <- end; cbn [call_event Z.eqb lawful].
    all: first
    [ eapply askable_intro; [lia|discriminate|cbn [encodable]; unfold fits, bytes, is_byte, zlen, reg_value; cbn [length Z.of_nat repeat]; repeat constructor; lia|reflexivity|vm_compute; discriminate]
    | split; [cbn [fc_of In]; tauto|]; intros last0 T0; split; [cbn [encodable]; unfold fits, reg_value; repeat split; lia|]; split; [exact T0|]; split; [lia|]; intros pdu P; apply framable_small; rewrite P; vm_compute; discriminate ]. }
  split.
  { intros o J. cbn [List.app odd_schedule In] in J. repeat (destruct J as [J|J]; [try discriminate J|]); [|destruct J]. injection J as <-. exact Logic.I. }
  vm_compute. reflexivity.
Qed.

Print Assumptions C130_linear.
Print Assumptions C130_from_databank.
