(** C131: a master on a serial line and the application work on the devices the library is.
    Vocabulary: BuiltSpec.v and PropBuiltPlant.v (site, site_run, stages, lawful, same_news), PropPlant.v (event, effect, program_step), LinkSpec.v
    (over_serial) and the definitions below. *)
From Coq Require Import ZArith Lia ZifyBool ZifyNat.
From Verif Require Import Base BaseFacts PyStruct Spec StructFacts StructMore Defines SlaveModel SlaveSpec SlaveProofs BlockSpec BlockProofs HandlerProofs RequestProofs GeneralProofs SlaveInv PropSlave.
From Verif Require Import FrameSpec QueryModel DatabankModel MasterModel MasterSpec DbSpec DatabankProofs MasterProofs EndSpec EndProofs PropDatabank PropMaster TransportModel TransportSpec TransportProofs LinkSpec PropTransport PropBroadcast.
From Verif Require Import NetModel NetSpec NetProofs PropNet PropNetApart PropPlantNet DeviceSpec PropDevice PropPlant BuiltSpec PropBuilt PropBuiltPlant PropBuiltNet.
Open Scope string_scope.
Open Scope list_scope.
Open Scope Z_scope.

(** ** Spec *)
(** An event on the line: how the request and the response are cut. *)
Record line_use := { lu_request : list Z -> list (list Z); lu_response : list Z -> list (list Z); lu_event : event }.
Definition line_step (last : Z) (d : databank) (x : line_use) : databank * Z * effect :=
  let call u c := let '(d', e) := over_serial (lu_request x) (lu_response x) last d u c in (d', ex_last e, FromCall (ex_result e)) in
  match lu_event x with
  | Ask u c => call u c
  | Announce c => call 0 c
  | e => program_step RTU last d e                       (* the application *)
  end.
Fixpoint line_run (last : Z) (d : databank) (l : list line_use) : databank * list effect :=
  match l with [] => (d, []) | x :: l => let '(d1, last1, y) := line_step last d x in let '(d2, ys) := line_run last1 d1 l in (d2, y :: ys) end.
(** On a serial line the exception of a call that gets no answer is that of a broken answer. *)
Definition news_line (x : effect) (y : news) : Prop :=
  match y with Heard None => x = FromCall (Some (Err ModbusInvalidResponseError)) | _ => same_news x y end.

(** ** Proofs *)
(** a line without read errors *)
Definition calm (p : line) : Prop := Forall (fun e => match e with Fault _ => False | _ => True end) p.
Lemma calm_read n : forall p, calm p -> exists p' b, serial_read n p = (p', TransportModel.Got b) /\ calm p'.
Proof.
  induction p as [|[[|x b]| |r] p IH]; intros C; cbn [serial_read].
  - do 2 eexists. split; [reflexivity|constructor].
  - inversion_clear C. now apply IH.
  - inversion_clear C. destruct (skipn n (x :: b)); do 2 eexists; (split; [reflexivity|]); [assumption|constructor; [exact Logic.I|assumption]].
  - inversion_clear C. do 2 eexists. split; [reflexivity|assumption].
  - inversion_clear C. contradiction.
Qed.
Lemma calm_loop : forall fuel late n p acc k, calm p -> match rtu_recv_loop fuel TPositive late n p acc k with Some (_, Err _) => False | _ => True end.
Proof.
  induction fuel as [|f IH]; intros late n p acc k C; cbn [rtu_recv_loop]; [exact Logic.I|].
  set (m := if 0 <? n - k then _ else _). clearbody m. destruct (calm_read (Z.to_nat m) p C) as (p' & b & -> & C'). destruct b as [|x b]; [exact Logic.I|].
  destruct (hd false late); [exact Logic.I|]. destruct ((0 <=? n) && _); [exact Logic.I|]. now apply IH.
Qed.
Lemma calm_recv late n p : calm p -> exists p' out, rtu_master_recv no_hook TPositive late n p = Some (p', Ok out).
Proof.
  intros C. pose proof (C47_terminates TPositive late n p) as T. unfold rtu_master_recv in *. pose proof (calm_loop (S (line_size p)) late n p [] 0 C) as K.
  destruct (rtu_recv_loop _ _ _ _ _ _ _) as [[p' [out|e]]|]; [cbn [replaced no_hook]; eauto|contradiction|congruence].
Qed.
Lemma coming_bursts pieces : coming (map Burst pieces ++ [Silence]) = concat pieces.
Proof. induction pieces as [|b l IH]; [reflexivity|]. cbn [map List.app coming flat_map concat]. unfold coming in IH. now rewrite IH. Qed.
Lemma calm_bursts pieces : calm (map Burst pieces ++ [Silence]).
Proof. apply Forall_app. split; [apply Forall_forall; intros e I; apply in_map_iff in I as (b & <- & _); exact Logic.I|constructor; [exact Logic.I|constructor]]. Qed.
(** at most two bytes arrive: no frame *)
Lemma two_on_line h n pieces : (length (concat pieces) <= 2)%nat -> exists p' out, rtu_master_recv no_hook TPositive [] n (map Burst pieces ++ [Silence]) = Some (p', Ok out) /\ parse_response h out = Err ModbusInvalidResponseError.
Proof.
  intros L. destruct (calm_recv [] n _ (calm_bursts pieces)) as (p' & out & R). exists p', out. split; [exact R|].
  destruct (C47_bytes_in_order _ _ _ _ _ _ R) as (lost & C & _). rewrite coming_bursts in C. rewrite C, app_length in L.
  destruct out as [|a [|b [|c t]]]; [destruct h; reflexivity|destruct h; reflexivity|destruct h; reflexivity|cbn [length] in L; lia].
Qed.

Lemma serial_fails cut_req cut_resp last d u c s pdu x : cutting cut_req -> cutting cut_resp -> can_send RTU last u c -> 1 <= u <= 255 -> get_slave d u = Ok s -> prescribed c pdu ->
  snd (handle_request s pdu false) = Err x ->
  fst (over_serial cut_req cut_resp last d u c) = fst (round_trip RTU last d u c) /\
  ex_last (snd (over_serial cut_req cut_resp last d u c)) = ex_last (snd (round_trip RTU last d u c)) /\
  ex_result (snd (over_serial cut_req cut_resp last d u c)) = Some (Err ModbusInvalidResponseError) /\
  (ex_result (snd (round_trip RTU last d u c)) = Some (Err SocketTimeout) \/ ex_result (snd (round_trip RTU last d u c)) = Some (Err ModbusInvalidResponseError)).
Proof.
  intros C1 C2 CS U G PR H. destruct CS as (E & T & U' & F). destruct (execute_exact RTU last u c pdu E PR (F _ PR) T U') as (h & last' & _ & SD & _ & X).
  unfold over_serial, round_trip, round_trip_args. rewrite !X. cbn [ex_sent ex_last ex_result fst snd]. set (w := on_wire (ids_for RTU last) u pdu) in *.
  pose proof (C48_one_request false d (cut_req w) w [] ltac:(apply on_wire_nonempty) (C1 w)) as SV. unfold serial_exchange. rewrite SV. cbn [rt_db rt_written].
  pose proof (db_present d (ids_for RTU last) u pdu s SD U G) as DB. rewrite H in DB. change (proto_of (ids_for RTU last)) with RTU in DB. fold w in DB.
  unfold served_request, answer. rewrite DB. cbn [fst snd]. pose proof (caught x pdu (proj1 SD)) as K.
  assert (NONE : match rtu_master_recv no_hook TPositive [] (expected_call c) ([] ++ [Silence]) with Some (_, Ok out) => parse_response h out = Err ModbusInvalidResponseError | _ => False end).
  { destruct (two_on_line h (expected_call c) [] ltac:(cbn; lia)) as (p' & out & R & Q). cbn [map] in R. now rewrite R. }
  destruct (rtu_master_recv no_hook TPositive [] (expected_call c) ([] ++ [Silence])) as [[p0 [out0|]]|] eqn:R0; try contradiction.
  destruct (db_catch x pdu) as [resp|y]; [|split; [reflexivity|]; split; [reflexivity|]; rewrite R0; cbn [bind]; rewrite NONE; auto].
  destruct K as [-> | (a & b & -> & B)]; [split; [reflexivity|]; split; [reflexivity|]; rewrite R0; cbn [bind]; rewrite NONE; auto|].
  destruct (two_on_line h (expected_call c) (cut_resp [a; b])) as (p' & out & R & Q); [destruct (C2 [a; b]) as [-> _]; cbn; lia|]. rewrite R. cbn [bind]. rewrite Q, too_short. auto.
Qed.
Lemma serial_absent cut_req cut_resp last d u c : cutting cut_req -> can_send RTU last u c -> 1 <= u <= 255 -> get_slave d u = Err MissingKeyError ->
  fst (over_serial cut_req cut_resp last d u c) = d /\ ex_last (snd (over_serial cut_req cut_resp last d u c)) = ex_last (snd (round_trip RTU last d u c)) /\
  ex_result (snd (over_serial cut_req cut_resp last d u c)) = Some (Err ModbusInvalidResponseError).
Proof.
  intros C1 CS U G. destruct CS as (E & T & U' & F). destruct (build_call u c E) as (pdu & PR & _). destruct (execute_exact RTU last u c pdu E PR (F _ PR) T U') as (h & last' & _ & SD & _ & X).
  unfold over_serial, round_trip, round_trip_args. rewrite !X. cbn [ex_sent ex_last ex_result fst snd]. set (w := on_wire (ids_for RTU last) u pdu) in *.
  pose proof (C48_one_request false d (cut_req w) w [] ltac:(apply on_wire_nonempty) (C1 w)) as SV. unfold serial_exchange. rewrite SV. cbn [rt_db rt_written].
  assert (DB : db_handle_request d RTU w = (d, Ok (Some []))) by exact (db_absent d (ids_for RTU last) u pdu SD U G).
  unfold served_request. rewrite DB. cbn [fst snd sent]. split; [reflexivity|]. split; [reflexivity|].
  destruct (two_on_line h (expected_call c) [] ltac:(cbn; lia)) as (p' & out & R & Q). cbn [map] in R. rewrite R. cbn [bind]. now rewrite Q.
Qed.
Definition lawful_use (x : line_use) : Prop := cutting (lu_request x) /\ cutting (lu_response x) /\ lawful RTU (lu_event x).
Lemma line_well last d w x : 0 <= last <= 65535 -> db_reachable d -> stages d w -> lawful_use x ->
  let '(d', last', y) := line_step last d x in
  news_line y (snd (site_step w (lu_event x))) /\ stages d' (fst (site_step w (lu_event x))) /\ db_reachable d' /\ 0 <= last' <= 65535.
Proof.
  intros T D P (C1 & C2 & L). destruct x as [cut_req cut_resp e]. cbn [lu_request lu_response lu_event] in *. unfold line_step. cbn [lu_request lu_response lu_event].
  destruct e as [u c|c|u name a v|u name a n].
  - assert (SW : step_well RTU last d w (Ask u c)) by now apply well_ask. destruct L as (U & NR & CS). cbn [fst snd] in U, NR, CS. specialize (CS last T).
    unfold step_well in SW. cbn [program_step] in SW. pose proof CS as (E & _ & U' & F). destruct (build_call u c E) as (pdu & PR & B & _).
    pose proof (P u) as PU. cbn [site_step] in *. destruct (w u) as [x|] eqn:WU.
    + destruct PU as (s & G & TY & M & A). pose proof (fails_raises d u s (po_built x) c pdu D G TY M E PR) as FR. cbn [fst snd] in *.
      destruct (snd (handle_request s pdu false)) as [r|y] eqn:H.
      * rewrite (C64_serial cut_req cut_resp last d u c pdu s r C1 C2 CS PR NR D G H). destruct (round_trip RTU last d u c) as [d1 e]. exact SW.
      * destruct (serial_fails cut_req cut_resp last d u c s pdu y C1 C2 CS U G PR H) as (O1 & O2 & O3 & O4).
        destruct (over_serial cut_req cut_resp last d u c) as [d2 e2]. destruct (round_trip RTU last d u c) as [d1 e]. cbn [fst snd] in *. subst d2. rewrite O2. destruct SW as (S1 & S2). split; [|exact S2].
        destruct S1 as (r & S1 & S1'). injection S1 as <-. exists (ex_result e2). split; [reflexivity|]. destruct (snd (built_call (po_built x) c)) as [[l|code]|]; [| |exact O3]; cbn [told_as ends_as] in S1'; unfold shows_as in S1'; destruct O4; congruence.
    + destruct (serial_absent cut_req cut_resp last d u c C1 CS U PU) as (O1 & O2 & O3). pose proof (rt_last RTU last d u c CS) as T1.
      destruct (over_serial cut_req cut_resp last d u c) as [d2 e2]. cbn [fst snd] in *. subst d2. rewrite O2, O3. split; [reflexivity|]. split; [exact P|]. split; [exact D|exact T1].
  - assert (SW : step_well RTU last d w (Announce c)) by now apply well_announce. destruct L as (FC & CS). specialize (CS last T).
    assert (W : writes c) by (unfold writes; cbn [In] in *; tauto). cbn [site_step fst snd] in *. unfold step_well in SW. cbn [program_step site_step fst snd] in SW.
    assert (Q : forall v s, get_slave d v = Ok s -> all_tables s /\ (fc_of c = 23 -> all_fit s)).
    { intros v s G. specialize (P v). destruct (w v); [|congruence]. destruct P as (s' & G' & TY & _). rewrite G in G'. injection G' as <-. split; [apply TY|]. intros K. rewrite K in FC. cbn [In] in FC. lia. }
    assert (O : fst (over_serial cut_req cut_resp last d 0 c) = fst (round_trip RTU last d 0 c) /\ ex_last (snd (over_serial cut_req cut_resp last d 0 c)) = ex_last (snd (round_trip RTU last d 0 c)) /\
      ex_result (snd (over_serial cut_req cut_resp last d 0 c)) = Some (Err ModbusInvalidResponseError)).
    { pose proof CS as (E & _ & U & F). destruct (build_call 0 c E) as (pdu & PR & B & _). destruct (execute_exact RTU last 0 c pdu E PR (F _ PR) T U) as (h & last' & _ & SD & _ & X).
      destruct (broadcast_served RTU last c d pdu E PR (F _ PR) T W D Q) as (R1 & _).
      unfold over_serial, round_trip, round_trip_args. rewrite !X. cbn [ex_sent ex_last ex_result fst snd]. set (z := on_wire (ids_for RTU last) 0 pdu) in *.
      pose proof (C48_one_request false d (cut_req z) z [] ltac:(apply on_wire_nonempty) (C1 z)) as SV. unfold serial_exchange. rewrite SV. cbn [rt_db rt_written]. rewrite R1. split; [reflexivity|]. split; [reflexivity|].
      destruct (two_on_line h (expected_call c) [] ltac:(cbn; lia)) as (p' & out & R & K). cbn [map] in R. rewrite R. cbn [bind]. now rewrite K. }
    destruct O as (O1 & O2 & O3). destruct (over_serial cut_req cut_resp last d 0 c) as [d2 e2]. destruct (round_trip RTU last d 0 c) as [d1 e]. cbn [fst snd] in *. subst d2. rewrite O2, O3. destruct SW as (_ & S2). split; [reflexivity|exact S2].
  - pose proof (well_store RTU last d w T D P u name a v) as SW. unfold step_well in SW. destruct (program_step RTU last d (Store u name a v)) as [[d1 last1] y]. destruct SW as (S1 & S2). split; [|exact S2].
    destruct (snd (site_step w (Store u name a v))) as [[o|]| | | |] eqn:K; try exact S1. exfalso. cbn [site_step] in K. destruct (w u) as [x|]; [|discriminate K]. destruct (po_area x name) as [[[t f] z]|]; [|discriminate K]. destruct (_ && _); discriminate K.
  - pose proof (well_fetch RTU last d w T D P u name a n L) as SW. unfold step_well in SW. destruct (program_step RTU last d (Fetch u name a n)) as [[d1 last1] y]. destruct SW as (S1 & S2). split; [|exact S2].
    destruct (snd (site_step w (Fetch u name a n))) as [[o|]| | | |] eqn:K; try exact S1. exfalso. cbn [site_step] in K. destruct (w u) as [x|]; [|discriminate K]. destruct (po_area x name) as [[[t f] z]|]; [|discriminate K]. destruct (_ && _); discriminate K.
Qed.
(** ** C131 *)
Theorem C131_serial : forall l last d w, 0 <= last <= 65535 -> db_reachable d -> stages d w -> Forall lawful_use l ->
  Forall2 news_line (snd (line_run last d l)) (snd (site_run w (map lu_event l))) /\ stages (fst (line_run last d l)) (fst (site_run w (map lu_event l))).
Proof.
  induction l as [|x l IH]; intros last d w T D P F; [split; [constructor|exact P]|]. inversion_clear F as [|? ? F1 F2].
  pose proof (line_well last d w x T D P F1) as SW. cbn [line_run map site_run]. destruct (line_step last d x) as [[d1 last1] y]. destruct (site_step w (lu_event x)) as [w1 o]. cbn [fst snd] in SW. destruct SW as (S1 & S2 & S3 & S4).
  destruct (IH last1 d1 w1 S4 S3 S2 F2) as (I1 & I2). destruct (line_run last1 d1 l) as [d2 ys]. destruct (site_run w1 (map lu_event l)) as [w2 os]. cbn [fst snd] in *. split; [constructor; [exact S1|exact I1]|exact I2].
Qed.
Theorem C131_from_databank : forall l last d, 0 <= last <= 65535 -> db_reachable d -> (forall v s, get_slave d v = Ok s -> plain s) -> Forall lawful_use l ->
  Forall2 news_line (snd (line_run last d l)) (snd (site_run (site_of d) (map lu_event l))) /\ stages (fst (line_run last d l)) (fst (site_run (site_of d) (map lu_event l))).
Proof. intros l last d T D H F. apply C131_serial; auto. now apply site_of_stages. Qed.
Definition line_uses : list line_use := map (fun e => {| lu_request := by_two; lu_response := in_one_piece; lu_event := e |}) (Ask 5 (ReadRegs true 100 1) :: site_events).
Example C131_ex : Forall lawful_use line_uses /\ (forall v s, get_slave demo_db v = Ok s -> plain s) /\
  firstn 5 (snd (line_run 0 demo_db line_uses)) =
    [FromCall (Some (Err ModbusInvalidResponseError)); FromSet (Ok tt); FromCall (Some (Ok (RTuple [5]))); FromCall (Some (Err ModbusInvalidResponseError)); FromGet (Ok [-2; 70000; 5])] /\
  firstn 4 (skipn 5 (snd (line_run 0 demo_db line_uses))) =
    [FromCall (Some (Ok (RTuple [104; 65535; 0]))); FromCall (Some (Ok (RTuple [4464]))); FromCall (Some (Err ModbusInvalidResponseError)); FromCall (Some (Err ModbusInvalidResponseError))].
Proof.
  split; [|split; [intros v s G; destruct (demo_tidy v s G) as (A & B & C & _); exact (conj A (conj B C))|split; vm_compute; reflexivity]]. unfold line_uses, site_events. cbn [map].
  repeat (apply Forall_cons; [split; [exact by_two_cuts|]; split; [exact one_piece_cutting|]; cbn [lu_event lawful]; first
    [ exact Logic.I
    | lia
    | eapply askable_intro; [lia|discriminate|cbn [encodable]; unfold fits, bytes, is_byte, zlen, reg_value; cbn [length Z.of_nat repeat]; repeat constructor; lia|reflexivity|vm_compute; discriminate]
    | split; [cbn [fc_of In]; tauto|]; intros last0 T0; split; [cbn [encodable]; unfold fits, reg_value; repeat split; lia|]; split; [exact T0|]; split; [lia|]; intros pdu P; apply framable_small; rewrite P; vm_compute; discriminate ]|]).
  apply Forall_nil.
Qed.

Print Assumptions C131_serial.
Print Assumptions C131_from_databank.
