(** Property C77: broadcasts sent by a master.  Vocabulary: MasterSpec.v, EndSpec.v, LinkSpec.v. *)
From Coq Require Import Lia ZifyBool ZifyNat.
From Verif Require Import Base BaseFacts PyStruct Spec StructFacts StructMore Defines SlaveModel SlaveSpec BlockSpec.
From Verif Require Import DatabankModel DatabankProofs FrameSpec CrcSpec UtilsModel QueryModel QueryProofs DbSpec MasterModel MasterSpec MasterProofs EndSpec.
From Verif Require Import PropSlave PropDatabank TransportModel TransportSpec TransportProofs LinkSpec PropTransport.
Open Scope string_scope.
Open Scope list_scope.
Open Scope Z_scope.

(** Spec: the calls that write. *)
Definition writes (c : call) : Prop := In (fc_of c) [5; 6; 15; 16; 22; 23].
(** Spec: every slave the databank had did what it does when the same call is addressed to it, and no slave came or went. *)
Definition every_slave_did (p : proto) (last : Z) (c : call) (d d' : databank) : Prop :=
  forall u, match get_slave d u with
            | Ok _ => get_slave d' u = get_slave (fst (round_trip p last d u c)) u
            | Err e => get_slave d' u = Err e
            end.

Lemma write_well_formed c pdu : encodable c -> prescribed c pdu -> writes c -> bytes pdu -> well_formed pdu /\ hd 0 pdu = fc_of c.
Proof.
  intros E P W B. split; [split; [exact B|]|].
  - destruct c as [coils a m|holding a m|subs|a v|a v|a am om|a vals|a vals| |sub data|a m wa vals|code object|raw]; cbn [prescribed] in P; unfold writes in W; cbn [fc_of In] in W;
      try (exfalso; destruct coils + destruct holding + idtac; lia).
    all: try (destruct P as (out & _ & ->)); try rewrite P; unfold word; cbn [app hd nth]; (split; [discriminate|]; split; [lia|]).
    all: try (destruct (v =? 0)); cbn [app fixed_length complete hd nth].
    all: repeat rewrite zlen_cons; repeat rewrite words_zlen.
    all: try (pose proof (zlen_nonneg out)); try (pose proof (zlen_nonneg vals)).
    all: try change (zlen (@nil Z)) with 0; try lia.
  - destruct c as [coils a m|holding a m|subs|a v|a v|a am om|a vals|a vals| |sub data|a m wa vals|code object|raw]; cbn [prescribed] in P; unfold writes in W; cbn [fc_of In] in W;
      try (exfalso; destruct coils + destruct holding + idtac; lia).
    all: try (destruct P as (out & _ & ->)); try rewrite P; reflexivity.
Qed.
Lemma broadcast_served p last c d pdu : encodable c -> prescribed c pdu -> framable p pdu -> 0 <= last <= 65535 -> writes c -> db_reachable d ->
  (forall u s, get_slave d u = Ok s -> all_tables s /\ (fc_of c = 23 -> all_fit s)) ->
  snd (served_request d p (on_wire (ids_for p last) 0 pdu)) = None /\ every_slave_did p last c d (fst (served_request d p (on_wire (ids_for p last) 0 pdu))).
Proof.
  intros E P F T W D H.
  destruct (execute_exact p last 0 c pdu E P F T ltac:(lia)) as (_ & _ & _ & S & _ & _).
  destruct (write_well_formed c pdu E P W (proj1 S)) as [WF HD].
  assert (PR : proto_of (ids_for p last) = p) by (now destruct p).
  destruct (C26_broadcast_partial d (ids_for p last) pdu D S WF) as [R G].
  { rewrite HD. unfold writes in W. cbn [In] in *. lia. }
  { rewrite HD. exact H. }
  unfold served_request. rewrite PR in R, G. rewrite R. split; [reflexivity|]. intros u. cbn [fst]. specialize (G u).
  destruct (get_slave d u) as [s|e] eqn:Gu; [|exact G]. rewrite G.
  destruct (db_reachable_slave d u s D Gu) as [_ U].
  destruct (execute_exact p last u c pdu E P F T ltac:(lia)) as (h & l' & _ & _ & _ & X).
  unfold round_trip, round_trip_args. rewrite X. cbn [ex_sent fst].
  pose proof (db_present d (ids_for p last) u pdu s S U Gu) as DP. rewrite PR in DP. rewrite DP. cbn [fst]. now rewrite get_slave_put_same.
Qed.

(** Over TCP, cut in any way: every slave does its write; execute raises socket.timeout. *)
Theorem C77_tcp_partial : forall cut_req cut_resp last d c,
  cutting cut_req -> can_send TCP last 0 c -> writes c -> db_reachable d ->
  (forall u s, get_slave d u = Ok s -> all_tables s /\ (fc_of c = 23 -> all_fit s)) ->
  let '(d', e) := over_tcp cut_req cut_resp last d 0 c in
  every_slave_did TCP last c d d' /\ ex_result e = Some (Err SocketTimeout).
Proof.
  intros cut_req cut_resp last d c C1 (E & T & _ & F) W D H.
  destruct (build_call 0 c E) as (pdu & P & _ & _). specialize (F _ P).
  destruct (execute_exact TCP last 0 c pdu E P F T ltac:(lia)) as (h & last' & _ & S & _ & X).
  destruct (broadcast_served TCP last c d pdu E P F T W D H) as [R G].
  unfold over_tcp. rewrite !X. cbn [ex_sent ex_result]. set (w := on_wire (ids_for TCP last) 0 pdu) in *.
  assert (Sq : self_delimited w /\ 7 <= zlen w).
  { assert (B : bytes w) by (apply on_wire_bytes; [unfold is_byte; lia|exact S]). destruct S as [Bx Lx]. unfold w in *. cbn [ids_for on_wire] in *.
    unfold tcp_frame, word in *. cbn [app] in *. pose proof (zlen_nonneg pdu). split; [|rewrite !zlen_cons; lia].
    do 7 eexists. split; [reflexivity|]. split; [|exact B]. rewrite zlen_cons. lia. }
  destruct (C46_one_request d {| c_segs := cut_req w; c_end := Stalled |} w [] (proj1 Sq) (proj2 Sq)) as (c' & SV & _ & _).
  { unfold stream. cbn [c_segs]. rewrite app_nil_r. apply C1. }
  unfold tcp_exchange. rewrite SV, R. split; [exact G|reflexivity].
Qed.
(** Over a serial line: the same, but the exception is ModbusInvalidResponseError. *)
Theorem C77_serial_partial : forall cut_req cut_resp last d c,
  cutting cut_req -> can_send RTU last 0 c -> writes c -> db_reachable d ->
  (forall u s, get_slave d u = Ok s -> all_tables s /\ (fc_of c = 23 -> all_fit s)) ->
  let '(d', e) := over_serial cut_req cut_resp last d 0 c in
  every_slave_did RTU last c d d' /\ ex_result e = Some (Err ModbusInvalidResponseError).
Proof.
  intros cut_req cut_resp last d c C1 (E & T & _ & F) W D H.
  destruct (build_call 0 c E) as (pdu & P & B & X). specialize (F _ P).
  destruct (broadcast_served RTU last c d pdu E P F T W D H) as [R G].
  unfold over_serial, execute. rewrite X. assert (Su : ea_slave (args_of 0 c) = 0) by (now destruct c). rewrite Su.
  cbn [build_request bl_pdu built_as bl_expected]. rewrite rtu_build_request_ok by (auto; unfold is_byte; lia). cbn [bind ex_sent ex_result].
  change (sealed (0 :: pdu)) with (on_wire (ids_for RTU last) 0 pdu). set (w := on_wire (ids_for RTU last) 0 pdu) in *.
  pose proof (C48_one_request false d (cut_req w) w [] ltac:(apply on_wire_nonempty) (C1 w)) as SV.
  unfold serial_exchange. rewrite SV. cbn [rt_db rt_written]. rewrite R. split; [exact G|].
  cbn [app]. unfold rtu_master_recv. cbn. destruct (0 <? expected_call c - 0); reflexivity.
Qed.
(** Broadcast reads: no slave does anything, and execute raises in the same way. *)
Theorem C77_reads : forall cut_req cut_resp last d c,
  cutting cut_req -> In (fc_of c) [1; 2; 3; 4] -> 
  (can_send TCP last 0 c -> let '(d', e) := over_tcp cut_req cut_resp last d 0 c in d' = d /\ ex_result e = Some (Err SocketTimeout)) /\
  (can_send RTU last 0 c -> let '(d', e) := over_serial cut_req cut_resp last d 0 c in d' = d /\ ex_result e = Some (Err ModbusInvalidResponseError)).
Proof.
  intros cut_req cut_resp last d c C1 Hfc.
  assert (RD : forall p pdu, prescribed c pdu -> sendable (ids_for p last) pdu -> served_request d p (on_wire (ids_for p last) 0 pdu) = (d, None)).
  { intros p pdu P S. destruct (C26_broadcast_reads d (ids_for p last) pdu S) as (r & R & N).
    - destruct c as [[] a m|[] a m|subs|a v|a v|a am om|a vals|a vals| |sub data|a m wa vals|code object|raw]; cbn [prescribed fc_of In] in *; try lia; rewrite P; cbn; auto.
    - assert (PR : proto_of (ids_for p last) = p) by (now destruct p). rewrite PR in R. unfold served_request. rewrite R. cbn [fst snd]. now rewrite N. }
  split; intros (E & T & _ & F).
  - destruct (build_call 0 c E) as (pdu & P & _ & _). specialize (F _ P).
    destruct (execute_exact TCP last 0 c pdu E P F T ltac:(lia)) as (h & last' & _ & S & _ & X).
    pose proof (RD TCP pdu P S) as R.
    unfold over_tcp. rewrite !X. cbn [ex_sent ex_result]. set (w := on_wire (ids_for TCP last) 0 pdu) in *.
    assert (Sq : self_delimited w /\ 7 <= zlen w).
    { assert (B : bytes w) by (apply on_wire_bytes; [unfold is_byte; lia|exact S]). destruct S as [Bx Lx]. unfold w in *. cbn [ids_for on_wire] in *.
      unfold tcp_frame, word in *. cbn [app] in *. pose proof (zlen_nonneg pdu). split; [|rewrite !zlen_cons; lia].
      do 7 eexists. split; [reflexivity|]. split; [|exact B]. rewrite zlen_cons. lia. }
    destruct (C46_one_request d {| c_segs := cut_req w; c_end := Stalled |} w [] (proj1 Sq) (proj2 Sq)) as (c' & SV & _ & _).
    { unfold stream. cbn [c_segs]. rewrite app_nil_r. apply C1. }
    unfold tcp_exchange. rewrite SV, R. split; reflexivity.
  - destruct (build_call 0 c E) as (pdu & P & B & X). specialize (F _ P).
    assert (S : sendable (ids_for RTU last) pdu) by (split; [exact B|exact Logic.I]). pose proof (RD RTU pdu P S) as R.
    unfold over_serial, execute. rewrite X. assert (Su : ea_slave (args_of 0 c) = 0) by (now destruct c). rewrite Su.
    cbn [build_request bl_pdu built_as bl_expected]. rewrite rtu_build_request_ok by (auto; unfold is_byte; lia). cbn [bind ex_sent ex_result].
    change (sealed (0 :: pdu)) with (on_wire (ids_for RTU last) 0 pdu). set (w := on_wire (ids_for RTU last) 0 pdu) in *.
    pose proof (C48_one_request false d (cut_req w) w [] ltac:(apply on_wire_nonempty) (C1 w)) as SV.
    unfold serial_exchange. rewrite SV. cbn [rt_db rt_written]. rewrite R. split; [reflexivity|].
    cbn [snd app]. unfold rtu_master_recv. cbn. destruct (0 <? expected_call c - 0); reflexivity.
Qed.
(** Spec: each frame is delivered in one piece. *)
Definition whole (l : list Z) : list (list Z) := match l with [] => [] | _ => [l] end.
Lemma whole_cutting : cutting whole.
Proof. intros [|x l]; (split; [cbn; try rewrite app_nil_r; reflexivity|]). constructor. constructor; [discriminate|constructor]. Qed.
(** So a broadcast that every slave carries out never returns to the caller: it raises, on both transports. *)
Theorem C77_returns_refuted :
  ~ (forall cut_req cut_resp last d c, cutting cut_req -> cutting cut_resp -> can_send TCP last 0 c -> can_send RTU last 0 c -> writes c -> db_reachable d ->
       (forall u s, get_slave d u = Ok s -> all_tables s /\ (fc_of c = 23 -> all_fit s)) ->
       (exists v, ex_result (snd (over_tcp cut_req cut_resp last d 0 c)) = Some (Ok v)) \/
       (exists v, ex_result (snd (over_serial cut_req cut_resp last d 0 c)) = Some (Ok v))).
Proof.
  intros H. assert (CS : forall p, can_send p 0 0 (WriteReg 1 7)).
  { intros p. split; [cbn; unfold fits, reg_value; lia|]. split; [lia|]. split; [lia|]. intros pdu ->. destruct p; cbn; [exact Logic.I|lia]. }
  assert (D : db_reachable (new_databank true)) by (exists true, []; split; [constructor|reflexivity]).
  specialize (H whole whole 0 (new_databank true) (WriteReg 1 7) whole_cutting whole_cutting (CS TCP) (CS RTU)).
  assert (W : writes (WriteReg 1 7)) by (right; left; reflexivity). specialize (H W D).
  assert (A : forall u s, get_slave (new_databank true) u = Ok s -> all_tables s /\ (fc_of (WriteReg 1 7) = 23 -> all_fit s)) by (intros u s G; discriminate G).
  specialize (H A).
  pose proof (C77_tcp_partial whole whole 0 (new_databank true) (WriteReg 1 7) whole_cutting (CS TCP) W D A) as T1.
  pose proof (C77_serial_partial whole whole 0 (new_databank true) (WriteReg 1 7) whole_cutting (CS RTU) W D A) as T2.
  destruct (over_tcp _ _ _ _ _ _) as [d1 e1], (over_serial _ _ _ _ _ _) as [d2 e2]. cbn [snd] in H. destruct T1 as [_ T1], T2 as [_ T2].
  rewrite T1, T2 in H. destruct H as [[v H]|[v H]]; discriminate.
Qed.
(** Two slaves with the register, one without blocks. *)
Example C77_ex : writes (WriteReg 100 7) /\ can_send TCP 5 0 (WriteReg 100 7) /\ db_reachable demo_db /\
  (forall u s, get_slave demo_db u = Ok s -> all_tables s) /\
  (let '(d', e) := over_serial whole whole 5 demo_db 0 (WriteReg 100 7) in
   ex_result e = Some (Err ModbusInvalidResponseError) /\
   ex_result (snd (round_trip RTU 5 d' 3 (ReadRegs true 100 2))) = Some (Ok (RTuple [7; 0])) /\
   ex_result (snd (round_trip RTU 5 d' 9 (ReadRegs true 100 2))) = Some (Ok (RTuple [7; 0])) /\
   ex_result (snd (round_trip RTU 5 d' 12 (ReadRegs true 100 2))) = Some (Err (ModbusError 2))).
Proof.
  split; [right; left; reflexivity|]. split; [split; [cbn; unfold fits, reg_value; lia|]; split; [lia|]; split; [lia|]; intros pdu ->; cbn; lia|].
  split; [exact demo_db_reachable|]. split.
  - intros u s G. unfold get_slave in G. destruct (assoc Z.eqb u (db_slaves demo_db)) as [x|] eqn:A; [|discriminate G]. injection G as ->.
    change (db_slaves demo_db) with (ltac:(let x := eval vm_compute in (db_slaves demo_db) in exact x)) in A. cbn [assoc] in A.
    repeat match type of A with (if ?b then _ else _) = _ => destruct b end; try discriminate A; injection A as <-; intros []; vm_compute; discriminate.
  - vm_compute. repeat split.
Qed.

Print Assumptions C77_tcp_partial.
Print Assumptions C77_serial_partial.
Print Assumptions C77_reads.
Print Assumptions C77_returns_refuted.
