(** C88: frames of which the operating system accepts only a part. *)
From Verif Require Import Base BaseFacts Spec StructFacts PyStruct SlaveModel SlaveSpec UtilsModel QueryModel DatabankModel FrameSpec QueryProofs DbSpec DatabankProofs PropDatabank MasterModel MasterSpec MasterProofs EndSpec
  TransportModel TransportSpec TransportProofs LinkSpec PropTransport NetProofs TornModel.
Open Scope string_scope. Open Scope list_scope. Open Scope Z_scope.

Lemma torn_split n (l : list Z) : (n < length l)%nat -> firstn n l ++ skipn n l = l /\ skipn n l <> [].
Proof. intros H. split; [apply firstn_skipn|]. intros E. apply (f_equal (@length _)) in E. rewrite skipn_length in E. cbn in E. lia. Qed.
Lemma all_accepted n (l : list Z) : (length l <= n)%nat -> accepted n l = l.
Proof. apply firstn_all2. Qed.
Lemma end_of_closed : tcp_master_recv no_hook {| c_segs := []; c_end := Closed |} = Some ({| c_segs := []; c_end := Closed |}, Ok []).
Proof.
  unfold tcp_master_recv. destruct tcp_recv_fuel eqn:F; [apply (f_equal Z.of_nat) in F; unfold tcp_recv_fuel in F; rewrite Z2Nat.id in F; lia|].
  reflexivity.
Qed.

(* ------------------------------------------------------------------ C88 *)
(** A request of which only a part goes out, and nothing after it: the server does nothing and the call raises. *)
Theorem C88_torn_request : forall n m impatient cut_req cut_resp last d u c request expected,
  cutting cut_req -> 0 <= last <= 65535 -> (forall pdu, c = Raw pdu -> bytes pdu) ->
  ex_sent (execute TCP last (args_of u c) (fun _ _ => Err NotModelled)) = Some (request, expected) -> (n < length request)%nat ->
  let '(d', e) := torn_call n m impatient cut_req cut_resp last d u c in
  d' = d /\ exists x, ex_result e = Some (Err x) /\ In x [SocketTimeout; ModbusInvalidResponseError].
Proof.
  intros n m impatient cut_req cut_resp last d u c w expected C T R Sx Hn. destruct (sent_frame last u c _ w expected T R Sx) as [D L].
  set (ex0 := fun (_ : list Z) (_ : Z) => @Err (list Z) NotModelled) in *.
  unfold torn_call. set (exch := fun request _ => _).
  assert (Sy : ex_sent (execute TCP last (args_of u c) exch) = Some (w, expected)) by (rewrite <- Sx; apply execute_before).
  cbv zeta. rewrite Sy. destruct (torn_split n w Hn) as [Q M].
  pose proof (C65_partial_request d {| c_segs := cut_req (accepted n w); c_end := Stalled |} (firstn n w) (skipn n w)) as P. rewrite Q in P.
  specialize (P D M (cut_stream cut_req _ C) L).
  assert (RX : ex_result (execute TCP last (args_of u c) exch) = match (response <- exch w expected ;; Ok response) with
     | Err e => Some (Err e) | Ok response => ex_result (execute TCP last (args_of u c) (fun _ _ => Ok response)) end).
  { rewrite (execute_congr last _ exch (fun _ _ => exch w expected) w expected Sy eq_refl). destruct (exch w expected) as [x|x]; cbn [bind]; [reflexivity|].
    assert (T' : 0 <= last < 65536) by lia. assert (Sz : ex_sent (execute TCP last (args_of u c) (fun _ _ => Err x)) = Some (w, expected)) by (rewrite <- Sx; apply execute_before).
    destruct (PropSession.execute_sent last _ _ _ w expected T' eq_refl Sz) as (b & _ & _ & _ & _ & _ & _ & ->). reflexivity. }
  assert (T' : 0 <= last < 65536) by lia.
  assert (EM : ex_result (execute TCP last (args_of u c) (fun _ _ => Ok [])) = Some (Err ModbusInvalidResponseError)).
  { assert (Sz : ex_sent (execute TCP last (args_of u c) (fun _ _ => Ok [])) = Some (w, expected)) by (rewrite <- Sx; apply execute_before).
    destruct (PropSession.execute_sent last _ _ _ w expected T' eq_refl Sz) as (b & _ & _ & _ & _ & _ & _ & ->). reflexivity. }
  rewrite RX. unfold exch, torn_exchange. destruct (serve_client no_tcp_hooks d _) as [|e|c' d' handled out].
  - destruct P as [_ P]. discriminate P.
  - split; [reflexivity|]. destruct impatient.
    + rewrite end_of_silence by reflexivity. exists SocketTimeout. split; [reflexivity|now left].
    + rewrite end_of_closed. cbn [bind]. exists ModbusInvalidResponseError. split; [exact EM|right; now left].
  - destruct P as (-> & _ & ->). split; [reflexivity|]. exists SocketTimeout. split; [reflexivity|now left].
Qed.
(** A response of which only a part goes out: the server has done what was asked, and the call raises socket.timeout - it never
    returns anything made of a part of a response. *)
Theorem C88_torn_response : forall n m impatient cut_req cut_resp last d u c pdu s r,
  cutting cut_req -> cutting cut_resp -> can_send TCP last u c -> prescribed c pdu -> 1 <= u <= 255 ->
  get_slave d u = Ok s -> snd (handle_request s pdu false) = Ok r ->
  (length (on_wire (ids_for TCP last) u pdu) <= n)%nat -> (m < length (on_wire (ids_for TCP last) u r))%nat ->
  let '(d', e) := torn_call n m impatient cut_req cut_resp last d u c in
  d' = fst (round_trip TCP last d u c) /\ ex_result e = Some (Err SocketTimeout).
Proof.
  intros n m impatient cut_req cut_resp last d u c pdu s r C1 C2 (E & T & _ & F) P U G H Hn Hm. specialize (F _ P).
  destruct (execute_exact TCP last u c pdu E P F T ltac:(lia)) as (h & last' & _ & S & _ & X).
  unfold torn_call, round_trip, round_trip_args. rewrite !X. cbn [ex_sent ex_result fst]. set (w := on_wire (ids_for TCP last) u pdu) in *. rewrite all_accepted by exact Hn.
  assert (DB : db_handle_request d TCP w = (put_slave d u (fst (handle_request s pdu false)), Ok (Some (on_wire (ids_for TCP last) u r)))).
  { unfold w. change TCP with (proto_of (ids_for TCP last)) at 1. rewrite (db_present d (ids_for TCP last) u pdu s S U G), H. reflexivity. }
  assert (Sr : sendable (ids_for TCP last) r).
  { apply (sendable_response _ s pdu false (fst (handle_request s pdu false))); [exact S|]. rewrite <- H. now destruct (handle_request s pdu false). }
  assert (SD : forall x, sendable (ids_for TCP last) x -> self_delimited (on_wire (ids_for TCP last) u x) /\ 7 <= zlen (on_wire (ids_for TCP last) u x)).
  { intros x [Bx Lx]. cbn [ids_for on_wire] in *. apply frame_delimited; auto; [lia|unfold is_byte; lia|lia]. }
  destruct (SD pdu S) as [Sq Lq]. destruct (SD r Sr) as [Sp Lp]. fold w in Sq, Lq. set (wr := on_wire (ids_for TCP last) u r) in *.
  destruct (C46_one_request d {| c_segs := cut_req w; c_end := Stalled |} w [] Sq Lq) as (c' & SV & _ & _).
  { unfold stream. cbn [c_segs]. rewrite app_nil_r. apply C1. }
  unfold served_request in SV. rewrite DB in SV. cbn [fst snd] in SV.
  assert (SE : sent (Some wr) = Some wr) by (unfold wr; destruct (on_wire (ids_for TCP last) u r) eqn:Q; [now apply on_wire_nonempty in Q|reflexivity]).
  rewrite SE in SV. unfold torn_exchange. rewrite all_accepted by exact Hn. rewrite SV, DB. cbn [fst]. split; [reflexivity|].
  destruct (torn_split m wr Hm) as [Q M].
  destruct (C45_stalled {| c_segs := cut_resp (accepted m wr); c_end := Stalled |} (firstn m wr) (skipn m wr)) as (k & RV); [now rewrite Q|exact M|apply cut_stream, C2|reflexivity|].
  rewrite RV. reflexivity.
Qed.
(** When everything is accepted the call is the call over the connection. *)
Theorem C88_whole : forall n m impatient cut_req cut_resp last d u c pdu s r,
  cutting cut_req -> cutting cut_resp -> can_send TCP last u c -> prescribed c pdu -> 1 <= u <= 255 ->
  get_slave d u = Ok s -> snd (handle_request s pdu false) = Ok r ->
  (length (on_wire (ids_for TCP last) u pdu) <= n)%nat -> (length (on_wire (ids_for TCP last) u r) <= m)%nat ->
  torn_call n m impatient cut_req cut_resp last d u c = round_trip TCP last d u c.
Proof.
  intros n m impatient cut_req cut_resp last d u c pdu s r C1 C2 CS P U G H Hn Hm.
  rewrite <- (C64_tcp cut_req cut_resp last d u c pdu s r C1 C2 CS P U G H). destruct CS as (E & T & _ & F). specialize (F _ P).
  destruct (execute_exact TCP last u c pdu E P F T ltac:(lia)) as (h & last' & _ & S & _ & X).
  unfold torn_call, over_tcp. rewrite !X. cbn [ex_sent]. set (w := on_wire (ids_for TCP last) u pdu) in *. rewrite all_accepted by exact Hn.
  unfold torn_exchange, tcp_exchange. rewrite all_accepted by exact Hn.
  assert (Sq : self_delimited w /\ 7 <= zlen w).
  { unfold w. destruct S as [Bx Lx]. cbn [ids_for on_wire] in *. apply frame_delimited; auto; [lia|unfold is_byte; lia|lia]. }
  destruct (C46_one_request d {| c_segs := cut_req w; c_end := Stalled |} w [] (proj1 Sq) (proj2 Sq)) as (c' & SV & _ & _).
  { unfold stream. cbn [c_segs]. rewrite app_nil_r. apply C1. }
  assert (DB : db_handle_request d TCP w = (put_slave d u (fst (handle_request s pdu false)), Ok (Some (on_wire (ids_for TCP last) u r)))).
  { unfold w. change TCP with (proto_of (ids_for TCP last)) at 1. rewrite (db_present d (ids_for TCP last) u pdu s S U G), H. reflexivity. }
  unfold served_request in SV. rewrite DB in SV. cbn [fst snd] in SV.
  assert (SE : sent (Some (on_wire (ids_for TCP last) u r)) = Some (on_wire (ids_for TCP last) u r)) by (destruct (on_wire (ids_for TCP last) u r) eqn:Q; [now apply on_wire_nonempty in Q|reflexivity]).
  rewrite SE in SV. rewrite SV, all_accepted by exact Hm. reflexivity.
Qed.
(** Refuted: the claim that a call takes effect as asked or not at all.  Two calls on one connection, the second before the server has
    given up waiting: all but the last byte of the first request goes out, the server completes it with the first byte of the second
    request, and the register gets a value nobody asked for. *)
Theorem C88_merged_refuted : exists d u c1 c2 w1 w2 n1 n2 handled v,
  db_reachable d /\ c1 = WriteReg 100 513 /\ c2 = WriteReg 101 7 /\
  ex_sent (execute TCP 0 (args_of u c1) (fun _ _ => Err NotModelled)) = Some (w1, n1) /\
  ex_sent (execute TCP 1 (args_of u c2) (fun _ _ => Err NotModelled)) = Some (w2, n2) /\
  match serve_client no_tcp_hooks d {| c_segs := [accepted 11 w1; w2]; c_end := Stalled |} with
  | Stays _ d' (Some request) _ => request = handled /\ handled <> w1 /\ handled <> w2 /\
      snd (db_handle_request d' TCP (tcp_frame 9 0 u (3 :: word 100 ++ word 1))) = Ok (Some (tcp_frame 9 0 u (3 :: 2 :: word v))) /\ v <> 513 /\ v <> 0
  | _ => False
  end.
Proof.
  exists demo_db, 9, (WriteReg 100 513), (WriteReg 101 7). do 4 eexists. exists (tcp_frame 1 0 9 (6 :: word 100 ++ word 512)), 512.
  split; [apply demo_db_reachable|]. split; [reflexivity|]. split; [reflexivity|]. split; [vm_compute; reflexivity|]. split; [vm_compute; reflexivity|].
  vm_compute. repeat split; intros X; discriminate X.
Qed.
Example C88_ex : can_send TCP 0 9 (ReadRegs true 100 2) /\
  (let '(d', e) := torn_call 100 10 false (fun l => match l with [] => [] | _ => [l] end) (fun l => match l with [] => [] | _ => [l] end) 0 demo_db 9 (ReadRegs true 100 2) in
   ex_result e = Some (Err SocketTimeout)) /\
  (let '(d', e) := torn_call 9 10 false (fun l => match l with [] => [] | _ => [l] end) (fun l => match l with [] => [] | _ => [l] end) 0 demo_db 9 (ReadRegs true 100 2) in
   ex_result e = Some (Err ModbusInvalidResponseError)).
Proof.
  split; [|split; vm_compute; reflexivity]. split; [cbn; unfold fits; lia|]. split; [lia|]. split; [lia|]. intros pdu ->. cbn. lia.
Qed.

Print Assumptions C88_torn_request.
Print Assumptions C88_torn_response.
Print Assumptions C88_whole.
Print Assumptions C88_merged_refuted.
