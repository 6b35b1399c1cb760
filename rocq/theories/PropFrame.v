(** Properties C30-C36 and C59: checksum, RTU and TCP framing, transaction ids, timing.
    Vocabulary: Spec.v, CrcSpec.v, FrameSpec.v. *)
From Coq Require Import Lia ZifyBool ZifyNat QArith.
From Verif Require Import Base BaseFacts Spec FrameSpec CrcSpec CrcProofs UtilsModel StructFacts QueryModel QueryProofs DatabankModel.
Ltac Zify.zify_post_hook ::= Z.div_mod_to_equations.
Open Scope string_scope.
Open Scope list_scope.
Open Scope Z_scope.

(* ------------------------------------------------------------------ C30 *)
(** calculate_crc is CRC-16/MODBUS with its two bytes exchanged ... *)
Theorem C30_crc : forall data, bytes data ->
  calculate_crc data = (crc16_modbus data mod 256) * 256 + crc16_modbus data / 256.
Proof. exact calculate_crc_spec. Qed.
(** ... so that packing it big-endian puts the low byte of the CRC first. *)
Theorem C30_low_byte_first : forall data, bytes data ->
  PyStruct.pack ">H" [calculate_crc data] = Ok [crc16_modbus data mod 256; crc16_modbus data / 256].
Proof. exact crc_pack. Qed.
(** The catalogue check value of CRC-16/MODBUS: "123456789" gives 0x4B37. *)
Example C30_check_value : crc16_modbus [49; 50; 51; 52; 53; 54; 55; 56; 57] = 0x4B37.
Proof. reflexivity. Qed.
Example C30_ex : calculate_crc [49; 50; 51; 52; 53; 54; 55; 56; 57] = 0x374B /\ calculate_crc [] = 0xFFFF.
Proof. split; reflexivity. Qed.

(* ------------------------------------------------------------------ C31 *)
Theorem C31_request_round_trip : forall pdu slave, bytes pdu -> 0 <= slave <= 255 ->
  exists frame, rtu_build_request pdu slave = Ok frame /\ frame = sealed (slave :: pdu) /\
                rtu_parse_request frame = Ok (slave, pdu).
Proof.
  intros pdu slave H Hs. assert (Hb : is_byte slave) by (unfold is_byte; lia).
  exists (sealed (slave :: pdu)). rewrite rtu_build_request_ok by assumption. repeat split.
  apply rtu_parse_request_sealed; [|reflexivity]. apply sealed_bytes. now constructor.
Qed.
Theorem C31_response_round_trip : forall pdu slave, bytes pdu -> 0 <= slave <= 255 ->
  exists frame, rtu_build_response slave pdu = Ok frame /\ frame = sealed (slave :: pdu) /\
                rtu_parse_response slave frame = Ok pdu.
Proof.
  intros pdu slave H Hs. assert (Hb : is_byte slave) by (unfold is_byte; lia).
  exists (sealed (slave :: pdu)). rewrite rtu_build_response_ok by assumption. repeat split.
  apply rtu_parse_response_sealed; [|reflexivity]. apply sealed_bytes. now constructor.
Qed.
Theorem C31_bad_address : forall pdu slave, ~ (0 <= slave <= 255) ->
  rtu_build_request pdu slave = Err InvalidArgumentError.
Proof. intros pdu slave H. unfold rtu_build_request. destruct ((slave <? 0) || (255 <? slave)) eqn:E; [reflexivity|lia]. Qed.
(** a response from another address, even with a right checksum, is rejected *)
Theorem C31_other_address : forall pdu slave other, bytes pdu -> 0 <= slave <= 255 -> slave <> other ->
  rtu_parse_response other (sealed (slave :: pdu)) = Err ModbusInvalidResponseError.
Proof.
  intros pdu slave other H Hs Hne. assert (Hb : bytes (slave :: pdu)) by (constructor; [unfold is_byte; lia|exact H]).
  destruct (rtu_parse_response_cases other _ (sealed_bytes _ Hb)) as [[r E]|E]; [|exact E]. exfalso.
  apply rtu_parse_response_sealed in E; [|now apply sealed_bytes].
  rewrite !sealed_view in E. injection E as E _. auto.
Qed.
Example C31_ex : rtu_build_request [3; 0; 0; 0; 10] 1 = Ok [1; 3; 0; 0; 0; 10; 197; 205].
Proof. reflexivity. Qed.

(* ------------------------------------------------------------------ C32 *)
(** Accepted, with that address and PDU, iff the frame is address, PDU and their CRC. *)
Theorem C32_accept_iff : forall request address pdu, bytes request ->
  (rtu_parse_request request = Ok (address, pdu) <-> request = sealed (address :: pdu)).
Proof. intros. now apply rtu_parse_request_sealed. Qed.
Theorem C32_response_accept_iff : forall response address pdu, bytes response ->
  (rtu_parse_response address response = Ok pdu <-> response = sealed (address :: pdu)).
Proof. intros. now apply rtu_parse_response_sealed. Qed.
(** Every other frame: the error, no slave changes, and the answer is the empty string (not sent). *)
Theorem C32_otherwise : forall request, bytes request ->
  (forall address pdu, request <> sealed (address :: pdu)) ->
  rtu_parse_request request = Err ModbusInvalidRequestError /\
  forall d, db_handle_request d RTU request = (d, Ok (Some [])).
Proof.
  intros request H N.
  assert (E : rtu_parse_request request = Err ModbusInvalidRequestError).
  { destruct (rtu_parse_request_cases request H) as [[[a p] E]|E]; [|exact E].
    apply rtu_parse_request_sealed in E; [|exact H]. now apply N in E. }
  split; [exact E|]. intros d. unfold db_handle_request, parse_request. now rewrite E.
Qed.
Example C32_ex : forall d, db_handle_request d RTU [1; 3; 0; 0; 0; 10; 197; 204] = (d, Ok (Some [])).
Proof. reflexivity. Qed.

(* ------------------------------------------------------------------ C33 *)
(** A request (response) that would be accepted is rejected after any of these errors. *)
Theorem C33_request_errors_detected : forall sent received r,
  bytes sent -> bytes received -> length received = length sent ->
  rtu_parse_request sent = Ok r -> line_noise sent received ->
  rtu_parse_request received = Err ModbusInvalidRequestError.
Proof.
  intros f g [a p] Hf Hg L E N. destruct (rtu_parse_request_cases g Hg) as [[[a' p'] E']|E']; [|exact E']. exfalso.
  apply rtu_parse_request_sealed in E; [|exact Hf]. apply rtu_parse_request_sealed in E'; [|exact Hg]. subst f g.
  apply bytes_app_inv in Hf as [Hf _]. apply bytes_app_inv in Hg as [Hg _].
  now apply noise_not_sealed in N.
Qed.
Theorem C33_response_errors_detected : forall sent received address pdu,
  bytes sent -> bytes received -> length received = length sent ->
  rtu_parse_response address sent = Ok pdu -> line_noise sent received ->
  rtu_parse_response address received = Err ModbusInvalidResponseError.
Proof.
  intros f g a p Hf Hg L E N. destruct (rtu_parse_response_cases a g Hg) as [[p' E']|E']; [|exact E']. exfalso.
  apply rtu_parse_response_sealed in E; [|exact Hf]. apply rtu_parse_response_sealed in E'; [|exact Hg]. subst f g.
  apply bytes_app_inv in Hf as [Hf _]. apply bytes_app_inv in Hg as [Hg _].
  now apply noise_not_sealed in N.
Qed.
(** three flipped bits; a burst over a byte boundary; two bits far apart *)
Example C33_ex_odd : line_noise [1; 3; 0; 0; 0; 10; 197; 205] [0; 3; 0; 128; 0; 10; 197; 204].
Proof. left. reflexivity. Qed.
Example C33_ex_burst : line_noise [1; 3; 0; 0; 0; 10; 197; 205] [1; 3; 240; 15; 0; 10; 197; 205].
Proof. right; left. split; [discriminate|]. exists 20%nat. intros i Hi. cbv in Hi. cbv. lia. Qed.
Example C33_ex_double : line_noise [1; 3; 0; 0; 0; 10; 197; 205] [0; 3; 0; 0; 0; 10; 197; 77].
Proof. right; right. split; [reflexivity|]. cbn [length]. lia. Qed.
Example C33_ex : rtu_parse_request [1; 3; 0; 0; 0; 10; 197; 205] = Ok (1, [3; 0; 0; 0; 10]).
Proof. reflexivity. Qed.

(* ------------------------------------------------------------------ C34 *)
(** Building a request: the id after the last one, protocol 0; the server gets the PDU back. *)
Theorem C34_request_round_trip : forall last pdu unit,
  bytes pdu -> zlen pdu <= 65534 -> 0 <= unit <= 255 -> 0 <= last <= 65535 ->
  exists tid hdr frame srv,
    tid = (last + 1) mod 65536 /\
    tcp_build_request last pdu unit = (tid, Ok (hdr, frame)) /\
    frame = tcp_frame tid 0 unit pdu /\
    tcp_parse_request frame = Ok (srv, unit, pdu) /\
    (** whatever the server answers comes back with the same ids and is accepted *)
    forall rpdu, bytes rpdu -> zlen rpdu <= 65534 ->
      tcp_build_response srv rpdu = Ok (tcp_frame tid 0 unit rpdu) /\
      tcp_parse_response hdr (tcp_frame tid 0 unit rpdu) = Ok rpdu.
Proof.
  intros last pdu u B L U T. assert (Ub : is_byte u) by (unfold is_byte; lia).
  rewrite <- next_tid by lia. set (t := next_transaction_id last).
  assert (Ft : fits true t) by (unfold t; rewrite next_tid by lia; unfold fits; lia).
  assert (F0 : fits true 0) by (unfold fits; lia).
  pose (m := {| mb_tid := t; mb_pid := 0; mb_len := zlen pdu + 1; mb_uid := u |}).
  exists t, m, (tcp_frame t 0 u pdu), m. split; [reflexivity|].
  split; [apply tcp_build_request_ok; auto; lia|]. split; [reflexivity|]. split.
  { apply tcp_parse_request_frame; [now apply tcp_frame_bytes|]. cbn [m mb_tid mb_pid mb_len mb_uid]. repeat split; auto; try lia; apply Ft. }
  intros rp Br Lr. split.
  - change (tcp_frame t 0 u rp) with (tcp_frame (mb_tid m) (mb_pid m) (mb_uid m) rp). apply tcp_build_response_ok; auto. lia.
  - apply tcp_parse_response_frame; auto; [now apply tcp_frame_bytes|]. cbn [m mb_tid mb_pid mb_len mb_uid]. split; [lia|reflexivity].
Qed.
(** What the server accepts, from any client: exactly well-formed headers; the response repeats the ids. *)
Theorem C34_server_accept_iff : forall request hdr unit pdu, bytes request ->
  tcp_parse_request request = Ok (hdr, unit, pdu) ->
  exists tid pid, 0 <= tid <= 65535 /\ 0 <= pid <= 65535 /\ 0 <= unit <= 255 /\ zlen pdu <= 65534 /\
    request = tcp_frame tid pid unit pdu /\
    forall rpdu, zlen rpdu <= 65534 -> tcp_build_response hdr rpdu = Ok (tcp_frame tid pid unit rpdu).
Proof.
  intros request m u pdu B E. apply tcp_parse_request_frame in E; [|exact B].
  destruct E as (L & -> & Ln & T & P & U & Bp & ->). exists (mb_tid m), (mb_pid m). unfold fits, is_byte in *.
  repeat split; try lia. intros rp Lr. apply tcp_build_response_ok; auto; lia.
Qed.
(** ... and all of these are accepted, an empty PDU too; anything else is refused, and with which exception. *)
Theorem C34_server_accepts : forall tid pid unit pdu, 0 <= tid <= 65535 -> 0 <= pid <= 65535 -> 0 <= unit <= 255 -> bytes pdu -> zlen pdu <= 65534 ->
  exists hdr, tcp_parse_request (tcp_frame tid pid unit pdu) = Ok (hdr, unit, pdu).
Proof.
  intros tid pid unit pdu T P U B L. exists {| mb_tid := tid; mb_pid := pid; mb_len := zlen pdu + 1; mb_uid := unit |}.
  apply tcp_parse_request_frame; [apply tcp_frame_bytes; [unfold is_byte; lia|exact B]|]. cbn [mb_tid mb_pid mb_len mb_uid]. unfold fits, is_byte. repeat split; try lia. exact B.
Qed.
Theorem C34_server_otherwise : forall request, bytes request ->
  (forall tid pid unit pdu, 0 <= tid <= 65535 -> 0 <= pid <= 65535 -> 0 <= unit <= 255 -> zlen pdu <= 65534 -> request <> tcp_frame tid pid unit pdu) ->
  tcp_parse_request request = Err (if zlen request <? 7 then ModbusInvalidRequestError else ModbusInvalidMbapError).
Proof.
  intros request B N. destruct (tcp_parse_request_cases request B) as [[[[m u] pdu] E]|[[L ->]|[L ->]]].
  - exfalso. destruct (C34_server_accept_iff request m u pdu B E) as (tid & pid & T & P & U & Lp & E' & _). exact (N tid pid u pdu T P U Lp E').
  - replace (zlen request <? 7) with false by lia. reflexivity.
  - replace (zlen request <? 7) with true by lia. reflexivity.
Qed.
Example C34_server_ex : exists h, tcp_parse_request [0; 5; 0; 0; 0; 1; 9] = Ok (h, 9, []).
Proof. eexists. reflexivity. Qed.
Theorem C34_bad_unit : forall last pdu unit, ~ (0 <= unit <= 255) ->
  tcp_build_request last pdu unit = (last, Err InvalidArgumentError).
Proof. intros last pdu u H. unfold tcp_build_request. destruct ((u <? 0) || (255 <? u)) eqn:E; [reflexivity|lia]. Qed.
Theorem C34_too_long : forall last pdu unit, 65534 < zlen pdu ->
  exists e, snd (tcp_build_request last pdu unit) = Err e.
Proof.
  intros last pdu u H. unfold tcp_build_request. destruct ((u <? 0) || (255 <? u)); [eexists; reflexivity|].
  cbn [snd]. rewrite mbap_pack_long by lia. eexists; reflexivity.
Qed.
Example C34_ex : tcp_build_request 41 [3; 0; 0; 0; 10] 7 =
  (42, Ok ({| mb_tid := 42; mb_pid := 0; mb_len := 6; mb_uid := 7 |}, [0; 42; 0; 0; 0; 6; 7; 3; 0; 0; 0; 10])).
Proof. reflexivity. Qed.

(* ------------------------------------------------------------------ C35 *)
(** [hdr] is the header of any request that was sent. *)
Theorem C35_accept_iff : forall last req_pdu unit last' hdr frame response pdu,
  0 <= last <= 65535 -> tcp_build_request last req_pdu unit = (last', Ok (hdr, frame)) -> bytes response ->
  (tcp_parse_response hdr response = Ok pdu <->
   zlen pdu <= 65534 /\ response = tcp_frame last' 0 unit pdu).
Proof.
  intros last q u last' m f resp pdu T E B. unfold tcp_build_request in E.
  destruct ((u <? 0) || (255 <? u)); [discriminate|]. injection E as <- E.
  destruct (mbap_pack _); cbn [bind] in E; [|discriminate]. injection E as <- _.
  rewrite tcp_parse_response_frame; cbn [mb_tid mb_pid mb_uid]; auto.
  - split; intros [X ->]; (split; [lia|reflexivity]).
  - rewrite next_tid by lia. unfold fits. lia.
  - unfold fits. lia.
Qed.
Theorem C35_otherwise : forall last req_pdu unit last' hdr frame response,
  0 <= last <= 65535 -> tcp_build_request last req_pdu unit = (last', Ok (hdr, frame)) -> bytes response ->
  (forall pdu, zlen pdu <= 65534 -> response <> tcp_frame last' 0 unit pdu) ->
  tcp_parse_response hdr response =
    Err (if 6 <? zlen response then ModbusInvalidMbapError else ModbusInvalidResponseError).
Proof.
  intros last q u last' m f resp T E B N.
  destruct (tcp_parse_response_cases m resp B) as [[p Q]|[[L Q]|[L Q]]].
  - apply (C35_accept_iff _ _ _ _ _ _ _ p T E B) in Q. destruct Q as [X Y]. now apply N in Y.
  - rewrite Q. destruct (6 <? _) eqn:S; [reflexivity|lia].
  - rewrite Q. destruct (6 <? _) eqn:S; [lia|reflexivity].
Qed.
Example C35_ex :
  tcp_parse_response {| mb_tid := 42; mb_pid := 0; mb_len := 6; mb_uid := 7 |} [0; 42; 0; 0; 0; 3; 7; 131; 2] = Ok [131; 2] /\
  tcp_parse_response {| mb_tid := 42; mb_pid := 0; mb_len := 6; mb_uid := 7 |} [0; 41; 0; 0; 0; 3; 7; 131; 2] = Err ModbusInvalidMbapError.
Proof. split; reflexivity. Qed.

(* ------------------------------------------------------------------ C36 *)
(** The requests sent by consecutive build_request calls, in the order in which the ids were taken
    (threads: see PropConc.v, which shows that every interleaving is such an order). *)
Fixpoint issue (last : Z) (calls : list (list Z * Z)) : list (mbap * list Z) :=
  match calls with
  | [] => []
  | (pdu, unit) :: t =>
      let '(last', r) := tcp_build_request last pdu unit in
      match r with Ok q => q :: issue last' t | Err _ => issue last' t end
  end.

Lemma issue_ids calls : forall last, 0 <= last < 65536 ->
  forall id, In id (map (fun q => mb_tid (fst q)) (issue last calls)) ->
  exists k, 1 <= k <= zlen calls /\ id = (last + k) mod 65536.
Proof.
  induction calls as [|[pdu u] t IH]; intros last T id H; [destruct H|]. cbn [issue] in H. rewrite zlen_cons.
  pose proof (zlen_nonneg t) as L0. unfold tcp_build_request in H.
  destruct ((u <? 0) || (255 <? u)).
  - destruct (IH last T id H) as (k & Hk & ->). exists k. split; [lia|reflexivity].
  - rewrite (next_tid last T) in H.
    assert (T' : 0 <= (last + 1) mod 65536 < 65536) by lia.
    assert (X : In id (map (fun q => mb_tid (fst q)) (issue ((last + 1) mod 65536) t)) -> exists k, 1 <= k <= 1 + zlen t /\ id = (last + k) mod 65536).
    { intros H'. destruct (IH _ T' id H') as (k & Hk & ->). exists (k + 1). split; [lia|]. lia. }
    destruct (mbap_pack _); cbn [bind] in H; [|now apply X]. destruct H as [<-|H]; [|now apply X].
    exists 1. split; [lia|reflexivity].
Qed.
Theorem C36_ids_distinct : forall last calls, 0 <= last <= 65535 -> zlen calls <= 65536 ->
  NoDup (map (fun q => mb_tid (fst q)) (issue last calls)) /\
  Forall (fun q => 0 <= mb_tid (fst q) <= 65535) (issue last calls).
Proof.
  intros last calls T L. split.
  - revert last T. induction calls as [|[pdu u] t IH]; intros last T; [constructor|]. cbn [issue]. rewrite zlen_cons in L.
    unfold tcp_build_request. destruct ((u <? 0) || (255 <? u)); [apply IH; lia|].
    rewrite next_tid by lia. destruct (mbap_pack _); cbn [bind]; [|apply IH; lia].
    cbn [map fst mb_tid]. constructor; [|apply IH; lia].
    intros H. apply issue_ids in H; [|lia]. destruct H as (k & Hk & E). lia.
  - apply Forall_forall. intros q Hq.
    destruct (issue_ids calls last ltac:(lia) (mb_tid (fst q))) as (k & Hk & ->); [now apply (in_map (fun q => mb_tid (fst q)))|lia].
Qed.
(** hence an answer to another of these requests is rejected, whatever it contains *)
Theorem C36_late_response_rejected : forall last calls i j qi qj,
  0 <= last <= 65535 -> zlen calls <= 65536 -> i <> j ->
  nth_error (issue last calls) i = Some qi -> nth_error (issue last calls) j = Some qj ->
  forall pid unit pdu, 0 <= unit <= 255 -> 0 <= pid <= 65535 -> bytes pdu ->
  tcp_parse_response (fst qi) (tcp_frame (mb_tid (fst qj)) pid unit pdu) = Err ModbusInvalidMbapError.
Proof.
  intros last calls i j qi qj T L Hne Hi Hj pid u pdu U P B.
  destruct (C36_ids_distinct last calls T L) as [N R].
  assert (Fi := proj1 (Forall_forall _ _) R qi (nth_error_In _ _ Hi)). assert (Fj := proj1 (Forall_forall _ _) R qj (nth_error_In _ _ Hj)).
  cbn beta in Fi, Fj.
  assert (D : mb_tid (fst qi) <> mb_tid (fst qj)).
  { intros E. apply Hne. pose proof (proj1 (NoDup_nth_error _) N i j) as X. apply X.
    - rewrite map_length. apply nth_error_Some. congruence.
    - rewrite !nth_error_map, Hi, Hj. cbn. congruence. }
  assert (Bf : bytes (tcp_frame (mb_tid (fst qj)) pid u pdu)) by (apply tcp_frame_bytes; [unfold is_byte; lia|exact B]).
  destruct (tcp_parse_response_cases (fst qi) _ Bf) as [[r E]|[[_ E]|[S E]]]; [|exact E|].
  - exfalso. unfold tcp_parse_response, tcp_frame, word in E. cbn [app] in E.
    destruct (6 <? _); [|discriminate].
    match type of E with context [py_slice (?a :: ?b :: ?c :: ?d :: ?e :: ?g :: ?x :: ?q) 0 7] =>
      destruct (tcp_slices a b c d e g x q) as [S1 S2]; rewrite S1, S2 in E end.
    unfold mbap_unpack in E. rewrite unpack_HHHB in E. cbn [bind] in E.
    unfold mbap_check_response, mbap_ids_ok in E. cbn [mb_tid mb_pid mb_uid] in E.
    rewrite word_join in E by lia. destruct (mb_tid (fst qi) =? mb_tid (fst qj)) eqn:Q; [lia|]. discriminate E.
  - exfalso. unfold tcp_frame, word in S. cbn [app] in S. rewrite !zlen_cons in S. pose proof (zlen_nonneg pdu). lia.
Qed.
Example C36_ex : map (fun q => mb_tid (fst q)) (issue 65534 [([3], 1); ([4], 300); ([5], 2); ([6], 3)]) = [65535; 0; 1].
Proof. reflexivity. Qed.

(* ------------------------------------------------------------------ C59 *)
Theorem C59_inter_char : forall b, 0 < b -> exists d, calculate_rtu_inter_char b = Some d /\
  (b <= 19200 -> (d == 11 / inject_Z b)%Q) /\ (19200 < b -> (d == 1 # 2000)%Q) /\ (1 # 2000 <= d)%Q.
Proof.
  intros b Hb. unfold calculate_rtu_inter_char. destruct (b <=? 19200) eqn:E.
  - destruct (b =? 0) eqn:Z0; [lia|]. eexists. split; [reflexivity|]. split; [reflexivity|]. split; [lia|].
    apply Qle_shift_div_l.
    + unfold Qlt, inject_Z. cbn. lia.
    + unfold Qle, Qmult, inject_Z. cbn [Qnum Qden]. lia.
  - eexists. split; [reflexivity|]. split; [lia|]. split; [reflexivity|]. apply Qle_refl.
Qed.
Theorem C59_non_increasing : forall b b' d d', 0 < b -> b <= b' ->
  calculate_rtu_inter_char b = Some d -> calculate_rtu_inter_char b' = Some d' -> (d' <= d)%Q.
Proof.
  intros b b' d d' Hb Hl. destruct (C59_inter_char b Hb) as (d1 & -> & A1 & A2 & A3).
  destruct (C59_inter_char b' ltac:(lia)) as (d2 & -> & B1 & B2 & B3).
  intros E E'. injection E as <-. injection E' as <-.
  destruct (Z.le_gt_cases b' 19200) as [L|L].
  - rewrite A1, B1 by lia. apply Qle_shift_div_l; [unfold Qlt, inject_Z; cbn; lia|].
    setoid_replace (11 / inject_Z b' * inject_Z b)%Q with (11 * inject_Z b / inject_Z b')%Q.
    2:{ field. unfold Qeq, inject_Z. cbn. lia. }
    apply Qle_shift_div_r; [unfold Qlt, inject_Z; cbn; lia|]. unfold Qle, Qmult, inject_Z. cbn [Qnum Qden]. lia.
  - rewrite B2 by lia. exact A3.
Qed.
Theorem C59_zero_baudrate : calculate_rtu_inter_char 0 = None.
Proof. reflexivity. Qed.
Example C59_ex : calculate_rtu_inter_char 9600 = Some (11 / 9600)%Q /\ calculate_rtu_inter_char 115200 = Some (1 # 2000)%Q.
Proof. split; reflexivity. Qed.

Print Assumptions C30_crc.
Print Assumptions C30_low_byte_first.
Print Assumptions C31_request_round_trip.
Print Assumptions C31_response_round_trip.
Print Assumptions C31_bad_address.
Print Assumptions C31_other_address.
Print Assumptions C32_accept_iff.
Print Assumptions C32_response_accept_iff.
Print Assumptions C32_otherwise.
Print Assumptions C33_request_errors_detected.
Print Assumptions C33_response_errors_detected.
Print Assumptions C34_request_round_trip.
Print Assumptions C34_server_accept_iff.
Print Assumptions C34_bad_unit.
Print Assumptions C34_too_long.
Print Assumptions C35_accept_iff.
Print Assumptions C35_otherwise.
Print Assumptions C36_ids_distinct.
Print Assumptions C36_late_response_rejected.
Print Assumptions C59_inter_char.
Print Assumptions C59_non_increasing.
Print Assumptions C59_zero_baudrate.
Print Assumptions C34_server_accepts.
Print Assumptions C34_server_otherwise.
