(** Properties C37-C44, C62, C63: masters, alone and against a server.
    Vocabulary: Spec.v, SlaveSpec.v, DbSpec.v, MasterSpec.v, EndSpec.v. *)
From Coq Require Import Lia ZifyBool ZifyNat.
From Verif Require Import PropDatabank.
From Verif Require Import Base BaseFacts PyStruct Spec StructFacts StructMore Defines SlaveModel SlaveSpec BlockSpec HandlerProofs RequestProofs SlaveInv SlaveMore.
From Verif Require Import FrameSpec CrcSpec QueryModel DatabankModel MasterModel MasterSpec DbSpec DatabankProofs MasterProofs DecodeProofs EndSpec EndProofs.
Ltac Zify.zify_post_hook ::= Z.div_mod_to_equations.
Open Scope string_scope.
Open Scope list_scope.
Open Scope Z_scope.

(* ------------------------------------------------------------------ C37 *)
(** What is sent: the prescribed PDU (it exists and is unique), in one frame for unit u. *)
Theorem C37_request : forall p last u c, can_send p last u c ->
  exists pdu, (forall pdu', prescribed c pdu' <-> pdu' = pdu) /\
    forall exchange, exists expected,
      ex_sent (execute p last (args_of u c) exchange) = Some (on_wire (ids_for p last) u pdu, expected).
Proof.
  intros p last u c (E & T & U & F). destruct (build_call u c E) as (pdu & P & _ & _). exists pdu. split.
  - intros pdu'. split; [intros P'; eapply prescribed_unique; eauto|now intros ->].
  - intros exchange. destruct (execute_exact p last u c pdu E P (F _ P) T U) as (h & last' & _ & _ & _ & R). rewrite R. eexists. reflexivity.
Qed.
(** Arguments that do not fit: an exception, and nothing is sent. *)
Theorem C37_not_encodable : forall p last u c exchange, ~ encodable c -> (forall pdu, c <> Raw pdu) ->
  let e := execute p last (args_of u c) exchange in
  ex_sent e = None /\ ex_last e = last /\ exists x, ex_result e = Some (Err x).
Proof.
  intros p last u c exchange E N e. destruct (build_err u c E N) as [x H]. unfold e, execute. rewrite H.
  split; [reflexivity|]. split; [reflexivity|]. eexists. reflexivity.
Qed.
Theorem C37_bad_unit : forall p last u c exchange, encodable c -> ~ (0 <= u <= 255) ->
  let e := execute p last (args_of u c) exchange in
  ex_sent e = None /\ ex_last e = last /\ ex_result e = Some (Err InvalidArgumentError).
Proof.
  intros p last u c exchange E U e. destruct (build_call u c E) as (pdu & _ & _ & H). unfold e, execute. rewrite H.
  assert (Su : ea_slave (args_of u c) = u) by (now destruct c). rewrite Su. destruct p; cbn [build_request].
  - unfold rtu_build_request. destruct ((u <? 0) || (255 <? u)) eqn:X; [|lia]. cbn. auto.
  - unfold tcp_build_request. destruct ((u <? 0) || (255 <? u)) eqn:X; [|lia]. cbn. auto.
Qed.
Theorem C37_unsupported : forall p last a exchange,
  ~ In (ea_fc a) [1; 2; 3; 4; 5; 6; 7; 8; 15; 16; 20; 22; 23; 43; 0] ->
  let e := execute p last a exchange in
  ex_sent e = None /\ ex_last e = last /\ ex_result e = Some (Err ModbusFunctionNotSupportedError).
Proof.
  intros p last a exchange N e. unfold e, execute.
  assert (H : execute_build a = Err ModbusFunctionNotSupportedError).
  { unfold execute_build, READ_COILS, READ_DISCRETE_INPUTS, READ_INPUT_REGISTERS, READ_HOLDING_REGISTERS, READ_FILE_RECORD, WRITE_SINGLE_COIL,
    WRITE_SINGLE_REGISTER, MASK_WRITE_REGISTER, WRITE_MULTIPLE_COILS, WRITE_MULTIPLE_REGISTERS, READ_EXCEPTION_STATUS, DIAGNOSTIC,
    READ_WRITE_MULTIPLE_REGISTERS, RAW, DEVICE_INFO. cbn [In] in N.
    repeat match goal with |- context [ea_fc a =? ?k] => replace (ea_fc a =? k) with false by lia; cbn [orb] end. reflexivity. }
  rewrite H. auto.
Qed.
Example C37_ex : can_send TCP 7 3 (WriteRegs 100 [-1; 65535; 0]) /\
  prescribed (WriteRegs 100 [-1; 65535; 0]) [16; 0; 100; 0; 3; 6; 255; 255; 255; 255; 0; 0].
Proof.
  split; [|reflexivity]. split; [cbn [encodable]; unfold fits, reg_value; split; [lia|]; split; [cbn; lia|repeat constructor; lia]|].
  split; [lia|]. split; [lia|]. intros pdu ->. cbn. lia.
Qed.

(* ------------------------------------------------------------------ C38 *)
Lemma answered : forall p last u c rp exchange, can_send p last u c -> replies p last u c rp exchange ->
  exists pdu, prescribed c pdu /\
  ex_result (execute p last (args_of u c) exchange) = execute_decode (file_fuel rp) (args_of u c) (built_as c pdu) rp.
Proof.
  intros p last u c rp exchange (E & T & U & F) (B & Fr & X). destruct (build_call u c E) as (pdu & P & _ & _). exists pdu. split; [exact P|].
  apply execute_answered; auto.
Qed.
Lemma read_result : forall c v fuel u pdu r, is_read_call c = true -> fc_of c <> 20 ->
  execute_decode fuel (args_of u c) (built_as c pdu) r = Some (Ok v) <->
  exists rc data l, r = rc :: zlen data :: data /\ rc <= 128 /\ unpack (format_call c) data = Ok l /\
    v = RTuple (if 0 <? digits_call c then digits_loop l (digits_call c) else l).
Proof.
  intros c v fuel u pdu r R N. destruct r as [|rc [|b2 data]].
  - split; [discriminate|]. intros (? & ? & ? & ? & _). discriminate.
  - split; [discriminate|]. intros (? & ? & ? & ? & _). discriminate.
  - destruct (Z.lt_ge_cases 128 rc) as [L|L].
    { rewrite decode_exception by exact L. split; [discriminate|]. intros (? & ? & ? & X & Y & _). injection X as -> ->. lia. }
    rewrite decode_read by assumption. unfold READ_FILE_RECORD. replace (fc_of c =? 20) with false by lia. cbv zeta. split.
    + destruct (b2 =? zlen data) eqn:Q; [|discriminate]. destruct (unpack _ data) as [l|] eqn:Ul; [|discriminate]. intros [= <-].
      exists rc, data, l. repeat split; auto. do 2 f_equal. lia.
    + intros (rc' & data' & l & X & _ & Ul & ->). injection X as <- -> ->. rewrite Z.eqb_refl, Ul. reflexivity.
Qed.
Lemma unpack_regs_iff : forall n data l, 0 <= n -> bytes data ->
  (unpack (">" ++ py_str_mul n "H") data = Ok l <-> data = words l /\ Forall (fits true) l /\ zlen l = n).
Proof.
  intros n data l Hn B. split.
  - intros H. destruct (Z.eq_dec (zlen data) (2 * n)) as [L|L].
    + destruct (words_of_bytes data (Z.to_nat n) B ltac:(unfold zlen in L; lia)) as (l' & L' & F & ->).
      rewrite unpack_rep_H in H by (unfold zlen; lia). rewrite map_mod_fits in H by exact F. injection H as <-. unfold zlen. auto with zarith.
    + rewrite unpack_rep_H_len in H by assumption. discriminate.
  - intros (-> & F & L). rewrite unpack_rep_H by exact L. now rewrite map_mod_fits.
Qed.
(** The response decides: a byte count, exactly that much data, and n registers in it. *)
Theorem C38_registers : forall p last u holding a n rp exchange v,
  can_send p last u (ReadRegs holding a n) -> replies p last u (ReadRegs holding a n) rp exchange ->
  (ex_result (execute p last (args_of u (ReadRegs holding a n)) exchange) = Some (Ok v) <->
   exists rc vals, rc <= 128 /\ zlen vals = n /\ Forall (fits true) vals /\
     rp = rc :: 2 * n :: words vals /\ v = RTuple vals).
Proof.
  intros p last u holding a n rp exchange v C A. destruct (answered _ _ _ _ _ _ C A) as (pdu & _ & ->).
  destruct C as ([_ Hn] & _). assert (0 <= n) by (unfold fits in Hn; lia).
  rewrite read_result by (try reflexivity; destruct holding; discriminate). cbn [format_call digits_call]. change (0 <? 0) with false. cbn iota. split.
  - intros (rc & data & l & -> & L & Ul & ->). destruct A as [B _]. inversion_clear B as [|? ? _ B2]. inversion_clear B2 as [|? ? _ Bd].
    apply unpack_regs_iff in Ul as (-> & F & Z); [|assumption|assumption]. exists rc, l. rewrite words_zlen, Z. auto.
  - intros (rc & vals & L & Z & F & -> & ->). exists rc, (words vals), vals. rewrite words_zlen, Z. repeat split; auto.
    apply unpack_regs_iff; auto. apply words_bytes.
Qed.
Theorem C38_read_write_registers : forall p last u a n wa wv rp exchange v,
  let c := ReadWriteRegs a n wa wv in
  can_send p last u c -> replies p last u c rp exchange ->
  (ex_result (execute p last (args_of u c) exchange) = Some (Ok v) <->
   exists rc vals, rc <= 128 /\ zlen vals = n /\ Forall (fits true) vals /\
     rp = rc :: 2 * n :: words vals /\ v = RTuple vals).
Proof.
  intros p last u a n wa wv rp exchange v c C A. destruct (answered _ _ _ _ _ _ C A) as (pdu & _ & ->).
  destruct C as ((_ & Hn & _) & _). assert (0 <= n) by (unfold fits in Hn; lia).
  rewrite read_result by (try reflexivity; discriminate). unfold c. cbn [format_call digits_call]. change (0 <? 0) with false. cbn iota. split.
  - intros (rc & data & l & -> & L & Ul & ->). destruct A as [B _]. inversion_clear B as [|? ? _ B2]. inversion_clear B2 as [|? ? _ Bd].
    apply unpack_regs_iff in Ul as (-> & F & Z); [|assumption|assumption]. exists rc, l. rewrite words_zlen, Z. auto.
  - intros (rc & vals & L & Z & F & -> & ->). exists rc, (words vals), vals. rewrite words_zlen, Z. repeat split; auto.
    apply unpack_regs_iff; auto. apply words_bytes.
Qed.
(** Bits: exactly the first n bits of the data, least significant bit first. *)
Theorem C38_bits : forall p last u coils a n rp exchange v,
  can_send p last u (ReadBits coils a n) -> replies p last u (ReadBits coils a n) rp exchange ->
  (ex_result (execute p last (args_of u (ReadBits coils a n)) exchange) = Some (Ok v) <->
   exists rc data, rc <= 128 /\ zlen data = bytes_for_bits n /\
     rp = rc :: zlen data :: data /\ v = RTuple (bits_of data (Z.to_nat n))).
Proof.
  intros p last u coils a n rp exchange v C A. destruct (answered _ _ _ _ _ _ C A) as (pdu & _ & ->).
  destruct C as ([_ Hn] & _). assert (0 <= n) by (unfold fits in Hn; lia).
  rewrite read_result by (try reflexivity; destruct coils; discriminate). cbn [format_call digits_call].
  assert (D : forall data, zlen data = bytes_for_bits n -> (if 0 <? n then digits_loop data n else data) = bits_of data (Z.to_nat n)).
  { intros data L. destruct (0 <? n) eqn:N0.
    - apply digits_loop_bits. rewrite L. unfold bytes_for_bits. lia.
    - assert (n = 0) by lia. subst n. cbn in L. destruct data; [reflexivity|]. rewrite zlen_cons in L. pose proof (zlen_nonneg data). lia. }
  split.
  - intros (rc & data & l & -> & L & Ul & ->). assert (Ld : zlen data = bytes_for_bits n).
    { destruct (Z.eq_dec (zlen data) (bytes_for_bits n)) as [Q|Q]; [exact Q|]. rewrite unpack_rep_B_len in Ul; [discriminate| |exact Q].
      unfold bytes_for_bits. lia. }
    rewrite unpack_rep_B in Ul by exact Ld. injection Ul as <-. exists rc, data. rewrite D by exact Ld. auto.
  - intros (rc & data & L & Ld & -> & ->). exists rc, data, data. rewrite D by exact Ld. rewrite unpack_rep_B by exact Ld. auto.
Qed.
(** A byte count that does not match the data: ModbusInvalidResponseError. *)
Theorem C38_byte_count : forall p last u c rc count data exchange,
  can_send p last u c -> In (fc_of c) [1; 2; 3; 4; 20; 23] -> replies p last u c (rc :: count :: data) exchange ->
  rc <= 128 -> count <> zlen data ->
  ex_result (execute p last (args_of u c) exchange) = Some (Err ModbusInvalidResponseError).
Proof.
  intros p last u c rc count data exchange C I A L N. destruct (answered _ _ _ _ _ _ C A) as (pdu & _ & ->).
  rewrite decode_read; [|destruct c as [[]|[]| | | | | | | | | | | ]; cbn in I; reflexivity || lia|exact L].
  now replace (count =? zlen data) with false by lia.
Qed.
(** Bytes that are not an answer frame for this request never give a result. *)
Theorem C38_only_matching_frames : forall p last u c exchange request expected response v,
  can_send p last u c -> ex_sent (execute p last (args_of u c) exchange) = Some (request, expected) ->
  exchange request expected = Ok response -> bytes response ->
  ex_result (execute p last (args_of u c) exchange) = Some (Ok v) ->
  exists rp, response = on_wire (ids_for p last) u rp.
Proof.
  intros p last u c exchange request expected response v (E & T & U & F) S X B R. destruct (build_call u c E) as (pdu & P & _ & _).
  destruct (execute_exact p last u c pdu E P (F _ P) T U) as (h & last' & _ & _ & PR & Q). rewrite Q in S, R. cbn [ex_sent ex_result] in S, R.
  injection S as <- <-. rewrite X in R. cbn [bind] in R. destruct (parse_response h response) as [rp|] eqn:H; [|discriminate].
  apply (PR _ B) in H as [_ ->]. eexists. reflexivity.
Qed.
Example C38_ex : exists exchange, can_send TCP 7 3 (ReadBits true 5 10) /\ replies TCP 7 3 (ReadBits true 5 10) [1; 2; 205; 1] exchange /\
  ex_result (execute TCP 7 (args_of 3 (ReadBits true 5 10)) exchange) = Some (Ok (RTuple [1; 0; 1; 1; 0; 0; 1; 1; 1; 0])).
Proof.
  exists (fun _ _ => Ok (tcp_frame 8 0 3 [1; 2; 205; 1])). split; [|split].
  - split; [cbn; unfold fits; lia|]. split; [lia|]. split; [lia|]. intros pdu ->. cbn. lia.
  - split; [apply bytes_compute; reflexivity|]. split; [cbn; lia|]. intros; reflexivity.
  - vm_compute. reflexivity.
Qed.

(* ------------------------------------------------------------------ C39 *)
Theorem C39_read_registers : forall p last d u (holding : bool) a n s vals,
  0 <= last <= 65535 -> db_reachable d -> get_slave d u = Ok s -> 1 <= n <= 125 -> fits true a ->
  stored s (if holding then HOLDING_REGISTERS else ANALOG_INPUTS) a n vals -> Forall (fits (sl_unsigned s)) vals ->
  let '(d', e) := round_trip p last d u (ReadRegs holding a n) in
  ex_result e = Some (Ok (RTuple (map as_word vals))) /\ forall v, get_slave d' v = get_slave d v.
Proof.
  intros p last d u holding a n s vals T D G Hn Ha (Ht & b & Hs & <-) Hf. destruct (db_reachable_slave d u s D G) as [Rs U].
  destruct (rt_read_regs p last d u holding a n s b _ T U G (reachable_wf s Rs) eq_refl Ht Ha Hn Hs Hf) as (R1 & _ & R3).
  destruct (round_trip p last d u (ReadRegs holding a n)) as [d' e]. cbn [fst snd] in R1, R3. subst d'. split; [exact R3|now apply get_slave_put_id].
Qed.
Theorem C39_read_bits : forall p last d u (coils : bool) a n s vals,
  0 <= last <= 65535 -> db_reachable d -> get_slave d u = Ok s -> 1 <= n <= 2000 -> fits true a ->
  stored s (if coils then COILS else DISCRETE_INPUTS) a n vals ->
  let '(d', e) := round_trip p last d u (ReadBits coils a n) in
  ex_result e = Some (Ok (RTuple (map as_bit vals))) /\ forall v, get_slave d' v = get_slave d v.
Proof.
  intros p last d u coils a n s vals T D G Hn Ha (Ht & b & Hs & <-). destruct (db_reachable_slave d u s D G) as [Rs U].
  destruct (rt_read_bits p last d u coils a n s b _ T U G (reachable_wf s Rs) eq_refl Ht Ha Hn Hs) as (R1 & _ & R3).
  destruct (round_trip p last d u (ReadBits coils a n)) as [d' e]. cbn [fst snd] in R1, R3. subst d'. split; [exact R3|now apply get_slave_put_id].
Qed.
Example C39_ex : exists s, get_slave demo_db 3 = Ok s /\ stored s HOLDING_REGISTERS 103 4 [0; 0; 0; 0] /\ Forall (fits (sl_unsigned s)) [0; 0; 0; 0].
Proof.
  eexists. split; [vm_compute; reflexivity|]. split; [split; [vm_compute; discriminate|]|repeat constructor; vm_compute; intuition congruence].
  exists {| b_start := 100; b_size := 10; b_data := [0; 0; 0; 0; 0; 0; 0; 0; 0; 0] |}. split; [|vm_compute; reflexivity]. exists [], []. vm_compute. split; [reflexivity|]. split; [split; discriminate|]. intros ? [].
Qed.

(* ------------------------------------------------------------------ C40 *)
Lemma write_read : forall p last d u c t a vals echo s,
  0 <= last <= 65535 -> db_reachable d -> get_slave d u = Ok s -> plain_write (sl_unsigned s) c t a vals echo -> encodable c ->
  (exists old, stored s t a (zlen vals) old) ->
  let '(d1, e1) := round_trip p last d u c in
  ex_result e1 = Some (Ok (RTuple [a; echo])) /\ 0 <= ex_last e1 <= 65535 /\ others_same d d1 u /\
  exists s', get_slave d1 u = Ok s' /\ wrote s t a vals s' /\ wf_slave s' /\ stored s' t a (zlen vals) vals.
Proof.
  intros p last d u c t a vals echo s T D G PW E (old & Ht & b & Hs & _). destruct (db_reachable_slave d u s D G) as [Rs U].
  apply reachable_wf in Rs. destruct (rt_write p last d u c t a vals echo s T U G Rs PW E Ht (ex_intro _ b Hs)) as (s' & Hw & R1 & R2 & R3).
  destruct (round_trip p last d u c) as [d1 e1]. cbn [fst snd] in *. subst d1. split; [exact R3|]. split; [exact R2|]. split; [intros v Hv; now apply get_slave_put_other|].
  exists s'. split; [apply get_slave_put_same|]. split; [exact Hw|]. split; [now apply (wrote_wf s t a vals)|now apply (wrote_stored s)].
Qed.
(** WRITE_MULTIPLE_REGISTERS then READ_HOLDING_REGISTERS *)
Theorem C40_registers : forall p last d u a vals s,
  0 <= last <= 65535 -> db_reachable d -> get_slave d u = Ok s ->
  1 <= zlen vals <= 123 -> Forall reg_value vals -> fits true a ->
  (exists old, stored s HOLDING_REGISTERS a (zlen vals) old) ->
  let '(d1, e1) := round_trip p last d u (WriteRegs a vals) in
  let '(d2, e2) := round_trip p (ex_last e1) d1 u (ReadRegs true a (zlen vals)) in
  ex_result e1 = Some (Ok (RTuple [a; zlen vals])) /\
  ex_result e2 = Some (Ok (RTuple (map as_word vals))) /\
  others_same d d1 u /\ (forall v, get_slave d2 v = get_slave d1 v) /\
  exists s', get_slave d1 u = Ok s' /\
    wrote s HOLDING_REGISTERS a (map (fun v => reg_of_word (sl_unsigned s) (as_word v)) vals) s'.
Proof.
  intros p last d u a vals s T D G L V Ha Hst. destruct (db_reachable_slave d u s D G) as [_ U].
  pose proof (write_read p last d u _ _ a _ _ s T D G (PWRegs _ a vals L) ltac:(split; [exact Ha|split; [lia|exact V]])) as H.
  rewrite zlen_map in H. specialize (H Hst). destruct (round_trip p last d u (WriteRegs a vals)) as [d1 e1].
  destruct H as (H1 & T1 & O1 & s' & G1 & W1 & WF & Ht & b & Hs & Hv).
  assert (Un : sl_unsigned s' = sl_unsigned s) by (destruct W1 as (? & ? & ? & _ & _ & F); apply F).
  assert (Hf : Forall (fits (sl_unsigned s')) (values_at b a (zlen vals))).
  { rewrite Hv, Un. apply Forall_map, Forall_forall. intros v _. unfold fits, reg_of_word, as_word. destruct (sl_unsigned s); [lia|]. destruct (_ <? _) eqn:Q; lia. }
  destruct (rt_read_regs p (ex_last e1) d1 u true a (zlen vals) s' b _ T1 U G1 WF eq_refl Ht Ha ltac:(lia) Hs Hf) as (R1 & _ & R3).
  destruct (round_trip p (ex_last e1) d1 u (ReadRegs true a (zlen vals))) as [d2 e2]. cbn [fst snd] in R1, R3. subst d2.
  split; [exact H1|]. split; [|split; [exact O1|split; [now apply get_slave_put_id|exists s'; auto]]].
  rewrite R3, Hv, map_map. do 3 f_equal. apply map_ext. intros v. unfold reg_of_word, as_word. destruct (sl_unsigned s); [lia|]. destruct (_ <? _) eqn:Q; lia.
Qed.
(** WRITE_SINGLE_REGISTER then READ_HOLDING_REGISTERS *)
Theorem C40_register : forall p last d u a w s,
  0 <= last <= 65535 -> db_reachable d -> get_slave d u = Ok s -> reg_value w -> fits true a ->
  (exists old, stored s HOLDING_REGISTERS a 1 old) ->
  let '(d1, e1) := round_trip p last d u (WriteReg a w) in
  let '(d2, e2) := round_trip p (ex_last e1) d1 u (ReadRegs true a 1) in
  ex_result e1 = Some (Ok (RTuple [a; as_word w])) /\
  ex_result e2 = Some (Ok (RTuple [as_word w])) /\
  others_same d d1 u /\ (forall v, get_slave d2 v = get_slave d1 v) /\
  exists s', get_slave d1 u = Ok s' /\
    wrote s HOLDING_REGISTERS a [reg_of_word (sl_unsigned s) (as_word w)] s'.
Proof.
  intros p last d u a w s T D G V Ha Hst. destruct (db_reachable_slave d u s D G) as [_ U].
  pose proof (write_read p last d u _ _ a _ _ s T D G (PWReg _ a w) ltac:(cbn [encodable]; auto) Hst) as H.
  destruct (round_trip p last d u (WriteReg a w)) as [d1 e1].
  destruct H as (H1 & T1 & O1 & s' & G1 & W1 & WF & Ht & b & Hs & Hv).
  assert (Un : sl_unsigned s' = sl_unsigned s) by (destruct W1 as (? & ? & ? & _ & _ & F); apply F).
  assert (Hf : Forall (fits (sl_unsigned s')) (values_at b a 1)).
  { change (zlen [reg_of_word (sl_unsigned s) (as_word w)]) with 1 in Hv. rewrite Hv, Un. constructor; [|constructor]. unfold fits, reg_of_word, as_word. destruct (sl_unsigned s); [lia|]. destruct (_ <? _) eqn:Q; lia. }
  destruct (rt_read_regs p (ex_last e1) d1 u true a 1 s' b _ T1 U G1 WF eq_refl Ht Ha ltac:(lia) Hs Hf) as (R1 & _ & R3).
  destruct (round_trip p (ex_last e1) d1 u (ReadRegs true a 1)) as [d2 e2]. cbn [fst snd] in R1, R3. subst d2.
  split; [exact H1|]. split; [|split; [exact O1|split; [now apply get_slave_put_id|exists s'; auto]]].
  change (zlen [reg_of_word (sl_unsigned s) (as_word w)]) with 1 in Hv. rewrite R3, Hv. cbn [map]. do 4 f_equal. unfold reg_of_word, as_word. destruct (sl_unsigned s); [lia|]. destruct (_ <? _) eqn:Q; lia.
Qed.
(** WRITE_MULTIPLE_COILS then READ_COILS *)
Theorem C40_coils : forall p last d u a vals s,
  0 <= last <= 65535 -> db_reachable d -> get_slave d u = Ok s -> 1 <= zlen vals <= 1968 -> fits true a ->
  (exists old, stored s COILS a (zlen vals) old) ->
  let '(d1, e1) := round_trip p last d u (WriteCoils a vals) in
  let '(d2, e2) := round_trip p (ex_last e1) d1 u (ReadBits true a (zlen vals)) in
  ex_result e1 = Some (Ok (RTuple [a; zlen vals])) /\
  ex_result e2 = Some (Ok (RTuple (map on_off vals))) /\
  others_same d d1 u /\ (forall v, get_slave d2 v = get_slave d1 v) /\
  exists s', get_slave d1 u = Ok s' /\ wrote s COILS a (map on_off vals) s'.
Proof.
  intros p last d u a vals s T D G L Ha Hst. destruct (db_reachable_slave d u s D G) as [_ U].
  pose proof (write_read p last d u _ _ a _ _ s T D G (PWCoils _ a vals L) ltac:(split; [exact Ha|lia])) as H.
  rewrite zlen_map in H. specialize (H Hst). destruct (round_trip p last d u (WriteCoils a vals)) as [d1 e1].
  destruct H as (H1 & T1 & O1 & s' & G1 & W1 & WF & Ht & b & Hs & Hv).
  destruct (rt_read_bits p (ex_last e1) d1 u true a (zlen vals) s' b _ T1 U G1 WF eq_refl Ht Ha ltac:(lia) Hs) as (R1 & _ & R3).
  destruct (round_trip p (ex_last e1) d1 u (ReadBits true a (zlen vals))) as [d2 e2]. cbn [fst snd] in R1, R3. subst d2.
  split; [exact H1|]. split; [|split; [exact O1|split; [now apply get_slave_put_id|exists s'; auto]]].
  rewrite R3, Hv, map_map. do 3 f_equal. apply map_ext. intros v. unfold as_bit, on_off. destruct (0 <? v); reflexivity.
Qed.
(** WRITE_SINGLE_COIL then READ_COILS *)
Theorem C40_coil : forall p last d u a w s,
  0 <= last <= 65535 -> db_reachable d -> get_slave d u = Ok s -> fits true a ->
  (exists old, stored s COILS a 1 old) ->
  let '(d1, e1) := round_trip p last d u (WriteCoil a w) in
  let '(d2, e2) := round_trip p (ex_last e1) d1 u (ReadBits true a 1) in
  ex_result e1 = Some (Ok (RTuple [a; if w =? 0 then 0 else 65280])) /\
  ex_result e2 = Some (Ok (RTuple [as_bit w])) /\
  others_same d d1 u /\ (forall v, get_slave d2 v = get_slave d1 v) /\
  exists s', get_slave d1 u = Ok s' /\ wrote s COILS a [as_bit w] s'.
Proof.
  intros p last d u a w s T D G Ha Hst. destruct (db_reachable_slave d u s D G) as [_ U].
  pose proof (write_read p last d u _ _ a _ _ s T D G (PWCoil _ a w) ltac:(cbn [encodable]; auto) Hst) as H.
  destruct (round_trip p last d u (WriteCoil a w)) as [d1 e1].
  destruct H as (H1 & T1 & O1 & s' & G1 & W1 & WF & Ht & b & Hs & Hv).
  destruct (rt_read_bits p (ex_last e1) d1 u true a 1 s' b _ T1 U G1 WF eq_refl Ht Ha ltac:(lia) Hs) as (R1 & _ & R3).
  destruct (round_trip p (ex_last e1) d1 u (ReadBits true a 1)) as [d2 e2]. cbn [fst snd] in R1, R3. subst d2.
  split; [exact H1|]. split; [|split; [exact O1|split; [now apply get_slave_put_id|exists s'; auto]]].
  change (zlen [as_bit w]) with 1 in Hv. rewrite R3, Hv. cbn [map]. do 4 f_equal. unfold as_bit. destruct (w =? 0); reflexivity.
Qed.
(** MASK_WRITE_REGISTER: each bit of the stored register becomes the or-mask bit where the and-mask is 0. *)
Theorem C40_mask_write : forall p last d u a am om s old,
  0 <= last <= 65535 -> db_reachable d -> get_slave d u = Ok s -> fits true a -> fits true am -> fits true om ->
  stored s HOLDING_REGISTERS a 1 [old] ->
  let '(d1, e1) := round_trip p last d u (MaskWrite a am om) in
  ex_result e1 = Some (Ok (RTuple [a; am; om])) /\ others_same d d1 u /\
  exists s' new, get_slave d1 u = Ok s' /\ wrote s HOLDING_REGISTERS a [new] s' /\
    (forall k, 0 <= k -> Z.testbit new k = if Z.testbit am k then Z.testbit old k else Z.testbit om k).
Proof.
  intros p last d u a am om s old T D G Ha H1 H2 (Ht & b & Hs & Hv). destruct (db_reachable_slave d u s D G) as [Rs U].
  destruct (proj1 (PropSlave.C14_mask_write s a am om [] Rs Ht Ha H1 H2) b Hs) as (s' & old' & new & Hc & H & Hw & Hb).
  rewrite app_nil_r in H. apply reachable_wf in Rs.
  assert (old' = old).
  { destruct Hs as (l1 & l2 & Hs). pose proof (wf_served _ _ _ _ _ _ _ Rs Hs) as (W1 & W2 & W3). destruct Hs as (_ & [C1 C2] & _).
    unfold cell in Hc. destruct (a <? b_start b) eqn:Q; [discriminate|]. unfold values_at in Hv. change (Z.to_nat 1) with 1%nat in Hv.
    destruct (skipn (Z.to_nat (a - b_start b)) (b_data b)) as [|x l] eqn:K; [discriminate|]. cbn in Hv. injection Hv as ->.
    rewrite <- (firstn_skipn (Z.to_nat (a - b_start b)) (b_data b)), K in Hc. rewrite nth_error_app2 in Hc by (rewrite firstn_length; lia).
    rewrite firstn_length in Hc. unfold zlen in *. replace (_ - _)%nat with 0%nat in Hc by lia. cbn in Hc. congruence. }
  subst old'. assert (E : encodable (MaskWrite a am om)) by (repeat (split; [assumption|]); assumption).
  assert (P : prescribed (MaskWrite a am om) (22 :: word a ++ word am ++ word om)) by reflexivity.
  assert (PL : zlen (22 :: word a ++ word am ++ word om) = 7) by reflexivity.
  destruct (round_trip_present p last d u _ _ s _ E P ltac:(right; lia) T U G ltac:(rewrite H; reflexivity)) as (R1 & R2 & R3).
  rewrite H in R1. cbn [fst] in R1. destruct (round_trip p last d u (MaskWrite a am om)) as [d1 e1]. cbn [fst snd] in *. subst d1.
  split; [|split; [intros v V; now apply get_slave_put_other|exists s', new; split; [apply get_slave_put_same|auto]]].
  rewrite R3. change (22 :: word a ++ word am ++ word om) with (22 :: ((a / 256) mod 256) :: (a mod 256) :: word am ++ word om).
  rewrite decode_other by (auto; cbn; lia). cbn [format_call]. unfold word. cbn [app]. rewrite unpack_HHH. unfold fits in *.
  do 3 f_equal. f_equal; [lia|]. f_equal; [lia|]. f_equal. lia.
Qed.
(** READ_WRITE_MULTIPLE_REGISTERS: what was stored before comes back, the new values are stored. *)
Theorem C40_read_write : forall p last d u a n wa vals s olds,
  0 <= last <= 65535 -> db_reachable d -> get_slave d u = Ok s -> fits true a -> fits true wa ->
  1 <= n <= 125 -> 1 <= zlen vals <= 123 -> Forall reg_value vals ->
  stored s HOLDING_REGISTERS a n olds -> Forall (fits (sl_unsigned s)) olds ->
  (exists wold, stored s HOLDING_REGISTERS wa (zlen vals) wold) ->
  let '(d1, e1) := round_trip p last d u (ReadWriteRegs a n wa vals) in
  ex_result e1 = Some (Ok (RTuple (map as_word olds))) /\ others_same d d1 u /\
  exists s', get_slave d1 u = Ok s' /\
    wrote s HOLDING_REGISTERS wa (map (fun v => reg_of_word (sl_unsigned s) (as_word v)) vals) s'.
Proof.
  intros p last d u a n wa vals s olds T D G Ha Hwa Hn L V (Ht & b & Hs & <-) Hf (wold & _ & wb & Hws & _).
  destruct (db_reachable_slave d u s D G) as [Rs U]. apply reachable_wf in Rs.
  assert (ML : zlen (map as_word vals) = zlen vals) by apply zlen_map.
  destruct (hr_read_write s a n wa (map as_word vals) [] b Rs Ht Ha Hwa Hn ltac:(lia) (as_word_fits _) Hs Hf) as (s' & H & Hw);
    [exists wb; now rewrite ML|].
  rewrite app_nil_r, ML, <- words_mod in H. rewrite map_map in Hw.
  pose proof (values_at_zlen s _ a n b Rs Hs ltac:(lia)) as VL.
  set (c := ReadWriteRegs a n wa vals). assert (Fn : fits true n) by (unfold fits; lia).
  assert (E : encodable c) by (split; [exact Ha|split; [exact Fn|split; [exact Hwa|split; [lia|exact V]]]]).
  assert (P : prescribed c (23 :: word a ++ word n ++ word wa ++ word (zlen vals) ++ 2 * zlen vals :: words vals)) by reflexivity.
  assert (WL : forall x, zlen (word x) = 2) by reflexivity.
  assert (PL : zlen (23 :: word a ++ word n ++ word wa ++ word (zlen vals) ++ 2 * zlen vals :: words vals) <= 65534)
    by (rewrite zlen_cons, !zlen_app, !WL, zlen_cons, words_zlen; lia).
  destruct (round_trip_present p last d u c _ s _ E P ltac:(right; exact PL) T U G ltac:(rewrite H; reflexivity)) as (R1 & R2 & R3).
  rewrite H in R1. cbn [fst] in R1. destruct (round_trip p last d u c) as [d1 e1]. cbn [fst snd] in *. subst d1.
  split; [|split; [intros v Hv; now apply get_slave_put_other|exists s'; split; [apply get_slave_put_same|exact Hw]]].
  rewrite R3. rewrite decode_read by (reflexivity || lia). rewrite words_zlen, VL, Z.eqb_refl. cbn [format_call digits_call c].
  rewrite unpack_rep_H by exact VL. reflexivity.
Qed.
(** demo: a signed slave (unit 9), a negative value *)
Example C40_ex : let '(d1, e1) := round_trip TCP 65535 demo_db 9 (WriteRegs 102 [-5; 7]) in
  ex_result (snd (round_trip TCP (ex_last e1) d1 9 (ReadRegs true 101 3))) = Some (Ok (RTuple [0; 65531; 7])) /\ d1 <> demo_db.
Proof. vm_compute. split; [reflexivity|discriminate]. Qed.

(* ------------------------------------------------------------------ C41 *)
(** An exception response (function code with its top bit set, and more) gives its code. *)
Theorem C41_exception : forall p last u c rc code rest exchange, can_send p last u c ->
  replies p last u c (rc :: code :: rest) exchange -> 128 < rc ->
  ex_result (execute p last (args_of u c) exchange) = Some (Err (ModbusError code)).
Proof.
  intros p last u c rc code rest exchange C A L. destruct (answered _ _ _ _ _ _ C A) as (pdu & _ & ->). now apply decode_exception.
Qed.
Theorem C41_normal : forall p last u c rp exchange v, can_send p last u c ->
  replies p last u c rp exchange -> ex_result (execute p last (args_of u c) exchange) = Some (Ok v) ->
  exists rc rest, rp = rc :: rest /\ rc <= 128.
Proof.
  intros p last u c rp exchange v C A R. destruct (answered _ _ _ _ _ _ C A) as (pdu & _ & Q). rewrite Q in R.
  destruct rp as [|rc [|b2 rest]]; [discriminate|discriminate|]. exists rc, (b2 :: rest). split; [reflexivity|].
  destruct (Z.lt_ge_cases 128 rc) as [L|L]; [|lia]. rewrite decode_exception in R by exact L. discriminate.
Qed.
(** Against a server: the exception code its slave answers with is the one raised, and nothing
    changed in the databank. *)
Theorem C41_end_to_end : forall p last d u c pdu s x code,
  db_reachable d -> get_slave d u = Ok s -> can_send p last u c -> prescribed c pdu ->
  snd (handle_request s pdu false) = Ok [x; code] -> 128 < x ->
  let '(d', e) := round_trip p last d u c in
  ex_result e = Some (Err (ModbusError code)) /\ (forall v, get_slave d' v = get_slave d v) /\ In code [1; 2; 3].
Proof.
  intros p last d u c pdu s x code D G (E & T & _ & F) P H X. destruct (db_reachable_slave d u s D G) as [Rs U]. apply reachable_wf in Rs.
  assert (L : p = RTU \/ zlen pdu <= 65534) by (specialize (F pdu P); destruct p; auto).
  destruct (round_trip_present p last d u c pdu s _ E P L T U G H) as (R1 & _ & R3).
  destruct (handle_request s pdu false) as [s' r] eqn:HR. cbn [fst snd] in *. subst r.
  destruct (hr_exception s pdu false s' x [code] Rs HR ltac:(lia)) as (fc & rest & k & _ & _ & [= ->] & -> & Hk).
  destruct (round_trip p last d u c) as [d' e]. cbn [fst snd] in *. subst d'. split; [rewrite R3; now apply decode_exception|].
  split; [now apply get_slave_put_id|]. cbn. intuition.
Qed.
(** in particular a read of registers the slave does not have *)
Theorem C41_illegal_address : forall p last d u (holding : bool) a n s,
  0 <= last <= 65535 -> db_reachable d -> get_slave d u = Ok s -> 1 <= n <= 125 -> fits true a ->
  has_table s (if holding then HOLDING_REGISTERS else ANALOG_INPUTS) ->
  not_covered s (if holding then HOLDING_REGISTERS else ANALOG_INPUTS) a n ->
  let '(d', e) := round_trip p last d u (ReadRegs holding a n) in
  ex_result e = Some (Err (ModbusError 2)) /\ (forall v, get_slave d' v = get_slave d v).
Proof.
  intros p last d u holding a n s T D G Hn Ha Ht Hc. destruct (db_reachable_slave d u s D G) as [Rs U].
  set (fc := if holding then 3 else 4). set (t := if holding then HOLDING_REGISTERS else ANALOG_INPUTS) in *.
  assert (RT : reg_table fc t) by (destruct holding; constructor). assert (Fn : fits true n) by (unfold fits; lia).
  assert (H : handle_request s (fc :: word a ++ word n) false = (s, Ok [fc + 128; 2])).
  { rewrite <- (app_nil_r (word n)). now apply (hr_read_registers_addr s fc t a n []). }
  pose proof (C41_end_to_end p last d u (ReadRegs holding a n) (fc :: word a ++ word n) s (fc + 128) 2 D G) as K.
  assert (CS : can_send p last u (ReadRegs holding a n)).
  { split; [split; assumption|]. split; [exact T|]. split; [lia|]. intros pdu ->. destruct p; cbn; lia || exact I. }
  specialize (K CS eq_refl). rewrite H in K. specialize (K eq_refl ltac:(unfold fc; destruct holding; lia)).
  destruct (round_trip _ _ _ _ _) as [d' e]. tauto.
Qed.
Example C41_ex : ex_result (snd (round_trip RTU 0 demo_db 9 (ReadRegs true 105 6))) = Some (Err (ModbusError 2)) /\
  ex_result (snd (round_trip RTU 0 demo_db 9 (ReadRegs true 105 126))) = Some (Err (ModbusError 3)).
Proof. vm_compute. auto. Qed.

(* ------------------------------------------------------------------ C42 *)
(** Against a server of this library the claim holds: a normal result comes from a response
    to the requested function. *)
Theorem C42_same_function_partial : forall p last d u c pdu s v,
  db_reachable d -> get_slave d u = Ok s -> can_send p last u c -> prescribed c pdu -> hd 0 pdu <> 0 ->
  ex_result (snd (round_trip p last d u c)) = Some (Ok v) ->
  exists rest, snd (handle_request s pdu false) = Ok (hd 0 pdu :: rest).
Proof.
  intros p last d u c pdu s v D G (E & T & _ & F) P N R. destruct (db_reachable_slave d u s D G) as [Rs U].
  destruct (snd (handle_request s pdu false)) as [r|e] eqn:H.
  2:{ destruct (round_trip_raises p last d u c pdu s e E P (F _ P) T U G H) as [x X]. congruence. }
  assert (L : p = RTU \/ zlen pdu <= 65534) by (specialize (F pdu P); destruct p; auto).
  destruct (round_trip_present p last d u c pdu s r E P L T U G H) as (_ & _ & R3). rewrite R in R3. symmetry in R3.
  destruct (build_call u c E) as (pdu' & P' & B & _). rewrite (prescribed_unique c _ _ P' P) in B.
  destruct (handle_request s pdu false) as [s' r'] eqn:HR. cbn [snd] in H. subst r'.
  destruct pdu as [|fc rest]; [discriminate|]. cbn [hd] in *. destruct r as [|rc [|b2 r]].
  - discriminate.
  - discriminate.
  - destruct (Z.lt_ge_cases 128 rc) as [X|X]; [rewrite decode_exception in R3 by exact X; discriminate|].
    pose proof (PropSlave.C23_response_shape s fc rest false s' _ B HR) as (_ & _ & [[C _]|[C|C]]); [discriminate| |].
    + cbn in C. subst rc. eexists. reflexivity.
    + cbn in C. inversion_clear B as [|? ? Bf _]. unfold is_byte in Bf. lia.
Qed.
(** In general it does not: a master asking for input registers takes an answer about holding
    registers, or one whose function code is 0x80. *)
Theorem C42_refuted : ~ (forall p last u c rp exchange v,
  can_send p last u c -> (forall pdu, c <> Raw pdu) -> replies p last u c rp exchange ->
  ex_result (execute p last (args_of u c) exchange) = Some (Ok v) -> hd 0 rp = fc_of c).
Proof.
  intros H. specialize (H RTU 0 1 (ReadRegs false 0 1) [128; 2; 1; 44] (fun _ _ => Ok (sealed [1; 128; 2; 1; 44])) (RTuple [300])).
  assert (X : 128 = 4); [|discriminate]. apply H.
  - split; [cbn; unfold fits; lia|]. split; [lia|]. split; [lia|]. intros; exact I.
  - discriminate.
  - split; [apply bytes_compute; reflexivity|]. split; [exact I|]. reflexivity.
  - vm_compute. reflexivity.
Qed.
Example C42_ex : ex_result (snd (round_trip TCP 4 demo_db 3 (ReadRegs true 103 2))) = Some (Ok (RTuple [0; 0])).
Proof. vm_compute. reflexivity. Qed.

(* ------------------------------------------------------------------ C43 *)
Lemma groups_bytes : forall recs, Forall (fun r => zlen r <= 124) recs -> bytes (file_groups recs).
Proof.
  intros recs H. apply Forall_flat_map, Forall_forall. intros r Hr. rewrite Forall_forall in H. specialize (H r Hr). pose proof (zlen_nonneg r).
  constructor; [unfold is_byte; lia|]. constructor; [unfold is_byte; lia|]. apply words_bytes.
Qed.
Lemma groups_zlen : forall recs, zlen (file_groups recs) = fold_right (fun r acc => 2 + 2 * zlen r + acc) 0 recs.
Proof.
  induction recs as [|r recs IH]; [reflexivity|]. unfold file_groups in *. cbn [flat_map fold_right]. rewrite zlen_app, IH, !zlen_cons, words_zlen. lia.
Qed.
(** The response prescribed for the records: its length, then per record its length (1 + 2 * registers),
    the reference type 6 and its registers. *)
Theorem C43_records : forall p last u subs recs rc exchange,
  can_send p last u (ReadFiles subs) -> map snd subs = map zlen recs -> Forall (Forall (fits true)) recs -> rc <= 128 ->
  replies p last u (ReadFiles subs) (rc :: zlen (file_groups recs) :: file_groups recs) exchange ->
  ex_result (execute p last (args_of u (ReadFiles subs)) exchange) = Some (Ok (RRecords recs)).
Proof.
  intros p last u subs recs rc exchange C M F L A. destruct (answered _ _ _ _ _ _ C A) as (pdu & _ & ->).
  destruct C as ((Hn & _) & _). rewrite decode_files; auto.
  - do 3 f_equal. transitivity (map (fun r : list Z => r) recs); [|apply map_id]. apply map_ext_in. intros r Hr. apply map_mod_fits. now rewrite Forall_forall in F; apply F.
  - intros ->. destruct subs; [cbn in Hn; lia|discriminate].
Qed.
(** Whatever comes back, the loop over the sub-responses ends. *)
Theorem C43_terminates : forall p last u subs exchange,
  can_send p last u (ReadFiles subs) -> (forall request expected response, exchange request expected = Ok response -> bytes response) ->
  ex_result (execute p last (args_of u (ReadFiles subs)) exchange) <> None.
Proof.
  intros p last u subs exchange (E & T & U & F) B. destruct (build_call u _ E) as (pdu & P & _ & _).
  destruct (execute_exact p last u _ pdu E P (F _ P) T U) as (h & last' & _ & S & PR & R). rewrite R. cbn [ex_result].
  destruct (exchange _ _) as [resp|] eqn:X; cbn [bind]; [|discriminate]. apply B in X.
  destruct (parse_response h resp) as [rp|] eqn:Q; [|discriminate]. apply (PR _ X) in Q as [_ ->].
  destruct E as [Hn _]. apply decode_files_ends; [|lia]. clear -X.
  assert (K : forall l1 l2, bytes (l1 ++ l2) -> bytes l1 /\ bytes l2) by (intros; now apply Forall_app).
  destruct p; cbn [ids_for on_wire] in X; unfold sealed, tcp_frame in X.
  - apply K in X as [X _]. now inversion_clear X.
  - apply K in X as [_ X]. apply K in X as [_ X]. apply K in X as [_ X]. now inversion_clear X.
Qed.
(** With a data_format of the user's, it need not end: a signed length of -4 is skipped for ever.
    [file_loop fuel] makes at most [fuel] iterations. *)
Theorem C43_terminates_refuted : exists a b response,
  ea_fc a = 20 /\ execute_build a = Ok b /\ bytes response /\ forall fuel, execute_decode fuel a b response = None.
Proof.
  exists {| ea_slave := 1; ea_fc := 20; ea_addr := PSeq [0]; ea_qty := PSeq [0]; ea_output := PInt 0; ea_format := ">bb"; ea_expected := -1;
            ea_waddr23 := 0; ea_files := Some [1]; ea_pdu := []; ea_raw := false; ea_and := -1; ea_or := -1 |}.
  eexists _, [20; 2; 252; 6]. split; [reflexivity|]. split; [vm_compute; reflexivity|]. split; [apply bytes_compute; reflexivity|].
  assert (K : forall fuel, file_loop fuel [-4; 6] 0 = None).
  { induction fuel as [|fuel IH]; [reflexivity|]. cbn [file_loop]. change (0 <? zlen [-4; 6]) with true. cbn iota.
    change (py_get [-4; 6] 0) with (Ok (-4)). cbn iota. change (0 + (-4 / 2 + 2)) with 0. now rewrite IH. }
  intros fuel. unfold execute_decode.
  change (unpack2 ">BB" (py_slice [20; 2; 252; 6] 0 2)) with (Ok (20, 2)). cbn iota. change (128 <? 20) with false. cbn iota.
  cbn [bl_is_read ea_fc ea_raw bl_format bl_digits negb andb]. change (2 =? zlen (py_from [20; 2; 252; 6] 2)) with true. cbn [negb].
  change (unpack ">bb" (py_from [20; 2; 252; 6] 2)) with (Ok [-4; 6]). cbn iota. change (0 <? 0) with false. cbv zeta. cbn iota.
  change (20 =? READ_FILE_RECORD) with true. cbn iota. now rewrite K.
Qed.
Example C43_ex : ex_result (execute RTU 0 (args_of 1 (ReadFiles [(4, 1, 2); (3, 9, 1)]))
    (fun _ _ => Ok (on_wire None 1 ([20; 10] ++ file_groups [[13; 254]; [515]])))) = Some (Ok (RRecords [[13; 254]; [515]])).
Proof. vm_compute. reflexivity. Qed.

(* ------------------------------------------------------------------ C44 *)
(** The echo is never decoded: the default format does not count the sub-function. *)
Theorem C44_refuted : forall p last u sub data exchange,
  can_send p last u (Diagnostic sub data) ->
  replies p last u (Diagnostic sub data) (8 :: word sub ++ data) exchange ->
  ex_result (execute p last (args_of u (Diagnostic sub data)) exchange) = Some (Err StructError).
Proof.
  intros p last u sub data exchange C A. destruct (answered _ _ _ _ _ _ C A) as (pdu & _ & ->).
  change (8 :: word sub ++ data) with (8 :: ((sub / 256) mod 256) :: (sub mod 256) :: data).
  rewrite decode_other by (try reflexivity; cbn; lia). destruct data as [|x data]; [reflexivity|]. cbn [format_call].
  rewrite unpack_rep_B_len; [reflexivity|apply zlen_nonneg|]. rewrite !zlen_cons. lia.
Qed.
(** With returns_raw, or with a format that counts it, it is. *)
Definition diagnostic_args (u sub : Z) (data : list Z) (format : string) (raw : bool) : exec_args :=
  {| ea_slave := u; ea_fc := 8; ea_addr := PInt sub; ea_qty := PInt 0; ea_output := PSeq data; ea_format := format; ea_expected := -1;
     ea_waddr23 := 0; ea_files := None; ea_pdu := []; ea_raw := raw; ea_and := -1; ea_or := -1 |}.
Theorem C44_other_formats_partial : forall p last u sub data format raw exchange,
  0 <= last <= 65535 -> 0 <= u <= 255 -> fits true sub -> bytes data -> framable p (8 :: word sub ++ data) ->
  (forall f x, f = on_wire (ids_for p last) u (8 :: word sub ++ data) -> exchange f x = Ok f) ->
  ex_result (execute p last (diagnostic_args u sub data format raw) exchange) =
  if raw then Some (Ok (RRaw (word sub ++ data)))
  else match unpack (if str_empty format then match data with [] => "" | _ => ">" ++ py_str_mul (zlen data) "B" end else format)
               (word sub ++ data) with
       | Ok l => Some (Ok (RTuple l)) | Err e => Some (Err e) end.
Proof.
  intros p last u sub data format raw exchange T U Hs Hd F X. set (pdu := 8 :: word sub ++ data) in *.
  assert (B : bytes pdu) by (constructor; [unfold is_byte; lia|]; apply Forall_app; split; [apply word_bytes|exact Hd]).
  destruct (build_request_exact p last pdu u B F T U) as (h & last' & R & S & T' & PR).
  assert (Bd : exists e, execute_build (diagnostic_args u sub data format raw) =
    Ok {| bl_pdu := pdu; bl_is_read := false; bl_digits := 0; bl_expected := e;
          bl_format := if str_empty format then match data with [] => "" | _ => ">" ++ py_str_mul (zlen data) "B" end else format |}).
  { unfold execute_build, diagnostic_args. cbn [ea_fc ea_addr ea_output ea_format ea_expected as_int as_seq bind].
    change (8 =? READ_COILS) with false. change (8 =? READ_DISCRETE_INPUTS) with false. change (8 =? READ_INPUT_REGISTERS) with false.
    change (8 =? READ_HOLDING_REGISTERS) with false. change (8 =? READ_FILE_RECORD) with false. change (8 =? WRITE_SINGLE_COIL) with false.
    change (8 =? WRITE_SINGLE_REGISTER) with false. change (8 =? MASK_WRITE_REGISTER) with false. change (8 =? WRITE_MULTIPLE_COILS) with false.
    change (8 =? WRITE_MULTIPLE_REGISTERS) with false. change (8 =? READ_EXCEPTION_STATUS) with false. change (8 =? DIAGNOSTIC) with true. cbn [orb].
    rewrite pack_BH, byteb_t, fitsb_t by (auto; unfold is_byte; lia). cbn [andb bind]. unfold pdu. destruct data as [|x data].
    - eexists. cbn. destruct format; reflexivity.
    - eexists. replace (0 <? zlen (x :: data)) with true by (rewrite zlen_cons; pose proof (zlen_nonneg data); lia).
      rewrite pack_bytes_list by exact Hd. cbn [bind]. unfold dflt_format. reflexivity. }
  destruct Bd as [e Bd]. unfold execute. rewrite Bd. cbn [bl_pdu bl_expected]. change (ea_slave (diagnostic_args u sub data format raw)) with u.
  rewrite R. cbn [ex_result]. rewrite (X _ _ eq_refl). cbn [bind].
  assert (Bw : bytes (on_wire (ids_for p last) u pdu)) by (apply on_wire_bytes; [unfold is_byte; lia|exact S]).
  rewrite (proj2 (PR _ Bw pdu) (conj F eq_refl)). unfold pdu, execute_decode.
  change (8 :: word sub ++ data) with (8 :: ((sub / 256) mod 256) :: (sub mod 256) :: data).
  rewrite unpack2_slice. change (128 <? 8) with false. cbn [bl_is_read bl_digits bl_format negb andb]. rewrite from1.
  change (ea_fc (diagnostic_args u sub data format raw)) with 8. change (8 =? DEVICE_INFO) with false. cbn iota.
  change (ea_raw (diagnostic_args u sub data format raw)) with raw. destruct raw; [reflexivity|].
  change (((sub / 256) mod 256) :: (sub mod 256) :: data) with (word sub ++ data).
  destruct (unpack _ (word sub ++ data)); reflexivity.
Qed.
Example C44_ex : ex_result (execute RTU 0 (diagnostic_args 1 0 [165; 55] ">HH" false) (fun f _ => Ok f)) = Some (Ok (RTuple [0; 42295])) /\
  can_send RTU 0 1 (Diagnostic 0 [165; 55]).
Proof.
  split; [vm_compute; reflexivity|]. split; [split; [unfold fits; lia|apply bytes_compute; reflexivity]|].
  split; [lia|]. split; [lia|]. intros; exact I.
Qed.

(* ------------------------------------------------------------------ C62 *)
(** execute(u, WRITE_MULTIPLE_REGISTERS, a, output_value=vals, data_format=f)
    execute(u, READ_HOLDING_REGISTERS, a, n, data_format=f, returns_raw=raw) *)
Definition write_formatted (u a : Z) (vals : list Z) (f : string) : exec_args :=
  {| ea_slave := u; ea_fc := 16; ea_addr := PInt a; ea_qty := PInt 0; ea_output := PSeq vals; ea_format := f; ea_expected := -1;
     ea_waddr23 := 0; ea_files := None; ea_pdu := []; ea_raw := false; ea_and := -1; ea_or := -1 |}.
Definition read_formatted (u a n : Z) (f : string) (raw : bool) : exec_args :=
  {| ea_slave := u; ea_fc := 3; ea_addr := PInt a; ea_qty := PInt n; ea_output := PInt 0; ea_format := f; ea_expected := -1;
     ea_waddr23 := 0; ea_files := None; ea_pdu := []; ea_raw := raw; ea_and := -1; ea_or := -1 |}.
Lemma build_write_formatted : forall u a vals f ws, pack f vals = Ok (words ws) -> vals <> [] -> f <> "" -> fits true a -> zlen ws <= 127 ->
  execute_build (write_formatted u a vals f) =
  Ok {| bl_pdu := 16 :: word a ++ word (zlen ws) ++ 2 * zlen ws :: words ws; bl_is_read := false; bl_digits := 0; bl_format := ">HH"; bl_expected := 8 |}.
Proof.
  intros u a vals f ws P NV NF Ha L. destruct (unpack_pack f vals _ P) as [CS _]. rewrite words_zlen in CS. pose proof (zlen_nonneg ws).
  unfold write_formatted. go_build.
  destruct vals as [|v vals]; [congruence|]. destruct f as [|ch f]; [congruence|]. cbn [str_empty negb andb]. rewrite CS. cbn [bind].
  replace (2 * zlen ws / 2) with (zlen ws) by lia.
  rewrite pack_BHHB, byteb_t, !fitsb_t, byteb_t by (auto; unfold fits, is_byte; lia). cbn [andb bind as_seq]. rewrite P. cbn [bind].
  rewrite <- !app_comm_cons, <- !app_assoc. reflexivity.
Qed.
Lemma build_read_formatted : forall u a n f raw, fits true a -> fits true n -> f <> "" ->
  execute_build (read_formatted u a n f raw) =
  Ok {| bl_pdu := 3 :: word a ++ word n; bl_is_read := true; bl_digits := 0; bl_format := f; bl_expected := 2 * n + 5 |}.
Proof.
  intros u a n f raw Ha Hn NF. unfold read_formatted. go_build. rewrite pack_BHH, byteb_t, !fitsb_t by (auto; unfold is_byte; lia). cbn [andb bind].
  unfold dflt_format. destruct f as [|ch f]; [congruence|]. reflexivity.
Qed.
(** Values of any struct format that packs into whole registers: what was written is what is read. *)
Theorem C62_format_round_trip : forall p last d u a vals f b n s raw,
  0 <= last <= 65535 -> db_reachable d -> get_slave d u = Ok s -> fits true a ->
  f <> "" -> vals <> [] -> pack f vals = Ok b -> zlen b = 2 * n -> 1 <= n <= 123 ->
  (exists old, stored s HOLDING_REGISTERS a n old) ->
  let '(d1, e1) := round_trip_args p last d (write_formatted u a vals f) in
  let '(d2, e2) := round_trip_args p (ex_last e1) d1 (read_formatted u a n f raw) in
  ex_result e1 = Some (Ok (RTuple [a; n])) /\
  ex_result e2 = Some (Ok (if raw then RRaw b else RTuple vals)) /\ others_same d d1 u.
Proof.
  intros p last d u a vals f b n s raw T D G Ha NF NV P L Hn (old & Ht & bl & Hs & _). destruct (db_reachable_slave d u s D G) as [Rs U]. apply reachable_wf in Rs.
  destruct (words_of_bytes b (Z.to_nat n) (pack_bytes_ok _ _ _ P) ltac:(unfold zlen in L; lia)) as (ws & Lw & Fw & ->).
  assert (Zw : zlen ws = n) by (unfold zlen; lia). clear Lw. destruct (unpack_pack f vals _ P) as [_ UP].
  assert (WL : forall x, zlen (word x) = 2) by reflexivity.
  destruct (hr_write_registers s a ws [] Rs Ht Ha ltac:(lia) Fw) as (s' & H & Hw); [exists bl; now rewrite Zw|]. rewrite app_nil_r in H.
  pose proof (build_write_formatted u a vals f ws P NV NF Ha ltac:(lia)) as Bw. set (pdu := 16 :: word a ++ word (zlen ws) ++ 2 * zlen ws :: words ws) in *.
  assert (PL : zlen pdu <= 65534) by (unfold pdu; rewrite zlen_cons, !zlen_app, !WL, zlen_cons, words_zlen; lia).
  assert (PB : bytes pdu).
  { unfold pdu. constructor; [unfold is_byte; lia|]. apply Forall_app; split; [apply word_bytes|]. apply Forall_app; split; [apply word_bytes|].
    constructor; [unfold is_byte; lia|apply words_bytes]. }
  destruct (round_trip_built p last d u _ _ s (16 :: word a ++ word (zlen ws)) Bw eq_refl PB PL T U G) as (R1 & T1 & R3); [cbn [bl_pdu]; now rewrite H|].
  cbn [bl_pdu] in R1. rewrite H in R1. cbn [fst] in R1.
  destruct (round_trip_args p last d (write_formatted u a vals f)) as [d1 e1]. cbn [fst snd] in *. subst d1.
  assert (R3' : ex_result e1 = Some (Ok (RTuple [a; n]))).
  { rewrite R3. change (16 :: word a ++ word (zlen ws)) with (16 :: ((a / 256) mod 256) :: (a mod 256) :: word (zlen ws)).
    unfold execute_decode. rewrite unpack2_slice. change (128 <? 16) with false. cbn [bl_is_read bl_digits bl_format negb andb]. rewrite from1.
    change (ea_fc (write_formatted u a vals f)) with 16. change (16 =? DEVICE_INFO) with false. change (ea_raw (write_formatted u a vals f)) with false.
    change (((a / 256) mod 256) :: (a mod 256) :: word (zlen ws)) with (word a ++ word (zlen ws)). rewrite unpack_HH_words.
    change (0 <? 0) with false. change (16 =? READ_FILE_RECORD) with false. cbn iota. unfold as_word, fits in *. do 4 f_equal; [lia|]. f_equal. lia. }
  pose proof (wrote_wf _ _ _ _ _ Rs Hw) as WF. destruct (wrote_stored _ _ _ _ _ Rs Ht Hw) as (Ht' & b' & Hs' & Hv'). rewrite zlen_map, Zw in *.
  assert (Un : sl_unsigned s' = sl_unsigned s) by (destruct Hw as (? & ? & ? & _ & _ & F); apply F).
  assert (Hf : Forall (fits (sl_unsigned s')) (values_at b' a n)).
  { rewrite Hv', Un. apply Forall_map. eapply Forall_impl; [|exact Fw]. cbn. intros v Fv. unfold fits, reg_of_word. destruct (sl_unsigned s); [lia|]. destruct (_ <? _) eqn:Q; lia. }
  assert (Fn : fits true n) by (unfold fits; lia).
  pose proof (hr_read_registers s' 3 HOLDING_REGISTERS a n b' [] RT3 Ht' Ha ltac:(lia) Hs' Hf) as HR. rewrite app_nil_r in HR.
  pose proof (build_read_formatted u a n f raw Ha Fn NF) as Br.
  destruct (round_trip_built p (ex_last e1) (put_slave d u s') u _ _ s' (3 :: 2 * n :: words (values_at b' a n)) Br eq_refl) as (Q1 & _ & Q3); cbn [bl_pdu].
  { constructor; [unfold is_byte; lia|]. apply Forall_app; split; apply word_bytes. }
  { rewrite zlen_cons, zlen_app, !WL. lia. }
  { exact T1. } { exact U. } { apply get_slave_put_same. } { now rewrite HR. }
  destruct (round_trip_args p (ex_last e1) (put_slave d u s') (read_formatted u a n f raw)) as [d2 e2]. cbn [fst snd] in *.
  split; [exact R3'|]. split; [|intros v V; now apply get_slave_put_other].
  assert (Wv : words (values_at b' a n) = words ws).
  { rewrite Hv'. rewrite (words_mod (map _ ws)), (words_mod ws). f_equal. rewrite map_map. apply map_ext_in. intros v Hv.
    rewrite Forall_forall in Fw. specialize (Fw v Hv). unfold fits in Fw. unfold as_word, reg_of_word. destruct (sl_unsigned s); [reflexivity|]. destruct (_ <? _) eqn:Q; lia. }
  rewrite Q3, Wv. unfold execute_decode. rewrite unpack2_slice. change (128 <? 3) with false. cbn [bl_is_read bl_digits bl_format negb andb]. rewrite from2.
  rewrite words_zlen, Zw, Z.eqb_refl. cbn [negb]. change (ea_raw (read_formatted u a n f raw)) with raw. destruct raw; [reflexivity|].
  rewrite UP. change (0 <? 0) with false. change (ea_fc (read_formatted u a n f false) =? READ_FILE_RECORD) with false. reflexivity.
Qed.
Example C62_ex : pack ">iHh" [-70000; 65535; -2] = Ok [255; 254; 238; 144; 255; 255; 255; 254] /\
  let '(d1, e1) := round_trip_args TCP 0 demo_db (write_formatted 3 104 [-70000; 65535; -2] ">iHh") in
  ex_result (snd (round_trip_args TCP 1 d1 (read_formatted 3 104 4 ">iHh" false))) = Some (Ok (RTuple [-70000; 65535; -2])).
Proof. vm_compute. auto. Qed.

(* ------------------------------------------------------------------ C63 *)
(** The length handed to the serial reader is that of the normal response on the serial line:
    address, PDU and checksum. *)
Theorem C63_expected_length : forall p last u c n, can_send p last u c -> response_length c = Some n ->
  forall exchange, exists request expected,
    ex_sent (execute p last (args_of u c) exchange) = Some (request, expected) /\
    forall rp, zlen rp = n -> zlen (on_wire None u rp) = expected.
Proof.
  intros p last u c n (E & T & U & F) R exchange. destruct (build_call u c E) as (pdu & P & _ & _).
  destruct (execute_exact p last u c pdu E P (F _ P) T U) as (h & last' & _ & _ & _ & Q). rewrite Q. cbn [ex_sent]. eexists _, _. split; [reflexivity|].
  intros rp L. unfold expected_call. rewrite R. cbn [on_wire]. unfold sealed. rewrite zlen_app, zlen_cons, L. change (zlen (crc_bytes _)) with 2. lia.
Qed.
Example C63_ex : can_send RTU 0 1 (ReadBits true 0 19) /\ response_length (ReadBits true 0 19) = Some 5.
Proof. split; [|reflexivity]. split; [cbn; unfold fits; lia|]. split; [lia|]. split; [lia|]. intros; exact I. Qed.

Print Assumptions C37_request.
Print Assumptions C37_not_encodable.
Print Assumptions C37_bad_unit.
Print Assumptions C37_unsupported.
Print Assumptions C38_registers.
Print Assumptions C38_read_write_registers.
Print Assumptions C38_bits.
Print Assumptions C38_byte_count.
Print Assumptions C38_only_matching_frames.
Print Assumptions C39_read_registers.
Print Assumptions C39_read_bits.
Print Assumptions C40_registers.
Print Assumptions C40_register.
Print Assumptions C40_coils.
Print Assumptions C40_coil.
Print Assumptions C40_mask_write.
Print Assumptions C40_read_write.
Print Assumptions C41_exception.
Print Assumptions C41_normal.
Print Assumptions C41_end_to_end.
Print Assumptions C41_illegal_address.
Print Assumptions C42_same_function_partial.
Print Assumptions C42_refuted.
Print Assumptions C43_records.
Print Assumptions C43_terminates.
Print Assumptions C43_terminates_refuted.
Print Assumptions C44_refuted.
Print Assumptions C44_other_formats_partial.
Print Assumptions C62_format_round_trip.
Print Assumptions C63_expected_length.
