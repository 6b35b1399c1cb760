(** C116: what an answer that is not as it should be does to the call. *)
From Verif Require Import Base Spec PyStruct Defines SlaveModel QueryModel FrameSpec CrcSpec CrcProofs QueryProofs DbSpec BaseFacts StructFacts StructMore DatabankModel DatabankProofs MasterModel MasterSpec MasterProofs DecodeProofs LinkSpec EndSpec PropMaster MasterExampleModel.
From Coq Require Import Lia.
Open Scope string_scope. Open Scope list_scope. Open Scope Z_scope.

(** The calls whose answer has a fixed length, and is decoded (not FC 8, see C44, FC 20, see C43, FC 43 and RAW). *)
Definition plain (c : call) : bool :=
  match c with
  | ReadBits _ _ _ | ReadRegs _ _ _ | ReadWriteRegs _ _ _ _ | WriteCoil _ _ | WriteReg _ _ | WriteCoils _ _ | WriteRegs _ _ | MaskWrite _ _ _ | ReadStatus => true
  | _ => false
  end.
(** Does the answer carry a byte count? *)
Definition has_count (c : call) : bool := match c with ReadBits _ _ _ | ReadRegs _ _ _ | ReadWriteRegs _ _ _ _ => true | _ => false end.
(** The verdict on an answer: [None] the call returns, [Some e] it raises [e]. *)
Definition verdict (c : call) (rp : list Z) : option exn :=
  match rp with
  | rc :: second :: data =>
      if 128 <? rc then Some (ModbusError second)
      else if has_count c && negb (second =? zlen data) then Some ModbusInvalidResponseError
      else match response_length c with Some n => if n =? zlen rp then None else Some StructError | None => None end
  | _ => Some StructError
  end.

(** The kind of the format of a plain call and the number of its items. *)
Lemma plain_format c : plain c = true -> encodable c -> exists n, 0 <= n /\
  ((format_call c = (">" ++ py_str_mul n "H")%string /\ response_length c = Some ((if has_count c then 2 else 1) + 2 * n)) \/
   (format_call c = (">" ++ py_str_mul n "B")%string /\ response_length c = Some ((if has_count c then 2 else 1) + n))).
Proof.
  destruct c; try discriminate; intros _ E; cbn [format_call response_length has_count encodable] in *.
  - exists (bytes_for_bits n). destruct E as [_ E]. split; [unfold bytes_for_bits, fits in *; apply Z.div_pos; lia|]. right. auto.
  - exists n. destruct E as [_ E]. split; [unfold fits in E; lia|]. left. auto.
  - exists 2. split; [lia|]. left. auto.
  - exists 2. split; [lia|]. left. auto.
  - exists 3. split; [lia|]. left. auto.
  - exists 2. split; [lia|]. left. auto.
  - exists 2. split; [lia|]. left. auto.
  - exists 1. split; [lia|]. right. auto.
  - exists n. destruct E as (_ & E & _). split; [unfold fits in E; lia|]. left. auto.
Qed.
Lemma unpack_plain n k data : bytes data -> 0 <= n ->
  (exists l, unpack (">" ++ py_str_mul n (if k : bool then "H" else "B")) data = Ok l /\ zlen data = (if k then 2 * n else n)) \/
  (unpack (">" ++ py_str_mul n (if k : bool then "H" else "B")) data = Err StructError /\ zlen data <> (if k then 2 * n else n)).
Proof.
  intros B N. destruct k.
  - destruct (Z.eq_dec (zlen data) (2 * n)) as [L|L]; [left|right; split; [now apply unpack_rep_H_len|exact L]].
    destruct (words_of_bytes data (Z.to_nat n) B ltac:(unfold zlen in L; lia)) as (l' & L' & F & ->). rewrite unpack_rep_H by (unfold zlen; lia). eauto.
  - destruct (Z.eq_dec (zlen data) n) as [L|L]; [left|right; split; [now apply unpack_rep_B_len|exact L]]. rewrite unpack_rep_B by exact L. eauto.
Qed.
(** The call returns or raises as the verdict says. *)
Theorem C116_verdict : forall p last u c rp exchange, plain c = true -> can_send p last u c -> replies p last u c rp exchange ->
  match verdict c rp with
  | None => exists v, ex_result (execute p last (args_of u c) exchange) = Some (Ok v)
  | Some e => ex_result (execute p last (args_of u c) exchange) = Some (Err e)
  end.
Proof.
  intros p last u c rp exchange P C A. destruct (answered _ _ _ _ _ _ C A) as (pdu & _ & ->). destruct C as (E & _). destruct A as (B & _ & _).
  destruct rp as [|rc [|b2 data]]; [reflexivity|reflexivity|]. cbn [verdict]. destruct (Z.ltb_spec 128 rc) as [L|L]; [now apply decode_exception|].
  destruct (plain_format c P E) as (n & N & F). inversion_clear B as [|? ? _ B1]. inversion B1 as [|? ? _ B2]; subst.
  assert (F' : exists k : bool, format_call c = (">" ++ py_str_mul n (if k then "H" else "B"))%string /\ response_length c = Some ((if has_count c then 2 else 1) + (if k then 2 * n else n))).
  { destruct F as [[F1 F2]|[F1 F2]]; [exists true|exists false]; auto. }
  destruct F' as (k & F1 & F2). rewrite F2. rewrite !zlen_cons. destruct (has_count c) eqn:H.
  - assert (R : is_read_call c = true) by (destruct c; try discriminate H; reflexivity). cbn [andb].
    rewrite decode_read by assumption. destruct (Z.eqb_spec b2 (zlen data)) as [Q|Q]; cbn [negb]; [|reflexivity]. rewrite F1.
    assert (X : fc_of c =? READ_FILE_RECORD = false) by (destruct c as [[]|[]| | | | | | | | | | | ]; try discriminate H; reflexivity). rewrite X.
    destruct (unpack_plain n k data B2 N) as [(l & -> & Z1)|(-> & Z1)].
    + rewrite Z1. replace (_ =? _) with true by lia. eauto.
    + replace (_ =? _) with false by lia. reflexivity.
  - assert (R : is_read_call c = false) by (destruct c; try discriminate P; try discriminate H; reflexivity). cbn [andb].
    assert (X : fc_of c <> 43) by (destruct c as [[]|[]| | | | | | | | | | | ]; try discriminate P; discriminate).
    rewrite decode_other by assumption. rewrite F1. destruct (unpack_plain n k (b2 :: data) B1 N) as [(l & -> & Z1)|(-> & Z1)]; rewrite zlen_cons in Z1.
    + replace (_ =? _) with true by lia. eauto.
    + replace (_ =? _) with false by lia. reflexivity.
Qed.

Lemma parse_response_cases h r : bytes r -> (exists rp, parse_response h r = Ok rp) \/
  parse_response h r = Err ModbusInvalidResponseError \/ parse_response h r = Err ModbusInvalidMbapError.
Proof.
  intros B. destruct h as [a|m]; cbn [parse_response].
  - destruct (rtu_parse_response_cases a r B) as [X|X]; auto.
  - destruct (tcp_parse_response_cases m r B) as [X|[[_ X]|[_ X]]]; auto.
Qed.
(** Bytes that are not a frame answering the request: an error of the library, whatever the call. *)
Theorem C116_not_a_frame : forall p last u c exchange r, can_send p last u c -> bytes r -> (forall request expected, exchange request expected = Ok r) ->
  (forall rp, framable p rp -> r <> on_wire (ids_for p last) u rp) ->
  ex_result (execute p last (args_of u c) exchange) = Some (Err ModbusInvalidResponseError) \/
  ex_result (execute p last (args_of u c) exchange) = Some (Err ModbusInvalidMbapError).
Proof.
  intros p last u c exchange r (E & T & U & F) B X N. destruct (build_call u c E) as (pdu & P & _ & _).
  destruct (execute_exact p last u c pdu E P (F pdu P) T U) as (h & last' & _ & _ & PR & EX). rewrite EX. cbn [ex_result]. rewrite X. cbn [bind].
  destruct (parse_response_cases h r B) as [(rp & Q)|[Q|Q]]; [|rewrite Q; auto|rewrite Q; auto]. exfalso. apply (PR r B) in Q. destruct Q as [Q1 Q2]. now apply (N rp).
Qed.
(** Whatever bytes come back, a plain call ends, in a value or in one of these exceptions. *)
Theorem C116_outcomes_partial : forall p last u c exchange r, plain c = true -> can_send p last u c -> bytes r -> (forall request expected, exchange request expected = Ok r) ->
  exists o, ex_result (execute p last (args_of u c) exchange) = Some o /\
  match o with
  | Ok _ => True
  | Err e => e = ModbusInvalidResponseError \/ e = ModbusInvalidMbapError \/ e = StructError \/ exists code, e = ModbusError code /\ is_byte code
  end.
Proof.
  intros p last u c exchange r Pl C B X. pose proof C as (E & T & U & F). destruct (build_call u c E) as (pdu & P & _ & _).
  destruct (execute_exact p last u c pdu E P (F pdu P) T U) as (h & last' & _ & _ & PR & EX).
  destruct (parse_response_cases h r B) as [(rp & Q)|[Q|Q]].
  - pose proof Q as Q'. apply (PR r B) in Q'. destruct Q' as [Q1 Q2].
    assert (R : replies p last u c rp exchange).
    { split; [|split; [exact Q1|]].
      - subst r. unfold ids_for, on_wire in B. destruct p; cbn in B.
        + inversion_clear B as [|? ? _ B']. unfold bytes in B'. apply Forall_app in B'. apply B'.
        + unfold bytes in *. rewrite Forall_forall in *. intros x I. apply B. cbn. tauto.
      - intros. rewrite X. now rewrite Q2. }
    pose proof (C116_verdict p last u c rp exchange Pl C R) as V. destruct (verdict c rp) as [e|] eqn:Ve; [|destruct V as (v & V); exists (Ok v); auto].
    exists (Err e). split; [exact V|]. destruct R as (Br & _). unfold verdict in Ve. destruct rp as [|rc [|b2 data]]; [injection Ve as <-; auto|injection Ve as <-; auto|].
    inversion_clear Br as [|? ? _ B1]. inversion_clear B1. destruct (128 <? rc); [injection Ve as <-; eauto 6|].
    destruct (has_count c && _); [injection Ve as <-; auto|]. destruct (response_length c) as [n|]; [|discriminate Ve]. destruct (n =? _); [discriminate Ve|]. injection Ve as <-. auto.
  - eexists. rewrite EX. cbn [ex_result]. rewrite X. cbn [bind]. rewrite Q. split; [reflexivity|]. cbn. auto.
  - eexists. rewrite EX. cbn [ex_result]. rewrite X. cbn [bind]. rewrite Q. split; [reflexivity|]. cbn. auto.
Qed.
(** struct.error is no error of the library: every plain call raises it when the answer is the function code alone, and every read when the
    answer is consistent but too short. *)
Theorem C116_struct_error_refuted : forall p last u c exchange, plain c = true -> can_send p last u c ->
  (forall pdu expected, prescribed c pdu -> exchange (on_wire (ids_for p last) u pdu) expected = Ok (on_wire (ids_for p last) u [fc_of c])) ->
  ex_result (execute p last (args_of u c) exchange) = Some (Err StructError).
Proof.
  intros p last u c exchange Pl C X. apply (C116_verdict p last u c [fc_of c] exchange Pl C). split; [|split; [destruct p; cbn; [exact I|unfold zlen; cbn; lia]|exact X]].
  constructor; [|constructor]. unfold is_byte. destruct c as [[]|[]| | | | | | | | | | | ]; cbn; lia.
Qed.

(** *** Any call whatever *)
Lemma parse_items_error s : forall cnt e, parse_items s cnt = Err e -> e = StructError \/ e = NotModelled.
Proof.
  assert (CI : forall c e, code_item c = Err e -> e = StructError \/ e = NotModelled).
  { intros [[] [] [] [] [] [] [] []] e H; cbn in H; try discriminate H; injection H as <-; auto. }
  induction s as [|c s IH]; intros cnt e H; cbn [parse_items] in H; [destruct cnt; [injection H as <-; auto|discriminate H]|].
  destruct (digit_of c); [eauto|].
  assert (G : (it <- code_item c ;; items <- parse_items s None ;; Ok (repeat it (match cnt with None => 1%nat | Some n => n end) ++ items)) = Err e -> e = StructError \/ e = NotModelled).
  { destruct (code_item c) as [it|e'] eqn:Q; cbn [bind]; [|intros [= <-]; now apply (CI c)]. destruct (parse_items s None) eqn:P; cbn [bind]; [discriminate|]. intros [= <-]. now apply (IH None). }
  destruct (is_space c), cnt; auto. now apply (IH None).
Qed.
Lemma unpack_error f b e : unpack f b = Err e -> e = StructError \/ e = NotModelled.
Proof.
  unfold unpack. destruct (parse_fmt f) as [pf|e'] eqn:P; cbn [bind]; [destruct (_ =? _)%nat; [discriminate|intros [= <-]; auto]|]. intros [= <-].
  unfold parse_fmt in P. destruct f as [|c f]; [discriminate P|].
  destruct c as [[] [] [] [] [] [] [] []]; try (injection P as <-; now right);
    destruct (parse_items f None) eqn:Q; cbn [bind] in P; try discriminate P; injection P as <-; now apply (parse_items_error f None).
Qed.
(** Whatever the arguments (function code, data_format, returns_raw, ...), once the request is sent and bytes come back the call ends -- for
    Read File Record see C43 -- in a value or in one of these exceptions.  NotModelled stands for the formats outside the model. *)
Theorem C116_any_arguments_partial : forall p last a exchange r, bytes r -> ea_fc a <> 20 ->
  (forall request expected, exchange request expected = Ok r) -> ex_sent (execute p last a exchange) <> None ->
  exists o, ex_result (execute p last a exchange) = Some o /\
  match o with
  | Ok _ => True
  | Err e => In e [ModbusInvalidResponseError; ModbusInvalidMbapError; StructError; NotModelled] \/ exists code, e = ModbusError code
  end.
Proof.
  intros p last a exchange r B N X S. unfold execute in *. destruct (execute_build a) as [b|e]; [|now destruct S].
  destruct (build_request p last (bl_pdu b) (ea_slave a)) as [last' [[hdr request]|e]]; [|now destruct S]. cbn [ex_result]. rewrite X. cbn [bind].
  destruct (parse_response_cases hdr r B) as [(rp & ->)|[->| ->]]; [|eexists; split; [reflexivity|]; cbn; tauto|eexists; split; [reflexivity|]; cbn; tauto].
  unfold execute_decode. destruct rp as [|rc [|b2 data]]; [eexists; split; [reflexivity|]; cbn; tauto|eexists; split; [reflexivity|]; cbn; tauto|].
  rewrite unpack2_slice. destruct (128 <? rc); [eexists; split; [reflexivity|]; cbn; eauto|]. cbv zeta.
  destruct (bl_is_read b && negb _); [eexists; split; [reflexivity|]; cbn; tauto|]. destruct (ea_raw a); [eexists; split; [reflexivity|]; exact I|].
  destruct (unpack _ _) as [l|e] eqn:U; [|eexists; split; [reflexivity|]; apply unpack_error in U; cbn; intuition].
  replace (ea_fc a =? READ_FILE_RECORD) with false by (unfold READ_FILE_RECORD; lia). eexists. split; [reflexivity|]. exact I.
Qed.

(** The example programs: with the three registers they log them, with an exception answer they log its code; with an answer that is too
    short they end in a traceback. *)
Lemma example_args_of : MasterExampleModel.example_args = args_of 1 (ReadRegs true 0 3).
Proof. reflexivity. Qed.
Theorem C116_example_programs : forall p last exchange rp, 0 <= last <= 65535 -> replies p last 1 (ReadRegs true 0 3) rp exchange ->
  match verdict (ReadRegs true 0 3) rp with
  | None => exists a b c, rp = hd 0 rp :: 6 :: words [a; b; c] /\ Forall (fits true) [a; b; c] /\
      example_main p last exchange = Some (LogsValues (RTuple [a; b; c]))
  | Some (ModbusError code) => example_main p last exchange = Some (LogsCode code)
  | Some e => example_main p last exchange = Some (Traceback e)
  end.
Proof.
  intros p last exchange rp T A. assert (C : can_send p last 1 (ReadRegs true 0 3)).
  { split; [cbn; unfold fits; lia|]. split; [lia|]. split; [lia|]. intros pdu P. cbn in P. subst pdu. destruct p; cbn; [exact I|unfold zlen; cbn; lia]. }
  pose proof (C116_verdict p last 1 (ReadRegs true 0 3) rp exchange eq_refl C A) as V. unfold example_main. rewrite example_args_of. destruct (verdict _ rp) as [e|].
  - rewrite V. destruct e; reflexivity.
  - destruct V as (v & V). pose proof (proj1 (C38_registers _ _ _ _ _ _ _ _ v C A) V) as (rc & vals & _ & Z & F & E & ->). rewrite V.
    destruct vals as [|a [|b [|c [|d vals]]]]; try (unfold zlen in Z; cbn in Z; lia). exists a, b, c. split; [rewrite E; reflexivity|]. auto.
Qed.
Example C116_example : exists exchange, replies TCP 7 1 (ReadRegs true 0 3) [3; 4; 0; 1; 0; 2] exchange /\
  example_main TCP 7 exchange = Some (Traceback StructError).
Proof.
  exists (fun _ _ => Ok (on_wire (ids_for TCP 7) 1 [3; 4; 0; 1; 0; 2])). split; [|vm_compute; reflexivity].
  split; [apply bytes_compute; reflexivity|]. split; [cbn; unfold zlen; cbn; lia|reflexivity].
Qed.

Print Assumptions C116_verdict.
Print Assumptions C116_not_a_frame.
Print Assumptions C116_outcomes_partial.
Print Assumptions C116_struct_error_refuted.
Print Assumptions C116_any_arguments_partial.
Print Assumptions C116_example_programs.
