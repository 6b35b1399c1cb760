(** Property C84: RtuMaster on a line with an echo.  Vocabulary: EchoModel.v, SessionModel.v (rtu_call: the same call on a line without
    echo). *)
From Coq Require Import Lia ZifyBool ZifyNat.
From Verif Require Import Base BaseFacts StructFacts StructMore PyStruct Spec Defines QueryModel MasterModel MasterSpec MasterProofs DecodeProofs EndSpec EndProofs
  CrcSpec FrameSpec DbSpec QueryProofs TransportModel TransportSpec TransportProofs PropMaster PropTransport SessionModel EchoModel.
Open Scope string_scope.
Open Scope list_scope.
Open Scope Z_scope.

Lemma execute_same a f g : (forall request n, request <> [] -> f request n = g request n) -> execute RTU 0 a f = execute RTU 0 a g.
Proof.
  intros H. unfold execute. destruct (execute_build a) as [b|e]; [|reflexivity]. cbn [build_request].
  destruct (rtu_build_request (bl_pdu b) (ea_slave a)) as [r|e] eqn:R; cbn [bind]; [|reflexivity].
  rewrite H; [reflexivity|]. unfold rtu_build_request in R. destruct (_ || _) eqn:Z; [discriminate|].
  rewrite pack_B_ok in R by (unfold is_byte; lia). cbn [bind app] in R. destruct (pack ">H" _) as [y|] eqn:Q; [|discriminate]. cbn [bind] in R. injection R as <-.
  discriminate.
Qed.
Lemma read_echo w s t : w <> [] -> s <> [] -> serial_read (length w) (Burst (w ++ s) :: t) = (Burst s :: t, Got w).
Proof.
  intros W S. destruct w as [|x w]; [congruence|]. cbn [app serial_read]. change (x :: w ++ s) with ((x :: w) ++ s).
  rewrite skipn_app, skipn_all, Nat.sub_diag, firstn_app, firstn_all, Nat.sub_diag. cbn [skipn firstn app]. rewrite app_nil_r. destruct s; [congruence|reflexivity].
Qed.
Lemma read_echo_all w t : w <> [] -> serial_read (length w) (Burst w :: t) = (t, Got w).
Proof. intros W. destruct w as [|x w]; [congruence|]. cbn [serial_read]. now rewrite skipn_all, firstn_all. Qed.

(** With handle_local_echo, on a line that gives the request back in one run of bytes, be the response separate or glued to it: the call does exactly what it
    does on a line without echo. *)
Theorem C84_echo_partial : forall a,
  (forall after, echo_call true a (fun w => Burst w :: after) = rtu_call a after) /\
  (forall s t, s <> [] -> echo_call true a (fun w => Burst (w ++ s) :: t) = rtu_call a (Burst s :: t)).
Proof.
  intros a. split; [intros after|intros s t N]; apply execute_same; intros r n R; unfold rtu_master_send; cbn [snd]; unfold replaced, no_hook.
  - now rewrite read_echo_all.
  - now rewrite read_echo.
Qed.
(** An echo that arrives in two runs of bytes is taken for the response: the call fails though the slave answered. *)
Theorem C84_echo_cut_refuted : exists a response,
  ex_result (rtu_call a [Burst response; Silence]) = Some (Ok (RTuple [513])) /\
  forall v, ex_result (echo_call true a (fun w => [Burst (firstn 3 w); Burst (skipn 3 w); Burst response; Silence])) <> Some (Ok v).
Proof.
  exists (args_of 1 (ReadRegs true 100 1)), (on_wire None 1 [3; 2; 2; 1]). split; [vm_compute; reflexivity|]. intros v. vm_compute. discriminate.
Qed.
(** handle_local_echo on a line without echo: a response not longer than the request is thrown away. *)
Theorem C84_no_echo_refuted : forall a s t request n, ex_sent (rtu_call a t) = Some (request, n) -> s <> [] -> (length s <= length request)%nat ->
  ex_result (echo_call true a (fun _ => Burst s :: t)) = ex_result (rtu_call a t).
Proof.
  intros a s t request n Sent N L. unfold echo_call, rtu_call, execute in *. destruct (execute_build a) as [b|e]; [|reflexivity].
  destruct (build_request RTU 0 (bl_pdu b) (ea_slave a)) as [last' [[hdr r]|e]]; [|reflexivity]. cbn [ex_sent ex_result] in *. injection Sent as -> ->.
  unfold rtu_master_send. cbn [snd]. unfold replaced, no_hook. destruct s as [|x s]; [congruence|]. cbn [serial_read]. now rewrite skipn_all2.
Qed.
Example C84_no_echo_ex : let a := args_of 1 (ReadRegs true 100 1) in
  ex_result (rtu_call a [Burst (on_wire None 1 [3; 2; 2; 1]); Silence]) = Some (Ok (RTuple [513])) /\
  ex_result (echo_call true a (fun _ => [Burst (on_wire None 1 [3; 2; 2; 1]); Silence])) = Some (Err ModbusInvalidResponseError).
Proof. split; vm_compute; reflexivity. Qed.

(** handle_local_echo is off by default: then on a line with echo the writes whose normal response repeats the request return
    normally, whatever follows the echo: also if there is no slave at all, or it answers with an exception. *)
Inductive repeated : call -> list Z -> Prop :=
| RCoil a v : repeated (WriteCoil a v) [a; if v =? 0 then 0 else 65280]
| RReg a v : repeated (WriteReg a v) [a; as_word v]
| RMask a am om : repeated (MaskWrite a am om) [a; am; om].
Lemma repeated_decode u c res : repeated c res -> encodable c -> 0 <= u <= 255 -> exists pdu, prescribed c pdu /\ bytes pdu /\ zlen pdu <= 300 /\
  zlen (on_wire None u pdu) = expected_call c /\
  execute_decode (file_fuel pdu) (args_of u c) (built_as c pdu) pdu = Some (Ok (RTuple res)).
Proof.
  intros R E U. destruct (build_ok u c E ltac:(intros raw ->; inversion R)) as (pdu & P & B & L & _). exists pdu. split; [exact P|]. split; [exact B|].
  assert (L' : zlen pdu <= 300) by (destruct R; lia). split; [exact L'|].
  assert (OW : zlen (on_wire None u pdu) = zlen pdu + 3).
  { cbn [on_wire]. unfold sealed. rewrite zlen_app, zlen_cons. change (zlen (crc_bytes (u :: pdu))) with 2. lia. }
  rewrite OW. destruct R as [a v|a v|a am om]; cbn [prescribed] in P; subst pdu; cbn [encodable] in E.
  - split; [destruct (v =? 0); reflexivity|].
    change (5 :: word a ++ (if v =? 0 then [0; 0] else [255; 0])) with (5 :: ((a / 256) mod 256) :: (a mod 256) :: (if v =? 0 then [0; 0] else [255; 0])).
    rewrite decode_other by (reflexivity || (cbn; lia)). change (format_call (WriteCoil a v)) with ">HH".
    replace (_ :: _ :: (if v =? 0 then [0; 0] else [255; 0])) with (word a ++ word (if v =? 0 then 0 else 65280)) by (destruct (v =? 0); reflexivity).
    rewrite unpack_HH_words. unfold fits in E. unfold as_word. destruct (v =? 0); do 4 f_equal; lia.
  - split; [reflexivity|]. change (6 :: word a ++ word v) with (6 :: ((a / 256) mod 256) :: (a mod 256) :: word v).
    rewrite decode_other by (reflexivity || (cbn; lia)). change (format_call (WriteReg a v)) with ">HH".
    change (((a / 256) mod 256) :: (a mod 256) :: word v) with (word a ++ word v). rewrite unpack_HH_words. destruct E as [E _]. unfold fits in E.
    unfold as_word at 1. do 4 f_equal. lia.
  - split; [reflexivity|]. change (22 :: word a ++ word am ++ word om) with (22 :: ((a / 256) mod 256) :: (a mod 256) :: word am ++ word om).
    rewrite decode_other by (reflexivity || (cbn; lia)). change (format_call (MaskWrite a am om)) with ">HHH".
    change (((a / 256) mod 256) :: (a mod 256) :: word am ++ word om) with (words [a; am; om]). destruct E as (E1 & E2 & E3). 
    assert (Uw : unpack ">HHH" (words [a; am; om]) = Ok [a; am; om]).
    { apply (unpack_regs_iff 3 (words [a; am; om]) [a; am; om] ltac:(lia) (words_bytes _)). repeat split; auto. }
    now rewrite Uw.
Qed.
Theorem C84_echo_taken_refuted : forall u c res rest, repeated c res -> encodable c -> 0 <= u <= 255 ->
  ex_result (echo_call false (args_of u c) (fun w => Burst w :: rest)) = Some (Ok (RTuple res)).
Proof.
  intros u c res rest R E U. destruct (repeated_decode u c res R E U) as (pdu & P & B & L & X & D). rewrite <- D. unfold echo_call.
  apply execute_answered; auto; [exact I|lia|exact I|]. unfold rtu_master_send. cbn [snd ids_for]. unfold replaced, no_hook.
  assert (N : on_wire None u pdu <> []) by (cbn; discriminate).
  destruct (C47_exact [on_wire None u pdu] (on_wire None u pdu) [] rest N) as (left & _ & Rv); [constructor; [exact N|constructor]|cbn [concat]; reflexivity|].
  cbn [map app] in Rv. unfold no_hook in Rv. rewrite <- X, Rv. reflexivity.
Qed.
Example C84_echo_taken_ex : ex_result (echo_call false (args_of 9 (WriteReg 100 (-2))) (fun w => [Burst w; Silence])) = Some (Ok (RTuple [100; 65534])) /\ encodable (WriteReg 100 (-2)) /\ repeated (WriteReg 100 (-2)) [100; 65534].
Proof. split; [vm_compute; reflexivity|]. split; [vm_compute; intuition congruence|]. exact (RReg 100 (-2)). Qed.

Print Assumptions C84_echo_partial.
Print Assumptions C84_echo_cut_refuted.
Print Assumptions C84_no_echo_refuted.
Print Assumptions C84_echo_taken_refuted.
