(** Property C83: PyModbusClientTCP.  Vocabulary: ClientModel.v, EndSpec.v. *)
From Coq Require Import Lia.
From Verif Require Import Base BaseFacts Spec Defines SlaveModel SlaveSpec QueryModel DatabankModel MasterModel MasterSpec EndSpec PropMaster ClientModel.
From Verif Require Import DbSpec.
Open Scope string_scope.
Open Scope list_scope.
Open Scope Z_scope.

(** A method of the client against the library's server: the databank afterwards and the result. *)
Definition client_trip (last : Z) (d : databank) (c : pm_call) : databank * pm_result :=
  let '(d', e) := round_trip_args TCP last d (pm_args c) in (d', pm_result_of c e).

(** write_single_register writes the register of slave 1, of no other, and returns True. *)
Theorem C83_write_register : forall last d a w s,
  0 <= last <= 65535 -> db_reachable d -> get_slave d 1 = Ok s -> reg_value w -> fits true a ->
  (exists old, stored s HOLDING_REGISTERS a 1 old) ->
  let '(d', r) := client_trip last d (PmWriteSingleRegister a w) in
  r = PmReturns PmTrue /\ others_same d d' 1 /\
  exists s', get_slave d' 1 = Ok s' /\ wrote s HOLDING_REGISTERS a [reg_of_word (sl_unsigned s) (as_word w)] s'.
Proof.
  intros last d a w s T D G V Ha Hst. pose proof (C40_register TCP last d 1 a w s T D G V Ha Hst) as H.
  unfold client_trip. change (round_trip_args TCP last d (pm_args (PmWriteSingleRegister a w))) with (round_trip TCP last d 1 (WriteReg a w)).
  destruct (round_trip TCP last d 1 (WriteReg a w)) as [d1 e1]. destruct (round_trip TCP (ex_last e1) d1 1 _) as [d2 e2].
  destruct H as (R & _ & O & _ & W). unfold pm_result_of. rewrite R. auto.
Qed.
(** write_single_coil does the same to a coil and returns None. *)
Theorem C83_write_coil : forall last d a w s,
  0 <= last <= 65535 -> db_reachable d -> get_slave d 1 = Ok s -> fits true a ->
  (exists old, stored s COILS a 1 old) ->
  let '(d', r) := client_trip last d (PmWriteSingleCoil a w) in
  r = PmReturns PmNone /\ others_same d d' 1 /\
  exists s', get_slave d' 1 = Ok s' /\ wrote s COILS a [as_bit w] s'.
Proof.
  intros last d a w s T D G Ha Hst. pose proof (C40_coil TCP last d 1 a w s T D G Ha Hst) as H.
  unfold client_trip. change (round_trip_args TCP last d (pm_args (PmWriteSingleCoil a w))) with (round_trip TCP last d 1 (WriteCoil a w)).
  destruct (round_trip TCP last d 1 (WriteCoil a w)) as [d1 e1]. destruct (round_trip TCP (ex_last e1) d1 1 _) as [d2 e2].
  destruct H as (R & _ & O & _ & W). unfold pm_result_of. rewrite R. auto.
Qed.
(** Reading input registers or discrete inputs gets the right values of slave 1 and changes nothing, but hands them over as map(None, values), which raises
    TypeError as soon as it is read. *)
Theorem C83_read_refuted : forall last d a n s vals (registers : bool),
  0 <= last <= 65535 -> db_reachable d -> get_slave d 1 = Ok s -> 1 <= n <= (if registers then 125 else 2000) -> fits true a ->
  stored s (if registers then ANALOG_INPUTS else DISCRETE_INPUTS) a n vals -> (registers = true -> Forall (fits (sl_unsigned s)) vals) -> vals <> [] ->
  let '(d', r) := client_trip last d (if registers then PmReadInputRegisters a n else PmReadDiscreteInputs a n) in
  (forall v, get_slave d' v = get_slave d v) /\
  exists v, r = PmReturns v /\ v = PmMap (RTuple (map (if registers then as_word else as_bit) vals)) /\ pm_list v = Err PyTypeError.
Proof.
  intros last d a n s vals registers T D G Hn Ha St F N. unfold client_trip. destruct registers.
  - pose proof (C39_read_registers TCP last d 1 false a n s vals T D G Hn Ha St (F eq_refl)) as H.
    change (round_trip_args TCP last d (pm_args (PmReadInputRegisters a n))) with (round_trip TCP last d 1 (ReadRegs false a n)).
    destruct (round_trip TCP last d 1 (ReadRegs false a n)) as [d1 e1]. destruct H as [R K]. split; [exact K|].
    unfold pm_result_of. rewrite R. eexists. split; [reflexivity|]. split; [reflexivity|]. destruct vals; [congruence|reflexivity].
  - pose proof (C39_read_bits TCP last d 1 false a n s vals T D G Hn Ha St) as H.
    change (round_trip_args TCP last d (pm_args (PmReadDiscreteInputs a n))) with (round_trip TCP last d 1 (ReadBits false a n)).
    destruct (round_trip TCP last d 1 (ReadBits false a n)) as [d1 e1]. destruct H as [R K]. split; [exact K|].
    unfold pm_result_of. rewrite R. eexists. split; [reflexivity|]. split; [reflexivity|]. destruct vals; [congruence|reflexivity].
Qed.
(** read_coils never returns anything, whatever the slave answers. *)
Theorem C83_read_coils_refuted : forall last a n exchange v,
  pm_result_of (PmReadCoils a n) (execute TCP last (pm_args (PmReadCoils a n)) exchange) <> PmReturns v.
Proof. intros last a n exchange v. unfold pm_result_of. destruct (ex_result _) as [[?|?]|]; discriminate. Qed.
(** Exceptions of the call reach the user of the client; the request is the one for slave 1. *)
Theorem C83_same_request : forall c last exchange,
  (forall e, ex_result (execute TCP last (pm_args c) exchange) = Some (Err e) -> pm_result_of c (execute TCP last (pm_args c) exchange) = PmRaises e) /\
  ea_slave (pm_args c) = 1 /\
  pm_args c = args_of 1 (match c with PmReadInputRegisters a n => ReadRegs false a n | PmWriteSingleRegister a w => WriteReg a w
                         | PmWriteSingleCoil a v => WriteCoil a v | PmReadCoils a n => ReadBits true a n | PmReadDiscreteInputs a n => ReadBits false a n end).
Proof.
  intros c last exchange. split; [|split; [now destruct c|now destruct c]]. intros e E. unfold pm_result_of. now rewrite E.
Qed.

(** A server with slave 1: the client writes, the value is there; what it reads cannot be used. *)
Definition client_db : databank :=
  db_run (new_databank true) [DbAdd 1 true None; DbCall 1 (OpAddBlock "r" 3 100 10); DbCall 1 (OpAddBlock "i" 4 0 4); DbCall 1 (OpAddBlock "c" 1 0 8)].
Lemma client_db_reachable : db_reachable client_db.
Proof. eexists true, _. split; [|reflexivity]. repeat constructor. Qed.
Example C83_ex :
  (exists s, get_slave client_db 1 = Ok s /\ stored s HOLDING_REGISTERS 103 1 [0] /\ stored s ANALOG_INPUTS 1 2 [0; 0] /\ stored s COILS 5 1 [0]) /\
  snd (client_trip 7 client_db (PmWriteSingleRegister 103 513)) = PmReturns PmTrue /\
  snd (client_trip 7 client_db (PmWriteSingleRegister 110 513)) = PmRaises (ModbusError 2) /\
  snd (client_trip 7 client_db (PmReadInputRegisters 1 2)) = PmReturns (PmMap (RTuple [0; 0])) /\
  snd (client_trip 7 client_db (PmReadCoils 1 2)) = PmAttributeError.
Proof.
  split.
  - eexists. split; [vm_compute; reflexivity|]. repeat split.
    1, 3, 5: vm_compute; discriminate.
    + exists {| b_start := 100; b_size := 10; b_data := [0; 0; 0; 0; 0; 0; 0; 0; 0; 0] |}. split; [|vm_compute; reflexivity]. exists [], []. vm_compute. split; [reflexivity|]. split; [split; discriminate|]. intros ? [].
    + exists {| b_start := 0; b_size := 4; b_data := [0; 0; 0; 0] |}. split; [|vm_compute; reflexivity]. exists [], []. vm_compute. split; [reflexivity|]. split; [split; discriminate|]. intros ? [].
    + exists {| b_start := 0; b_size := 8; b_data := [0; 0; 0; 0; 0; 0; 0; 0] |}. split; [|vm_compute; reflexivity]. exists [], []. vm_compute. split; [reflexivity|]. split; [split; discriminate|]. intros ? [].
  - repeat split; vm_compute; reflexivity.
Qed.

Print Assumptions C83_write_register.
Print Assumptions C83_write_coil.
Print Assumptions C83_read_refuted.
Print Assumptions C83_read_coils_refuted.
Print Assumptions C83_same_request.
