(** Specification vocabulary for masters: the calls a user can make, the request each
    call stands for (MODBUS Application Protocol, section 6), and what its answer means. *)
From Verif Require Import Base Spec SlaveSpec DbSpec MasterModel.

Inductive call :=
| ReadBits (coils : bool) (a n : Z)          (* READ_COILS / READ_DISCRETE_INPUTS *)
| ReadRegs (holding : bool) (a n : Z)        (* READ_HOLDING_REGISTERS / READ_INPUT_REGISTERS *)
| ReadFiles (subs : list (Z * Z * Z))        (* file number, record number, record length *)
| WriteCoil (a v : Z)
| WriteReg (a v : Z)
| MaskWrite (a and_mask or_mask : Z)
| WriteCoils (a : Z) (vals : list Z)
| WriteRegs (a : Z) (vals : list Z)
| ReadStatus
| Diagnostic (sub : Z) (data : list Z)
| ReadWriteRegs (a n wa : Z) (vals : list Z)
| DeviceInfo (code object : Z)
| Raw (pdu : list Z).

(** The function code of a call, also the [function_code] argument (except for Raw: 0). *)
Definition fc_of (c : call) : Z :=
  match c with
  | ReadBits coils _ _ => if coils then 1 else 2
  | ReadRegs holding _ _ => if holding then 3 else 4
  | ReadFiles _ => 20
  | WriteCoil _ _ => 5
  | WriteReg _ _ => 6
  | MaskWrite _ _ _ => 22
  | WriteCoils _ _ => 15
  | WriteRegs _ _ => 16
  | ReadStatus => 7
  | Diagnostic _ _ => 8
  | ReadWriteRegs _ _ _ _ => 23
  | DeviceInfo _ _ => 43
  | Raw _ => 0
  end.

(** The Python call: master.execute(u, fc_of c, ...), optional arguments at their default. *)
Definition args_of (u : Z) (c : call) : exec_args :=
  let mk addr qty out wa files pdu am om :=
    {| ea_slave := u; ea_fc := fc_of c; ea_addr := addr; ea_qty := qty; ea_output := out;
       ea_format := ""; ea_expected := -1; ea_waddr23 := wa; ea_files := files; ea_pdu := pdu;
       ea_raw := false; ea_and := am; ea_or := om |} in
  match c with
  | ReadBits _ a n | ReadRegs _ a n => mk (PInt a) (PInt n) (PInt 0) 0 None [] (-1) (-1)
  | ReadFiles subs =>
      mk (PSeq (map (fun s => snd (fst s)) subs)) (PSeq (map snd subs)) (PInt 0) 0
         (Some (map (fun s => fst (fst s)) subs)) [] (-1) (-1)
  | WriteCoil a v | WriteReg a v => mk (PInt a) (PInt 0) (PInt v) 0 None [] (-1) (-1)
  | MaskWrite a am om => mk (PInt a) (PInt 0) (PInt 0) 0 None [] am om
  | WriteCoils a vals | WriteRegs a vals => mk (PInt a) (PInt 0) (PSeq vals) 0 None [] (-1) (-1)
  | ReadStatus => mk (PInt 0) (PInt 0) (PInt 0) 0 None [] (-1) (-1)
  | Diagnostic sub data => mk (PInt sub) (PInt 0) (PSeq data) 0 None [] (-1) (-1)
  | ReadWriteRegs a n wa vals => mk (PInt a) (PInt n) (PSeq vals) wa None [] (-1) (-1)
  | DeviceInfo code object => mk (PInt 0) (PInt 0) (PSeq [code; object]) 0 None [] (-1) (-1)
  | Raw pdu => mk (PInt 0) (PInt 0) (PInt 0) 0 None pdu (-1) (-1)
  end.

(** A value a 16-bit register can take, read as unsigned or as signed. *)
Definition reg_value (v : Z) : Prop := - 32768 <= v < 65536.

(** The arguments fit the fields of the request. *)
Definition encodable (c : call) : Prop :=
  match c with
  | ReadBits _ a n | ReadRegs _ a n => fits true a /\ fits true n
  | ReadFiles subs => 1 <= zlen subs <= 36 /\
      Forall (fun s => fits true (fst (fst s)) /\ fits true (snd (fst s)) /\ fits true (snd s)) subs
  | WriteCoil a _ => fits true a
  | WriteReg a v => fits true a /\ reg_value v
  | MaskWrite a am om => fits true a /\ fits true am /\ fits true om
  | WriteCoils a vals => fits true a /\ zlen vals <= 2040
  | WriteRegs a vals => fits true a /\ zlen vals <= 127 /\ Forall reg_value vals
  | ReadStatus => True
  | Diagnostic sub data => fits true sub /\ bytes data
  | ReadWriteRegs a n wa vals => fits true a /\ fits true n /\ fits true wa /\ zlen vals <= 127 /\ Forall reg_value vals
  | DeviceInfo code object => is_byte code /\ is_byte object
  | Raw pdu => bytes pdu
  end.

(** Coils as bits: a coil is on iff its value is positive. *)
Definition on_off (v : Z) : Z := if 0 <? v then 1 else 0.

(** [pdu] is the request the protocol prescribes for the call. *)
Definition prescribed (c : call) (pdu : list Z) : Prop :=
  match c with
  | ReadBits _ a n | ReadRegs _ a n => pdu = fc_of c :: word a ++ word n
  | ReadFiles subs =>
      pdu = 20 :: 7 * zlen subs ::
            flat_map (fun s => 6 :: word (fst (fst s)) ++ word (snd (fst s)) ++ word (snd s)) subs
  | WriteCoil a v => pdu = 5 :: word a ++ (if v =? 0 then [0; 0] else [255; 0])
  | WriteReg a v => pdu = 6 :: word a ++ word v
  | MaskWrite a am om => pdu = 22 :: word a ++ word am ++ word om
  | WriteCoils a vals => exists out, packs_bits (map on_off vals) out /\
      pdu = 15 :: word a ++ word (zlen vals) ++ zlen out :: out
  | WriteRegs a vals => pdu = 16 :: word a ++ word (zlen vals) ++ 2 * zlen vals :: words vals
  | ReadStatus => pdu = [7]
  | Diagnostic sub data => pdu = 8 :: word sub ++ data
  | ReadWriteRegs a n wa vals =>
      pdu = 23 :: word a ++ word n ++ word wa ++ word (zlen vals) ++ 2 * zlen vals :: words vals
  | DeviceInfo code object => pdu = [43; 14; code; object]
  | Raw raw => pdu = raw
  end.

(** The number of bytes of the normal response PDU prescribed for the call. *)
Definition response_length (c : call) : option Z :=
  match c with
  | ReadBits _ _ n => Some (2 + bytes_for_bits n)
  | ReadRegs _ _ n | ReadWriteRegs _ n _ _ => Some (2 + 2 * n)
  | ReadFiles subs => Some (2 + fold_right (fun s acc => 2 + 2 * snd s + acc) 0 subs)
  | WriteCoil _ _ | WriteReg _ _ | WriteCoils _ _ | WriteRegs _ _ => Some 5
  | MaskWrite _ _ _ => Some 7
  | ReadStatus => Some 2
  | Diagnostic _ ((_ :: _) as data) => Some (3 + zlen data)
  | Diagnostic _ [] => None
  | DeviceInfo _ _ | Raw _ => None
  end.

(** A file record response: per sub-request its length (1 + 2 * registers), reference
    type 6 and the registers. *)
Definition file_groups (recs : list (list Z)) : list Z :=
  flat_map (fun r => (1 + 2 * zlen r) :: 6 :: words r) recs.

(** The ids of the next request: none on a serial line; on TCP the next transaction id and
    protocol id 0. *)
Definition ids_for (p : QueryModel.proto) (last : Z) : DbSpec.ids :=
  match p with
  | QueryModel.RTU => None
  | QueryModel.TCP => Some ((last + 1) mod 65536, 0)
  end.
(** The PDU fits a frame (always so on a serial line). *)
Definition framable (p : QueryModel.proto) (pdu : list Z) : Prop :=
  match p with
  | QueryModel.RTU => True
  | QueryModel.TCP => zlen pdu <= 65534
  end.

(** The call can be sent: arguments and unit fit their fields, [last] is a transaction counter. *)
Definition can_send (p : QueryModel.proto) (last u : Z) (c : call) : Prop :=
  encodable c /\ 0 <= last <= 65535 /\ 0 <= u <= 255 /\ (forall pdu, prescribed c pdu -> framable p pdu).
(** The peer answers the request of the call with the response PDU [rp], in the frame that
    belongs to the request; [exchange request expected_length] is what comes back. *)
Definition replies (p : QueryModel.proto) (last u : Z) (c : call) (rp : list Z)
  (exchange : list Z -> Z -> res (list Z)) : Prop :=
  bytes rp /\ framable p rp /\
  forall pdu expected, prescribed c pdu ->
    exchange (on_wire (ids_for p last) u pdu) expected = Ok (on_wire (ids_for p last) u rp).
