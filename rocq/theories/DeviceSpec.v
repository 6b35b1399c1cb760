(** The Modbus data model (MODBUS Application Protocol V1.1b3, sections 4.3 and 6) as a device one can call: four tables of cells, of which
    some areas exist.  Written from the protocol document; the only names taken from elsewhere are those of the four tables and of the calls. *)
From Verif Require Import Base Defines MasterSpec.

(** [dv_areas]: first address and number of the cells of each area; [dv_cell]: 0..65535 in the register tables, 0 or 1 in the bit tables. *)
Record device := { dv_areas : btype -> list (Z * Z); dv_cell : btype -> Z -> Z }.
Definition is_register (t : btype) : bool := match t with HOLDING_REGISTERS | ANALOG_INPUTS => true | _ => false end.
(** all of a .. a+n-1 lie in one area *)
Definition present (d : device) (t : btype) (a n : Z) : bool := existsb (fun x => (fst x <=? a) && (a + n <=? fst x + snd x)) (dv_areas d t).
Definition read_cells (d : device) (t : btype) (a n : Z) : list Z := map (fun k => dv_cell d t (a + Z.of_nat k)) (seq 0 (Z.to_nat n)).
Definition same_type (t t' : btype) : bool :=
  match t, t' with COILS, COILS | DISCRETE_INPUTS, DISCRETE_INPUTS | HOLDING_REGISTERS, HOLDING_REGISTERS | ANALOG_INPUTS, ANALOG_INPUTS => true | _, _ => false end.
Definition put_cells (d : device) (t : btype) (a : Z) (vals : list Z) : device :=
  {| dv_areas := dv_areas d;
     dv_cell := fun t' x => if same_type t t' && (a <=? x) && (x <? a + zlen vals) then nth (Z.to_nat (x - a)) vals 0 else dv_cell d t' x |}.
(** what the caller gets: values, or the exception code *)
Inductive reply := Values (l : list Z) | Refused (code : Z).
(** a request for cells: the number is checked first (code 3), then the addresses (code 2) *)
Definition checked (d : device) (t : btype) (a n limit : Z) (done : device * reply) : device * reply :=
  if (1 <=? n) && (n <=? limit) then if present d t a n then done else (d, Refused 2) else (d, Refused 3).
Definition device_call (d : device) (c : call) : device * reply :=
  match c with
  | ReadBits coils a n => let t := if coils then COILS else DISCRETE_INPUTS in checked d t a n 2000 (d, Values (read_cells d t a n))
  | ReadRegs holding a n => let t := if holding then HOLDING_REGISTERS else ANALOG_INPUTS in checked d t a n 125 (d, Values (read_cells d t a n))
  | WriteCoil a v => let on := negb (v =? 0) in checked d COILS a 1 1 (put_cells d COILS a [if on then 1 else 0], Values [a; if on then 65280 else 0])
  | WriteReg a v => checked d HOLDING_REGISTERS a 1 1 (put_cells d HOLDING_REGISTERS a [v mod 65536], Values [a; v mod 65536])
  | WriteCoils a vals => checked d COILS a (zlen vals) 1968 (put_cells d COILS a (map (fun v => if 0 <? v then 1 else 0) vals), Values [a; zlen vals])
  | WriteRegs a vals => checked d HOLDING_REGISTERS a (zlen vals) 123 (put_cells d HOLDING_REGISTERS a (map (fun v => v mod 65536) vals), Values [a; zlen vals])
  | MaskWrite a am om =>
      checked d HOLDING_REGISTERS a 1 1
        (put_cells d HOLDING_REGISTERS a [Z.lor (Z.land (dv_cell d HOLDING_REGISTERS a) am) (Z.land om (Z.lnot am))], Values [a; am; om])
  | ReadWriteRegs a n wa vals =>                        (* the write comes before the read *)
      checked d HOLDING_REGISTERS a n 125
        (checked d HOLDING_REGISTERS wa (zlen vals) 121
          (let d' := put_cells d HOLDING_REGISTERS wa (map (fun v => v mod 65536) vals) in (d', Values (read_cells d' HOLDING_REGISTERS a n))))
  | ReadStatus => (d, Values [0])
  | ReadFiles _ | Diagnostic _ _ | DeviceInfo _ _ => (d, Refused 1)          (* functions the device does not have *)
  | Raw _ => (d, Refused 1)
  end.
(** The calls compared: no raw frame; a combined read and write of at most 121 values whose two ranges have no cell in common. *)
Definition usual (c : call) : Prop :=
  match c with
  | Raw _ => False
  | ReadWriteRegs a n wa vals => 1 <= zlen vals <= 121 /\ (a + n <= wa \/ wa + zlen vals <= a)
  | _ => True
  end.
