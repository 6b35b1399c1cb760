(** The device this library's slave is, as opposed to the one the protocol document describes (DeviceSpec.v): three differences.
    1. In a combined read and write the read comes first, and up to 123 values can be written (the protocol: the write first, 121).
    2. Registers of a slave may hold numbers that do not fit into a word ("odd" cells): set_values stores anything, and a mask write to a
       signed slave stores results from 32768 on as they are.  A request that reads such a cell fails.
    3. It has none of the functions 8, 20 and 43 (as in DeviceSpec.v). *)
From Verif Require Import Base Defines MasterSpec DeviceSpec.

Record built := { bt_device : device; bt_signed : bool; bt_odd : btype -> Z -> bool }.
(** what the caller gets: an answer, or something that is no Modbus answer *)
Inductive outcome := Says (y : reply) | Fails.
Definition odd_in (b : built) (t : btype) (a n : Z) : bool := existsb (fun k => bt_odd b t (a + Z.of_nat k)) (seq 0 (Z.to_nat n)).
Definition store (b : built) (t : btype) (a : Z) (vals : list Z) (odd : bool) : built :=
  {| bt_device := put_cells (bt_device b) t a vals; bt_signed := bt_signed b;
     bt_odd := fun t' x => if same_type t t' && (a <=? x) && (x <? a + zlen vals) then odd else bt_odd b t' x |}.
Definition guard (b : built) (t : btype) (a n limit : Z) (done : built * outcome) : built * outcome :=
  if (1 <=? n) && (n <=? limit) then if present (bt_device b) t a n then done else (b, Says (Refused 2)) else (b, Says (Refused 3)).
Definition built_call (b : built) (c : call) : built * outcome :=
  let H := HOLDING_REGISTERS in
  match c with
  | ReadBits coils a n => let t := if coils then COILS else DISCRETE_INPUTS in guard b t a n 2000 (b, Says (Values (read_cells (bt_device b) t a n)))
  | ReadRegs holding a n =>
      let t := if holding then H else ANALOG_INPUTS in
      guard b t a n 125 (if odd_in b t a n then (b, Fails) else (b, Says (Values (read_cells (bt_device b) t a n))))
  | WriteCoil a v => let on := negb (v =? 0) in guard b COILS a 1 1 (store b COILS a [if on then 1 else 0] false, Says (Values [a; if on then 65280 else 0]))
  | WriteReg a v => guard b H a 1 1 (store b H a [v mod 65536] false, Says (Values [a; v mod 65536]))
  | WriteCoils a vals => guard b COILS a (zlen vals) 1968 (store b COILS a (map (fun v => if 0 <? v then 1 else 0) vals) false, Says (Values [a; zlen vals]))
  | WriteRegs a vals => guard b H a (zlen vals) 123 (store b H a (map (fun v => v mod 65536) vals) false, Says (Values [a; zlen vals]))
  | MaskWrite a am om =>
      let new := Z.lor (Z.land (dv_cell (bt_device b) H a) am) (Z.land om (Z.lnot am)) in
      guard b H a 1 1 (store b H a [new] (bt_signed b && (32768 <=? new)), Says (Values [a; am; om]))
  | ReadWriteRegs a n wa vals =>
      guard b H a n 125 (if odd_in b H a n then (b, Fails) else
        guard b H wa (zlen vals) 123 (store b H wa (map (fun v => v mod 65536) vals) false, Says (Values (read_cells (bt_device b) H a n))))
  | ReadStatus => (b, Says (Values [0]))
  | ReadFiles _ | Diagnostic _ _ | DeviceInfo _ _ | Raw _ => (b, Says (Refused 1))
  end.

(** the units there are; a call to a unit that does not exist gets no answer *)
Definition works := Z -> option built.
Definition works_call (w : works) (u : Z) (c : call) : works * option outcome :=
  match w u with
  | Some b => (fun v => if v =? u then Some (fst (built_call b c)) else w v, Some (snd (built_call b c)))
  | None => (w, None)
  end.
Fixpoint works_session (w : works) (l : list (Z * call)) : works * list (option outcome) :=
  match l with
  | [] => (w, [])
  | (u, c) :: l => let '(w1, r) := works_call w u c in let '(w2, rs) := works_session w1 l in (w2, r :: rs)
  end.
