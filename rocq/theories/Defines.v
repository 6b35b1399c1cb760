(** Constants.  Models modbus_tk/defines.py 12-43. *)
From Verif Require Import Base.

(* exception codes, defines.py 13-16 (5, 6 and 8 are unused by the code) *)
Definition ILLEGAL_FUNCTION := 1.
Definition ILLEGAL_DATA_ADDRESS := 2.
Definition ILLEGAL_DATA_VALUE := 3.
Definition SLAVE_DEVICE_FAILURE := 4.

(* function codes, defines.py 22-37 *)
Definition RAW := 0.
Definition READ_COILS := 1.
Definition READ_DISCRETE_INPUTS := 2.
Definition READ_HOLDING_REGISTERS := 3.
Definition READ_INPUT_REGISTERS := 4.
Definition WRITE_SINGLE_COIL := 5.
Definition WRITE_SINGLE_REGISTER := 6.
Definition READ_EXCEPTION_STATUS := 7.
Definition DIAGNOSTIC := 8.
Definition REPORT_SLAVE_ID := 17.
Definition WRITE_MULTIPLE_COILS := 15.
Definition WRITE_MULTIPLE_REGISTERS := 16.
Definition READ_FILE_RECORD := 20.
Definition MASK_WRITE_REGISTER := 22.
Definition READ_WRITE_MULTIPLE_REGISTERS := 23.
Definition DEVICE_INFO := 43.

(* block types, defines.py 40-43 *)
Inductive btype := COILS | DISCRETE_INPUTS | HOLDING_REGISTERS | ANALOG_INPUTS.

Definition btype_of_Z (z : Z) : option btype :=
  if z =? 1 then Some COILS
  else if z =? 2 then Some DISCRETE_INPUTS
  else if z =? 3 then Some HOLDING_REGISTERS
  else if z =? 4 then Some ANALOG_INPUTS
  else None.

Definition btype_eqb (a b : btype) : bool :=
  match a, b with
  | COILS, COILS | DISCRETE_INPUTS, DISCRETE_INPUTS
  | HOLDING_REGISTERS, HOLDING_REGISTERS | ANALOG_INPUTS, ANALOG_INPUTS => true
  | _, _ => false
  end.
