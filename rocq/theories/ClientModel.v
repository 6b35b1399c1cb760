(** PyModbusClientTCP (pymodbusclient.py 4-50), in Python 3, for integer arguments: every method as the call of TcpMaster.execute it makes and
    what it does with the result. *)
From Verif Require Import Base Defines QueryModel MasterModel.

(** The methods that talk to the slave. *)
Inductive pm_call :=
| PmReadInputRegisters (register num : Z)
| PmWriteSingleRegister (register word : Z)
| PmWriteSingleCoil (coil value : Z)
| PmReadCoils (bit_addr bit_number : Z)
| PmReadDiscreteInputs (bit_addr bit_number : Z).
Definition with_qty (a : exec_args) (n : Z) : exec_args :=
  {| ea_slave := ea_slave a; ea_fc := ea_fc a; ea_addr := ea_addr a; ea_qty := PInt n; ea_output := ea_output a; ea_format := ea_format a;
     ea_expected := ea_expected a; ea_waddr23 := ea_waddr23 a; ea_files := ea_files a; ea_pdu := ea_pdu a; ea_raw := ea_raw a; ea_and := ea_and a; ea_or := ea_or a |}.
Definition with_output (a : exec_args) (v : Z) : exec_args :=
  {| ea_slave := ea_slave a; ea_fc := ea_fc a; ea_addr := ea_addr a; ea_qty := ea_qty a; ea_output := PInt v; ea_format := ea_format a;
     ea_expected := ea_expected a; ea_waddr23 := ea_waddr23 a; ea_files := ea_files a; ea_pdu := ea_pdu a; ea_raw := ea_raw a; ea_and := ea_and a; ea_or := ea_or a |}.
(** The calls of execute, pymodbusclient.py 18, 24, 28, 31, 38; write_single_coil ignores its argument num (27-28). *)
Definition pm_args (c : pm_call) : exec_args :=
  match c with
  | PmReadInputRegisters r n => with_qty (default_args 1 READ_INPUT_REGISTERS (PInt r)) n
  | PmWriteSingleRegister r w => with_output (default_args 1 WRITE_SINGLE_REGISTER (PInt r)) w
  | PmWriteSingleCoil c v => with_output (default_args 1 WRITE_SINGLE_COIL (PInt c)) v
  | PmReadCoils a n => with_qty (default_args 1 READ_COILS (PInt a)) n
  | PmReadDiscreteInputs a n => with_qty (default_args 1 READ_DISCRETE_INPUTS (PInt a)) n
  end.
(** What a method returns: True; None; map(None, values), which is not evaluated yet. *)
Inductive pm_value := PmTrue | PmNone | PmMap (values : exec_result).
Inductive pm_result := PmReturns (v : pm_value) | PmRaises (e : exn) | PmAttributeError | PmRuns.
Definition pm_finish (c : pm_call) (r : exec_result) : pm_result :=
  match c with
  | PmWriteSingleRegister _ _ => PmReturns PmTrue            (* 25 *)
  | PmWriteSingleCoil _ _ => PmReturns PmNone                (* 28: no return statement *)
  | PmReadCoils _ _ => PmAttributeError                      (* 32: self.coils *)
  | PmReadInputRegisters _ _ | PmReadDiscreteInputs _ _ => PmReturns (PmMap r)   (* 19-21, 39-41 *)
  end.
Definition pm_result_of (c : pm_call) (e : executed) : pm_result :=
  match ex_result e with
  | Some (Ok r) => pm_finish c r
  | Some (Err x) => PmRaises x
  | None => PmRuns
  end.
(** list(x) of what a method returned: calling None raises TypeError, at the first value. *)
Definition pm_list (v : pm_value) : res (list Z) :=
  match v with
  | PmMap (RTuple []) => Ok []
  | PmMap (RTuple _) => Err PyTypeError
  | PmMap _ => Err NotModelled
  | _ => Err PyTypeError                                     (* bool and None are not iterable *)
  end.
