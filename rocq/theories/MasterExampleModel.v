(** The programs examples/tcpmaster_example.py and examples/rtumaster_example.py: one call, and what they do with its outcome.
    Simplifications: the hooks of the TCP example only log and are left out, as are the lines commented out; the texts of the log are
    represented by what they show. *)
From Verif Require Import Base Defines QueryModel MasterModel.

(** master.execute(1, cst.READ_HOLDING_REGISTERS, 0, 3): tcpmaster_example.py 49, rtumaster_example.py 32 *)
Definition example_args : exec_args :=
  {| ea_slave := 1; ea_fc := READ_HOLDING_REGISTERS; ea_addr := PInt 0; ea_qty := PInt 3; ea_output := PInt 0; ea_format := ""; ea_expected := -1;
     ea_waddr23 := 0; ea_files := None; ea_pdu := []; ea_raw := false; ea_and := -1; ea_or := -1 |}.
(** How main() ends (tcpmaster_example.py 19-67, rtumaster_example.py 22-47): logger.info(result); except ModbusError: logger.error(... Code=%d);
    any other exception leaves main: a traceback.  [None]: the call does not end. *)
Inductive example_end := LogsValues (r : exec_result) | LogsCode (code : Z) | Traceback (e : exn).
Definition example_main (p : proto) (last : Z) (exchange : list Z -> Z -> res (list Z)) : option example_end :=
  match ex_result (execute p last example_args exchange) with
  | None => None
  | Some (Ok r) => Some (LogsValues r)
  | Some (Err (ModbusError code)) => Some (LogsCode code)
  | Some (Err e) => Some (Traceback e)
  end.
