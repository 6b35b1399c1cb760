(** The RTU server with its log calls.

    Models: RtuServer._do_run (modbus_rtu.py 259-315) with the LOGGER calls of 304 and 313, run by Server._run_server (modbus.py 1062-1074);
    Server._handle and below as in LoggingModel.v.
    Simplifications: as LoggingModel.v and TransportModel.v (rtu_do_run); no hooks; stop() is not called during the history. *)
From Coq Require Import String.
From Verif Require Import Base PyStruct Defines SlaveModel QueryModel DatabankModel TransportModel LoggingModel.
Open Scope string_scope.
Open Scope list_scope.
Open Scope Z_scope.

(** one request carried out and what was written for it *)
Definition rtu_event : Type := list Z * option (list Z).
Definition events_of (t : rtu_turn) : list rtu_event := match rt_handled t with Some r => [(r, rt_written t)] | None => [] end.
(** The loop of _run_server (modbus.py 1066-1067) without a logger, one element of [pend] per pass (is in_waiting > 0 when asked?).  A pass
    that blocks for ever ends the history. *)
Fixpoint rtu_life (block : bool) (pend : list bool) (d : databank) (p : line) : databank * line * list rtu_event :=
  match pend with
  | [] => (d, p, [])
  | b :: l =>
      match rtu_do_run no_rtu_hooks block b d p with
      | None => (d, p, [])
      | Some t => let '(d', p', ev) := rtu_life block l (rt_db t) (rt_line t) in (d', p', events_of t ++ ev)
      end
  end.

Section Logged.
Variable lg : logger.
Variable tx : texts.

(** the except clause, modbus_rtu.py 312-314: [t] is what the turn has done so far; an exception of the log call leaves _do_run *)
Definition lr_except (e : exn) (t : rtu_turn) : output * (rtu_turn * option exn) :=
  match log lg tx ERROR "modbus_rtu._do_run" (append "Error while handling request, Exception occurred: " (tx_str tx e)) with
  | (o, x) => (o, (t, x))
  end.
(** modbus_rtu.py 275-314; as rtu_rest *)
Definition lr_rest (pending : bool) (d : databank) (p : line) (request : list Z) : option (output * (rtu_turn * option exn)) :=
  match rtu_read_rest (S (line_size p)) p request with
  | None => None
  | Some (p', Err e) => Some (lr_except e {| rt_line := p'; rt_db := d; rt_handled := None; rt_written := None |})
  | Some (p', Ok []) => Some ([], ({| rt_line := p'; rt_db := d; rt_handled := None; rt_written := None |}, None))
  | Some (p', Ok request) =>
      let '(o, (d', r)) := l_handle lg tx d RTU request in
      let turn w := {| rt_line := p'; rt_db := d'; rt_handled := Some request; rt_written := w |} in
      Some (said o
        (match r with
         | Err e => lr_except e (turn None)
         | Ok resp =>
             match sent resp with
             | None => ([], (turn None, None))
             | Some b =>
                 if pending then
                   match log lg tx WARNING "modbus_rtu._do_run" "Not sending response because there is new request pending" with
                   | (o, Some e) => said o (lr_except e (turn None))
                   | (o, None) => (o, (turn None, None))
                   end
                 else ([], (turn (Some b), None))
             end
         end))
  end.
(** modbus_rtu.py 259-314; as rtu_do_run *)
Definition lr_do_run (block pending : bool) (d : databank) (p : line) : option (output * (rtu_turn * option exn)) :=
  if block then
    match serial_read_blocking p with
    | None => None
    | Some (p', Got b) => lr_rest pending d p' b
    | Some (p', Raised true) => lr_rest pending d p' []
    | Some (p', Raised false) => Some (lr_except GenericException {| rt_line := p'; rt_db := d; rt_handled := None; rt_written := None |})
    end
  else lr_rest pending d p [].
(** modbus.py 1062-1074; the fates as in LoggingModel.v *)
Fixpoint lr_life (block : bool) (pend : list bool) (d : databank) (p : line) : output * (databank * line * list rtu_event * fate) :=
  match pend with
  | [] => ([], (d, p, [], Running))
  | b :: l =>
      match lr_do_run block b d p with
      | None => ([], (d, p, [], Running))
      | Some (o, (t, Some e)) =>
          match log lg tx ERROR "modbus._run_server" (append "server error: " (tx_str tx e)) with
          | (o', None) => (o ++ o', (rt_db t, rt_line t, events_of t, Ended))
          | (o', Some _) => (o ++ o', (rt_db t, rt_line t, events_of t, EndedForGood))
          end
      | Some (o, (t, None)) =>
          let '(o', (d', p', ev, f)) := lr_life block l (rt_db t) (rt_line t) in (o ++ o', (d', p', events_of t ++ ev, f))
      end
  end.
End Logged.
