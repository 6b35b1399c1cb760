(** Timeouts of the masters and of the RTU server: Master.set_timeout, get_timeout (modbus.py 419-425), TcpMaster._do_open,
    _do_close, set_timeout, _send (modbus_tcp.py 158-205), RtuMaster.__init__, set_timeout (modbus_rtu.py 88-124), RtuServer.__init__,
    set_timeout, get_timeout (modbus_rtu.py 180-216).
    Times are exact rational numbers of seconds (the code uses floats).  A timeout is a number or None.
    Simplifications: hooks do not raise; of a call only what it does to the socket. *)
From Coq Require Import QArith.
From Verif Require Import Base UtilsModel.
Open Scope Q_scope.

(** ** TcpMaster *)

(** How a socket waits: for ever; not at all; at most so long; the socket is closed (every method raises). *)
Inductive waits := Blocking | NonBlocking | AtMost (t : Q) | Shut.
Record tmaster := { tm_timeout : option Q;      (* self._timeout *)
                    tm_opened : bool;           (* self._is_opened *)
                    tm_sock : option waits }.   (* self._sock *)
(** TcpMaster.__init__, modbus_tcp.py 158-163, Master.__init__, modbus.py 80-88 *)
Definition new_tmaster (t : option Q) : tmaster := {| tm_timeout := t; tm_opened := false; tm_sock := None |}.
Definition with_sock (m : tmaster) (w : option waits) : tmaster := {| tm_timeout := tm_timeout m; tm_opened := tm_opened m; tm_sock := w |}.
(** TcpMaster.set_timeout, modbus_tcp.py 185-191: setblocking(t > 0), then "if t: settimeout(t)".  None > 0 raises TypeError,
    settimeout raises ValueError for a negative number. *)
Definition tset_timeout (m : tmaster) (t : option Q) : tmaster * res unit :=
  let m := {| tm_timeout := t; tm_opened := tm_opened m; tm_sock := tm_sock m |} in
  match tm_sock m with
  | None => (m, Ok tt)
  | Some w =>
      match t with
      | None => (m, Err PyTypeError)
      | Some q =>
          match w with
          | Shut => (m, Err GenericException)
          | _ =>
              if Qlt_le_dec 0 q then (with_sock m (Some (AtMost q)), Ok tt)
              else if Qeq_dec q 0 then (with_sock m (Some NonBlocking), Ok tt)
              else (with_sock m (Some NonBlocking), Err PyValueError)
          end
      end
  end.
(** What the network does to _do_open: socket() fails, connect() fails, or all is well. *)
Inductive tconnect := TConnects | TNoSocket | TRefused.
(** TcpMaster._do_open, modbus_tcp.py 165-174 *)
Definition tdo_open (o : tconnect) (m : tmaster) : tmaster * res unit :=
  match o with
  | TNoSocket => (with_sock m (match tm_sock m with None => None | Some _ => Some Shut end), Err GenericException)
  | _ =>
      match tset_timeout (with_sock m (Some Blocking)) (tm_timeout m) with
      | (m', Err e) => (m', Err e)
      | (m', Ok _) => (m', match o with TRefused => Err GenericException | _ => Ok tt end)
      end
  end.
(** Master.open, modbus.py 97-101 *)
Definition topen (o : tconnect) (m : tmaster) : tmaster * res unit :=
  if tm_opened m then (m, Ok tt)
  else match tdo_open o m with
       | (m', Ok _) => ({| tm_timeout := tm_timeout m'; tm_opened := true; tm_sock := tm_sock m' |}, Ok tt)
       | r => r
       end.
(** Master.close, modbus.py 103-108, TcpMaster._do_close, modbus_tcp.py 176-183 *)
Definition tclose (m : tmaster) : tmaster * res unit :=
  if tm_opened m then
    match tm_sock m with
    | Some _ => ({| tm_timeout := tm_timeout m; tm_opened := false; tm_sock := None |}, Ok tt)
    | None => (m, Ok tt)
    end
  else (m, Ok tt).
(** Master.execute up to the request being written: open, then _send (modbus_tcp.py 193-205), which opens again when the connection
    cannot be flushed ([lost]). *)
Definition texecute (o1 : tconnect) (lost : bool) (o2 : tconnect) (m : tmaster) : tmaster * res unit :=
  match topen o1 m with
  | (m', Err e) => (m', Err e)
  | (m', Ok _) => match lost, tm_sock m' with false, Some Shut | true, _ | _, None => tdo_open o2 m' | false, _ => (m', Ok tt) end
  end.
Inductive tcall := TSetTimeout (t : option Q) | TOpenCall (o : tconnect) | TCloseCall | TExecuteCall (o1 : tconnect) (lost : bool) (o2 : tconnect).
Definition tcall_step (m : tmaster) (c : tcall) : tmaster * res unit :=
  match c with
  | TSetTimeout t => tset_timeout m t
  | TOpenCall o => topen o m
  | TCloseCall => tclose m
  | TExecuteCall o1 lost o2 => texecute o1 lost o2 m
  end.
Definition tcalls (l : list tcall) (m : tmaster) : tmaster := fold_left (fun m c => fst (tcall_step m c)) l m.

(** ** RtuMaster and RtuServer *)

(** The attributes of the serial object that matter: timeout and inter_byte_timeout. *)
Record rmaster := { rm_timeout : option Q;      (* self._timeout *)
                    rm_serial : option Q;       (* self._serial.timeout *)
                    rm_inter_byte : Q;          (* self._serial.inter_byte_timeout *)
                    rm_sw : bool }.             (* self.use_sw_timeout *)
(** RtuMaster.set_timeout, modbus_rtu.py 119-124 *)
Definition rset_timeout (m : rmaster) (t : option Q) (sw : bool) : rmaster :=
  {| rm_timeout := t; rm_serial := t; rm_inter_byte := rm_inter_byte m; rm_sw := sw |}.
(** RtuMaster.__init__, modbus_rtu.py 88-104: "if t0" is false for 0 as for None.  None: ZeroDivisionError. *)
Definition new_rmaster (serial_timeout : option Q) (baudrate : Z) (interchar interframe : Q) (t0 : option Q) : option rmaster :=
  let given := match t0 with Some q => if Qeq_dec q 0 then None else Some q | None => None end in
  match (match given with Some q => Some q | None => calculate_rtu_inter_char baudrate end) with
  | None => None
  | Some t =>
      Some (rset_timeout {| rm_timeout := serial_timeout; rm_serial := serial_timeout; rm_inter_byte := interchar * t; rm_sw := false |}
              (Some (interframe * t)) false)
  end.
(** RtuServer.__init__, modbus_rtu.py 180-205, set_timeout, 211-213 *)
Record rserver := { rs_timeout : option Q; rs_serial : option Q; rs_inter_byte : Q }.
Definition sset_timeout (s : rserver) (t : option Q) : rserver := {| rs_timeout := t; rs_serial := t; rs_inter_byte := rs_inter_byte s |}.
Definition new_rserver (baudrate : Z) (interchar interframe : Q) : option rserver :=
  match calculate_rtu_inter_char baudrate with
  | None => None
  | Some t => Some (sset_timeout {| rs_timeout := Some 0; rs_serial := None; rs_inter_byte := interchar * t |} (Some (interframe * t)))
  end.
