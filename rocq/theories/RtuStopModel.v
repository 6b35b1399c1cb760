(** RtuServer.start, stop and the server's thread on a serial port (modbus_rtu.py 226-314, modbus.py 1051-1074), access by
    access.

    Simplifications: one start() and one stop(), by one caller (repetitions and several callers: LifecycleModel.v); what is done with
    a request (287-310) is one step that always ends; the hooks of _do_init and close do not raise.  Port: pyserial on POSIX.  *)
From Coq Require Import List Bool Arith.
Import ListNotations.

(** The serial object: is it open, is its timeout None, has cancel_read() been called and not yet been noticed (a byte in
    the pipe read() also waits for; closing the port drops it). *)
Record port := { p_open : bool; p_forever : bool; p_cancelled : bool }.

(** Where the server's thread is. *)
Inductive rpc :=
| RNew                 (* not started *)
| RInit                (* 250-252: open the port if it is closed *)
| RTest                (* modbus.py 1066: while self._go.isSet() *)
| RBlock               (* 264: if self._block_on_first_byte *)
| RForever             (* 266: self._serial.timeout = None *)
| RFirst               (* 268: self._serial.read(1) *)
| RClose1 | ROpen1     (* 271, 272 *)
| RTimeout             (* 273: self._serial.timeout = self._timeout *)
| RRest                (* 278: self._serial.read(128) *)
| RClose2 | ROpen2     (* 282, 283 *)
| RHandle              (* 287-314 *)
| RExit                (* modbus.py 1069: _do_exit *)
| RDead.
(** Where the caller is. *)
Inductive upc :=
| UStart1              (* 228: self._block_on_first_byte = True *)
| UStart2 | UStart3    (* modbus.py 1053, 1054 *)
| UBetween             (* between start() and stop() *)
| UStop1               (* 241: self._block_on_first_byte = False *)
| UStop2               (* 242: if self._serial.is_open *)
| UStop3               (* 245: self._serial.cancel_read() *)
| UStop4               (* modbus.py 1058: if self._thread.is_alive() *)
| UStop5               (* modbus.py 1059: self._go.clear() *)
| UJoin                (* modbus.py 1060: self._thread.join() *)
| UDone.
Record rsys := { r_port : port; r_block : bool; r_go : bool; r_thread : rpc; r_user : upc }.
(** Before start(): the port may be open or not, and cancelled or not.  RtuServer.__init__ (200) has given it a timeout. *)
Definition rtu_before (opened cancelled : bool) : rsys :=
  {| r_port := {| p_open := opened; p_forever := false; p_cancelled := cancelled |};
     r_block := false; r_go := false; r_thread := RNew; r_user := UStart1 |}.

(** What a read finds, or whether opening the port fails. *)
Inductive finds := Bytes | Nothing | ReadFails | OpenFails.
(** Is there something for a read to return?  [None]: it waits. *)
Definition port_read (p : port) (f : finds) : option (port * bool) :=     (* true: an exception *)
  if negb (p_open p) then Some (p, true)
  else match f with
       | Bytes => Some ({| p_open := true; p_forever := p_forever p; p_cancelled := false |}, false)
       | ReadFails => Some (p, true)
       | _ => if p_cancelled p then Some ({| p_open := true; p_forever := p_forever p; p_cancelled := false |}, false)
              else if p_forever p then None else Some (p, false)
       end.
Definition port_close (p : port) : port := {| p_open := false; p_forever := p_forever p; p_cancelled := false |}.
Definition port_open (p : port) (f : finds) : option port :=
  match f with OpenFails => None | _ => Some {| p_open := true; p_forever := p_forever p; p_cancelled := false |} end.
Definition set_forever (p : port) (b : bool) : port := {| p_open := p_open p; p_forever := b; p_cancelled := p_cancelled p |}.

Definition at_thread (s : rsys) (p : port) (t : rpc) : rsys :=
  {| r_port := p; r_block := r_block s; r_go := r_go s; r_thread := t; r_user := r_user s |}.
(** One step of the server's thread. *)
Definition thread_step (s : rsys) (f : finds) : rsys :=
  let p := r_port s in
  match r_thread s with
  | RNew | RDead => s
  | RInit => if p_open p then at_thread s p RTest
             else match port_open p f with Some p' => at_thread s p' RTest | None => at_thread s p RDead end
  | RTest => at_thread s p (if r_go s then RBlock else RExit)
  | RBlock => at_thread s p (if r_block s then RForever else RRest)
  | RForever => at_thread s (set_forever p true) RFirst
  | RFirst => match port_read p f with
              | None => s
              | Some (p', true) => at_thread s p' RClose1
              | Some (p', false) => at_thread s p' RTimeout
              end
  | RClose1 => at_thread s (port_close p) ROpen1
  | ROpen1 => match port_open p f with
              | Some p' => at_thread s p' RTimeout
              | None => at_thread s p RTest              (* 312-314 *)
              end
  | RTimeout => at_thread s (set_forever p false) RRest
  | RRest => match port_read p f with
             | None => s
             | Some (p', true) => at_thread s p' RClose2
             | Some (p', false) => at_thread s p' (match f with Bytes => RRest | _ => RHandle end)
             end
  | RClose2 => at_thread s (port_close p) ROpen2
  | ROpen2 => match port_open p f with
              | Some p' => at_thread s p' RHandle
              | None => at_thread s p RTest              (* 312-314 *)
              end
  | RHandle => at_thread s p RTest
  | RExit => at_thread s (port_close p) RDead
  end.
Definition at_user (s : rsys) (u : upc) : rsys :=
  {| r_port := r_port s; r_block := r_block s; r_go := r_go s; r_thread := r_thread s; r_user := u |}.
(** One step of the caller. *)
Definition user_step (s : rsys) : rsys :=
  match r_user s with
  | UStart1 => {| r_port := r_port s; r_block := true; r_go := r_go s; r_thread := r_thread s; r_user := UStart2 |}
  | UStart2 => {| r_port := r_port s; r_block := r_block s; r_go := true; r_thread := r_thread s; r_user := UStart3 |}
  | UStart3 => {| r_port := r_port s; r_block := r_block s; r_go := r_go s; r_thread := RInit; r_user := UBetween |}
  | UBetween => at_user s UStop1
  | UStop1 => {| r_port := r_port s; r_block := false; r_go := r_go s; r_thread := r_thread s; r_user := UStop2 |}
  | UStop2 => at_user s (if p_open (r_port s) then UStop3 else UStop4)
  | UStop3 =>
      let p := r_port s in
      {| r_port := {| p_open := p_open p; p_forever := p_forever p; p_cancelled := p_open p || p_cancelled p |};
         r_block := r_block s; r_go := r_go s; r_thread := r_thread s; r_user := UStop4 |}
  | UStop4 => at_user s (match r_thread s with RDead => UDone | _ => UStop5 end)
  | UStop5 => {| r_port := r_port s; r_block := r_block s; r_go := false; r_thread := r_thread s; r_user := UJoin |}
  | UJoin => match r_thread s with RDead => at_user s UDone | _ => s end
  | UDone => s
  end.
Inductive ractor := ByCaller | ByServer (f : finds).
Definition ract (s : rsys) (a : ractor) : rsys := match a with ByCaller => user_step s | ByServer f => thread_step s f end.
Definition racts (l : list ractor) (s : rsys) : rsys := fold_left ract l s.
