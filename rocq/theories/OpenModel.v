(** Opening and closing the link of a master: Master.open and close (modbus.py 97-108), RtuMaster._do_open,
    _do_close (modbus_rtu.py 106-117), TcpMaster._do_open, _do_close, _send (modbus_tcp.py 165-205), the beginning
    of Master.execute (modbus.py 162).
    Simplifications: of the exchange itself only whether the request is written to an open link; whatever
    raises (a hook, the port, the socket) is a choice of the environment. *)
From Verif Require Import Base.

(** ** RtuMaster *)

Record rtu_link := { rl_opened : bool;    (* self._is_opened *)
                     rl_port : bool }.    (* self._serial.is_open *)
(** self._serial.open() or the before_open hook raises, or not *)
Inductive opening := OpensOk | OpenRaises.
(** self._serial.close() raises, or the after_close hook does, or nothing *)
Inductive closing := ClosesOk | PortCloseRaises | AfterCloseRaises.

(** RtuMaster._do_open, modbus_rtu.py 106-110 *)
Definition rtu_do_open (o : opening) (l : rtu_link) : rtu_link * res unit :=
  if rl_port l then (l, Ok tt)
  else match o with
       | OpenRaises => (l, Err GenericException)
       | OpensOk => ({| rl_opened := rl_opened l; rl_port := true |}, Ok tt)
       end.
(** RtuMaster._do_close, modbus_rtu.py 112-117; the result is what "if ret" sees *)
Definition rtu_do_close (c : closing) (l : rtu_link) : rtu_link * res bool :=
  if rl_port l then
    match c with
    | PortCloseRaises => (l, Err GenericException)
    | AfterCloseRaises => ({| rl_opened := rl_opened l; rl_port := false |}, Err GenericException)
    | ClosesOk => ({| rl_opened := rl_opened l; rl_port := false |}, Ok true)
    end
  else (l, Ok false).                                        (* returns None *)
(** Master.open, modbus.py 97-101 *)
Definition rtu_open (o : opening) (l : rtu_link) : rtu_link * res unit :=
  if rl_opened l then (l, Ok tt)
  else match rtu_do_open o l with
       | (l', Ok _) => ({| rl_opened := true; rl_port := rl_port l' |}, Ok tt)
       | r => r
       end.
(** Master.close, modbus.py 103-108 *)
Definition rtu_close (c : closing) (l : rtu_link) : rtu_link * res unit :=
  if rl_opened l then
    match rtu_do_close c l with
    | (l', Ok true) => ({| rl_opened := false; rl_port := rl_port l' |}, Ok tt)
    | (l', Ok false) => (l', Ok tt)
    | (l', Err e) => (l', Err e)
    end
  else (l, Ok tt).
(** Master.execute up to the request being written: modbus.py 162, modbus_rtu.py 126-140: a port that is
    not open raises. *)
Definition rtu_execute (o : opening) (l : rtu_link) : rtu_link * res unit :=
  match rtu_open o l with
  | (l', Ok _) => (l', if rl_port l' then Ok tt else Err GenericException)
  | r => r
  end.
(** Calls on the master, and the serial object being closed or opened by somebody else. *)
Inductive rtu_op := ROpen (o : opening) | RClose (c : closing) | RExecute (o : opening) | PortClosed | PortOpened.
Definition rtu_op_step (l : rtu_link) (op : rtu_op) : rtu_link * res unit :=
  match op with
  | ROpen o => rtu_open o l
  | RClose c => rtu_close c l
  | RExecute o => rtu_execute o l
  | PortClosed => ({| rl_opened := rl_opened l; rl_port := false |}, Ok tt)
  | PortOpened => ({| rl_opened := rl_opened l; rl_port := true |}, Ok tt)
  end.
Definition rtu_ops (ops : list rtu_op) (l : rtu_link) : rtu_link := fold_left (fun l op => fst (rtu_op_step l op)) ops l.
(** RtuMaster.__init__, modbus_rtu.py 88-104: the serial object is given, open or not. *)
Definition new_rtu (port_open : bool) : rtu_link := {| rl_opened := false; rl_port := port_open |}.

(** ** TcpMaster *)

(** self._sock: None; connected; or a socket that is closed, not connected, or whose peer is gone. *)
Inductive sock := NoSock | Connected | Useless.
Record tcp_link := { tl_opened : bool; tl_sock : sock }.
(** What happens in _do_open: all well; socket.socket() fails; connect or the before_connect hook raises; the
    after_connect hook raises. *)
Inductive connecting := Connects | NoSocketLeft | ConnectRaises | AfterConnectRaises.
Inductive disconnecting := Disconnects | BeforeCloseRaises | AfterTcpCloseRaises.

(** TcpMaster._do_open, modbus_tcp.py 165-174 *)
Definition tcp_do_open (o : connecting) (l : tcp_link) : tcp_link * res unit :=
  match o with
  | Connects => ({| tl_opened := tl_opened l; tl_sock := Connected |}, Ok tt)
  | NoSocketLeft =>                                           (* the old one has been closed, 167-168 *)
      ({| tl_opened := tl_opened l; tl_sock := match tl_sock l with NoSock => NoSock | _ => Useless end |}, Err GenericException)
  | ConnectRaises => ({| tl_opened := tl_opened l; tl_sock := Useless |}, Err GenericException)
  | AfterConnectRaises => ({| tl_opened := tl_opened l; tl_sock := Connected |}, Err GenericException)
  end.
(** TcpMaster._do_close, modbus_tcp.py 176-183 *)
Definition tcp_do_close (c : disconnecting) (l : tcp_link) : tcp_link * res bool :=
  match tl_sock l with
  | NoSock => (l, Ok false)
  | _ =>
      match c with
      | BeforeCloseRaises => (l, Err GenericException)
      | AfterTcpCloseRaises => ({| tl_opened := tl_opened l; tl_sock := Useless |}, Err GenericException)
      | Disconnects => ({| tl_opened := tl_opened l; tl_sock := NoSock |}, Ok true)
      end
  end.
(** Master.open *)
Definition tcp_open (o : connecting) (l : tcp_link) : tcp_link * res unit :=
  if tl_opened l then (l, Ok tt)
  else match tcp_do_open o l with
       | (l', Ok _) => ({| tl_opened := true; tl_sock := tl_sock l' |}, Ok tt)
       | r => r
       end.
(** Master.close *)
Definition tcp_close (c : disconnecting) (l : tcp_link) : tcp_link * res unit :=
  if tl_opened l then
    match tcp_do_close c l with
    | (l', Ok true) => ({| tl_opened := false; tl_sock := tl_sock l' |}, Ok tt)
    | (l', Ok false) => (l', Ok tt)
    | (l', Err e) => (l', Err e)
    end
  else (l, Ok tt).
(** Master.execute up to the request being written: open, then _send (modbus_tcp.py 193-205): flushing
    anything but a live connection raises, then _do_open. *)
Definition tcp_execute (o1 o2 : connecting) (l : tcp_link) : tcp_link * res unit :=
  match tcp_open o1 l with
  | (l', Ok _) =>
      match tl_sock l' with
      | Connected => (l', Ok tt)
      | _ => tcp_do_open o2 l'
      end
  | r => r
  end.
Inductive tcp_op := TOpen (o : connecting) | TClose (c : disconnecting) | TExecute (o1 o2 : connecting) | PeerGone.
Definition tcp_op_step (l : tcp_link) (op : tcp_op) : tcp_link * res unit :=
  match op with
  | TOpen o => tcp_open o l
  | TClose c => tcp_close c l
  | TExecute o1 o2 => tcp_execute o1 o2 l
  | PeerGone => ({| tl_opened := tl_opened l; tl_sock := match tl_sock l with Connected => Useless | s => s end |}, Ok tt)
  end.
Definition tcp_ops (ops : list tcp_op) (l : tcp_link) : tcp_link := fold_left (fun l op => fst (tcp_op_step l op)) ops l.
(** TcpMaster.__init__, modbus_tcp.py 158-163 *)
Definition new_tcp : tcp_link := {| tl_opened := false; tl_sock := NoSock |}.
