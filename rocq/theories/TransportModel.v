(** Model of the transports: sockets and serial ports as sequences of arriving bytes, and the
    code that turns them into frames (modbus_tcp.py 193-227, 254-259, 284-360, modbus_rtu.py 142-170,
    259-314, modbus_rtu_over_tcp.py 21-34, utils.py 47-63).
    Simplifications: no time, only the order of arrivals and silences; hooks are pure
    functions that return None or a replacement (hooks that raise: HooksModel.v); logging dropped. *)
From Verif Require Import Base PyStruct Defines SlaveModel QueryModel DatabankModel MasterModel.

(** ** Sockets *)

(** What happens after the last byte: the peer closed the connection, or nothing comes within
    the socket timeout. *)
Inductive ending := Closed | Stalled.
(** The bytes still to come, cut into the segments in which they arrive, and the ending. *)
Record conn := { c_segs : list (list Z); c_end : ending }.

(** sock.recv(n) for n > 0: at most n bytes of the first segment that is not empty; the empty string
    when the peer closed; socket.timeout when nothing comes. *)
Fixpoint recv_segs (n : nat) (segs : list (list Z)) : option (list (list Z) * list Z) :=
  match segs with
  | [] => None
  | [] :: t => recv_segs n t
  | s :: t => Some (skipn n s :: t, firstn n s)
  end.
Definition recv (n : nat) (c : conn) : conn * res (list Z) :=
  match recv_segs n (c_segs c) with
  | Some (segs, b) => ({| c_segs := segs; c_end := c_end c |}, Ok b)
  | None => (c, match c_end c with Closed => Ok [] | Stalled => Err SocketTimeout end)
  end.

(** A hook as seen by its caller: None, or a replacement value. *)
Definition byte_hook := list Z -> option (list Z).
Definition no_hook : byte_hook := fun _ => None.
(** "if retval is not None: x = retval" *)
Definition replaced (h : byte_hook) (x : list Z) : list Z :=
  match h x with Some y => y | None => x end.

(** struct.unpack(">HHH", b)[2] *)
Definition third_word (b : list Z) : res Z := l <- unpack ">HHH" b ;; py_get l 2.

(** The loop of TcpMaster._recv, modbus_tcp.py 213-223.  [None]: still running after [fuel]
    iterations. *)
Fixpoint tcp_recv_loop (fuel : nat) (c : conn) (response : list Z) (length : Z)
  : option (conn * res (list Z)) :=
  match fuel with
  | O => None
  | S m =>
      if zlen response <? length then
        match recv 1 c with
        | (c', Err e) => Some (c', Err e)
        | (c', Ok []) => Some (c', Ok response)
        | (c', Ok rcv_byte) =>
            let response := response ++ rcv_byte in
            if zlen response =? 6 then
              match third_word response with
              | Err e => Some (c', Err e)
              | Ok n => tcp_recv_loop m c' response (n + 6)
              end
            else tcp_recv_loop m c' response length
        end
      else Some (c, Ok response)
  end.
(** more iterations than the loop can make: at most 65535 + 6 bytes *)
Definition tcp_recv_fuel : nat := Z.to_nat 65600.
(** TcpMaster._recv, modbus_tcp.py 207-227 *)
Definition tcp_master_recv (after_recv : byte_hook) (c : conn) : option (conn * res (list Z)) :=
  match tcp_recv_loop tcp_recv_fuel c [] 255 with
  | Some (c', Ok response) => Some (c', Ok (replaced after_recv response))
  | r => r
  end.

(** The loop of RtuOverTcpMaster._recv, modbus_rtu_over_tcp.py 23-30. *)
Fixpoint rtu_tcp_recv_loop (fuel : nat) (c : conn) (response : list Z) (expected_length : Z)
  : option (conn * res (list Z)) :=
  match fuel with
  | O => None
  | S m =>
      if zlen response <? 255 then
        match recv 1 c with
        | (c', Err e) => Some (c', Err e)
        | (c', Ok rcv_byte) =>
            let response := match rcv_byte with [] => response | _ => response ++ rcv_byte end in
            if (0 <=? expected_length) && (expected_length <=? zlen response) then Some (c', Ok response)
            else rtu_tcp_recv_loop m c' response expected_length
        end
      else Some (c, Ok response)
  end.
(** RtuOverTcpMaster._recv, modbus_rtu_over_tcp.py 21-34 *)
Definition rtu_tcp_master_recv (fuel : nat) (after_recv : byte_hook) (expected_length : Z) (c : conn)
  : option (conn * res (list Z)) :=
  match rtu_tcp_recv_loop fuel c [] expected_length with
  | Some (c', Ok response) => Some (c', Ok (replaced after_recv response))
  | r => r
  end.

(** ** The master's send *)

(** The receive buffer of a socket when select is asked: bytes present, and whether the peer has
    closed (then select always says readable and recv returns "" once drained). *)
Record rbuf := { rb_data : list Z; rb_closed : bool }.
(** flush_socket, utils.py 47-63, for lim > 0: [left] iterations before the exception.
    One iteration: select; nothing readable: return; else recv(1024) and count. *)
Fixpoint flush_loop (left : nat) (b : rbuf) : rbuf * res unit :=
  match left with
  | O => (b, Err GenericException)
  | S m =>
      match rb_data b, rb_closed b with
      | [], false => (b, Ok tt)
      | d, _ =>
          let b' := {| rb_data := skipn 1024 d; rb_closed := rb_closed b |} in
          match m with
          | O => (b', Err GenericException)      (* cnt >= lim *)
          | _ => flush_loop m b'
          end
      end
  end.
Definition flush_socket (b : rbuf) (lim : nat) : rbuf * res unit := flush_loop lim b.

(** TcpMaster._send, modbus_tcp.py 193-205: the state of the connection when the request is
    written, the bytes written, or the exception of the reconnection.  [reopen]: the result of
    self._do_open(), a fresh connection with nothing received. *)
Inductive sent_on := SameConnection (b : rbuf) | NewConnection.
Definition tcp_master_send (before_send : byte_hook) (b : rbuf) (reopen : res unit) (request : list Z)
  : res (sent_on * list Z) :=
  let request := replaced before_send request in
  match flush_socket b 3 with
  | (b', Ok _) => Ok (SameConnection b', request)
  | (_, Err _) => match reopen with Ok _ => Ok (NewConnection, request) | Err e => Err e end
  end.

(** ** The TCP server *)

(** "while len(request) < target and is_ok: ..." (modbus_tcp.py 314-319, 328-333): [n] is
    target - len(request), the number of iterations left; the boolean is is_ok. *)
Fixpoint read_more (n : nat) (c : conn) (request : list Z) : conn * res (list Z * bool) :=
  match n with
  | O => (c, Ok (request, true))
  | S m =>
      match recv 1 c with
      | (c', Err e) => (c', Err e)
      | (c', Ok []) => (c', Ok (request, false))
      | (c', Ok new_byte) => read_more m c' (request ++ new_byte)
      end
  end.
Definition missing (target : Z) (request : list Z) : nat := Z.to_nat (target - zlen request).

(** TcpServer._get_request_length, modbus_tcp.py 254-259 *)
Definition get_request_length (mbap : list Z) : res Z :=
  if zlen mbap <? 6 then Err ModbusInvalidRequestError else third_word (py_slice mbap 0 6).

Record tcp_server_hooks := {
  th_server : server_hooks;       (* modbus.Server.before/after_handle_request *)
  th_after_recv : byte_hook;      (* modbus_tcp.TcpServer.after_recv *)
  th_before_send : byte_hook      (* modbus_tcp.TcpServer.before_send *)
}.
Definition no_tcp_hooks : tcp_server_hooks :=
  {| th_server := no_server_hooks; th_after_recv := no_hook; th_before_send := no_hook |}.

(** What one turn of the loop does with a client socket (modbus_tcp.py 299-360): the peer is gone
    (300-306, the caller closes, removes and breaks), an exception (356-360, the caller closes and
    removes), or the socket stays, and a request was handed to _handle or not.  [sd_sent]: the
    argument of sock.send; whether send itself fails changes nothing else (345-355). *)
Inductive served :=
| Gone
| Failed (e : exn)
| Stays (c : conn) (d : databank) (handled : option (list Z)) (sd_sent : option (list Z)).
Definition serve_client (h : tcp_server_hooks) (d : databank) (c : conn) : served :=
  match snd (recv 1 c) with                                  (* MSG_PEEK: nothing is consumed *)
  | Err e => Failed e
  | Ok [] => Gone
  | Ok _ =>
      match read_more (missing 7 []) c [] with
      | (_, Err e) => Failed e
      | (c1, Ok (request, is_ok)) =>
          let request := replaced (th_after_recv h) request in
          if is_ok then
            match get_request_length request with
            | Err e => Failed e
            | Ok length =>
                match read_more (missing (length + 6) request) c1 request with
                | (_, Err e) => Failed e
                | (c2, Ok (request, false)) => Stays c2 d None None
                | (c2, Ok (request, true)) =>
                    let '(d', r) := server_handle (th_server h) d TCP request in
                    Stays c2 d' (Some request)
                      (match r with
                       | Ok resp => match sent resp with
                                    | Some b => Some (replaced (th_before_send h) b)
                                    | None => None
                                    end
                       | Err _ => None                        (* 340-341 *)
                       end)
                end
            end
          else Stays c1 d None None
      end
  end.

(** TcpServer._do_run, modbus_tcp.py 284-360.  [ready]: what select returned; the listening
    socket is [None] (with the result of accept: the new client or an exception), a client is
    [Some id].  Simplification: client sockets are numbered by the test harness of the model
    (accept gives fresh numbers). *)
Record tcp_server := {
  ts_listening : bool;
  ts_conns : list (Z * conn);
  ts_db : databank
}.
Inductive readiness := ReadyListen (accepted : res (Z * conn)) | ReadyClient (id : Z).
(** the requests handed to _handle and the responses sent, in order *)
Definition tcp_event := (Z * list Z * option (list Z))%type.
Fixpoint tcp_do_run (h : tcp_server_hooks) (ready : list readiness) (s : tcp_server)
  : tcp_server * list tcp_event :=
  match ready with
  | [] => (s, [])
  | ReadyListen accepted :: t =>
      if ts_listening s then
        match accepted with
        | Ok (id, c) =>
            tcp_do_run h t {| ts_listening := true; ts_conns := ts_conns s ++ [(id, c)]; ts_db := ts_db s |}
        | Err _ =>                                             (* 356-360 on the listening socket *)
            tcp_do_run h t {| ts_listening := false; ts_conns := ts_conns s; ts_db := ts_db s |}
        end
      else tcp_do_run h t s                                    (* removed from self._sockets *)
  | ReadyClient id :: t =>
      match assoc Z.eqb id (ts_conns s) with
      | None => tcp_do_run h t s                               (* not a socket of this server *)
      | Some c =>
          match serve_client h (ts_db s) c with
          | Gone => ({| ts_listening := ts_listening s; ts_conns := assoc_del Z.eqb id (ts_conns s); ts_db := ts_db s |}, [])
          | Failed _ =>
              tcp_do_run h t {| ts_listening := ts_listening s; ts_conns := assoc_del Z.eqb id (ts_conns s); ts_db := ts_db s |}
          | Stays c' d' handled out =>
              let s' := {| ts_listening := ts_listening s; ts_conns := assoc_put Z.eqb id c' (ts_conns s); ts_db := d' |} in
              let '(s'', ev) := tcp_do_run h t s' in
              (s'', match handled with Some r => (id, r, out) :: ev | None => ev end)
          end
      end
  end.

(** ** Serial ports *)

(** What arrives: a burst of bytes, a silence at least as long as the port's timeout, or an
    exception raised by read (with: does reopening the port work?). *)
Inductive line_event := Burst (l : list Z) | Silence | Fault (reopens : bool).
Definition line := list line_event.

(** serial.read(n) with a timeout: at most n bytes of the current burst, or nothing. *)
Inductive read_result := Got (b : list Z) | Raised (reopens : bool).
Fixpoint serial_read (n : nat) (p : line) : line * read_result :=
  match p with
  | [] => ([], Got [])                              (* nothing more ever arrives *)
  | Burst [] :: t => serial_read n t
  | Burst s :: t => (match skipn n s with [] => t | r => Burst r :: t end, Got (firstn n s))
  | Silence :: t => (t, Got [])
  | Fault r :: t => (t, Raised r)
  end.
(** serial.read(1) with timeout None: waits through silences; [None]: blocks for ever (RtuServer.stop
    cancels such a read: LifecycleModel.v). *)
Fixpoint serial_read_blocking (p : line) : option (line * read_result) :=
  match p with
  | [] => None
  | Burst [] :: t => serial_read_blocking t
  | Burst s :: t => Some (match skipn 1 s with [] => t | r => Burst r :: t end, Got (firstn 1 s))
  | Silence :: t => serial_read_blocking t
  | Fault r :: t => Some (t, Raised r)
  end.

(** The port's timeout attribute: None, 0, or positive. *)
Inductive timeout := TNone | TZero | TPositive.

(** The loop of RtuMaster._recv, modbus_rtu.py 147-165.  [late]: read_duration > self._serial.timeout
    at each iteration (always false without use_sw_timeout). *)
Fixpoint rtu_recv_loop (fuel : nat) (tmo : timeout) (late : list bool) (expected_length : Z)
  (p : line) (response : list Z) (readed_len : Z) : option (line * res (list Z)) :=
  match fuel with
  | O => None
  | S m =>
      let n := match tmo with
               | TPositive => if 0 <? expected_length - readed_len then expected_length - readed_len else 1
               | _ => if 0 <? expected_length then expected_length else 1
               end in
      match serial_read (Z.to_nat n) p with
      | (p', Raised _) => Some (p', Err GenericException)
      | (p', Got []) => Some (p', Ok response)
      | (p', Got read_bytes) =>
          match tmo with
          | TNone => Some (p', Err PyTypeError)                (* 0 > None, Python 3 *)
          | _ =>
              if hd false late then Some (p', Ok response)
              else
                let response := response ++ read_bytes in
                if (0 <=? expected_length) && (expected_length <=? zlen response) then Some (p', Ok response)
                else rtu_recv_loop m tmo (tl late) expected_length p' response (readed_len + zlen read_bytes)
          end
      end
  end.
(** one iteration per byte and per event suffices *)
Definition line_size (p : line) : nat :=
  fold_right (fun e n => match e with Burst l => S (length l + n) | _ => S n end) 0%nat p.
(** RtuMaster._recv, modbus_rtu.py 142-170 *)
Definition rtu_master_recv (after_recv : byte_hook) (tmo : timeout) (late : list bool) (expected_length : Z) (p : line)
  : option (line * res (list Z)) :=
  match rtu_recv_loop (S (line_size p)) tmo late expected_length p [] 0 with
  | Some (p', Ok response) => Some (p', Ok (replaced after_recv response))
  | r => r
  end.

(** The loop of RtuServer._do_run, modbus_rtu.py 276-285: read(128) until nothing comes.  The
    exception of reopening the port is [Err]. *)
Fixpoint rtu_read_rest (fuel : nat) (p : line) (request : list Z) : option (line * res (list Z)) :=
  match fuel with
  | O => None
  | S m =>
      match serial_read 128 p with
      | (p', Raised true) => Some (p', Ok request)
      | (p', Raised false) => Some (p', Err GenericException)
      | (p', Got []) => Some (p', Ok request)
      | (p', Got b) => rtu_read_rest m p' (request ++ b)
      end
  end.

Record rtu_server_hooks := {
  rh_server : server_hooks;
  rh_after_read : byte_hook;                               (* modbus_rtu.RtuServer.after_read *)
  rh_before_write : response -> option (list Z)            (* modbus_rtu.RtuServer.before_write *)
}.
Definition no_rtu_hooks : rtu_server_hooks :=
  {| rh_server := no_server_hooks; rh_after_read := no_hook; rh_before_write := fun _ => None |}.

Record rtu_turn := {
  rt_line : line;                    (* what is still to come *)
  rt_db : databank;
  rt_handled : option (list Z);      (* the request handed to _handle, if any *)
  rt_written : option (list Z)       (* the bytes written, if any *)
}.
(** the turn ends without a request *)
Definition rtu_no_request (d : databank) (p : line) : option rtu_turn :=
  Some {| rt_line := p; rt_db := d; rt_handled := None; rt_written := None |}.
(** RtuServer._do_run from "Read rest of the request" on, modbus_rtu.py 275-310: [request] is what
    the first read got; [pending]: is self._serial.in_waiting > 0 when asked? *)
Definition rtu_rest (h : rtu_server_hooks) (pending : bool) (d : databank) (p : line) (request : list Z) : option rtu_turn :=
  match rtu_read_rest (S (line_size p)) p request with
  | None => None
  | Some (p', Err _) => rtu_no_request d p'
  | Some (p', Ok []) => rtu_no_request d p'
  | Some (p', Ok request) =>
      let request := replaced (rh_after_read h) request in
      let '(d', r) := server_handle (rh_server h) d RTU request in
      match r with
      | Err _ => Some {| rt_line := p'; rt_db := d'; rt_handled := Some request; rt_written := None |}
      | Ok resp =>
          let resp := match rh_before_write h resp with Some b => Some b | None => resp end in
          Some {| rt_line := p'; rt_db := d'; rt_handled := Some request;
                  rt_written := if pending then None else sent resp |}
      end
  end.
(** RtuServer._do_run, modbus_rtu.py 259-314.  [block]: _block_on_first_byte.  [None]: blocked for
    ever in the first read. *)
Definition rtu_do_run (h : rtu_server_hooks) (block pending : bool) (d : databank) (p : line) : option rtu_turn :=
  if block then
    match serial_read_blocking p with
    | None => None
    | Some (p', Got b) => rtu_rest h pending d p' b
    | Some (p', Raised true) => rtu_rest h pending d p' []
    | Some (p', Raised false) => rtu_no_request d p'
    end
  else rtu_rest h pending d p [].
