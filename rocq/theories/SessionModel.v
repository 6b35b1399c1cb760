(** Several calls of one TcpMaster, one after the other (modbus.py 137-417, modbus_tcp.py 193-227): what is left unread by a call is
    there when the next one flushes the socket.
    Simplifications: no hooks; the connection is open before the first call (opening: OpenModel.v); bytes that have not arrived when
    a call ends are described with the call during which they arrive. *)
From Verif Require Import Base PyStruct UtilsModel QueryModel MasterModel TransportModel.

(** What the network does during one call: bytes arriving between the end of the previous call and the flush (utils.py 47-63), whether
    the peer has closed by then, the result of a reconnection if one is tried, and what arrives after the request was written. *)
Record net := { n_before : list Z; n_closed : bool; n_reopen : res unit; n_after : conn }.
(** The master between two calls: TcpQuery._last_transaction_id (modbus_tcp.py 99) and what is in the receive buffer. *)
Record tcp_state := { st_last : Z; st_buf : rbuf }.

(** The receive buffer when the flush begins. *)
Definition at_flush (b : rbuf) (n : net) : rbuf :=
  {| rb_data := rb_data b ++ n_before n; rb_closed := rb_closed b || n_closed n |}.
(** The connection after the request was written. *)
Definition conn_on (on : sent_on) (n : net) : conn :=
  match on with
  | SameConnection b => {| c_segs := rb_data b :: c_segs (n_after n); c_end := c_end (n_after n) |}
  | NewConnection => n_after n
  end.
(** _send (modbus_tcp.py 193-205) then _recv (207-227): the buffer left behind and the response or the exception.
    After a failed reconnection the socket is not connected: the next flush fails again (modbus_tcp.py 199-204). *)
Definition tcp_send_recv (b : rbuf) (n : net) (request : list Z) : rbuf * res (list Z) :=
  match tcp_master_send no_hook (at_flush b n) (n_reopen n) request with
  | Err e => ({| rb_data := []; rb_closed := true |}, Err e)
  | Ok (on, _) =>
      match tcp_master_recv no_hook (conn_on on n) with
      | Some (c, r) => ({| rb_data := concat (c_segs c); rb_closed := match c_end c with Closed => true | Stalled => false end |}, r)
      | None => (b, Err NotModelled)
      end
  end.
(** One call of execute, modbus.py 137-417. *)
Definition tcp_call (s : tcp_state) (a : exec_args) (n : net) : tcp_state * executed :=
  let e := execute TCP (st_last s) a (fun request _ => snd (tcp_send_recv (st_buf s) n request)) in
  ({| st_last := ex_last e;
      st_buf := match ex_sent e with
                | Some (request, _) => fst (tcp_send_recv (st_buf s) n request)
                | None => at_flush (st_buf s) n
                end |}, e).
(** A session. *)
Fixpoint tcp_session (s : tcp_state) (calls : list (exec_args * net)) : tcp_state * list executed :=
  match calls with
  | [] => (s, [])
  | (a, n) :: t =>
      let '(s1, e) := tcp_call s a n in
      let '(s2, es) := tcp_session s1 t in (s2, e :: es)
  end.

(** RtuMaster: _send (modbus_rtu.py 124-140, without local echo) empties the input buffer, then _recv (142-170).  [after]: what arrives
    after that. *)
Definition rtu_call (a : exec_args) (after : line) : executed :=
  execute RTU 0 a (fun _ expected =>
    match rtu_master_recv no_hook TPositive [] expected after with Some (_, r) => r | None => Err NotModelled end).
