(** Several calls of one master, one after the other, with functions installed at its hooks that may replace what is sent and received,
    or raise: modbus.py 344-370 (before_send, after_send, after_recv of Master), modbus_tcp.py 193-227 (TcpMaster),
    modbus_rtu_over_tcp.py 21-34 (RtuOverTcpMaster: the same connection, RTU frames), modbus_rtu.py 124-170 (RtuMaster).
    Simplifications: as in SessionModel.v (the link is open before the first call); no local echo; a function that raises raises
    something other than a KeyError (which call_hooks takes for the absence of hooks, hooks.py 99-110, property C50). *)
From Verif Require Import Base PyStruct UtilsModel QueryModel MasterModel TransportModel SessionModel.

(** The functions installed for one call: None or Ok None leaves things as they are, Ok (Some b) replaces, Err raises. *)
Record call_hooks := {
  ch_before_send : list Z -> res (option (list Z));       (* modbus.Master.before_send, modbus.py 347 *)
  ch_mac_before_send : list Z -> res (option (list Z));   (* modbus_tcp 195, modbus_rtu 126 *)
  ch_after_send : option exn;                             (* modbus.Master.after_send, modbus.py 354 *)
  ch_mac_after_recv : list Z -> res (option (list Z));    (* modbus_tcp 224, modbus_rtu_over_tcp 31, modbus_rtu 167 *)
  ch_after_recv : list Z -> res (option (list Z))         (* modbus.Master.after_recv, modbus.py 359 *)
}.
Definition kept_or (r : option (list Z)) (b : list Z) : list Z := match r with Some x => x | None => b end.
(** modbus.py 347-349, then modbus_tcp.py 195-197 / modbus_rtu.py 126-128 *)
Definition before_sending (h : call_hooks) (request : list Z) : res (list Z) :=
  r1 <- ch_before_send h request ;;
  let request := kept_or r1 request in
  r2 <- ch_mac_before_send h request ;;
  Ok (kept_or r2 request).
(** modbus_tcp.py 224-227 (and its likes), then modbus.py 359-361 *)
Definition after_receiving (h : call_hooks) (response : list Z) : res (list Z) :=
  r1 <- ch_mac_after_recv h response ;;
  let response := kept_or r1 response in
  r2 <- ch_after_recv h response ;;
  Ok (kept_or r2 response).

(** What one exchange over a socket does: what it writes, what is in the receive buffer afterwards, the response or the exception. *)
Record done := { dn_written : option (list Z); dn_buf : rbuf; dn_response : res (list Z) }.
Definition left_in (c : conn) : rbuf := {| rb_data := concat (c_segs c); rb_closed := match c_end c with Closed => true | Stalled => false end |}.
(** [rtu]: an RtuOverTcpMaster.  When _recv never returns (property C49) the response is [Err NotModelled]. *)
Definition sock_recv (rtu : bool) (expected : Z) (c : conn) : option (conn * res (list Z)) :=
  if rtu then rtu_tcp_master_recv (length (concat (c_segs c)) + 300) no_hook expected c else tcp_master_recv no_hook c.
Definition sock_exchange (rtu : bool) (h : call_hooks) (b : rbuf) (n : net) (request : list Z) (expected : Z) : done :=
  match before_sending h request with
  | Err e => {| dn_written := None; dn_buf := at_flush b n; dn_response := Err e |}
  | Ok request =>
      match tcp_master_send no_hook (at_flush b n) (n_reopen n) request with
      | Err e => {| dn_written := None; dn_buf := {| rb_data := []; rb_closed := true |}; dn_response := Err e |}
      | Ok (on, written) =>
          let c := conn_on on n in
          match ch_after_send h with
          | Some e => {| dn_written := Some written; dn_buf := left_in c; dn_response := Err e |}
          | None =>
              match sock_recv rtu expected c with
              | Some (c', r) => {| dn_written := Some written; dn_buf := left_in c'; dn_response := response <- r ;; after_receiving h response |}
              | None => {| dn_written := Some written; dn_buf := left_in c; dn_response := Err NotModelled |}
              end
          end
      end
  end.
(** One call of execute, modbus.py 137-417: the state afterwards, what it did, what was written to the socket. *)
Definition sock_call (rtu : bool) (s : tcp_state) (a : exec_args) (h : call_hooks) (n : net) : tcp_state * (executed * option (list Z)) :=
  let exchange := sock_exchange rtu h (st_buf s) n in
  let e := execute (if rtu then RTU else TCP) (st_last s) a (fun request expected => dn_response (exchange request expected)) in
  match ex_sent e with
  | Some (request, expected) =>
      ({| st_last := ex_last e; st_buf := dn_buf (exchange request expected) |}, (e, dn_written (exchange request expected)))
  | None => ({| st_last := ex_last e; st_buf := at_flush (st_buf s) n |}, (e, None))
  end.
Fixpoint sock_session (rtu : bool) (s : tcp_state) (calls : list (exec_args * call_hooks * net)) : tcp_state * list (executed * option (list Z)) :=
  match calls with
  | [] => (s, [])
  | (a, h, n) :: t =>
      let '(s1, e) := sock_call rtu s a h n in
      let '(s2, es) := sock_session rtu s1 t in (s2, e :: es)
  end.

(** RtuMaster.  [pending]: what is in the input buffer of the port; [before]: what arrives before it is emptied (modbus_rtu.py 130);
    [after]: what happens on the line afterwards. *)
Definition reset_input_buffer (buffer : list Z) : list Z := [].
(** what is in the buffer is read before what arrives later *)
Definition then_arrives (buffer : list Z) (after : line) : line := match buffer with [] => after | _ => Burst buffer :: after end.
Definition heard (p : line) : list Z := flat_map (fun ev => match ev with Burst l => l | _ => [] end) p.
Record serial_done := { sd_written : option (list Z); sd_pending : list Z; sd_response : res (list Z) }.
Definition serial_exchange (h : call_hooks) (pending before : list Z) (after : line) (request : list Z) (expected : Z) : serial_done :=
  match before_sending h request with
  | Err e => {| sd_written := None; sd_pending := pending ++ before; sd_response := Err e |}
  | Ok request =>
      let p := then_arrives (reset_input_buffer (pending ++ before)) after in
      match ch_after_send h with
      | Some e => {| sd_written := Some request; sd_pending := heard p; sd_response := Err e |}
      | None =>
          match rtu_master_recv no_hook TPositive [] expected p with
          | Some (p', r) => {| sd_written := Some request; sd_pending := heard p'; sd_response := response <- r ;; after_receiving h response |}
          | None => {| sd_written := Some request; sd_pending := heard p; sd_response := Err NotModelled |}
          end
      end
  end.
Definition serial_call (pending : list Z) (a : exec_args) (h : call_hooks) (before : list Z) (after : line) : list Z * (executed * option (list Z)) :=
  let exchange := serial_exchange h pending before after in
  let e := execute RTU 0 a (fun request expected => sd_response (exchange request expected)) in
  match ex_sent e with
  | Some (request, expected) => (sd_pending (exchange request expected), (e, sd_written (exchange request expected)))
  | None => (pending ++ before, (e, None))
  end.
Fixpoint serial_session (pending : list Z) (calls : list (exec_args * call_hooks * (list Z * line))) : list Z * list (executed * option (list Z)) :=
  match calls with
  | [] => (pending, [])
  | (a, h, (before, after)) :: t =>
      let '(p1, e) := serial_call pending a h before after in
      let '(p2, es) := serial_session p1 t in (p2, e :: es)
  end.
