(** Several TcpMasters, each with its own connection, calling one TcpServer (modbus_tcp.py 162-227 and 230-360, modbus.py 137-417),
    while the application that owns the server also works on the databank directly (modbus.py 1002-1110).
    Simplifications: the connections are open from the start (opening and closing: OpenModel.v, TransportModel.v); one turn of the
    server serves one ready client (_do_run, modbus_tcp.py 307-360, serves the ready clients one after the other: TransportModel.v,
    [tcp_do_run]); the server answers, or has decided not to, before the master's socket timeout expires (late answers:
    SessionModel.v); no hooks; a direct operation of the application happens between two requests (operations on one slave exclude
    each other by its lock: ConcModel.v and C71). *)
From Verif Require Import Base SlaveModel UtilsModel QueryModel DatabankModel MasterModel MasterSpec DbSpec TransportModel.

(** Where a master is: not in a call; its request is on the way; the server is done with the request. *)
Inductive phase := Idle | Asked (u : Z) (c : call) | Handled (u : Z) (c : call).
(** One master: TcpQuery._last_transaction_id (modbus_tcp.py 99), the calls its program still makes, where it is, the bytes on the way
    to the server and to the master, and what its calls returned so far.  The counter is advanced by the call in which it is advanced
    (modbus_tcp.py 107-113); as a master makes one call at a time, the model writes it back when the call ends. *)
Record peer := {
  k_last : Z; k_todo : list (Z * call); k_phase : phase; k_up : conn; k_down : conn;
  k_done : list (option (res exec_result))
}.
Record network := { net_db : databank; net_peers : list peer }.

(** execute up to _send, modbus.py 145-358 and modbus_tcp.py 193-205.  An exception before anything is sent ends the call.
    [cut]: how the network cuts the request into pieces. *)
Definition peer_send (cut : list Z -> list (list Z)) (k : peer) : peer :=
  match k_phase k, k_todo k with
  | Idle, (u, c) :: rest =>
      let e := execute TCP (k_last k) (args_of u c) (fun _ _ => Err NotModelled) in
      match ex_sent e with
      | None => {| k_last := ex_last e; k_todo := rest; k_phase := Idle; k_up := k_up k; k_down := k_down k;
                   k_done := k_done k ++ [ex_result e] |}
      | Some (request, _) =>
          match tcp_master_send no_hook {| rb_data := concat (c_segs (k_down k)); rb_closed := false |} (Ok tt) request with
          | Ok (SameConnection b, out) =>
              {| k_last := k_last k; k_todo := rest; k_phase := Asked u c;
                 k_up := {| c_segs := c_segs (k_up k) ++ cut out; c_end := Stalled |};
                 k_down := {| c_segs := [rb_data b]; c_end := Stalled |}; k_done := k_done k |}
          | Ok (NewConnection, out) =>
              {| k_last := k_last k; k_todo := rest; k_phase := Asked u c;
                 k_up := {| c_segs := cut out; c_end := Stalled |};
                 k_down := {| c_segs := []; c_end := Stalled |}; k_done := k_done k |}
          | Err e => k
          end
      end
  | _, _ => k
  end.
(** The server's turn for this client, modbus_tcp.py 307-355.  select reports only clients with something to read. *)
Definition peer_serve (cut : list Z -> list (list Z)) (d : databank) (k : peer) : databank * peer :=
  match k_phase k with
  | Asked u c =>
      match serve_client no_tcp_hooks d (k_up k) with
      | Stays up d' _ out =>
          (d', {| k_last := k_last k; k_todo := k_todo k; k_phase := Handled u c; k_up := up;
                  k_down := {| c_segs := c_segs (k_down k) ++ match out with Some b => cut b | None => [] end; c_end := Stalled |};
                  k_done := k_done k |})
      | _ => (d, k)
      end
  | _ => (d, k)
  end.
(** execute from _recv on, modbus.py 359-417 and modbus_tcp.py 207-227: what the call gets once the server is done with the request. *)
Definition peer_recv (k : peer) : peer :=
  match k_phase k with
  | Handled u c =>
      match tcp_master_recv no_hook (k_down k) with
      | Some (down, r) =>
          let e := execute TCP (k_last k) (args_of u c) (fun _ _ => r) in
          {| k_last := ex_last e; k_todo := k_todo k; k_phase := Idle; k_up := k_up k; k_down := down;
             k_done := k_done k ++ [ex_result e] |}
      | None => k
      end
  | _ => k
  end.

(** One step of the network.  Steps that are not possible do nothing. *)
Inductive action :=
| Send (i : nat) (cut : list Z -> list (list Z))
| Serve (i : nat) (cut : list Z -> list (list Z))
| Receive (i : nat)
| Direct (o : db_op).
Definition net_step (w : network) (a : action) : network :=
  match a with
  | Send i cut =>
      match nth_error (net_peers w) i with
      | Some k => {| net_db := net_db w; net_peers := list_upd (net_peers w) i (peer_send cut k) |}
      | None => w
      end
  | Serve i cut =>
      match nth_error (net_peers w) i with
      | Some k => let '(d, k') := peer_serve cut (net_db w) k in {| net_db := d; net_peers := list_upd (net_peers w) i k' |}
      | None => w
      end
  | Receive i =>
      match nth_error (net_peers w) i with
      | Some k => {| net_db := net_db w; net_peers := list_upd (net_peers w) i (peer_recv k) |}
      | None => w
      end
  | Direct o => {| net_db := db_step (net_db w) o; net_peers := net_peers w |}
  end.
Definition net_run (w : network) (schedule : list action) : network := fold_left net_step schedule w.

(** At the beginning: new masters (modbus_tcp.py 95-99), connected, nothing on the way. *)
Definition new_peer (program : list (Z * call)) : peer :=
  {| k_last := 0; k_todo := program; k_phase := Idle; k_up := {| c_segs := []; c_end := Stalled |};
     k_down := {| c_segs := []; c_end := Stalled |}; k_done := [] |}.
Definition network_of (d : databank) (programs : list (list (Z * call))) : network :=
  {| net_db := d; net_peers := map new_peer programs |}.
