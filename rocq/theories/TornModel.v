(** sock.send may accept only the first bytes of what it is given and returns how many; neither TcpMaster._send (modbus_tcp.py 205) nor
    TcpServer._do_run (modbus_tcp.py 349) looks at the number or sends the rest.
    Simplifications: no hooks; one master, its connection open and flushed. *)
From Verif Require Import Base QueryModel DatabankModel MasterModel MasterSpec TransportModel.

(** sock.send(data) when the operating system accepts [n] bytes: what goes out. *)
Definition accepted (n : nat) (data : list Z) : list Z := firstn n data.

(** A call during which the operating system accepts [n] bytes of the request and [m] bytes of the response.  A server that waits in
    vain for the rest of a request closes the connection after its timeout of one second (modbus_tcp.py 310, 356-360); [impatient]: the
    master's own timeout is shorter. *)
Definition torn_exchange (n m : nat) (impatient : bool) (cut_req cut_resp : list Z -> list (list Z)) (d : databank) (request : list Z) : res (list Z) :=
  match serve_client no_tcp_hooks d {| c_segs := cut_req (accepted n request); c_end := Stalled |} with
  | Stays _ _ _ (Some out) =>
      match tcp_master_recv no_hook {| c_segs := cut_resp (accepted m out); c_end := Stalled |} with
      | Some (_, r) => r
      | None => Err NotModelled
      end
  | Stays _ _ _ None => Err SocketTimeout
  | Failed _ | Gone =>
      match tcp_master_recv no_hook {| c_segs := []; c_end := if impatient then Stalled else Closed |} with
      | Some (_, r) => r
      | None => Err NotModelled
      end
  end.
Definition torn_call (n m : nat) (impatient : bool) (cut_req cut_resp : list Z -> list (list Z)) (last : Z) (d : databank) (u : Z) (c : call) : databank * executed :=
  let e := execute TCP last (args_of u c) (fun request _ => torn_exchange n m impatient cut_req cut_resp d request) in
  (match ex_sent e with
   | Some (request, _) =>
       match serve_client no_tcp_hooks d {| c_segs := cut_req (accepted n request); c_end := Stalled |} with
       | Stays _ d' _ _ => d'
       | _ => d
       end
   | None => d
   end, e).
