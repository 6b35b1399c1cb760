(** A master and a server joined by a socket or a serial line that cuts what it carries into
    arbitrary pieces. *)
From Verif Require Import Base Spec QueryModel DatabankModel MasterModel MasterSpec TransportModel TransportSpec.

(** The connection delivers the request cut by [cut_req] to the server and the response cut by
    [cut_resp] to the master; after them nothing comes. *)
Definition tcp_exchange (cut_req cut_resp : list Z -> list (list Z)) (d : databank) (request : list Z) : res (list Z) :=
  match serve_client no_tcp_hooks d {| c_segs := cut_req request; c_end := Stalled |} with
  | Stays _ _ _ (Some out) =>
      match tcp_master_recv no_hook {| c_segs := cut_resp out; c_end := Stalled |} with
      | Some (_, r) => r
      | None => Err NotModelled
      end
  | _ => Err SocketTimeout
  end.
Definition over_tcp (cut_req cut_resp : list Z -> list (list Z)) (last : Z) (d : databank) (u : Z) (c : call) : databank * executed :=
  let e := execute TCP last (args_of u c) (fun request _ => tcp_exchange cut_req cut_resp d request) in
  (match ex_sent e with
   | Some (request, _) =>
       match serve_client no_tcp_hooks d {| c_segs := cut_req request; c_end := Stalled |} with
       | Stays _ d' _ _ => d'
       | _ => d
       end
   | None => d
   end, e).

(** The serial line: the same, each frame followed by a silence; a server that does not answer leaves only the silence. *)
Definition serial_exchange (cut_req cut_resp : list Z -> list (list Z)) (d : databank) (request : list Z) (expected : Z) : res (list Z) :=
  match rtu_do_run no_rtu_hooks true false d (map Burst (cut_req request) ++ [Silence]) with
  | Some t =>
      match rtu_master_recv no_hook TPositive [] expected
              (match rt_written t with Some out => map Burst (cut_resp out) | None => [] end ++ [Silence]) with
      | Some (_, r) => r
      | None => Err NotModelled
      end
  | None => Err SocketTimeout
  end.
Definition over_serial (cut_req cut_resp : list Z -> list (list Z)) (last : Z) (d : databank) (u : Z) (c : call) : databank * executed :=
  let e := execute RTU last (args_of u c) (serial_exchange cut_req cut_resp d) in
  (match ex_sent e with
   | Some (request, _) =>
       match rtu_do_run no_rtu_hooks true false d (map Burst (cut_req request) ++ [Silence]) with
       | Some t => rt_db t
       | None => d
       end
   | None => d
   end, e).

(** A gateway that answers RTU frames on a TCP connection: what an RtuOverTcpMaster gets. *)
Definition rtu_tcp_exchange (fuel : nat) (cut_resp : list Z -> list (list Z)) (d : databank) (request : list Z) (expected : Z) : res (list Z) :=
  match served_request d RTU request with
  | (_, Some out) =>
      match rtu_tcp_master_recv fuel no_hook expected {| c_segs := cut_resp out; c_end := Stalled |} with
      | Some (_, r) => r
      | None => Err NotModelled
      end
  | (_, None) => Err SocketTimeout
  end.
Definition over_rtu_tcp (fuel : nat) (cut_resp : list Z -> list (list Z)) (last : Z) (d : databank) (u : Z) (c : call) : databank * executed :=
  let e := execute RTU last (args_of u c) (rtu_tcp_exchange fuel cut_resp d) in
  (match ex_sent e with Some (request, _) => fst (served_request d RTU request) | None => d end, e).

(** [cut] cuts every frame into non-empty pieces. *)
Definition cutting (cut : list Z -> list (list Z)) : Prop := forall l, cut_into l (cut l).
