(** The TCP sockets in time: how long a call of a TcpMaster and a turn of a TcpServer can take.

    Models: TcpMaster._recv (modbus_tcp.py 207-227), RtuOverTcpMaster._recv (modbus_rtu_over_tcp.py 21-34), TcpServer._do_run (284-360, client
    sockets), Server._run_server and stop (modbus.py 1056-1068); socket.recv(1) with settimeout: the timeout counts for each recv.
    Times are integers in any unit.  [lag n]: the time the program spends before its n-th operation; arbitrary.
    Simplifications: no hooks (the time they take is part of the lag), accept and send do not block, as in TransportModel.v. *)
From Verif Require Import Base DatabankModel QueryModel TransportModel.

(** [s_line]: the bytes to come, each with the time at which the operating system has it; [s_fin]: when the peer closes, after them *)
Record tsock := { s_line : list (Z * Z); s_fin : option Z }.
Record clock := { k_now : Z; k_ops : nat }.

Section Timed.
Variable lag : nat -> Z.
(** sock.recv(1) with sock.settimeout([t]) *)
Definition trecv1 (t : Z) (k : clock) (s : tsock) : clock * tsock * res (list Z) :=
  let now := k_now k + lag (k_ops k) in
  let at_ x := {| k_now := x; k_ops := S (k_ops k) |} in
  match s_line s with
  | (a, b) :: l => if a <=? now + t then (at_ (Z.max now a), {| s_line := l; s_fin := s_fin s |}, Ok [b]) else (at_ (now + t), s, Err SocketTimeout)
  | [] => match s_fin s with
          | Some c => if c <=? now + t then (at_ (Z.max now c), s, Ok []) else (at_ (now + t), s, Err SocketTimeout)
          | None => (at_ (now + t), s, Err SocketTimeout)
          end
  end.
(** TcpMaster._recv, modbus_tcp.py 213-223; as TransportModel.tcp_recv_loop *)
Fixpoint t_tcp_recv (fuel : nat) (t : Z) (k : clock) (s : tsock) (response : list Z) (length : Z) : option (clock * tsock * res (list Z)) :=
  match fuel with
  | O => None
  | S m =>
      if zlen response <? length then
        match trecv1 t k s with
        | (k', s', Err e) => Some (k', s', Err e)
        | (k', s', Ok []) => Some (k', s', Ok response)
        | (k', s', Ok rcv_byte) =>
            let response := response ++ rcv_byte in
            if zlen response =? 6 then
              match third_word response with
              | Err e => Some (k', s', Err e)
              | Ok n => t_tcp_recv m t k' s' response (n + 6)
              end
            else t_tcp_recv m t k' s' response length
        end
      else Some (k, s, Ok response)
  end.
(** RtuOverTcpMaster._recv, modbus_rtu_over_tcp.py 23-30; as TransportModel.rtu_tcp_recv_loop *)
Fixpoint t_rtu_tcp_recv (fuel : nat) (t : Z) (k : clock) (s : tsock) (response : list Z) (expected_length : Z) : option (clock * tsock * res (list Z)) :=
  match fuel with
  | O => None
  | S m =>
      if zlen response <? 255 then
        match trecv1 t k s with
        | (k', s', Err e) => Some (k', s', Err e)
        | (k', s', Ok rcv_byte) =>
            let response := match rcv_byte with [] => response | _ => response ++ rcv_byte end in
            if (0 <=? expected_length) && (expected_length <=? zlen response) then Some (k', s', Ok response)
            else t_rtu_tcp_recv m t k' s' response expected_length
        end
      else Some (k, s, Ok response)
  end.
(** modbus_tcp.py 314-319, 328-333; as TransportModel.read_more *)
Fixpoint t_read_more (n : nat) (t : Z) (k : clock) (s : tsock) (request : list Z) : clock * tsock * res (list Z * bool) :=
  match n with
  | O => (k, s, Ok (request, true))
  | S m =>
      match trecv1 t k s with
      | (k', s', Err e) => (k', s', Err e)
      | (k', s', Ok []) => (k', s', Ok (request, false))
      | (k', s', Ok new_byte) => t_read_more m t k' s' (request ++ new_byte)
      end
  end.
(** one client socket in one turn, modbus_tcp.py 299-360; as TransportModel.serve_client.  [t]: the 1.0 of line 309.  The peek of line 300 comes after select, so it finds
    something; here it may also wait up to [t] *)
Inductive t_served := TGone | TFailed (e : exn) | TStays (s : tsock) (d : databank) (handled out : option (list Z)).
Definition t_visit (t : Z) (d : databank) (k : clock) (s : tsock) : clock * t_served :=
  match trecv1 t k s with                                              (* MSG_PEEK *)
  | (k0, _, Err e) => (k0, TFailed e)
  | (k0, _, Ok []) => (k0, TGone)
  | (k0, _, Ok _) =>
      match t_read_more (missing 7 []) t k0 s [] with
      | (k1, _, Err e) => (k1, TFailed e)
      | (k1, s1, Ok (request, is_ok)) =>
          if is_ok then
            match get_request_length request with
            | Err e => (k1, TFailed e)
            | Ok length =>
                match t_read_more (missing (length + 6) request) t k1 s1 request with
                | (k2, _, Err e) => (k2, TFailed e)
                | (k2, s2, Ok (request, false)) => (k2, TStays s2 d None None)
                | (k2, s2, Ok (request, true)) =>
                    let '(d', r) := db_handle_request d TCP request in
                    ({| k_now := k_now k2 + lag (k_ops k2); k_ops := S (k_ops k2) |},
                     TStays s2 d' (Some request) (match r with Ok resp => sent resp | Err _ => None end))
                end
            end
          else (k1, TStays s1 d None None)
      end
  end.
(** the clients select reported, one after the other; a client that is gone ends the turn (306: break) *)
Fixpoint t_turn (t : Z) (d : databank) (k : clock) (ready : list tsock) : clock * databank * list t_served :=
  match ready with
  | [] => (k, d, [])
  | s :: rest =>
      match t_visit t d k s with
      | (k1, TGone) => (k1, d, [TGone])
      | (k1, TFailed e) => let '(k2, d2, l) := t_turn t d k1 rest in (k2, d2, TFailed e :: l)
      | (k1, TStays s' d' h o) => let '(k2, d2, l) := t_turn t d' k1 rest in (k2, d2, TStays s' d' h o :: l)
      end
  end.
(** _do_run: select waits [waited], at most one second (287) *)
Definition t_do_run (t : Z) (waited : Z) (d : databank) (k : clock) (ready : list tsock) : clock * databank * list t_served :=
  t_turn t d {| k_now := k_now k + lag (k_ops k) + waited; k_ops := S (k_ops k) |} ready.
End Timed.
