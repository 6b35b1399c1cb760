(** The masters with their log calls.

    Models: Master.execute (modbus.py 137-417) with the LOGGER calls of 355 and 367, TcpMaster._send (modbus_tcp.py 193-205) with that of 203,
    a session of calls as in SessionModel.v, RtuMaster as rtu_call of SessionModel.v.
    Simplifications: as LoggingModel.v and SessionModel.v; [lg_verbose]: Master.set_verbose (modbus.py 123-125).
    Flushing fails only for the limit of the loop (utils.py 61-62), so tx_str GenericException is its text in the line of modbus_tcp.py 203. *)
From Coq Require Import String.
From Verif Require Import Base PyStruct UtilsModel QueryModel MasterModel TransportModel SessionModel TextModel LogModel LoggingModel.
Open Scope string_scope.
Open Scope list_scope.
Open Scope Z_scope.

Section Logged.
Variable lg : logger.
Variable tx : texts.

(** "if self._verbose: LOGGER.debug(...)", modbus.py 354-355, 366-367 *)
Definition lm_log (prefix : string) (frame : list Z) : output * option exn :=
  if lg_verbose lg then log lg tx DEBUG "modbus.execute" (get_log_buffer prefix frame) else ([], None).
(** Master.execute; as MasterModel.execute.  [exchange]: _send and _recv, with what they log. *)
Definition lm_execute (p : proto) (last : Z) (a : exec_args) (exchange : list Z -> Z -> output * res (list Z)) : output * executed :=
  match execute_build a with
  | Err e => ([], {| ex_last := last; ex_sent := None; ex_result := Some (Err e) |})
  | Ok b =>
      let '(last', r) := build_request p last (bl_pdu b) (ea_slave a) in
      match r with
      | Err e => ([], {| ex_last := last'; ex_sent := None; ex_result := Some (Err e) |})
      | Ok (hdr, request) =>
          match lm_log "-> " request with
          | (o, Some e) => (o, {| ex_last := last'; ex_sent := None; ex_result := Some (Err e) |})
          | (o, None) =>
              let ends r := {| ex_last := last'; ex_sent := Some (request, bl_expected b); ex_result := r |} in
              let '(o1, x) := exchange request (bl_expected b) in
              said (o ++ o1)
                (match x with
                 | Err e => ([], ends (Some (Err e)))
                 | Ok response =>
                     match lm_log "<- " response with
                     | (o2, Some e) => (o2, ends (Some (Err e)))
                     | (o2, None) =>
                         (o2, ends (match parse_response hdr response with
                                    | Err e => Some (Err e)
                                    | Ok response_pdu => execute_decode (file_fuel response_pdu) a b response_pdu
                                    end))
                     end
                 end)
          end
      end
  end.

(** TcpMaster._send then _recv; as SessionModel.tcp_send_recv.  If the log call raises there is no reconnection: the connection stays as the
    flush left it. *)
Definition lm_send_recv (b : rbuf) (n : net) (request : list Z) : output * (rbuf * res (list Z)) :=
  match flush_socket (at_flush b n) 3 with
  | (_, Ok _) => ([], tcp_send_recv b n request)
  | (b', Err e) =>
      match log lg tx ERROR "modbus_tcp._send" (append "Error while flushing the socket: " (tx_str tx e)) with
      | (o, Some e') => (o, (b', Err e'))
      | (o, None) => (o, tcp_send_recv b n request)
      end
  end.
(** as SessionModel.tcp_call and tcp_session *)
Definition lm_call (s : tcp_state) (a : exec_args) (n : net) : output * (tcp_state * executed) :=
  let '(o, e) := lm_execute TCP (st_last s) a (fun request _ => let '(o, (_, r)) := lm_send_recv (st_buf s) n request in (o, r)) in
  (o, ({| st_last := ex_last e;
          st_buf := match ex_sent e with
                    | Some (request, _) => fst (snd (lm_send_recv (st_buf s) n request))
                    | None => at_flush (st_buf s) n
                    end |}, e)).
Fixpoint lm_session (s : tcp_state) (calls : list (exec_args * net)) : output * (tcp_state * list executed) :=
  match calls with
  | [] => ([], (s, []))
  | (a, n) :: t =>
      let '(o, (s1, e)) := lm_call s a n in
      let '(o', (s2, es)) := lm_session s1 t in (o ++ o', (s2, e :: es))
  end.
(** as SessionModel.rtu_call *)
Definition lm_rtu_call (a : exec_args) (after : line) : output * executed :=
  lm_execute RTU 0 a (fun _ expected =>
    ([], match rtu_master_recv no_hook TPositive [] expected after with Some (_, r) => r | None => Err NotModelled end)).
End Logged.
