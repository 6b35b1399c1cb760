(** The TCP server with functions installed at all six hooks of its loop, which may raise (modbus_tcp.py 284-360), and what becomes of
    the server thread (modbus.py 1062-1074).  As AvailModel.v otherwise.
    Simplification: an installed function is a function of its arguments; what call_hooks gives for it: a replacement or None, or an
    exception other than KeyError (call_hooks swallows KeyError, C50). *)
From Verif Require Import Base QueryModel DatabankModel DbSpec TransportModel AvailModel.

Record loop_hooks := {
  lh_connect : Z -> option exn;                          (* on_connect, 298: None - returns, Some e - raises e *)
  lh_disconnect : Z -> option exn;                       (* on_disconnect, 303 *)
  lh_after_recv : Z -> list Z -> res (option (list Z));  (* after_recv, 321 *)
  lh_before_send : Z -> list Z -> res (option (list Z)); (* before_send, 346 *)
  lh_after_send : Z -> list Z -> option exn;             (* after_send, 350 *)
  lh_error : option Z -> exn -> option exn               (* on_error, 358; None: the listening socket *)
}.
Definition quiet_hooks : loop_hooks :=
  {| lh_connect := fun _ => None; lh_disconnect := fun _ => None; lh_after_recv := fun _ _ => Ok None; lh_before_send := fun _ _ => Ok None;
     lh_after_send := fun _ _ => None; lh_error := fun _ _ => None |}.
Definition instead (r : option (list Z)) (b : list Z) : list Z := match r with Some b' => b' | None => b end.

(** One client socket, modbus_tcp.py 299-355; as [serve_client].  The try around the sending (345-355) keeps the exceptions of
    before_send (nothing is sent) and of after_send (the response is out) from the rest. *)
Definition serve_hooked (h : loop_hooks) (id : Z) (d : databank) (c : conn) : served :=
  match snd (recv 1 c) with
  | Err e => Failed e
  | Ok [] => Gone
  | Ok _ =>
      match read_more (missing 7 []) c [] with
      | (_, Err e) => Failed e
      | (c1, Ok (request, is_ok)) =>
          match lh_after_recv h id request with
          | Err e => Failed e
          | Ok replacement =>
              let request := instead replacement request in
              if is_ok then
                match get_request_length request with
                | Err e => Failed e
                | Ok length =>
                    match read_more (missing (length + 6) request) c1 request with
                    | (_, Err e) => Failed e
                    | (c2, Ok (request, false)) => Stays c2 d None None
                    | (c2, Ok (request, true)) =>
                        let '(d', r) := server_handle no_server_hooks d TCP request in
                        Stays c2 d' (Some request)
                          (match r with
                           | Ok resp => match sent resp with
                                        | Some b => match lh_before_send h id b with Ok r => Some (instead r b) | Err _ => None end
                                        | None => None
                                        end
                           | Err _ => None
                           end)
                    end
                end
              else Stays c1 d None None
          end
      end
  end.

(** _do_run, modbus_tcp.py 284-360: the server, the events, and whether the loop goes on (false: an exception left _do_run). *)
Fixpoint hooked_run (h : loop_hooks) (ready : list readiness) (s : tcp_server) : tcp_server * list tcp_event * bool :=
  match ready with
  | [] => (s, [], true)
  | ReadyListen accepted :: t =>
      if ts_listening s then
        let '(conns, raised) :=
          match accepted with
          | Ok (id, c) => (ts_conns s ++ [(id, c)], lh_connect h id)
          | Err e => (ts_conns s, Some e)
          end in
        match raised with
        | None => hooked_run h t {| ts_listening := true; ts_conns := conns; ts_db := ts_db s |}
        | Some e =>                                             (* 356-360 with sock = the listening socket *)
            match lh_error h None e with
            | None => hooked_run h t {| ts_listening := false; ts_conns := conns; ts_db := ts_db s |}
            | Some _ => ({| ts_listening := true; ts_conns := conns; ts_db := ts_db s |}, [], false)
            end
        end
      else hooked_run h t s
  | ReadyClient id :: t =>
      match assoc Z.eqb id (ts_conns s) with
      | None => hooked_run h t s
      | Some c =>
          let removed := {| ts_listening := ts_listening s; ts_conns := assoc_del Z.eqb id (ts_conns s); ts_db := ts_db s |} in
          let except e :=                                       (* 356-360 *)
            match lh_error h (Some id) e with None => hooked_run h t removed | Some _ => (s, [], false) end in
          match serve_hooked h id (ts_db s) c with
          | Gone => match lh_disconnect h id with None => (removed, [], true) | Some e => except e end
          | Failed e => except e
          | Stays c' d' handled out =>
              let s' := {| ts_listening := ts_listening s; ts_conns := assoc_put Z.eqb id c' (ts_conns s); ts_db := d' |} in
              let '(s'', ev, alive) := hooked_run h t s' in
              (s'', match handled with Some r => (id, r, out) :: ev | None => ev end, alive)
          end
      end
  end.
Definition hooked_turn (h : loop_hooks) (b : before_turn) (s : tcp_server) : tcp_server * list tcp_event * bool :=
  let s1 := {| ts_listening := ts_listening s; ts_conns := arrive (bt_arrivals b) (ts_conns s); ts_db := ts_db s |} in
  hooked_run h (selected s1 (bt_knock b)) s1.
(** The server thread, modbus.py 1062-1074: when an exception leaves _do_run the thread ends, without _do_exit: nothing is closed. *)
Fixpoint hooked_life (h : loop_hooks) (l : list before_turn) (s : tcp_server) : tcp_server * list tcp_event * bool :=
  match l with
  | [] => (s, [], true)
  | b :: t =>
      match hooked_turn h b s with
      | (s1, ev1, false) => (s1, ev1, false)
      | (s1, ev1, true) => let '(s2, ev2, alive) := hooked_life h t s1 in (s2, ev1 ++ ev2, alive)
      end
  end.
(** start() after the thread has ended: _do_init (modbus_tcp.py 261-270) binds a new socket, which fails (and ends the thread) while the
    old listening socket is open.  (Linux; SO_REUSEADDR does not help against a listening socket.) *)
Definition start_again (s : tcp_server) : tcp_server * bool :=
  if ts_listening s then (s, false) else ({| ts_listening := true; ts_conns := ts_conns s; ts_db := ts_db s |}, true).
