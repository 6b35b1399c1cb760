(** The logger of the library and the TCP server with its log calls.

    Models: utils.py 72-128 (the three handlers, create_logger), the LOGGER calls of modbus.py (565, 607, 765, 772, 970, 974, 978, 1071, 1080,
    1095) and modbus_tcp.py (296, 302, 341, 357), the code around them as in SlaveModel.v, DatabankModel.v, AvailModel.v.
    The standard library: logging.Logger (a record below the level is dropped, else given to the handlers in order), logging.Handler.handle
    (calls emit; an exception emit does not catch leaves the LOGGER call), socket.sendto on a UDP socket (OSError above 65507 bytes).
    Simplifications: [tx_str], [tx_addr], [tx_fd], [tx_prefix] stand for str(exception), str(address), sock.fileno() as text (None: the listening socket) and what the formatter puts before the message
    (time, level, function, thread); characters are below 256; print does not fail; no hooks; sending on a socket succeeds. *)
From Coq Require Import String Ascii.
From Verif Require Import Base PyStruct Defines SlaveModel QueryModel DatabankModel TransportModel AvailModel TextModel LogModel.
Open Scope string_scope.
Open Scope list_scope.
Open Scope Z_scope.

Definition DEBUG : Z := 10.
Definition WARNING : Z := 30.
Definition ERROR : Z := 40.

(** ConsoleHandler 72-81, LogitHandler 84-99, DummyHandler 102-111 *)
Inductive handler := Dummy | Console | Udp.
Record record := { rec_level : Z; rec_site : string; rec_text : string }.
(** [lg_verbose]: Server.set_verbose (modbus.py 1019-1021) *)
Record logger := { lg_level : Z; lg_handlers : list handler; lg_verbose : bool }.
Record texts := { tx_str : exn -> string; tx_addr : Z -> string; tx_fd : option Z -> string; tx_prefix : record -> string }.

Definition is_plain (c : ascii) : bool := Z.of_nat (nat_of_ascii c) <? 128.
Fixpoint plain (s : string) : bool := match s with EmptyString => true | String c t => is_plain c && plain t end.
Definition slen (s : string) : Z := Z.of_nat (String.length s).
(** emit: None, or the exception it raises.  LogitHandler, utils.py 93-99: to_data encodes in ASCII; "\r\n" is added. *)
Definition emit (tx : texts) (h : handler) (r : record) : option exn :=
  match h with
  | Dummy | Console => None
  | Udp => let data := append (tx_prefix tx r) (rec_text r) in
           if negb (plain data) then Some PyValueError                 (* UnicodeEncodeError *)
           else if 65507 <? slen data + 2 then Some SocketTimeout      (* OSError: message too long *)
           else None
  end.
(** what has been written: by which kind of handler, which record *)
Definition output := list (handler * record).
Fixpoint call_handlers (tx : texts) (hs : list handler) (r : record) : output * option exn :=
  match hs with
  | [] => ([], None)
  | h :: t => match emit tx h r with
              | Some e => ([], Some e)
              | None => let '(o, x) := call_handlers tx t r in ((h, r) :: o, x)
              end
  end.
Definition log (lg : logger) (tx : texts) (level : Z) (site text : string) : output * option exn :=
  if level <? lg_level lg then ([], None)
  else call_handlers tx (lg_handlers lg) {| rec_level := level; rec_site := site; rec_text := text |}.
(** create_logger, utils.py 114-128: the level is set, one more handler is added to the one logger of the library *)
Definition create_logger (name : string) (level : Z) (lg : logger) : logger * res unit :=
  let lg1 := {| lg_level := level; lg_handlers := lg_handlers lg; lg_verbose := lg_verbose lg |} in
  let add h := ({| lg_level := level; lg_handlers := lg_handlers lg ++ [h]; lg_verbose := lg_verbose lg |}, Ok tt) in
  if String.eqb name "udp" then add Udp
  else if String.eqb name "console" then add Console
  else if String.eqb name "dummy" then add Dummy
  else (lg1, Err GenericException).

Section Logged.
Variable lg : logger.
Variable tx : texts.

(** LOGGER.x(text), then [k]; an exception becomes the result *)
Definition said {A} (o : output) (x : output * A) : output * A := (o ++ fst x, snd x).

(** the except clause of Slave.handle_request, modbus.py 771-774 *)
Definition l_catch_modbus (fc : Z) (r : res (list Z)) : output * res (list Z) :=
  match r with
  | Err (ModbusError code) =>
      match log lg tx DEBUG "modbus.handle_request" (tx_str tx (ModbusError code)) with
      | (o, Some e) => (o, Err e)
      | (o, None) => (o, catch_modbus_error fc r)
      end
  | _ => ([], r)
  end.
(** modbus.py 563-566 and 604-608: the message about the quantity, before the ModbusError *)
Definition quantity_text (fc : Z) (pdu : list Z) : option (string * string) :=
  let bad q := (q <=? 0) || (125 <? q) in
  if (fc =? READ_INPUT_REGISTERS) || (fc =? READ_HOLDING_REGISTERS) then
    match unpack2 ">HH" (py_slice pdu 1 5) with
    | Ok (_, q) => if bad q then Some ("modbus._read_registers", append "quantity_of_x is " (py_str q)) else None
    | Err _ => None
    end
  else if fc =? READ_WRITE_MULTIPLE_REGISTERS then
    match unpack5 ">HHHHB" (py_slice pdu 1 10) with
    | Ok (_, q, _, _, _) => if bad q then Some ("modbus._read_write_multiple_registers", append "quantity_of_x_to_read is " (py_str q)) else None
    | Err _ => None
    end
  else None.
(** Slave.handle_request, modbus.py 731-774; as SlaveModel.handle_request *)
Definition l_slave (s : slave) (pdu : list Z) (broadcast : bool) : output * (slave * res (list Z)) :=
  let back (s : slave) (x : output * res (list Z)) := (fst x, (s, snd x)) in
  match unpack1 ">B" (py_slice pdu 0 1) with
  | Err e => ([], (s, Err e))
  | Ok fc =>
      match fn_code_map fc with
      | None => back s (l_catch_modbus fc (Err (ModbusError ILLEGAL_FUNCTION)))
      | Some f =>
          if broadcast && cant_be_broadcasted fc then ([], (s, Err ModbusInvalidRequestError))
          else
            match (match quantity_text fc pdu with Some (site, t) => log lg tx DEBUG site t | None => ([], None) end) with
            | (o, Some e) => (o, (s, Err e))
            | (o, None) =>
                said o
                  (let '(s', r) := f s pdu in
                   match r with
                   | Err e => back s' (l_catch_modbus fc (Err e))
                   | Ok [] => ([], (s', Err GenericException))
                   | Ok response_pdu =>
                       if broadcast then
                         match log lg tx DEBUG "modbus.handle_request" (append "broadcast: " (get_log_buffer "!!" response_pdu)) with
                         | (o, Some e) => (o, (s', Err e))
                         | (o, None) => (o, (s', Ok []))
                         end
                       else ([], (s', h <- pack ">B" [fc] ;; Ok (h ++ response_pdu)))
                   end)
            end
      end
  end.

(** modbus.py 952-953 *)
Fixpoint l_broadcast (l : list (Z * slave)) (pdu : list Z) : output * (list (Z * slave) * res unit) :=
  match l with
  | [] => ([], ([], Ok tt))
  | (k, s) :: t =>
      match l_slave s pdu true with
      | (o, (s', Err e)) => (o, ((k, s') :: t, Err e))
      | (o, (s', Ok _)) => let '(o', (t', r')) := l_broadcast t pdu in (o ++ o', ((k, s') :: t', r'))
      end
  end.
(** modbus.py 968-985 *)
Definition l_db_catch (e : exn) (pdu : list Z) : output * res response :=
  let text := match e with ModbusInvalidRequestError => append "invalid request: " (tx_str tx e) | _ => append "handle request failed: " (tx_str tx e) end in
  match log lg tx ERROR "modbus.handle_request" text with
  | (o, Some e') => (o, Err e')
  | (o, None) => (o, db_catch e pdu)
  end.
(** Databank.handle_request, modbus.py 940-985; as DatabankModel.db_handle_request *)
Definition l_databank (d : databank) (p : proto) (request : list Z) : output * (databank * res response) :=
  let back (d : databank) (x : output * res response) := (fst x, (d, snd x)) in
  match parse_request p request with
  | Err e => back d (l_db_catch e [])
  | Ok (hdr, slave_id, pdu) =>
      if slave_id =? 0 then
        let '(o, (l, r)) := l_broadcast (db_slaves d) pdu in
        let d' := with_slaves d l in
        said o (match r with
                | Ok _ => ([], (d', Ok None))
                | Err e => back d' (l_db_catch e pdu)
                end)
      else
        match get_slave d slave_id with
        | Err MissingKeyError =>
            if db_error_on_missing d then back d (l_db_catch MissingKeyError pdu) else ([], (d, Ok (Some [])))
        | Err e => back d (l_db_catch e pdu)
        | Ok s =>
            let '(o, (s', r)) := l_slave s pdu false in
            let d' := put_slave d slave_id s' in
            said o (match (response_pdu <- r ;; build_response hdr response_pdu) with
                    | Ok b => ([], (d', Ok (Some b)))
                    | Err e => back d' (l_db_catch e pdu)
                    end)
        end
  end.
(** Server._handle, modbus.py 1076-1096 *)
Definition l_handle (d : databank) (p : proto) (request : list Z) : output * (databank * res response) :=
  match (if lg_verbose lg then log lg tx DEBUG "modbus._handle" (get_log_buffer "-->" request) else ([], None)) with
  | (o, Some e) => (o, (d, Err e))
  | (o, None) =>
      said o
        (let '(o1, (d', r)) := l_databank d p request in
         said o1
           (match r with
            | Err e => ([], (d', Err e))
            | Ok resp =>
                match sent resp with
                | Some b =>
                    match (if lg_verbose lg then log lg tx DEBUG "modbus._handle" (get_log_buffer "<--" b) else ([], None)) with
                    | (o, Some e) => (o, (d', Err e))
                    | (o, None) => (o, (d', Ok resp))
                    end
                | None => ([], (d', Ok resp))
                end
            end))
  end.

(** One client socket, modbus_tcp.py 299-342; as TransportModel.serve_client.  The databank is part of the result: a request that was
    carried out may still end in an exception. *)
Inductive l_served := LGone | LFailed (e : exn) (d : databank) (handled : option (list Z)) | LStays (c : conn) (d : databank) (handled out : option (list Z)).
Definition l_serve (d : databank) (c : conn) : output * l_served :=
  match snd (recv 1 c) with
  | Err e => ([], LFailed e d None)
  | Ok [] => ([], LGone)
  | Ok _ =>
      match read_more (missing 7 []) c [] with
      | (_, Err e) => ([], LFailed e d None)
      | (c1, Ok (request, is_ok)) =>
          if is_ok then
            match get_request_length request with
            | Err e => ([], LFailed e d None)
            | Ok length =>
                match read_more (missing (length + 6) request) c1 request with
                | (_, Err e) => ([], LFailed e d None)
                | (c2, Ok (request, false)) => ([], LStays c2 d None None)
                | (c2, Ok (request, true)) =>
                    let '(o, (d', r)) := l_handle d TCP request in
                    said o
                      (match r with
                       | Ok resp => ([], LStays c2 d' (Some request) (sent resp))
                       | Err e =>                                                                  (* 340-341 *)
                           match log lg tx ERROR "modbus_tcp._do_run" (append "Error while handling a request, Exception occurred: " (tx_str tx e)) with
                           | (o, Some e') => (o, LFailed e' d' (Some request))
                           | (o, None) => (o, LStays c2 d' (Some request) None)
                           end
                       end)
                end
            end
          else ([], LStays c1 d None None)
      end
  end.

(** _do_run, modbus_tcp.py 284-360; as tcp_do_run.  The last component: the exception that left the loop. *)
Definition error_text (fd : option Z) (e : exn) : string := append "Error while processing data on socket " (append (tx_fd tx fd) (append ": " (tx_str tx e))).
Fixpoint l_run (ready : list readiness) (s : tcp_server) : output * (tcp_server * list tcp_event * option exn) :=
  match ready with
  | [] => ([], (s, [], None))
  | ReadyListen accepted :: t =>
      if ts_listening s then
        let except e :=                                                                            (* 356-360 *)
          match log lg tx WARNING "modbus_tcp._do_run" (error_text None e) with
          | (o, Some e') => (o, (s, [], Some e'))
          | (o, None) => said o (l_run t {| ts_listening := false; ts_conns := ts_conns s; ts_db := ts_db s |})
          end in
        match accepted with
        | Ok (id, c) =>
            match log lg tx DEBUG "modbus_tcp._do_run" (append (tx_addr tx id) (append " is connected with socket " (append (tx_fd tx (Some id)) "..."))) with
            | (o, Some e) => said o (except e)
            | (o, None) => said o (l_run t {| ts_listening := true; ts_conns := ts_conns s ++ [(id, c)]; ts_db := ts_db s |})
            end
        | Err e => except e
        end
      else l_run t s
  | ReadyClient id :: t =>
      match assoc Z.eqb id (ts_conns s) with
      | None => l_run t s
      | Some c =>
          let except e d ev :=                                                                     (* 356-360 *)
            match log lg tx WARNING "modbus_tcp._do_run" (error_text (Some id) e) with
            | (o, Some e') => (o, ({| ts_listening := ts_listening s; ts_conns := ts_conns s; ts_db := d |}, ev, Some e'))
            | (o, None) =>
                let '(o', (s', ev', x)) := l_run t {| ts_listening := ts_listening s; ts_conns := assoc_del Z.eqb id (ts_conns s); ts_db := d |} in
                (o ++ o', (s', ev ++ ev', x))
            end in
          match l_serve (ts_db s) c with
          | (o, LGone) =>                                                                          (* 300-306 *)
              said o
                (match log lg tx DEBUG "modbus_tcp._do_run" (append (tx_fd tx (Some id)) " is disconnected") with
                 | (o, Some e) => said o (except e (ts_db s) [])
                 | (o, None) => (o, ({| ts_listening := ts_listening s; ts_conns := assoc_del Z.eqb id (ts_conns s); ts_db := ts_db s |}, [], None))
                 end)
          | (o, LFailed e d' handled) => said o (except e d' match handled with Some r => [(id, r, None)] | None => [] end)
          | (o, LStays c' d' handled out) =>
              let '(o', (s', ev, x)) := l_run t {| ts_listening := ts_listening s; ts_conns := assoc_put Z.eqb id c' (ts_conns s); ts_db := d' |} in
              (o ++ o', (s', match handled with Some r => (id, r, out) :: ev | None => ev end, x))
          end
      end
  end.
Definition l_turn (b : before_turn) (s : tcp_server) : output * (tcp_server * list tcp_event * option exn) :=
  let s1 := {| ts_listening := ts_listening s; ts_conns := arrive (bt_arrivals b) (ts_conns s); ts_db := ts_db s |} in
  l_run (selected s1 (bt_knock b)) s1.
(** Server._run_server, modbus.py 1062-1074.  Ended: the thread has ended and start() can be called again; EndedForGood: it has ended without
    _make_thread (1074), because the log call of 1071 raised: start() then raises RuntimeError. *)
Inductive fate := Running | Ended | EndedForGood.
Fixpoint l_life (turns : list before_turn) (s : tcp_server) : output * (tcp_server * list tcp_event * fate) :=
  match turns with
  | [] => ([], (s, [], Running))
  | b :: t =>
      match l_turn b s with
      | (o, (s1, ev, Some e)) =>
          match log lg tx ERROR "modbus._run_server" (append "server error: " (tx_str tx e)) with
          | (o', None) => (o ++ o', (s1, ev, Ended))
          | (o', Some _) => (o ++ o', (s1, ev, EndedForGood))
          end
      | (o, (s1, ev, None)) => let '(o', (s2, ev', f)) := l_life t s1 in (o ++ o', (s2, ev ++ ev', f))
      end
  end.
End Logged.
