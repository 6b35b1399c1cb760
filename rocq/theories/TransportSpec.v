(** Specification vocabulary for transports. *)
From Verif Require Import Base Spec QueryModel DatabankModel TransportModel.

(** The bytes a socket will deliver, however they are cut. *)
Definition stream (c : conn) : list Z := concat (c_segs c).
(** The same bytes to come and the same ending. *)
Definition same_stream (c c' : conn) : Prop := stream c = stream c' /\ c_end c = c_end c'.

(** [frame] is one Modbus/TCP frame as its header says: six bytes, the last two of which give
    the number of bytes that follow. *)
Definition self_delimited (frame : list Z) : Prop :=
  exists a b c d n1 n2 body, frame = a :: b :: c :: d :: n1 :: n2 :: body /\ zlen body = n1 * 256 + n2 /\ bytes frame.

(** [pieces] carries the bytes [l], in non-empty pieces. *)
Definition cut_into (l : list Z) (pieces : list (list Z)) : Prop :=
  concat pieces = l /\ Forall (fun b => b <> []) pieces.

(** The requests on a serial line, as the protocol separates them: the bytes between two
    silences.  Reading errors end a request too; when the port cannot be reopened, what was
    read of the current request is lost. *)
Definition emit (request : list Z) : list (list Z) := match request with [] => [] | _ => [request] end.
Fixpoint requests_on (current : list Z) (p : line) : list (list Z) :=
  match p with
  | [] => emit current
  | Burst b :: t => requests_on (current ++ b) t
  | Silence :: t => emit current ++ requests_on [] t
  | Fault true :: t => emit current ++ requests_on [] t
  | Fault false :: t => requests_on [] t
  end.

(** What a server does with a request: the databank afterwards and the bytes sent back, if any. *)
Definition served_request (d : databank) (p : proto) (request : list Z) : databank * option (list Z) :=
  (fst (db_handle_request d p request),
   match snd (db_handle_request d p request) with Ok r => sent r | Err _ => None end).
(** [replay p d log d']: the requests of [log], one after the other, lead from [d] to [d'], and
    each got the answer written beside it. *)
Fixpoint replay (p : proto) (d : databank) (log : list (list Z * option (list Z))) (d' : databank) : Prop :=
  match log with
  | [] => d' = d
  | (request, out) :: t =>
      snd (served_request d p request) = out /\ replay p (fst (served_request d p request)) t d'
  end.

(** Several turns of the TCP server's loop. *)
Fixpoint tcp_turns (h : tcp_server_hooks) (turns : list (list readiness)) (s : tcp_server)
  : tcp_server * list tcp_event :=
  match turns with
  | [] => (s, [])
  | ready :: t =>
      let '(s1, ev1) := tcp_do_run h ready s in
      let '(s2, ev2) := tcp_turns h t s1 in
      (s2, ev1 ++ ev2)
  end.
(** What the log says of client [id]; the log without the names of the clients. *)
Definition of_client (id : Z) (log : list tcp_event) : list (list Z) :=
  map (fun ev => snd (fst ev)) (filter (fun ev => fst (fst ev) =? id) log).
Definition anonymous (log : list tcp_event) : list (list Z * option (list Z)) :=
  map (fun ev => (snd (fst ev), snd ev)) log.
(** The new clients of a schedule. *)
Fixpoint accepted_ids (ready : list readiness) : list Z :=
  match ready with
  | [] => []
  | ReadyListen (Ok (id, _)) :: t => id :: accepted_ids t
  | _ :: t => accepted_ids t
  end.

(** At most [n] turns of the RTU server's loop, [pending] telling for each whether bytes are already
    waiting when the answer is ready; ends when the first read blocks for ever. *)
Fixpoint rtu_turns (n : nat) (h : rtu_server_hooks) (pending : nat -> bool) (d : databank) (p : line)
  : databank * list (list Z * option (list Z)) :=
  match n with
  | O => (d, [])
  | S m =>
      match rtu_do_run h true (pending n) d p with
      | None => (d, [])
      | Some t =>
          let '(d', log) := rtu_turns m h pending (rt_db t) (rt_line t) in
          (d', match rt_handled t with Some r => (r, rt_written t) :: log | None => log end)
      end
  end.

(** The number of turns in which the client [id] is the first of the ready sockets. *)
Fixpoint begins_with (id : Z) (turns : list (list readiness)) : nat :=
  match turns with
  | [] => 0
  | (ReadyClient i :: _) :: t => if i =? id then S (begins_with id t) else begins_with id t
  | _ :: t => begins_with id t
  end.
