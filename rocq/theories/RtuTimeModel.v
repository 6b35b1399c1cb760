(** The RTU server and the RTU master in time: when bytes arrive, how long read() waits, how long the program computes.

    Models: RtuServer._do_run (modbus_rtu.py 259-310), RtuMaster._recv (142-165, use_sw_timeout off), serial.read of pyserial on POSIX:
    Timeout(t); while len(read) < size: select with the time left; os.read; stop when the time is over.
    Times are integers in any unit.  [lag n] is the time the program (and the scheduler) spends before its n-th operation; it is arbitrary.
    Simplifications: no hooks, no serial errors (TransportModel.v has both), the input buffer of the operating system does not overflow;
    _block_on_first_byte is set (the server runs).  inter_byte_timeout ([ibt]): None on POSIX, where pyserial turns it into VMIN = 1 and
    VTIME, with which a read that has one byte returns; Some i for ports where a read ends when no byte follows for i (Windows). *)
From Verif Require Import Base DatabankModel QueryModel TransportModel.

(** [tp_line]: the bytes not yet read, each with the time at which the operating system has it *)
Record tport := { tp_now : Z; tp_line : list (Z * Z); tp_ops : nat }.

Section Timed.
Variable lag : nat -> Z.
Variable ibt : option Z.

Definition tick (p : tport) : tport := {| tp_now := tp_now p + lag (tp_ops p); tp_line := tp_line p; tp_ops := S (tp_ops p) |}.
Definition at_time (t : Z) (p : tport) : tport := {| tp_now := t; tp_line := tp_line p; tp_ops := tp_ops p |}.
Fixpoint arrived (now : Z) (l : list (Z * Z)) : list (Z * Z) :=
  match l with x :: t => if fst x <=? now then x :: arrived now t else [] | [] => [] end.
(** select.select([fd], [], [], time_left).  None: waits for ever *)
Definition waits (deadline : option Z) (p : tport) : option (tport * bool) :=
  let over d := Some (at_time (Z.max (tp_now p) d) p, false) in
  match tp_line p with
  | x :: _ =>
      if fst x <=? tp_now p then Some (p, true)
      else match deadline with
           | None => Some (at_time (fst x) p, true)
           | Some d => if fst x <=? d then Some (at_time (fst x) p, true) else over d
           end
  | [] => match deadline with None => None | Some d => over d end
  end.
Definition until (deadline : option Z) (p : tport) (read : list (Z * Z)) : option Z :=
  match read, ibt with
  | _ :: _, Some i => match deadline with Some d => Some (Z.min d (tp_now p + i)) | None => Some (tp_now p + i) end
  | _, _ => deadline
  end.
(** the loop of pyserial's read; [fuel] is at least the number of bytes missing *)
Fixpoint tread_loop (fuel : nat) (size : nat) (deadline : option Z) (p : tport) (read : list (Z * Z)) : option (tport * list (Z * Z)) :=
  match fuel with
  | O => Some (p, read)
  | S m =>
      if (length read <? size)%nat then
        let p1 := tick p in
        match waits (until deadline p1 read) p1 with
        | None => None
        | Some (p2, false) => Some (p2, read)
        | Some (p2, true) =>
            let p3 := tick p2 in
            let buf := firstn (size - length read) (arrived (tp_now p3) (tp_line p3)) in
            let p4 := {| tp_now := tp_now p3; tp_line := skipn (length buf) (tp_line p3); tp_ops := tp_ops p3 |} in
            if match deadline with Some d => d <=? tp_now p4 | None => false end then Some (p4, read ++ buf)
            else tread_loop m size deadline p4 (read ++ buf)
        end
      else Some (p, read)
  end.
(** serial.read(size) with serial.timeout = [timeout] *)
Definition tread (size : nat) (timeout : option Z) (p : tport) : option (tport * list (Z * Z)) :=
  let p1 := tick p in
  tread_loop size size (match timeout with Some t => Some (tp_now p1 + t) | None => None end) p1 [].

(** RtuServer._do_run, modbus_rtu.py 275-285 *)
Fixpoint trest (fuel : nat) (T : Z) (p : tport) (request : list (Z * Z)) : option (tport * list (Z * Z)) :=
  match fuel with
  | O => Some (p, request)
  | S m => match tread 128 (Some T) p with
           | None => None
           | Some (p', []) => Some (p', request)
           | Some (p', b) => trest m T p' (request ++ b)
           end
  end.
(** what one run of _do_run did: the bytes it took for the request (with their times), when it stopped reading, what it wrote and when *)
Record tturn := { tt_request : list (Z * Z); tt_read : Z; tt_written : option (Z * list Z) }.
(** RtuServer._do_run, modbus_rtu.py 259-310.  None: waits for ever for the first byte. *)
Definition t_do_run (T : Z) (d : databank) (p : tport) : option (tport * databank * tturn) :=
  match tread 1 None p with                                                    (* 266-269 *)
  | None => None
  | Some (p1, b) =>
      match trest (S (length (tp_line p1))) T p1 b with
      | None => None
      | Some (p2, request) =>
          let '(d', r) := db_handle_request d RTU (map snd request) in         (* 293 *)
          let p3 := tick p2 in
          match match r with Ok resp => sent resp | Err _ => None end with
          | None => Some (p3, d', {| tt_request := request; tt_read := tp_now p2; tt_written := None |})
          | Some response =>
              match arrived (tp_now p3) (tp_line p3) with
              | _ :: _ => Some (p3, d', {| tt_request := request; tt_read := tp_now p2; tt_written := None |})            (* 301-304 *)
              | [] =>
                  let p4 := tick p3 in                                                                                     (* 306, 307 *)
                  Some (at_time (tp_now p4 + T) p4, d',                                                                    (* 308 *)
                        {| tt_request := request; tt_read := tp_now p2; tt_written := Some (tp_now p3, response) |})
              end
          end
      end
  end.
(** Server._run_server (modbus.py 1066-1068): until it waits for ever *)
Fixpoint t_life (fuel : nat) (T : Z) (d : databank) (p : tport) : list tturn * databank * tport :=
  match fuel with
  | O => ([], d, p)
  | S m => match t_do_run T d p with
           | None => ([], d, p)
           | Some (p', d', t) => let '(l, d'', p'') := t_life m T d' p' in (t :: l, d'', p'')
           end
  end.
Definition t_serve (T : Z) (d : databank) (p : tport) : list tturn * databank * tport := t_life (S (length (tp_line p))) T d p.

(** RtuMaster._recv, modbus_rtu.py 142-165, serial.timeout = T > 0 *)
Fixpoint t_recv_loop (fuel : nat) (T expected : Z) (p : tport) (response : list (Z * Z)) : option (tport * list (Z * Z)) :=
  match fuel with
  | O => Some (p, response)
  | S m =>
      let missing := expected - zlen response in
      match tread (Z.to_nat (if 0 <? missing then missing else 1)) (Some T) p with
      | None => None
      | Some (p', []) => Some (p', response)
      | Some (p', b) =>
          let response := response ++ b in
          if (0 <=? expected) && (expected <=? zlen response) then Some (p', response)
          else t_recv_loop m T expected p' response
      end
  end.
Definition t_recv (T expected : Z) (p : tport) : option (tport * list (Z * Z)) := t_recv_loop (S (length (tp_line p))) T expected p [].
End Timed.
