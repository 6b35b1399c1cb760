(** Other things threads share: the transaction counter, a master with its link, a databank. *)
From Verif Require Import Base PyStruct Defines SlaveModel QueryModel DatabankModel MasterModel EndSpec ConcModel.

(** ** The transaction counter *)

(** TcpQuery._get_transaction_id, modbus_tcp.py 107-114: the class variable is read for the comparison,
    read again and written for +=, and read again to be returned.  The decorator threadsafe_function
    (utils.py 24-45) holds its lock meanwhile. *)
Definition m_next_id (_ : unit) : code Z Z :=
  LET last := look (fun s => s) IN
  if last <? 65535 then
    LET again := look (fun s => s) IN
    LET _ := act (fun _ => (again + 1, tt)) IN
    look (fun s => s)
  else
    LET _ := act (fun _ => (0, tt)) IN
    look (fun s => s).

(** ** A master *)

(** A master, its link and the server at the other end: the server's databank, the transaction counter,
    the responses waiting to be received.  Simplification: a response is there as soon as the request
    has been sent, or never comes (timeout). *)
Record world := { w_db : databank; w_last : Z; w_wire : list (list Z) }.

(** Sending after discarding what was waiting (modbus_rtu.py 132-135, modbus_tcp.py 198-205): the server
    handles the request. *)
Definition flush_wire (w : world) : world := {| w_db := w_db w; w_last := w_last w; w_wire := [] |}.
Definition send_request (p : proto) (request : list Z) (w : world) : world :=
  {| w_db := fst (db_handle_request (w_db w) p request); w_last := w_last w;
     w_wire := w_wire w ++ match answer (w_db w) p request with Ok b => [b] | Err _ => [] end |}.
Definition receive (w : world) : world * res (list Z) :=
  match w_wire w with
  | [] => (w, Err SocketTimeout)
  | b :: rest => ({| w_db := w_db w; w_last := w_last w; w_wire := rest |}, Ok b)
  end.

(** Master.execute, modbus.py 137-417, access by access: number the request, discard what was waiting,
    send, receive.  Decorated with threadsafe_function (137). *)
Definition m_execute (p : proto) (a : exec_args) : code world (option (res exec_result)) :=
  match execute_build a with
  | Err e => Done (Some (Err e))
  | Ok b =>
      LET r := act (fun w => let '(last, r) := build_request p (w_last w) (bl_pdu b) (ea_slave a) in
                             ({| w_db := w_db w; w_last := last; w_wire := w_wire w |}, r)) IN
      match r with
      | Err e => Done (Some (Err e))
      | Ok (hdr, request) =>
          LET _ := act (fun w => (flush_wire w, tt)) IN
          LET _ := act (fun w => (send_request p request w, tt)) IN
          LET response := act receive IN
          Done match (response <- response ;; parse_response hdr response) with
               | Err e => Some (Err e)
               | Ok response_pdu => execute_decode (file_fuel response_pdu) a b response_pdu
               end
      end
  end.

(** ** A databank whose slaves other threads use and change *)

(** Objects: a databank holds references (numbers of objects) to slaves, by id; slaves are themselves
    shared objects.  Simplification: add_slave is given the reference of the new Slave object. *)
Inductive shared := SDatabank (slaves : list (Z * Z)) | SSlave (s : slave).
Inductive shared_op :=
| ShAdd (id ref : Z)        (* modbus.py 908-917 *)
| ShGet (id : Z)            (* modbus.py 919-925 *)
| ShRemove (id : Z)         (* modbus.py 927-933 *)
| ShRemoveAll               (* modbus.py 935-938 *)
| ShIterate                 (* for key in self._slaves: (modbus.py 952), the iterator is made: the size now *)
| ShNext (size pos : nat)   (* its next element; RuntimeError when the size has changed *)
| ShItem (id : Z)           (* self._slaves[key] (modbus.py 953); KeyError *)
| SlaveOp (o : slave_op).
Inductive shared_out :=
| SoUnit (r : res unit)
| SoRef (r : res Z)
| SoSize (n : nat)
| SoNext (r : res (option Z))
| SoSlave (o : slave_out).

(** Each databank operation is one access to the dict.  (The last three of them take no lock in the
    code; being single accesses they cannot be interrupted.  Simplification: the iterator's position
    is a position in the list of items; CPython's differs after a removal, but there the sizes differ too
    unless slaves are also added.) *)
Definition sh_op (l : list (Z * Z)) (o : shared_op) : list (Z * Z) * shared_out :=
  match o with
  | ShAdd id ref =>
      if (id <=? 0) || (255 <? id) then (l, SoUnit (Err GenericException))
      else match assoc Z.eqb id l with
           | None => (assoc_put Z.eqb id ref l, SoUnit (Ok tt))
           | Some _ => (l, SoUnit (Err DuplicatedKeyError))
           end
  | ShGet id => (l, SoRef match assoc Z.eqb id l with Some r => Ok r | None => Err MissingKeyError end)
  | ShRemove id =>
      match assoc Z.eqb id l with
      | Some _ => (assoc_del Z.eqb id l, SoUnit (Ok tt))
      | None => (l, SoUnit (Err MissingKeyError))
      end
  | ShRemoveAll => ([], SoUnit (Ok tt))
  | ShIterate => (l, SoSize (length l))
  | ShNext size pos =>
      (l, SoNext (if Nat.eqb (length l) size then Ok (option_map fst (nth_error l pos)) else Err PyRuntimeError))
  | ShItem id => (l, SoRef match assoc Z.eqb id l with Some r => Ok r | None => Err PyKeyError end)
  | SlaveOp _ => (l, SoUnit (Err PyTypeError))
  end.
Definition is_slave_op (o : shared_op) : option slave_op := match o with SlaveOp x => Some x | _ => None end.

(** Slave code, on a shared object that is a slave. *)
Fixpoint on_slave (c : code slave slave_out) : code shared shared_out :=
  match c with
  | Done o => Done (SoSlave o)
  | Micro f => Micro (fun x => match x with
                               | SSlave s => let (s', c') := f s in (SSlave s', on_slave c')
                               | SDatabank _ => (x, Done (SoUnit (Err PyTypeError)))
                               end)
  end.
Definition shared_code (o : shared_op) : code shared shared_out :=
  match o with
  | SlaveOp x =>
      LET ok := look (fun s => match s with SSlave _ => true | SDatabank _ => false end) IN
      if ok : bool then on_slave (slave_code x) else Done (SoUnit (Err PyTypeError))
  | _ => act (fun s => match s with
                       | SDatabank l => let (l', r) := sh_op l o in (SDatabank l', r)
                       | SSlave _ => (s, SoUnit (Err PyTypeError))
                       end)
  end.

(** The part of Databank.handle_request (modbus.py 949-964) after the request has been parsed, as the
    calls it makes on the databank (object 0) and on slaves. *)
Definition call_result := (Z * shared_op * shared_out)%type.
(** broadcast: make the iterator, then for each key look the slave up and let it handle the request
    (the first exception ends the loop) *)
Fixpoint broadcast_next (pdu : list Z) (size pos : nat) (done : list call_result) : option (Z * shared_op) :=
  match done with
  | [] => Some (0, ShNext size pos)
  | (_, _, SoNext (Ok (Some key))) :: done1 =>
      match done1 with
      | [] => Some (0, ShItem key)
      | (_, _, SoRef (Ok ref)) :: done2 =>
          match done2 with
          | [] => Some (ref, SlaveOp (OpRequest pdu true))
          | (_, _, SoSlave (OutVals (Ok _))) :: done3 => broadcast_next pdu size (S pos) done3
          | _ => None
          end
      | _ => None
      end
  | _ => None
  end.
Definition broadcast_calls (pdu : list Z) (done : list call_result) : option (Z * shared_op) :=
  match done with
  | [] => Some (0, ShIterate)
  | (_, _, SoSize n) :: rest => broadcast_next pdu n O rest
  | _ => None
  end.
(** a request for one slave *)
Definition request_calls (id : Z) (pdu : list Z) (done : list call_result) : option (Z * shared_op) :=
  match done with
  | [] => Some (0, ShGet id)
  | [(_, _, SoRef (Ok ref))] => Some (ref, SlaveOp (OpRequest pdu false))
  | _ => None
  end.
