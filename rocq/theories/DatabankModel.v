(** Model of Databank and of Server's request handling (modbus.py 897-985,
    1076-1096). *)
From Verif Require Import Base PyStruct Defines SlaveModel QueryModel.

(** Databank.__init__, modbus.py 900-906.  _slaves is a dict in insertion order. *)
Record databank := { db_slaves : list (Z * slave); db_error_on_missing : bool }.

Definition new_databank (error_on_missing : bool) : databank :=
  {| db_slaves := []; db_error_on_missing := error_on_missing |}.

Definition with_slaves (d : databank) (l : list (Z * slave)) : databank :=
  {| db_slaves := l; db_error_on_missing := db_error_on_missing d |}.

(** Databank.add_slave, modbus.py 908-917 (the returned Slave object is the one
    get_slave returns afterwards) *)
Definition add_slave (d : databank) (id : Z) (unsigned : bool)
  (memory : option (per4 (option btype) * per4 (list block))) : databank * res unit :=
  if (id <=? 0) || (255 <? id) then (d, Err GenericException)
  else match assoc Z.eqb id (db_slaves d) with
  | None => (with_slaves d (assoc_put Z.eqb id (new_slave unsigned memory) (db_slaves d)), Ok tt)
  | Some _ => (d, Err DuplicatedKeyError)
  end.

(** Databank.get_slave, modbus.py 919-925 *)
Definition get_slave (d : databank) (id : Z) : res slave :=
  match assoc Z.eqb id (db_slaves d) with
  | Some s => Ok s
  | None => Err MissingKeyError
  end.

(** Databank.remove_slave, modbus.py 927-933 *)
Definition remove_slave (d : databank) (id : Z) : databank * res unit :=
  match assoc Z.eqb id (db_slaves d) with
  | Some _ => (with_slaves d (assoc_del Z.eqb id (db_slaves d)), Ok tt)
  | None => (d, Err MissingKeyError)
  end.

(** Databank.remove_all_slaves, modbus.py 935-938 *)
Definition remove_all_slaves (d : databank) : databank := with_slaves d [].

(** the slave object [id] mutates *)
Definition put_slave (d : databank) (id : Z) (s : slave) : databank :=
  with_slaves d (assoc_put Z.eqb id s (db_slaves d)).

(** The broadcast loop, modbus.py 952-953; an exception stops it. *)
Fixpoint broadcast_loop (l : list (Z * slave)) (pdu : list Z) : list (Z * slave) * res unit :=
  match l with
  | [] => ([], Ok tt)
  | (k, s) :: t =>
      let '(s', r) := SlaveModel.handle_request s pdu true in
      match r with
      | Err e => ((k, s') :: t, Err e)
      | Ok _ => let '(t', r') := broadcast_loop t pdu in ((k, s') :: t', r')
      end
  end.

(** The result of handle_request: None, or a byte string ("" is []). *)
Definition response := option (list Z).

(** The final part of handle_request, modbus.py 980-985: the unframed error
    response. *)
Definition failure_response (request_pdu : list Z) : res response :=
  func_code <- (match request_pdu with
                | [] => Ok 1
                | _ => unpack_one ">B" (py_slice request_pdu 0 1)
                end) ;;
  b <- pack ">BB" [func_code + 128; SLAVE_DEVICE_FAILURE] ;;
  Ok (Some b).

(** The except clauses, modbus.py 968-985. *)
Definition db_catch (e : exn) (request_pdu : list Z) : res response :=
  match e with
  | ModbusInvalidRequestError => Ok (Some [])
  | MissingKeyError => Ok (Some [])
  | _ => failure_response request_pdu
  end.

(** Databank.handle_request, modbus.py 940-985 *)
Definition db_handle_request (d : databank) (p : proto) (request : list Z)
  : databank * res response :=
  match parse_request p request with
  | Err e => (d, db_catch e [])
  | Ok (hdr, slave_id, request_pdu) =>
      if slave_id =? 0 then
        let '(l, r) := broadcast_loop (db_slaves d) request_pdu in
        let d' := with_slaves d l in
        match r with
        | Ok _ => (d', Ok None)
        | Err e => (d', db_catch e request_pdu)
        end
      else
        match get_slave d slave_id with
        | Err MissingKeyError =>
            if db_error_on_missing d then (d, db_catch MissingKeyError request_pdu)
            else (d, Ok (Some []))
        | Err e => (d, db_catch e request_pdu)
        | Ok s =>
            let '(s', r) := SlaveModel.handle_request s request_pdu false in
            let d' := put_slave d slave_id s' in
            match (response_pdu <- r ;; build_response hdr response_pdu) with
            | Ok b => (d', Ok (Some b))
            | Err e => (d', db_catch e request_pdu)
            end
        end
  end.

(** A response is sent only if it is truthy (modbus_tcp.py 344, modbus_rtu.py 300). *)
Definition sent (r : response) : option (list Z) :=
  match r with
  | Some (b :: t) => Some (b :: t)
  | _ => None
  end.

(** Hooks whose result Server._handle uses: pure functions returning None or a
    replacement (which is ignored when falsy: "if retval:"). *)
Record server_hooks := {
  hk_before : list Z -> option (list Z);
  hk_after : response -> option (list Z)
}.
Definition no_server_hooks : server_hooks :=
  {| hk_before := fun _ => None; hk_after := fun _ => None |}.

Definition truthy (o : option (list Z)) : bool :=
  match o with Some (_ :: _) => true | _ => false end.

(** Server._handle, modbus.py 1076-1096 (logging dropped) *)
Definition server_handle (h : server_hooks) (d : databank) (p : proto) (request : list Z)
  : databank * res response :=
  let req := match hk_before h request with
             | Some (b :: t) => b :: t
             | _ => request
             end in
  let '(d', r) := db_handle_request d p req in
  match r with
  | Err e => (d', Err e)
  | Ok resp =>
      let retval := hk_after h resp in
      (d', Ok (if truthy retval then retval else resp))
  end.
