(** Specification vocabulary for databanks and end-to-end exchanges. *)
From Verif Require Import Base Spec FrameSpec CrcSpec QueryModel DatabankModel SlaveModel BlockSpec.

(** How a PDU for unit [u] looks on the wire: on a serial line (no ids), or on a TCP
    connection with the given transaction and protocol ids. *)
Definition ids := option (Z * Z).
Definition on_wire (i : ids) (u : Z) (pdu : list Z) : list Z :=
  match i with
  | None => sealed (u :: pdu)
  | Some (tid, pid) => tcp_frame tid pid u pdu
  end.
Definition proto_of (i : ids) : proto := match i with None => RTU | Some _ => TCP end.
(** The ids and the PDU fit the frame format. *)
Definition sendable (i : ids) (pdu : list Z) : Prop :=
  bytes pdu /\
  match i with
  | None => True
  | Some (tid, pid) => 0 <= tid <= 65535 /\ 0 <= pid <= 65535 /\ zlen pdu <= 65534
  end.

(** What a databank can go through: slaves added and removed, requests, and direct calls on a slave. *)
Inductive db_op :=
| DbAdd (id : Z) (unsigned : bool) (memory : option (per4 (option Defines.btype) * per4 (list block)))
| DbRemove (id : Z)
| DbRemoveAll
| DbRequest (p : proto) (request : list Z)
| DbCall (id : Z) (o : slave_op).
Definition db_step (d : databank) (o : db_op) : databank :=
  match o with
  | DbAdd id u m => fst (add_slave d id u m)
  | DbRemove id => fst (remove_slave d id)
  | DbRemoveAll => remove_all_slaves d
  | DbRequest p r => fst (db_handle_request d p r)
  | DbCall id o => match get_slave d id with Ok s => put_slave d id (fst (slave_step s o)) | Err _ => d end
  end.
(** memories given by the user must contain blocks that have their cells *)
Definition sane_op (o : db_op) : Prop :=
  match o with
  | DbAdd _ _ (Some (_, ls)) => forall r, Forall SlaveSpec.wf_block (get4 ls r)
  | _ => True
  end.
Definition db_run (d : databank) (ops : list db_op) : databank := fold_left db_step ops d.
Definition db_reachable (d : databank) : Prop :=
  exists e ops, Forall sane_op ops /\ d = db_run (new_databank e) ops.
