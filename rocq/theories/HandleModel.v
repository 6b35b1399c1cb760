(** Slave objects and the databank that registers them: the application keeps what add_slave and get_slave return. *)
From Verif Require Import Base PyStruct Defines SlaveModel QueryModel DatabankModel.
Open Scope list_scope. Open Scope Z_scope.

(** The objects created so far (an object is its position in the list; none is ever forgotten: the application may hold it), and
    Databank._slaves, modbus.py 903, which maps unit ids to objects. *)
Record hworld := { hw_objects : list slave; hw_units : list (Z * nat); hw_error_on_missing : bool }.
Definition new_world (error_on_missing : bool) : hworld := {| hw_objects := []; hw_units := []; hw_error_on_missing := error_on_missing |}.
(** The contents of an object (objects that were never created are not referred to). *)
Definition object (w : hworld) (h : nat) : slave := nth h (hw_objects w) (new_slave true None).
(** The databank as DatabankModel has it: the unit ids with the contents of their objects. *)
Definition view (w : hworld) : databank :=
  {| db_slaves := map (fun x => (fst x, object w (snd x))) (hw_units w); db_error_on_missing := hw_error_on_missing w |}.
Definition with_objects (w : hworld) (l : list slave) : hworld :=
  {| hw_objects := l; hw_units := hw_units w; hw_error_on_missing := hw_error_on_missing w |}.
Definition with_units (w : hworld) (l : list (Z * nat)) : hworld :=
  {| hw_objects := hw_objects w; hw_units := l; hw_error_on_missing := hw_error_on_missing w |}.

(** The methods of the databank change the objects registered in it: the contents after the call are those of the view after it. *)
Fixpoint write_back (units : list (Z * nat)) (rows : list (Z * slave)) (objects : list slave) : list slave :=
  match units, rows with
  | (_, h) :: units', (_, s) :: rows' => write_back units' rows' (list_upd objects h s)
  | _, _ => objects
  end.
Inductive hact :=
| HAdd (unit : Z) (unsigned : bool) (memory : option (per4 (option btype) * per4 (list block)))
| HGet (unit : Z)
| HRemove (unit : Z)
| HRemoveAll
| HOn (h : nat) (o : slave_op)
| HFrame (p : proto) (request : list Z).
Inductive hgot :=
| HHandle (r : res nat)
| HUnit (r : res unit)
| HOut (o : slave_out)
| HAnswer (r : res response).
(** Databank.add_slave (modbus.py 909-917), get_slave (919-925), remove_slave (927-933), remove_all_slaves (935-938), the methods of a
    slave object, Databank.handle_request (940-985). *)
Definition hstep (w : hworld) (x : hact) : hworld * hgot :=
  match x with
  | HAdd u unsigned memory =>
      if (u <=? 0) || (255 <? u) then (w, HHandle (Err GenericException))
      else match assoc Z.eqb u (hw_units w) with
      | None =>
          let h := length (hw_objects w) in
          (with_units (with_objects w (hw_objects w ++ [new_slave unsigned memory])) (assoc_put Z.eqb u h (hw_units w)), HHandle (Ok h))
      | Some _ => (w, HHandle (Err DuplicatedKeyError))
      end
  | HGet u => (w, HHandle match assoc Z.eqb u (hw_units w) with Some h => Ok h | None => Err MissingKeyError end)
  | HRemove u =>
      match assoc Z.eqb u (hw_units w) with
      | Some _ => (with_units w (assoc_del Z.eqb u (hw_units w)), HUnit (Ok tt))
      | None => (w, HUnit (Err MissingKeyError))
      end
  | HRemoveAll => (with_units w [], HUnit (Ok tt))
  | HOn h o => let '(s, out) := slave_step (object w h) o in (with_objects w (list_upd (hw_objects w) h s), HOut out)
  | HFrame p request =>
      let '(d, r) := db_handle_request (view w) p request in
      (with_objects w (write_back (hw_units w) (db_slaves d) (hw_objects w)), HAnswer r)
  end.
Fixpoint hruns (w : hworld) (l : list hact) : hworld * list hgot :=
  match l with
  | [] => (w, [])
  | x :: rest => let '(w1, g) := hstep w x in let '(w2, gs) := hruns w1 rest in (w2, g :: gs)
  end.
