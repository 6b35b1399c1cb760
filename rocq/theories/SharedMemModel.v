(** Several slaves created with the same memory dictionary (modbus.py 466-483: "self._memory = memory" keeps the dictionary that was given),
    for instance with Databank.add_slave(1, True, memory) and add_slave(2, True, memory). Each slave has its own names, its own "unsigned"
    flag and its own lock; the dictionary and the lists in it are the same objects.
    Simplification: dictionaries that are different objects but hold the same lists are not modelled. *)
From Verif Require Import Base PyStruct Defines SlaveModel ConcModel.

(** The dictionary, with the lists in it (as in [slave] of SlaveModel.v), and for each slave self.unsigned and self._blocks. *)
Record bank := {
  bk_alias : per4 (option btype);
  bk_lists : per4 (list block);
  bk_slaves : list (bool * list (string * (btype * Z))) }.
(** Slave.__init__, modbus.py 466-483, called once per flag in [flags] with the same memory *)
Definition new_bank (al : per4 (option btype)) (ls : per4 (list block)) (flags : list bool) : bank :=
  {| bk_alias := al; bk_lists := ls; bk_slaves := map (fun u => (u, [])) flags |}.
(** Slave number [i] as an object: its own fields and the shared dictionary. *)
Definition view (b : bank) (i : nat) : option slave :=
  match nth_error (bk_slaves b) i with
  | Some (u, names) => Some {| sl_unsigned := u; sl_names := names; sl_alias := bk_alias b; sl_lists := bk_lists b |}
  | None => None
  end.
Definition put_view (b : bank) (i : nat) (s : slave) : bank :=
  {| bk_alias := sl_alias s; bk_lists := sl_lists s; bk_slaves := list_upd (bk_slaves b) i (sl_unsigned s, sl_names s) |}.
(** A call or a request on slave number [i], modbus.py 731-894 *)
Definition bank_step (b : bank) (io : nat * slave_op) : bank * option slave_out :=
  match view b (fst io) with
  | Some s => let '(s', out) := slave_step s (snd io) in (put_view b (fst io) s', Some out)
  | None => (b, None)
  end.
Definition bank_run (b : bank) (ops : list (nat * slave_op)) : bank := fold_left (fun b o => fst (bank_step b o)) ops b.
Fixpoint bank_outputs (b : bank) (ops : list (nat * slave_op)) : list (option slave_out) :=
  match ops with
  | [] => []
  | o :: rest => snd (bank_step b o) :: bank_outputs (fst (bank_step b o)) rest
  end.

(** The same calls step by step (ConcModel.v), on slave number [i]: self is the slave, its memory the shared one. *)
Fixpoint on_view {O} (i : nat) (c : code slave O) : code bank (option O) :=
  match c with
  | Done o => Done (Some o)
  | Micro f => Micro (fun b =>
      match view b i with
      | Some s => let (s', c') := f s in (put_view b i s', on_view i c')
      | None => (b, Done None)
      end)
  end.
(** "with self._data_lock" (modbus.py 484 and 731-894) takes the lock of slave [i], which the calls on other slaves do not take: threads that
    use different slaves run without a common lock. *)
Definition bank_code (io : nat * slave_op) : code bank (option slave_out) := on_view (fst io) (slave_code (snd io)).
