(** The library's locks, and which of them its calls take.

    Models: hooks._LOCK (hooks.py 15, 83, 92, 101: installed functions are called while it is held),
    Slave._data_lock (modbus.py 486; 737, 779, 817, 829, 851, 878), Databank._lock (modbus.py 905; 910, 921,
    929, 937), the lock of Master.execute (modbus.py 137, utils.py 24-45: one for all masters) and that of
    TcpQuery._get_transaction_id (modbus_tcp.py 107).  All are re-entrant (threading.RLock). *)
From Verif Require Import Base.

Inductive lock :=
| LExecute              (* Master.execute *)
| LData (slave : Z)     (* a slave's _data_lock *)
| LHooks                (* hooks._LOCK *)
| LDatabank (db : Z)    (* a databank's _lock *)
| LTransaction.         (* TcpQuery._get_transaction_id *)
Definition lock_eqb (a b : lock) : bool :=
  match a, b with
  | LExecute, LExecute | LHooks, LHooks | LTransaction, LTransaction => true
  | LData x, LData y | LDatabank x, LDatabank y => x =? y
  | _, _ => false
  end.

(** What a thread does, as far as locks are concerned. *)
Inductive action := Acquire (l : lock) | Release (l : lock).
(** with l: body *)
Definition with_lock (l : lock) (body : list action) : list action := Acquire l :: body ++ [Release l].

(** ** The library's calls *)

(** call_hooks, hooks.py 99-109: [inside] is what the installed functions do. *)
Definition call_hooks (inside : list action) : list action := with_lock LHooks inside.
(** install_hook, uninstall_hook, hooks.py 83-96 *)
Definition change_hooks : list action := with_lock LHooks [].
(** Databank.add_slave, get_slave, remove_slave, remove_all_slaves, modbus.py 908-938 *)
Definition databank_call (db : Z) : list action := with_lock (LDatabank db) [].
(** Slave.handle_request, add_block, remove_block, remove_all_blocks, set_values, get_values,
    modbus.py 731-894: hooks are called for requests and for every write to a block.  [hooks]: what the
    installed functions do, at each of these calls. *)
Definition slave_call (k : Z) (hooks : list (list action)) : list action :=
  with_lock (LData k) (flat_map call_hooks hooks).
(** Server._handle, modbus.py 1076-1096, with Databank.handle_request 940-985 for one slave: the
    before hook, get_slave, the slave, on_error and after hooks. *)
Definition server_handle_call (db k : Z) (before : list action) (slave_hooks : list (list action)) (after : list (list action)) : list action :=
  call_hooks before ++ databank_call db ++ slave_call k slave_hooks ++ flat_map call_hooks after.
(** The same for a broadcast (modbus.py 951-955): every slave in turn, without the databank's lock. *)
Definition server_broadcast_call (before : list action) (slaves : list (Z * list (list action))) (after : list (list action)) : list action :=
  call_hooks before ++ concat (map (fun s => slave_call (fst s) (snd s)) slaves) ++ flat_map call_hooks after.
(** Master.execute, modbus.py 137-417, with _send and _recv: a transaction number may be taken, hooks
    are called. *)
Definition execute_call (tcp : bool) (hooks : list (list action)) : list action :=
  with_lock LExecute ((if tcp then with_lock LTransaction [] else []) ++ flat_map call_hooks hooks).

(** ** Threads *)

(** A thread: the locks it holds (latest first; once per acquisition), what it has still to do. *)
Record locker := { lk_held : list lock; lk_todo : list action }.
Definition holds_lock (l : lock) (t : locker) : bool := existsb (lock_eqb l) (lk_held t).
(** some thread other than the [i]th holds it *)
Fixpoint taken_by_other (l : lock) (i : nat) (ts : list locker) : bool :=
  match ts with
  | [] => false
  | t :: rest => match i with
                 | O => existsb (holds_lock l) rest
                 | S j => holds_lock l t || taken_by_other l j rest
                 end
  end.
Fixpoint release_one (l : lock) (held : list lock) : list lock :=
  match held with
  | [] => []
  | x :: rest => if lock_eqb l x then rest else x :: release_one l rest
  end.
(** Thread [i] makes its next action; acquiring a lock another thread holds is not possible. *)
Definition lock_move (ts : list locker) (i : nat) : list locker :=
  match nth_error ts i with
  | None => ts
  | Some t =>
      match lk_todo t with
      | [] => ts
      | Release l :: rest => list_upd ts i {| lk_held := release_one l (lk_held t); lk_todo := rest |}
      | Acquire l :: rest =>
          if taken_by_other l i ts then ts
          else list_upd ts i {| lk_held := l :: lk_held t; lk_todo := rest |}
      end
  end.
Definition lock_moves (schedule : list nat) (ts : list locker) : list locker := fold_left lock_move schedule ts.
Definition lock_start (programs : list (list action)) : list locker :=
  map (fun p => {| lk_held := []; lk_todo := p |}) programs.
Definition all_through (ts : list locker) : Prop := forall t, In t ts -> lk_todo t = [].
