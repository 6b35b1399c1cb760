(** Masters and servers in one process: which locks are held while a call waits for its response, and which of them the
    server thread that has to give the response needs.  The locks and their order: LockModel.v.

    Models: Master.execute (modbus.py 137-417; utils.py 24-45: one re-entrant lock for all masters, not taken with threadsafe=False), which
    waits for the response with the lock held; the server threads (modbus_tcp.py 284-360, modbus.py 1076-1096), which handle one
    request after the other, in any order; hooks.call_hooks (hooks.py 99-109), which holds its lock while the installed functions run.
    Simplifications: of what a thread does only the locks and the waiting; a device in another process answers without needing anything
    from this process. *)
From Verif Require Import Base LockModel.

(** What a thread does.  [Ask s work]: send a request to server [s], which has to do [work] for it, and wait for the response. *)
Inductive gaction :=
| GLock (a : action)
| GAsk (s : nat) (work : list gaction)
| GAnswer (s n : nat).                       (* waiting for the response of server [s] to request number [n] *)
(** with l: body *)
Definition gwith (l : lock) (body : list gaction) : list gaction := GLock (Acquire l) :: body ++ [GLock (Release l)].
(** call_hooks, hooks.py 99-109 *)
Definition ghooks (inside : list gaction) : list gaction := gwith LHooks inside.
(** Databank methods, modbus.py 908-938 *)
Definition gdatabank (db : Z) : list gaction := gwith (LDatabank db) [].
(** Slave methods, modbus.py 731-894 *)
Definition gslave (k : Z) (hooks : list (list gaction)) : list gaction := gwith (LData k) (flat_map ghooks hooks).
(** Server._handle, modbus.py 1076-1096 *)
Definition ghandle (db k : Z) (before : list gaction) (hooks after : list (list gaction)) : list gaction :=
  ghooks before ++ gdatabank db ++ gslave k hooks ++ flat_map ghooks after.
(** Master.execute, modbus.py 137-417, with a server [s] that has to do [work]; [before], [after]: the hooks before the request is sent and after *)
Definition gexecute (threadsafe tcp : bool) (before : list (list gaction)) (s : nat) (work : list gaction) (after : list (list gaction)) : list gaction :=
  let body := (if tcp then gwith LTransaction [] else []) ++ flat_map ghooks before ++ GAsk s work :: flat_map ghooks after in
  if threadsafe then gwith LExecute body else body.

(** A thread: the locks it holds, what it has to do, and, for a server thread, the request it is handling. *)
Record gthread := { gt_server : bool; gt_held : list lock; gt_todo : list gaction; gt_serving : option nat }.
Record gworld := {
  gw_threads : list gthread;
  gw_waiting : list (nat * nat * list gaction);   (* requests nobody has taken yet: number, server, work *)
  gw_answered : list nat;                         (* requests with a response *)
  gw_next : nat
}.
Definition gput (w : gworld) (i : nat) (t : gthread) : gworld :=
  {| gw_threads := list_upd (gw_threads w) i t; gw_waiting := gw_waiting w; gw_answered := gw_answered w; gw_next := gw_next w |}.
Definition gthen (t : gthread) (held : list lock) (todo : list gaction) : gthread :=
  {| gt_server := gt_server t; gt_held := held; gt_todo := todo; gt_serving := gt_serving t |}.
Definition as_locker (t : gthread) : locker := {| lk_held := gt_held t; lk_todo := [] |}.
(** Who moves: thread [i] makes its next step; server thread [i], idle, takes request [n]; the timeout of the call thread [i] is
    waiting in expires. *)
Inductive gactor := GMove (i : nat) | GTake (i n : nat) | GExpire (i : nat).
Definition gmove (w : gworld) (a : gactor) : gworld :=
  match a with
  | GMove i =>
      match nth_error (gw_threads w) i with
      | None => w
      | Some t =>
          match gt_todo t with
          | GLock (Acquire l) :: rest =>
              if taken_by_other l i (map as_locker (gw_threads w)) then w else gput w i (gthen t (l :: gt_held t) rest)
          | GLock (Release l) :: rest => gput w i (gthen t (release_one l (gt_held t)) rest)
          | GAsk s work :: rest =>
              {| gw_threads := list_upd (gw_threads w) i (gthen t (gt_held t) (GAnswer s (gw_next w) :: rest));
                 gw_waiting := gw_waiting w ++ [(gw_next w, s, work)]; gw_answered := gw_answered w; gw_next := S (gw_next w) |}
          | GAnswer _ n :: rest =>
              if existsb (Nat.eqb n) (gw_answered w) then gput w i (gthen t (gt_held t) rest) else w
          | [] =>
              match gt_serving t with
              | Some n => (* the response is sent *)
                  {| gw_threads := list_upd (gw_threads w) i {| gt_server := gt_server t; gt_held := gt_held t; gt_todo := []; gt_serving := None |};
                     gw_waiting := gw_waiting w; gw_answered := n :: gw_answered w; gw_next := gw_next w |}
              | None => w
              end
          end
      end
  | GTake i n =>
      match nth_error (gw_threads w) i with
      | Some t =>
          match gt_server t, gt_todo t, gt_serving t, find (fun r => Nat.eqb n (fst (fst r)) && Nat.eqb i (snd (fst r))) (gw_waiting w) with
          | true, [], None, Some (_, _, work) =>
              {| gw_threads := list_upd (gw_threads w) i {| gt_server := true; gt_held := gt_held t; gt_todo := work; gt_serving := Some n |};
                 gw_waiting := filter (fun r => negb (Nat.eqb n (fst (fst r)))) (gw_waiting w); gw_answered := gw_answered w; gw_next := gw_next w |}
          | _, _, _, _ => w
          end
      | None => w
      end
  | GExpire i =>
      match nth_error (gw_threads w) i with
      | Some t => match gt_todo t with GAnswer _ _ :: rest => gput w i (gthen t (gt_held t) rest) | _ => w end
      | None => w
      end
  end.
Definition gmoves (schedule : list gactor) (w : gworld) : gworld := fold_left gmove schedule w.
(** [servers] server threads, numbered from 0, then one thread for each program. *)
Definition gstart (servers : nat) (programs : list (list gaction)) : gworld :=
  {| gw_threads := repeat {| gt_server := true; gt_held := []; gt_todo := []; gt_serving := None |} servers ++
                   map (fun p => {| gt_server := false; gt_held := []; gt_todo := p; gt_serving := None |}) programs;
     gw_waiting := []; gw_answered := []; gw_next := 0 |}.
