(** Model of examples/modbus_system_monitor.py: a thread that samples the load of the processors and writes it, through
    the RPC client of the simulator, in the input registers of slave 1.

    Simplifications: WMI is what it answers (below); time.sleep(0.1) (55) is not modelled; the server is its databank, as in
    SimulatorModel.v; the other commands of the simulator's console are not used meanwhile; LOGGER.debug (54) has no effect;
    starting and stopping the thread and the simulator (main, 64-86) are in WorkerModel.v and CompositeModel.v. *)
From Verif Require Import Base PyStruct SlaveModel QueryModel DatabankModel HooksModel TextModel SimulatorModel.
Open Scope string_scope.
Open Scope list_scope.
Open Scope Z_scope.

(** What Properties_('LoadPercentage').Value gives for one processor (47): a number, None, or an exception. *)
Definition reading := res (option Z).
(** What WMI answers (43-45): an exception (no win32com, no winmgmts), or the processors. *)
Definition wmi := res (list reading).
(** 48: int(str(value)) if value else 0 *)
Definition cpu_usage (v : option Z) : Z := match v with Some z => if z =? 0 then 0 else z | None => 0 end.
(** 46-51: for (_cpu, i) in zip(cpu, range(10)): the [left] numbers from [i] are those that range(10) still has.
    [cuts i]: how many bytes are there when recv(1024) is called by the server and by the client (SimulatorModel.rpc_call).
    Any exception ends the loop (53). *)
Fixpoint publish (text : exn -> string) (cmds : list (string * fct)) (cuts : nat -> nat * nat) (s : sim) (left : nat) (i : nat)
  (cpu : list reading) : sim :=
  match left, cpu with
  | Datatypes.S left', r :: rest =>
      match r with
      | Err _ => s
      | Ok value =>
          let '(s', a) := rpc_call text cmds (fst (cuts i)) (snd (cuts i)) s (q_set_values 1 "Cpu" (Z.of_nat i) [cpu_usage value]) in
          match a with
          | Ok _ => publish text cmds cuts s' left' (Datatypes.S i) rest
          | Err _ => s'
          end
      end
  | _, _ => s
  end.
(** SystemDataCollector, 31-34 *)
Record collector := { cl_max : Z; cl_count : Z }.
Definition new_collector (refresh_rate_in_sec : Z) : collector :=
  {| cl_max := refresh_rate_in_sec * 10; cl_count := refresh_rate_in_sec * 10 - 1 |}.
(** collect, 36-55 *)
Definition collect (text : exn -> string) (cmds : list (string * fct)) (cuts : nat -> nat * nat) (cs : collector * sim) (w : wmi) : collector * sim :=
  let '(c, s) := cs in
  let count := cl_count c + 1 in
  if cl_max c <=? count then
    ({| cl_max := cl_max c; cl_count := 0 |},
     match w with Ok cpu => publish text cmds cuts s 10 0 cpu | Err _ => s end)
  else ({| cl_max := cl_max c; cl_count := count |}, s).
(** main, 66-69: slave 1 and its block; addr, length of the block *)
Definition monitor_db : res databank :=
  let d := new_databank true in
  let '(d1, r) := add_slave d 1 true None in
  _ <- r ;;
  sl <- get_slave d1 1 ;;
  let '(sl', r') := add_block sl "Cpu" 4 0 10 in
  _ <- r' ;; Ok (put_slave d1 1 sl').
(** What happens to the running monitor: the thread calls collect, or the server handles a request. *)
Inductive event :=
| Collected (w : wmi) (cuts : nat -> nat * nat)
| Asked (p : proto) (request : list Z).
Definition event_step (text : exn -> string) (cmds : list (string * fct)) (cs : collector * sim) (e : event) : collector * sim :=
  match e with
  | Collected w cuts => collect text cmds cuts cs w
  | Asked p request => (fst cs, with_db (snd cs) (fst (db_handle_request (sm_db (snd cs)) p request)))
  end.
Definition monitor (text : exn -> string) (cmds : list (string * fct)) (cs : collector * sim) (h : list event) : collector * sim :=
  fold_left (event_step text cmds) h cs.
