(** Model of the simulator (simulator.py) and of its RPC client (simulator_rpc_client.py). *)
From Verif Require Import Base SlaveModel DatabankModel HooksModel TextModel.
Open Scope string_scope.
Open Scope list_scope.
Open Scope Z_scope.

(** What the commands act on: the server's databank, the hook registry, the declared hook functions
    (declare_hook, simulator.py 222-224), the verbosity. *)
Record sim := {
  sm_db : databank;
  sm_hooks : registry;
  sm_fcts : list (string * Z);
  sm_verbose : Z
}.
Definition with_db (s : sim) (d : databank) : sim :=
  {| sm_db := d; sm_hooks := sm_hooks s; sm_fcts := sm_fcts s; sm_verbose := sm_verbose s |}.
Definition with_hooks (s : sim) (h : registry) : sim :=
  {| sm_db := sm_db s; sm_hooks := h; sm_fcts := sm_fcts s; sm_verbose := sm_verbose s |}.

(** args[i] *)
Definition arg (args : list string) (i : nat) : res string :=
  match nth_error args i with Some a => Ok a | None => Err PyIndexError end.
Definition int_arg (args : list string) (i : nat) : res Z := a <- arg args i ;; py_int a.

(** _tuple_to_str, simulator.py 226-231 *)
Definition tuple_to_str (l : list Z) : string :=
  drop 1 (fold_left (fun ret item => append ret (append " " (py_str item))) l EmptyString).

(** What a command returns: a string, or None. *)
Definition answer := option string.
Definition show (a : answer) : string := match a with Some s => s | None => "None" end.
Definition fct := sim -> list string -> sim * res answer.
(** a command that fails before it does anything *)
Definition need {A} (s : sim) (r : res A) (k : A -> sim * res answer) : sim * res answer :=
  match r with Ok a => k a | Err e => (s, Err e) end.

(** _do_add_slave, simulator.py 233-237 *)
Definition do_add_slave : fct := fun s args =>
  need s (int_arg args 1) (fun id =>
  let '(d, r) := add_slave (sm_db s) id true None in
  (with_db s d, _ <- r ;; Ok (Some (py_str id)))).
(** _do_has_slave, simulator.py 239-246 *)
Definition do_has_slave : fct := fun s args =>
  need s (int_arg args 1) (fun id =>
  (s, Ok (Some (match get_slave (sm_db s) id with Ok _ => "1" | Err _ => "0" end)))).
(** _do_remove_slave, simulator.py 248-252 *)
Definition do_remove_slave : fct := fun s args =>
  need s (int_arg args 1) (fun id =>
  let '(d, r) := remove_slave (sm_db s) id in
  (with_db s d, _ <- r ;; Ok (Some ""))).
(** _do_remove_all_slaves, simulator.py 254-257 *)
Definition do_remove_all_slaves : fct := fun s _ => (with_db s (remove_all_slaves (sm_db s)), Ok (Some "")).
(** _do_add_block, simulator.py 259-268 *)
Definition do_add_block : fct := fun s args =>
  need s (int_arg args 1) (fun id =>
  need s (arg args 2) (fun name =>
  need s (int_arg args 3) (fun block_type =>
  need s (int_arg args 4) (fun start =>
  need s (int_arg args 5) (fun length =>
  need s (get_slave (sm_db s) id) (fun sl =>
  let '(sl', r) := add_block sl name block_type start length in
  (with_db s (put_slave (sm_db s) id sl'), _ <- r ;; Ok (Some name)))))))).
(** _do_remove_block, simulator.py 270-275: returns None *)
Definition do_remove_block : fct := fun s args =>
  need s (int_arg args 1) (fun id =>
  need s (arg args 2) (fun name =>
  need s (get_slave (sm_db s) id) (fun sl =>
  let '(sl', r) := remove_block sl name in
  (with_db s (put_slave (sm_db s) id sl'), _ <- r ;; Ok None)))).
(** _do_remove_all_blocks, simulator.py 277-281: returns None *)
Definition do_remove_all_blocks : fct := fun s args =>
  need s (int_arg args 1) (fun id =>
  need s (get_slave (sm_db s) id) (fun sl =>
  (with_db s (put_slave (sm_db s) id (remove_all_blocks sl)), Ok None))).
(** for val in args[4:]: values.append(int(val)), simulator.py 288-290 *)
Fixpoint ints (l : list string) : res (list Z) :=
  match l with
  | [] => Ok []
  | a :: t => v <- py_int a ;; vs <- ints t ;; Ok (v :: vs)
  end.
(** _do_set_values, simulator.py 283-294 *)
Definition do_set_values : fct := fun s args =>
  need s (int_arg args 1) (fun id =>
  need s (arg args 2) (fun name =>
  need s (int_arg args 3) (fun address =>
  need s (ints (skipn 4 args)) (fun values =>
  need s (get_slave (sm_db s) id) (fun sl =>
  let '(sl', r) := set_values sl name address (SvSeq values) in
  (with_db s (put_slave (sm_db s) id sl'),
   _ <- r ;; vs <- get_values sl' name address (zlen values) ;; Ok (Some (tuple_to_str vs)))))))).
(** _do_get_values, simulator.py 296-304 *)
Definition do_get_values : fct := fun s args =>
  need s (int_arg args 1) (fun id =>
  need s (arg args 2) (fun name =>
  need s (int_arg args 3) (fun address =>
  need s (int_arg args 4) (fun length =>
  need s (get_slave (sm_db s) id) (fun sl =>
  (s, vs <- get_values sl name address length ;; Ok (Some (tuple_to_str vs)))))))).
(** _do_install_hook, simulator.py 306-310 *)
Definition do_install_hook : fct := fun s args =>
  need s (arg args 1) (fun hook_name =>
  need s (arg args 2) (fun fct_name =>
  match assoc String.eqb fct_name (sm_fcts s) with
  | None => (s, Err PyKeyError)
  | Some f => (with_hooks s (install_hook (sm_hooks s) hook_name f), Ok None)
  end)).
(** _do_uninstall_hook, simulator.py 312-321: a KeyError is only logged *)
Definition do_uninstall_hook : fct := fun s args =>
  need s (arg args 1) (fun hook_name =>
  (with_hooks s (fst (uninstall_hook (sm_hooks s) hook_name None)), Ok None)).
(** _do_set_verbose, simulator.py 323-327 *)
Definition do_set_verbose : fct := fun s args =>
  need s (int_arg args 1) (fun verbose =>
  ({| sm_db := sm_db s; sm_hooks := sm_hooks s; sm_fcts := sm_fcts s; sm_verbose := verbose |}, Ok (Some (py_str verbose)))).

(** self.cmds, simulator.py 193-206 *)
Definition builtin_cmds : list (string * fct) := [
  ("add_slave", do_add_slave); ("has_slave", do_has_slave); ("remove_slave", do_remove_slave);
  ("remove_all_slaves", do_remove_all_slaves); ("add_block", do_add_block); ("remove_block", do_remove_block);
  ("remove_all_blocks", do_remove_all_blocks); ("set_values", do_set_values); ("get_values", do_get_values);
  ("install_hook", do_install_hook); ("uninstall_hook", do_uninstall_hook); ("set_verbose", do_set_verbose)].
(** add_command, simulator.py 208-210 *)
Definition add_command (cmds : list (string * fct)) (name : string) (f : fct) : list (string * fct) :=
  assoc_put String.eqb name f cmds.

Definition crlf : string := String (ascii_of_nat 13) (String (ascii_of_nat 10) EmptyString).
(** What is put on the input queue: text, or (from the RPC interface in Python 3) bytes. *)
Inductive command := Text (s : string) | Bytes (l : list Z).
Inductive outcome := Answer (a : string) | Bye (a : string) | Crash (e : exn).
(** One turn of _handle, simulator.py 329-344.  [text]: str(exception). *)
Definition sim_step (text : exn -> string) (cmds : list (string * fct)) (s : sim) (c : command) : sim * outcome :=
  match c with
  | Bytes _ => (s, Crash PyTypeError)                       (* cmd.strip('\r\n') *)
  | Text cmd =>
      let args := split_space (strip is_crlf cmd) in
      let name := hd "" args in
      if String.prefix "quit" cmd then (s, Bye (append "bye-bye" crlf))
      else match assoc String.eqb name cmds with
      | Some f =>
          match f s args with
          | (s', Ok a) => (s', Answer (append name (append " done: " (append (show a) crlf))))
          | (s', Err e) => (s', Answer (append name (append " error: " (append (text e) crlf))))
          end
      | None => (s, Answer (append "error: unknown command " (append name crlf)))
      end
  end.
(** _handle: the answers put on the output queue, and how it ended. *)
Inductive status := Running | Stopped | Crashed (e : exn).
Fixpoint sim_run (text : exn -> string) (cmds : list (string * fct)) (s : sim) (l : list command) : sim * list string * status :=
  match l with
  | [] => (s, [], Running)
  | c :: t =>
      match sim_step text cmds s c with
      | (s', Crash e) => (s', [], Crashed e)
      | (s', Bye a) => (s', [a], Stopped)
      | (s', Answer a) => let '(s'', answers, st) := sim_run text cmds s' t in (s'', a :: answers, st)
      end
  end.

(** ** The RPC client, Python 2 *)

(** SimulatorRpcClient._rpc_call, simulator_rpc_client.py 26-34, RpcHandler.handle, simulator.py 89-99, when nobody
    else uses the queues (otherwise: QueueModel.v).  [n1], [n2]: how many bytes are there when recv(1024) is called, by the
    server and by the client. *)
Definition rpc_call (text : exn -> string) (cmds : list (string * fct)) (n1 n2 : nat) (s : sim) (query : string) : sim * res string :=
  let request := strip is_white (take (Nat.min n1 1024) query) in
  let '(s', o) := sim_step text cmds s (Text request) in
  match o with
  | Crash _ => (s', Err GenericException)
  | Answer a | Bye a =>
      let response := strip is_crlf (take (Nat.min n2 1024) a) in
      let pre := append (hd "" (split_space query)) " done: " in
      (* _response_to_values, simulator_rpc_client.py 36-42 *)
      (s', if String.prefix pre response then Ok (drop (String.length pre) response) else Err GenericException)
  end.
Definition sentence (l : list string) : string := String.concat " " l.
(** simulator_rpc_client.py 44-102; the queries are format strings, written here as sentence *)
Definition q_add_slave (id : Z) := sentence ["add_slave"; py_str id].
Definition q_remove_slave (id : Z) := sentence ["remove_slave"; py_str id].
Definition q_remove_all_slaves := "remove_all_slaves".
Definition q_has_slave (id : Z) := sentence ["has_slave"; py_str id].
Definition q_add_block (id : Z) (name : string) (block_type start length : Z) :=
  sentence ["add_block"; py_str id; name; py_str block_type; py_str start; py_str length].
Definition q_remove_block (id : Z) (name : string) := sentence ["remove_block"; py_str id; name].
Definition q_remove_all_blocks (id : Z) := sentence ["remove_all_blocks"; py_str id].
(** 94-102; [fct_name] is "" by default *)
Definition q_install_hook (hook_name fct_name : string) := sentence ["install_hook"; hook_name; fct_name].
Definition q_uninstall_hook (hook_name fct_name : string) := sentence ["uninstall_hook"; hook_name; fct_name].
(** 81-86: "set_values %d %s %d", then " " + str(val) for every value *)
Definition q_set_values (id : Z) (name : string) (address : Z) (values : list Z) :=
  fold_left (fun q v => append q (append " " (py_str v))) values (sentence ["set_values"; py_str id; name; py_str address]).
Definition q_get_values (id : Z) (name : string) (address length : Z) :=
  sentence ["get_values"; py_str id; name; py_str address; py_str length].
(** 88-92: tuple([int(val) for val in ret_values.split(' ')]) *)
Definition parse_values (r : res string) : res (list Z) := v <- r ;; ints (split_space v).
Definition client_get_values (text : exn -> string) (cmds : list (string * fct)) (n1 n2 : nat) (s : sim)
  (id : Z) (name : string) (address length : Z) : sim * res (list Z) :=
  let '(s', r) := rpc_call text cmds n1 n2 s (q_get_values id name address length) in (s', parse_values r).
(** 59-64 *)
Definition client_has_slave (text : exn -> string) (cmds : list (string * fct)) (n1 n2 : nat) (s : sim) (id : Z) : sim * res bool :=
  let '(s', r) := rpc_call text cmds n1 n2 s (q_has_slave id) in (s', a <- r ;; Ok (String.eqb "1" a)).
