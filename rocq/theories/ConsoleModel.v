(** Model of the consoles of examples/tcpslave_example.py (19-86) and examples/rtuslave_example.py (23-88): a server whose slaves are managed by typing commands.

    Simplifications: the server is its databank and whether it was stopped; the creation of the server and server.start() (23-35) are not modelled; text is ASCII. *)
From Verif Require Import Base SlaveModel DatabankModel TextModel SimulatorModel.
Open Scope string_scope.
Open Scope list_scope.
Open Scope Z_scope.

(** str(t) of a tuple of integers *)
Definition py_str_tuple (l : list Z) : string :=
  match l with
  | [] => "()"
  | [v] => "(" ++ py_str v ++ ",)"
  | v :: t => "(" ++ fold_left (fun s w => s ++ ", " ++ py_str w) t (py_str v) ++ ")"
  end%string.

(** How one turn of the loop ends: the next one, break, or an exception. *)
Inductive turn := Next | Break | Raise (e : exn).
(** a part of a command that may raise *)
Definition ask {A} (d : databank) (r : res A) (k : A -> databank * list string * turn) : databank * list string * turn :=
  match r with Ok a => k a | Err e => (d, [], Raise e) end.
Definition says (d : databank) (s : string) : databank * list string * turn := (d, [(s ++ crlf)%string], Next).

(** One turn of "while True", tcpslave_example.py 40-82; [cmd] is what sys.stdin.readline() returned. *)
Definition console_turn (d : databank) (cmd : string) : databank * list string * turn :=
  let args := split_space cmd in
  let name := hd "" args in
  if String.prefix "quit" cmd then (d, [("bye-bye" ++ crlf)%string], Break)
  else if String.eqb name "add_slave" then
    ask d (int_arg args 1) (fun id =>
    let '(d', r) := add_slave d id true None in
    match r with Ok _ => says d' ("done: slave " ++ py_str id ++ " added") | Err e => (d', [], Raise e) end)
  else if String.eqb name "add_block" then
    ask d (int_arg args 1) (fun id =>
    ask d (arg args 2) (fun block =>
    ask d (int_arg args 3) (fun block_type =>
    ask d (int_arg args 4) (fun start =>
    ask d (int_arg args 5) (fun length =>
    ask d (get_slave d id) (fun sl =>
    let '(sl', r) := add_block sl block block_type start length in
    let d' := put_slave d id sl' in
    match r with Ok _ => says d' ("done: block " ++ block ++ " added") | Err e => (d', [], Raise e) end))))))
  else if String.eqb name "set_values" then
    ask d (int_arg args 1) (fun id =>
    ask d (arg args 2) (fun block =>
    ask d (int_arg args 3) (fun address =>
    ask d (ints (skipn 4 args)) (fun values =>
    ask d (get_slave d id) (fun sl =>
    let '(sl', r) := set_values sl block address (SvSeq values) in
    let d' := put_slave d id sl' in
    match r with
    | Err e => (d', [], Raise e)
    | Ok _ => ask d' (get_values sl' block address (zlen values)) (fun vs => says d' ("done: values written: " ++ py_str_tuple vs))
    end)))))
  else if String.eqb name "get_values" then
    ask d (int_arg args 1) (fun id =>
    ask d (arg args 2) (fun block =>
    ask d (int_arg args 3) (fun address =>
    ask d (int_arg args 4) (fun length =>
    ask d (get_slave d id) (fun sl =>
    ask d (get_values sl block address length) (fun vs => says d ("done: values read: " ++ py_str_tuple vs)))))))
  else says d ("unknown command " ++ name).

(** The loop, over the lines typed so far; "finally: server.stop()" is carried out when it is left (83-84). *)
Inductive console_end := Waiting | Quit | Died (e : exn).
Fixpoint console (d : databank) (lines : list string) : databank * list string * console_end :=
  match lines with
  | [] => (d, [], Waiting)
  | l :: t =>
      match console_turn d l with
      | (d', out, Next) => let '(d'', out', e) := console d' t in (d'', out ++ out', e)
      | (d', out, Break) => (d', out, Quit)
      | (d', out, Raise e) => (d', out, Died e)
      end
  end.
(** does the server still serve? *)
Definition serving_still (e : console_end) : bool := match e with Waiting => true | _ => false end.
