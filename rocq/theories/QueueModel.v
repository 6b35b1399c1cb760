(** Model of the queues between the simulator and its user interfaces (simulator.py 41-47).  Only who gets which answer is
    modelled; what the answers say is in SimulatorModel.v. *)
From Coq Require Import List Arith.
Import ListNotations.

(** The interfaces: the console (ConsoleInterface) and the RPC server, which serves one connection at a time
    (SocketServer.TCPServer, simulator.py 108).  A command is named by the interface it comes from and by its rank among that
    interface's commands; the answer to a command bears the name of the command. *)
Definition cmd_id := (nat * nat)%type.
(** the end of an interface's call: it got the answer to [c], or gave up *)
Inductive ending := Got (who call : nat) (c : cmd_id) | GaveUp (who call : nat).

Record qstate := {
  q_in : list cmd_id;                  (* INPUT_QUEUE *)
  q_busy : option cmd_id;              (* the command Simulator._handle is executing *)
  q_out : list cmd_id;                 (* OUTPUT_QUEUE *)
  q_count : nat -> nat;                (* how many commands an interface has issued *)
  q_waits : nat -> bool;               (* the interface is in outq.get *)
  (* ghost: all commands in the order they were put on the input queue; all calls in the order they ended *)
  q_sent : list cmd_id;
  q_log : list ending
}.
Definition q_start : qstate :=
  {| q_in := []; q_busy := None; q_out := []; q_count := fun _ => 0; q_waits := fun _ => false; q_sent := []; q_log := [] |}.
Definition upd {A} (f : nat -> A) (i : nat) (a : A) : nat -> A := fun j => if j =? i then a else f j.

Inductive qlabel :=
| Send (i : nat)        (* INPUT_QUEUE.put(cmd), simulator.py 95 and 169 *)
| Take                  (* cmd = self.inq.get(), simulator.py 332 *)
| Put                   (* self.outq.put(...), simulator.py 335-344 *)
| Get (i : nat)         (* OUTPUT_QUEUE.get(timeout) returns, simulator.py 97 and 170 *)
| Expire (i : nat).     (* OUTPUT_QUEUE.get(timeout) raises Empty *)

(** None: the action is not possible now.  Simplifications: a timeout may expire at any time, even when the answer is there;
    an interface goes on after a timeout (in the code this is so for RPC; the console's thread ends). *)
Definition qdo (q : qstate) (l : qlabel) : option qstate :=
  match l with
  | Send i =>
      if q_waits q i then None
      else let c := (i, q_count q i) in
        Some {| q_in := q_in q ++ [c]; q_busy := q_busy q; q_out := q_out q; q_count := upd (q_count q) i (S (q_count q i));
                q_waits := upd (q_waits q) i true; q_sent := q_sent q ++ [c]; q_log := q_log q |}
  | Take =>
      match q_busy q, q_in q with
      | None, c :: t =>
          Some {| q_in := t; q_busy := Some c; q_out := q_out q; q_count := q_count q; q_waits := q_waits q;
                  q_sent := q_sent q; q_log := q_log q |}
      | _, _ => None
      end
  | Put =>
      match q_busy q with
      | Some c =>
          Some {| q_in := q_in q; q_busy := None; q_out := q_out q ++ [c]; q_count := q_count q; q_waits := q_waits q;
                  q_sent := q_sent q; q_log := q_log q |}
      | None => None
      end
  | Get i =>
      match q_waits q i, q_out q with
      | true, c :: t =>
          Some {| q_in := q_in q; q_busy := q_busy q; q_out := t; q_count := q_count q; q_waits := upd (q_waits q) i false;
                  q_sent := q_sent q; q_log := q_log q ++ [Got i (pred (q_count q i)) c] |}
      | _, _ => None
      end
  | Expire i =>
      if q_waits q i then
        Some {| q_in := q_in q; q_busy := q_busy q; q_out := q_out q; q_count := q_count q; q_waits := upd (q_waits q) i false;
                q_sent := q_sent q; q_log := q_log q ++ [GaveUp i (pred (q_count q i))] |}
      else None
  end.
Fixpoint qexec (q : qstate) (ls : list qlabel) : option qstate :=
  match ls with
  | [] => Some q
  | l :: t => match qdo q l with Some q' => qexec q' t | None => None end
  end.
