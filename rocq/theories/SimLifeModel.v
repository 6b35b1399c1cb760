(** The life of a Simulator (simulator.py 102-186, 212-220, 346-378): start() starts the server and the threads of the console and of the RPC
    interface and then handles commands; close() ends them.
    The threads take turns in any order.  What the library only hands on is an input: whether server.start() and server.stop() (of a server
    or a CompositeServer) return or raise, whether the system can start a new thread, and when _handle ends.
    socketserver.BaseServer is modelled as in CPython 3: serve_forever clears the event __is_shut_down, serves until __shutdown_request is
    set, and then resets __shutdown_request and sets the event; shutdown() sets __shutdown_request and waits for the event.
    Simplifications: what a command does is not modelled (SimulatorModel.v), nor the queues (QueueModel.v); join(1.0) returns at any time;
    the Simulator object stays referenced (otherwise CPython closes the RPC socket when it is collected). *)
From Verif Require Import Base.

(** The thread of ConsoleInterface, run, simulator.py 164-171. *)
Inductive cthread :=
| CFresh      (* not started *)
| CHead       (* at the head of the loop, line 166 *)
| CReading    (* inside _check_console_input or readline, lines 167-168 *)
| CWaiting    (* the command was put, waiting for the answer, line 170 *)
| CEnded.
(** The thread of RpcInterface, run, simulator.py 110-112. *)
Inductive rthread :=
| RFresh      (* not started *)
| RStarted    (* serve_forever has not begun *)
| RServing    (* in the loop of serve_forever *)
| RHandling   (* in RpcHandler.handle, lines 89-99, a command was put *)
| REnded.
(** Where the caller of the Simulator is. *)
Inductive place :=
| Outside                 (* in no call *)
| InStart (n : nat)       (* start(), lines 214-216: 0 server.start(), 1 console.start(), 2 rpc.start() *)
| InHandle                (* _handle(), line 220 *)
| InClose (n : nat)       (* close(), lines 348-350: 0 console.close(), 1 rpc.close() before shutdown, 2 inside shutdown, 3 rpc.join, 4 server.stop() *)
| Closed                  (* close() has returned *)
| Raised (e : exn).       (* start() or close() has raised *)
Record sim := { s_place : place; s_up : bool (* server.start() was called and no server.stop() since returned *);
                s_go : bool (* console._go *); s_console : cthread; s_typed : nat (* commands put by the console *);
                s_rpc : rthread; s_request : bool (* __shutdown_request *); s_shut : bool (* __is_shut_down *); s_called : nat (* commands put by RPC *);
                s_bound : bool (* the socket of the RPC server is bound to port 2711 *) }.
(** Simulator.__init__, simulator.py 182-206, RpcInterface.__init__, 105-108 (TCPServer binds and listens), ConsoleInterface.__init__, 126-145.
    [bound]: somebody is bound to the port. *)
Definition new_simulator (bound : bool) : res sim :=
  if bound then Err SocketTimeout (* an OSError *)
  else Ok {| s_place := Outside; s_up := false; s_go := true; s_console := CFresh; s_typed := 0; s_rpc := RFresh; s_request := false; s_shut := false; s_called := 0; s_bound := true |}.

Inductive turn :=
| CallStart | CallClose                     (* the caller calls start() or close() *)
| Returns (r : res unit)                    (* what the caller's step hands on returns or raises *)
| ConsoleTurn | ConsoleIdle | ConsoleDies                 (* ConsoleIdle: nothing was typed for half a second, line 158; ConsoleDies: outq.get raises queue.Empty, line 170 *)
| RpcTurn | RpcCommand.                     (* RpcCommand: a client has sent a command *)

Definition at_ (s : sim) (p : place) : sim :=
  {| s_place := p; s_up := s_up s; s_go := s_go s; s_console := s_console s; s_typed := s_typed s; s_rpc := s_rpc s; s_request := s_request s; s_shut := s_shut s; s_called := s_called s; s_bound := s_bound s |}.
Definition with_up (s : sim) (b : bool) : sim :=
  {| s_place := s_place s; s_up := b; s_go := s_go s; s_console := s_console s; s_typed := s_typed s; s_rpc := s_rpc s; s_request := s_request s; s_shut := s_shut s; s_called := s_called s; s_bound := s_bound s |}.
Definition with_console (s : sim) (go : bool) (c : cthread) (n : nat) : sim :=
  {| s_place := s_place s; s_up := s_up s; s_go := go; s_console := c; s_typed := n; s_rpc := s_rpc s; s_request := s_request s; s_shut := s_shut s; s_called := s_called s; s_bound := s_bound s |}.
Definition with_rpc (s : sim) (t : rthread) (request shut : bool) (n : nat) : sim :=
  {| s_place := s_place s; s_up := s_up s; s_go := s_go s; s_console := s_console s; s_typed := s_typed s; s_rpc := t; s_request := request; s_shut := shut; s_called := n; s_bound := s_bound s |}.

(** One step of the caller inside start() (simulator.py 212-220) or close() (346-350; 114-120, 173-176); None: the caller is waiting. *)
Definition caller (s : sim) (r : res unit) : option sim :=
  match s_place s with
  | InStart 0 => Some (at_ (with_up s true) (match r with Ok _ => InStart 1 | Err e => Raised e end))
  | InStart 1 =>                                                                    (* Thread.start *)
      match s_console s, r with
      | CFresh, Ok _ => Some (at_ (with_console s (s_go s) CHead (s_typed s)) (InStart 2))
      | CFresh, Err e => Some (at_ s (Raised e))
      | _, _ => Some (at_ s (Raised PyRuntimeError))                                  (* threads can only be started once *)
      end
  | InStart _ =>
      match s_rpc s, r with
      | RFresh, Ok _ => Some (at_ (with_rpc s RStarted (s_request s) (s_shut s) (s_called s)) InHandle)
      | RFresh, Err e => Some (at_ s (Raised e))
      | _, _ => Some (at_ s (Raised PyRuntimeError))
      end
  | InHandle => Some (at_ s (match r with Ok _ => Outside | Err e => Raised e end)) (* quit, or an exception leaves _handle *)
  | InClose 0 =>                                                                    (* self._go.clear(); self.join(1.0) *)
      let s := with_console s false (s_console s) (s_typed s) in
      match s_console s with
      | CFresh => Some (at_ s (Raised PyRuntimeError))                                (* cannot join thread before it is started *)
      | _ => Some (at_ s (InClose 1))
      end
  | InClose 1 => Some (at_ (with_rpc s (s_rpc s) true (s_shut s) (s_called s)) (InClose 2))
  | InClose 2 => if s_shut s then Some (at_ s (InClose 3)) else None
  | InClose 3 => Some (at_ s (InClose 4))                                           (* join(1.0); what it raises is caught, lines 119-120 *)
  | InClose _ => match r with Ok _ => Some (at_ (with_up s false) Closed) | Err e => Some (at_ s (Raised e)) end
  | _ => None
  end.
(** One turn of anybody; None: it is not possible now. *)
Definition turn_of (s : sim) (t : turn) : option sim :=
  let idle := match s_place s with Outside | Closed | Raised _ => true | _ => false end in
  match t with
  | CallStart => if idle then Some (at_ s (InStart 0)) else None
  | CallClose => if idle then Some (at_ s (InClose 0)) else None
  | Returns r => caller s r
  | ConsoleTurn =>
      match s_console s with
      | CHead => Some (with_console s (s_go s) (if s_go s then CReading else CEnded) (s_typed s))
      | CReading => Some (with_console s (s_go s) CWaiting (S (s_typed s)))
      | CWaiting => Some (with_console s (s_go s) CHead (s_typed s))
      | _ => None
      end
  | ConsoleIdle => match s_console s with CReading => Some (with_console s (s_go s) CHead (s_typed s)) | _ => None end
  | ConsoleDies => match s_console s with CWaiting => Some (with_console s (s_go s) CEnded (s_typed s)) | _ => None end
  | RpcTurn =>
      match s_rpc s with
      | RStarted => Some (with_rpc s RServing (s_request s) false (s_called s))
      | RServing => if s_request s then Some (with_rpc s REnded false true (s_called s)) else Some s
      | RHandling => Some (with_rpc s RServing (s_request s) (s_shut s) (s_called s))
      | _ => None
      end
  | RpcCommand =>
      match s_rpc s with
      | RServing => if s_request s then None else Some (with_rpc s RHandling (s_request s) (s_shut s) (S (s_called s)))
      | _ => None
      end
  end.
Fixpoint turns (s : sim) (l : list turn) : option sim :=
  match l with [] => Some s | t :: l => match turn_of s t with Some s' => turns s' l | None => None end end.
