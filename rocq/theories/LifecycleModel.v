(** The life of a server: Server.start, stop, _run_server and _make_thread (modbus.py 1015-1018,
    1051-1074), cut into single accesses to shared attributes and interleaved in any order.

    Simplifications: stop() called from within the server thread (a hook) is not modelled; of
    _do_init, _do_run and _do_exit only whether they raise (their contents: TransportModel.v); exceptions
    that are not subclasses of Exception are not modelled. *)
From Verif Require Import Base.

(** Where a thread object is.  [TTestOn e]: self._go has been loaded, it is the event [e]. *)
Inductive tpc :=
| TNew                       (* created, not started *)
| TInit                      (* 1065: self._do_init() *)
| TTest | TTestOn (e : nat)  (* 1066: while self._go.isSet() *)
| TRun                       (* 1067: self._do_run() *)
| TExit                      (* 1069: self._do_exit() *)
| TFail                      (* 1072: call_hooks("modbus.Server.on_exception", ...) *)
| TMakeThread                (* 1017: self._thread = threading.Thread(...) *)
| TMakeGo                    (* 1018: self._go = threading.Event() *)
| TDead                      (* through *)
| TKilled.                   (* ended by an exception of the on_exception hook *)
(** Thread.is_alive *)
Definition alive (p : tpc) : bool := match p with TNew | TDead | TKilled => false | _ => true end.

(** The server object, and the thread and event objects created for it. *)
Record server := { sv_thread : nat; sv_go : nat; sv_threads : list tpc; sv_events : list bool }.
(** Server.__init__, modbus.py 994-1001 *)
Definition new_server : server := {| sv_thread := 0; sv_go := 0; sv_threads := [TNew]; sv_events := [false] |}.
Definition put_thread (s : server) (i : nat) (p : tpc) : server :=
  {| sv_thread := sv_thread s; sv_go := sv_go s; sv_threads := list_upd (sv_threads s) i p; sv_events := sv_events s |}.
Definition put_event (s : server) (e : nat) (b : bool) : server :=
  {| sv_thread := sv_thread s; sv_go := sv_go s; sv_threads := sv_threads s; sv_events := list_upd (sv_events s) e b |}.

(** One step of thread [i]; [raises]: whether what it does now raises an exception (an installed function in
    the case of [TFail]). *)
Definition thread_move (s : server) (i : nat) (raises : bool) : server :=
  match nth_error (sv_threads s) i with
  | None | Some TNew | Some TDead | Some TKilled => s
  | Some TInit => put_thread s i (if raises then TFail else TTest)
  | Some TTest => put_thread s i (TTestOn (sv_go s))
  | Some (TTestOn e) => put_thread s i (if nth e (sv_events s) false then TRun else TExit)
  | Some TRun => put_thread s i (if raises then TFail else TTest)
  | Some TExit => put_thread s i (if raises then TFail else TMakeThread)
  | Some TFail => put_thread s i (if raises then TKilled else TMakeThread)
  | Some TMakeThread =>
      let s' := put_thread s i TMakeGo in
      {| sv_thread := length (sv_threads s'); sv_go := sv_go s'; sv_threads := sv_threads s' ++ [TNew]; sv_events := sv_events s' |}
  | Some TMakeGo =>
      let s' := put_thread s i TDead in
      {| sv_thread := sv_thread s'; sv_go := length (sv_events s'); sv_threads := sv_threads s'; sv_events := sv_events s' ++ [false] |}
  end.

(** Callers of start() and stop(). *)
Inductive ucall := UStart | UStop.
Inductive upc :=
| StartGo | StartSet (e : nat)          (* 1053: self._go.set(): load, then call *)
| StartThread | StartStart (t : nat)    (* 1054: self._thread.start() *)
| StopThread | StopAlive (t : nat)      (* 1058: self._thread.is_alive() *)
| StopGo | StopClear (e : nat)          (* 1059: self._go.clear() *)
| StopThread2 | StopJoin (t : nat).     (* 1060: self._thread.join() *)
(** The call being made, those still to be made, those over with their results. *)
Record user := { us_now : option upc; us_todo : list ucall; us_done : list (ucall * res unit) }.
Definition at_pc (u : user) (p : upc) : user := {| us_now := Some p; us_todo := us_todo u; us_done := us_done u |}.
Definition over (u : user) (c : ucall) (r : res unit) : user :=
  {| us_now := None; us_todo := us_todo u; us_done := us_done u ++ [(c, r)] |}.
Definition call_of (p : upc) : ucall :=
  match p with StartGo | StartSet _ | StartThread | StartStart _ => UStart | _ => UStop end.

(** One step of a caller. *)
Definition user_move (s : server) (u : user) : server * user :=
  match us_now u with
  | None =>
      match us_todo u with
      | [] => (s, u)
      | UStart :: rest => (s, {| us_now := Some StartGo; us_todo := rest; us_done := us_done u |})
      | UStop :: rest => (s, {| us_now := Some StopThread; us_todo := rest; us_done := us_done u |})
      end
  | Some StartGo => (s, at_pc u (StartSet (sv_go s)))
  | Some (StartSet e) => (put_event s e true, at_pc u StartThread)
  | Some StartThread => (s, at_pc u (StartStart (sv_thread s)))
  | Some (StartStart t) =>
      match nth_error (sv_threads s) t with
      | Some TNew => (put_thread s t TInit, over u UStart (Ok tt))
      | _ => (s, over u UStart (Err PyRuntimeError))      (* threads can only be started once *)
      end
  | Some StopThread => (s, at_pc u (StopAlive (sv_thread s)))
  | Some (StopAlive t) =>
      match nth_error (sv_threads s) t with
      | Some p => if alive p then (s, at_pc u StopGo) else (s, over u UStop (Ok tt))
      | None => (s, over u UStop (Ok tt))
      end
  | Some StopGo => (s, at_pc u (StopClear (sv_go s)))
  | Some (StopClear e) => (put_event s e false, at_pc u StopThread2)
  | Some StopThread2 => (s, at_pc u (StopJoin (sv_thread s)))
  | Some (StopJoin t) =>
      match nth_error (sv_threads s) t with
      | Some TNew => (s, over u UStop (Err PyRuntimeError))  (* cannot join thread before it is started *)
      | Some TDead | Some TKilled | None => (s, over u UStop (Ok tt))
      | Some _ => (s, u)                                     (* waits *)
      end
  end.

(** Callers and server threads together; a schedule says who moves, and what raises. *)
Record world := { w_server : server; w_users : list user }.
Inductive actor := ByUser (i : nat) | ByThread (i : nat) (raises : bool).
Definition world_move (w : world) (a : actor) : world :=
  match a with
  | ByThread i raises => {| w_server := thread_move (w_server w) i raises; w_users := w_users w |}
  | ByUser i =>
      match nth_error (w_users w) i with
      | None => w
      | Some u => let '(s, u') := user_move (w_server w) u in {| w_server := s; w_users := list_upd (w_users w) i u' |}
      end
  end.
Definition world_moves (schedule : list actor) (w : world) : world := fold_left world_move schedule w.
(** A new server; each caller is given the calls it will make. *)
Definition world_start (programs : list (list ucall)) : world :=
  {| w_server := new_server; w_users := map (fun p => {| us_now := None; us_todo := p; us_done := [] |}) programs |}.

(** ** The listening socket of a TcpServer *)

(** modbus_tcp.py 248, 261-282: the sockets in self._sockets that are open and listen on self._sa.
    Simplification: other sockets are left out (they do not matter for bind). *)
Definition listening := nat.
(** what happens to the server thread after _do_init: accept failed (modbus_tcp.py 356-360 closes the listening
    socket and removes it), the loop is over because of stop(), or an exception came out of _do_run *)
Inductive tcp_life := AcceptFailed | LoopOver | RunRaised.
(** _do_init, modbus_tcp.py 261-270: bind fails while another socket listens on the address (with
    SO_REUSEADDR, as on Linux). *)
Definition tcp_do_init (l : listening) : listening * res unit :=
  match l with O => (1%nat, Ok tt) | _ => (l, Err GenericException) end.
(** One life of the server thread: _run_server from _do_init to the end, with what happens in it. *)
Fixpoint tcp_rest (l : listening) (events : list tcp_life) : listening * res unit :=
  match events with
  | [] => (l, Ok tt)                                   (* still running *)
  | AcceptFailed :: t => tcp_rest (Nat.pred l) t
  | LoopOver :: _ => (O, Ok tt)                         (* _do_exit, 272-282: all sockets are closed *)
  | RunRaised :: _ => (l, Err GenericException)         (* 1070: _do_exit is not called *)
  end.
Definition tcp_run_server (l : listening) (events : list tcp_life) : listening * res unit :=
  match tcp_do_init l with
  | (l', Err e) => (l', Err e)
  | (l', Ok _) => tcp_rest l' events
  end.
(** A history: one element for each start(). *)
Fixpoint tcp_lives (l : listening) (history : list (list tcp_life)) : list (res unit) :=
  match history with
  | [] => []
  | e :: t => let '(l', r) := tcp_run_server l e in r :: tcp_lives l' t
  end.
