(** start() and stop() of a server called by functions installed as its hooks, that is by the server's own thread, while other callers
    call them too (modbus.py 1051-1074; the hooks run in _do_init, modbus_rtu.py 251-253, in _do_run, in _do_exit, modbus_rtu.py 207-209,
    and at modbus.py 1072).  Everything else is LifecycleModel.v.

    Simplification: what the installed function does with the exception of start() or stop() - catch it or let it out - is
    the choice [raises] of the thread's next step (modbus_tcp.py 356 and modbus_rtu.py 312 catch what comes out within _do_run). *)
From Verif Require Import Base LifecycleModel.

(** A thread can be inside a call of start() or stop() made by a hook. *)
Record hworld := {
  hw_world : world;
  hw_inside : nat -> option upc;                (* the call thread i is in *)
  hw_calls : list (nat * ucall * res unit)      (* the calls made by threads that are over, and their results *)
}.
(** where hooks run *)
Definition hook_runs (p : tpc) : bool := match p with TInit | TRun | TExit | TFail => true | _ => false end.
Definition set_inside (f : nat -> option upc) (i : nat) (x : option upc) : nat -> option upc :=
  fun j => if Nat.eqb j i then x else f j.
Definition with_server (w : world) (s : server) : world := {| w_server := s; w_users := w_users w |}.

(** One step of thread [i] within start() or stop(): as [user_move], but Thread.join raises RuntimeError when a thread joins itself
    ("cannot join current thread"). *)
Definition inner_move (s : server) (i : nat) (p : upc) : server * (upc + res unit) :=
  match p with
  | StopJoin t =>
      if Nat.eqb t i then (s, inr (Err PyRuntimeError))
      else match nth_error (sv_threads s) t with
           | Some TNew => (s, inr (Err PyRuntimeError))
           | Some TDead | Some TKilled | None => (s, inr (Ok tt))
           | Some _ => (s, inl p)
           end
  | _ =>
      let '(s', u) := user_move s {| us_now := Some p; us_todo := []; us_done := [] |} in
      (s', match us_now u, us_done u with
           | Some p', _ => inl p'
           | None, (_, r) :: _ => inr r
           | None, [] => inl p
           end)
  end.

(** Who moves: a caller, a thread (in the call its hook is making, or in its own code), or a hook that begins a call. *)
Inductive hactor := HUser (i : nat) | HThread (i : nat) (raises : bool) | HCalls (i : nat) (c : ucall).
Definition hmove (w : hworld) (a : hactor) : hworld :=
  match a with
  | HUser i => {| hw_world := world_move (hw_world w) (ByUser i); hw_inside := hw_inside w; hw_calls := hw_calls w |}
  | HThread i raises =>
      match hw_inside w i with
      | None => {| hw_world := world_move (hw_world w) (ByThread i raises); hw_inside := hw_inside w; hw_calls := hw_calls w |}
      | Some p =>
          let '(s, r) := inner_move (w_server (hw_world w)) i p in
          match r with
          | inl p' => {| hw_world := with_server (hw_world w) s; hw_inside := set_inside (hw_inside w) i (Some p'); hw_calls := hw_calls w |}
          | inr r => {| hw_world := with_server (hw_world w) s; hw_inside := set_inside (hw_inside w) i None;
                        hw_calls := hw_calls w ++ [(i, call_of p, r)] |}
          end
      end
  | HCalls i c =>
      match nth_error (sv_threads (w_server (hw_world w))) i, hw_inside w i with
      | Some p, None =>
          if hook_runs p then
            {| hw_world := hw_world w;
               hw_inside := set_inside (hw_inside w) i (Some match c with UStart => StartGo | UStop => StopThread end); hw_calls := hw_calls w |}
          else w
      | _, _ => w
      end
  end.
Definition hmoves (schedule : list hactor) (w : hworld) : hworld := fold_left hmove schedule w.
Definition hstart (programs : list (list ucall)) : hworld :=
  {| hw_world := world_start programs; hw_inside := fun _ => None; hw_calls := [] |}.
