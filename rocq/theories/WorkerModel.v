(** utils.WorkerThread (utils.py 195-230): a thread that calls a function again and again until it is stopped.
    Callers of start() and stop() and the thread itself move in any order.

    Simplifications: the functions are called with the same arguments each time (self._args is not modelled); a function returns or
    raises an Exception; stop() called by the thread itself is not modelled. *)
From Verif Require Import Base.

Inductive wfct := FInit | FMain | FExit.
(** Where the thread is. *)
Inductive wpc :=
| WNew            (* created, not started *)
| WInit           (* 222-223 *)
| WTest           (* 224: while self._go.isSet() *)
| WMain           (* 225 *)
| WExit           (* 228-230: finally *)
| WDead.
Definition walive (p : wpc) : bool := match p with WNew | WDead => false | _ => true end.
(** The worker; [wk_trace]: the functions called so far and whether they raised. *)
Record worker := { wk_init : bool; wk_exit : bool;  (* init_fct, exit_fct given? *)
                   wk_pc : wpc; wk_go : bool; wk_trace : list (wfct * bool) }.
(** WorkerThread.__init__, utils.py 200-205 *)
Definition new_worker (init exit : bool) : worker := {| wk_init := init; wk_exit := exit; wk_pc := WNew; wk_go := false; wk_trace := [] |}.
Definition at_wpc (w : worker) (p : wpc) : worker :=
  {| wk_init := wk_init w; wk_exit := wk_exit w; wk_pc := p; wk_go := wk_go w; wk_trace := wk_trace w |}.
Definition called (w : worker) (f : wfct) (raises : bool) : worker :=
  {| wk_init := wk_init w; wk_exit := wk_exit w; wk_pc := wk_pc w; wk_go := wk_go w; wk_trace := wk_trace w ++ [(f, raises)] |}.
Definition set_go (w : worker) (b : bool) : worker :=
  {| wk_init := wk_init w; wk_exit := wk_exit w; wk_pc := wk_pc w; wk_go := b; wk_trace := wk_trace w |}.

(** One step of the thread, WorkerThread._run, utils.py 218-230; [raises]: whether the function called now raises *)
Definition worker_move (w : worker) (raises : bool) : worker :=
  match wk_pc w with
  | WNew | WDead => w
  | WInit => if wk_init w then at_wpc (called w FInit raises) (if raises then WExit else WTest) else at_wpc w WTest
  | WTest => at_wpc w (if wk_go w then WMain else WExit)
  | WMain => at_wpc (called w FMain raises) (if raises then WExit else WTest)
  | WExit => if wk_exit w then at_wpc (called w FExit raises) WDead else at_wpc w WDead
  end.

(** Callers. *)
Inductive wcall := WStart | WStop.
Inductive wupc :=
| CSet | CStart              (* start, utils.py 207-210 *)
| CAlive | CClear | CJoin.   (* stop, utils.py 212-216 *)
Record wuser := { wu_now : option wupc; wu_todo : list wcall; wu_done : list (wcall * res unit) }.
Definition wu_at (u : wuser) (p : wupc) : wuser := {| wu_now := Some p; wu_todo := wu_todo u; wu_done := wu_done u |}.
Definition wu_over (u : wuser) (c : wcall) (r : res unit) : wuser := {| wu_now := None; wu_todo := wu_todo u; wu_done := wu_done u ++ [(c, r)] |}.
Definition wuser_move (w : worker) (u : wuser) : worker * wuser :=
  match wu_now u with
  | None =>
      match wu_todo u with
      | [] => (w, u)
      | WStart :: rest => (w, {| wu_now := Some CSet; wu_todo := rest; wu_done := wu_done u |})
      | WStop :: rest => (w, {| wu_now := Some CAlive; wu_todo := rest; wu_done := wu_done u |})
      end
  | Some CSet => (set_go w true, wu_at u CStart)
  | Some CStart =>
      match wk_pc w with
      | WNew => (at_wpc w WInit, wu_over u WStart (Ok tt))
      | _ => (w, wu_over u WStart (Err PyRuntimeError))     (* threads can only be started once *)
      end
  | Some CAlive => if walive (wk_pc w) then (w, wu_at u CClear) else (w, wu_over u WStop (Ok tt))
  | Some CClear => (set_go w false, wu_at u CJoin)
  | Some CJoin => if walive (wk_pc w) then (w, u) else (w, wu_over u WStop (Ok tt))
  end.
Record wworld := { ww_worker : worker; ww_users : list wuser }.
Inductive wactor := WByUser (i : nat) | WByThread (raises : bool).
Definition wmove (w : wworld) (a : wactor) : wworld :=
  match a with
  | WByThread raises => {| ww_worker := worker_move (ww_worker w) raises; ww_users := ww_users w |}
  | WByUser i =>
      match nth_error (ww_users w) i with
      | None => w
      | Some u => let '(k, u') := wuser_move (ww_worker w) u in {| ww_worker := k; ww_users := list_upd (ww_users w) i u' |}
      end
  end.
Definition wmoves (schedule : list wactor) (w : wworld) : wworld := fold_left wmove schedule w.
Definition wstart (init exit : bool) (programs : list (list wcall)) : wworld :=
  {| ww_worker := new_worker init exit; ww_users := map (fun p => {| wu_now := None; wu_todo := p; wu_done := [] |}) programs |}.
