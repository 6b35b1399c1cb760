(** simulator.CompositeServer (simulator.py 50-83): several servers with one databank, started and stopped together by
    one caller while the threads of the servers run.  The servers are those of LifecycleModel.v.

    Simplifications: set_verbose is left out (it only switches logging); start() and stop() are Server's (RtuServer's stop also cancels a
    pending read: RtuStopModel.v). *)
From Verif Require Import Base DatabankModel LifecycleModel.

(** CompositeServer.__init__, simulator.py 53-60.  A class: whether it is a subclass of modbus.Server.  A server of the list: its arguments
    and the databank it is given.  zip stops at the end of the shorter list. *)
Definition composite_servers {C A D} (is_server : C -> bool) (classes : list C) (args : list A) (given : option D) (fresh : D) : D * list (C * A * D) :=
  let db := match given with Some d => d | None => fresh end in             (* modbus.py 997 *)
  (db, map (fun x => (x, db)) (filter (fun x => is_server (fst x)) (combine classes args))).

(** Where the caller is: in start() or stop() of the composite, at the server with the given number, [None]: about to call it. *)
Record composite := {
  cs_servers : list server;
  cs_now : option (ucall * nat * option upc);
  cs_todo : list ucall;
  cs_done : list (ucall * res unit)
}.
Definition composite_start (n : nat) (program : list ucall) : composite :=
  {| cs_servers := repeat new_server n; cs_now := None; cs_todo := program; cs_done := [] |}.
Definition first_pc (c : ucall) : upc := match c with UStart => StartGo | UStop => StopThread end.
Definition put_server (w : composite) (k : nat) (s : server) : composite :=
  {| cs_servers := list_upd (cs_servers w) k s; cs_now := cs_now w; cs_todo := cs_todo w; cs_done := cs_done w |}.
Definition go_to (w : composite) (p : ucall * nat * option upc) : composite :=
  {| cs_servers := cs_servers w; cs_now := Some p; cs_todo := cs_todo w; cs_done := cs_done w |}.
Definition finish (w : composite) (c : ucall) (r : res unit) : composite :=
  {| cs_servers := cs_servers w; cs_now := None; cs_todo := cs_todo w; cs_done := cs_done w ++ [(c, r)] |}.

(** One step of the caller, simulator.py 75-83: for srv in self._servers: srv.start() / srv.stop(); an exception ends the loop. *)
Definition composite_call (w : composite) : composite :=
  match cs_now w with
  | None =>
      match cs_todo w with
      | [] => w
      | c :: rest => {| cs_servers := cs_servers w; cs_now := Some (c, O, None); cs_todo := rest; cs_done := cs_done w |}
      end
  | Some (c, k, None) =>
      match nth_error (cs_servers w) k with
      | None => finish w c (Ok tt)
      | Some _ => go_to w (c, k, Some (first_pc c))
      end
  | Some (c, k, Some p) =>
      match nth_error (cs_servers w) k with
      | None => w
      | Some s =>
          let '(s', u) := user_move s {| us_now := Some p; us_todo := []; us_done := [] |} in
          let w' := put_server w k s' in
          match us_now u with
          | Some p' => go_to w' (c, k, Some p')
          | None =>
              match us_done u with
              | (_, Err e) :: _ => finish w' c (Err e)
              | _ => go_to w' (c, S k, None)
              end
          end
      end
  end.
(** Who moves: the caller, or thread [i] of server [k]. *)
Inductive cactor := ByCaller | ByServer (k i : nat) (raises : bool).
Definition composite_move (w : composite) (a : cactor) : composite :=
  match a with
  | ByCaller => composite_call w
  | ByServer k i raises =>
      match nth_error (cs_servers w) k with
      | None => w
      | Some s => put_server w k (thread_move s i raises)
      end
  end.
Definition composite_moves (schedule : list cactor) (w : composite) : composite := fold_left composite_move schedule w.
