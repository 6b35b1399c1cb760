(** execute(..., threadsafe=False): threads that use masters with and without the lock.

    Models: utils.py 24-45 (threadsafe_function: the one lock of execute - the decorator runs once, in the class body, so all masters share
    it - is taken unless threadsafe=False), modbus.py 136-417 (execute, access by access: SharedModel.m_execute), modbus_tcp.py 106-114 (the
    class variable that numbers requests is common to all TcpMasters and has a lock of its own).
    Simplifications: as SharedModel; a lock that is held by another thread makes the move of a thread void. *)
From Verif Require Import Base QueryModel DatabankModel MasterModel ConcModel SharedModel.
Open Scope list_scope.

Definition outcome := option (res exec_result).
(** A call: which master, the arguments, the keyword argument threadsafe *)
Record ucall := { uc_master : Z; uc_args : exec_args; uc_safe : bool }.
(** What a thread calls next, given what its earlier calls returned *)
Definition uprogram := list (ucall * outcome) -> option ucall.
Record uthread := { ut_program : uprogram; ut_done : list (ucall * outcome); ut_now : option (ucall * code world outcome) }.
(** A master's connection: the databank of the server at its other end, the bytes on the way *)
Record link := { ln_db : databank; ln_wire : list (list Z) }.
(** [us_done]: the calls that have returned, in that order, with the thread that made them *)
Record usystem := { us_threads : list uthread; us_links : Z -> link; us_count : Z; us_lock : option nat; us_done : list (nat * ucall * outcome) }.

Definition view (count : Z) (l : link) : world := {| w_db := ln_db l; w_last := count; w_wire := ln_wire l |}.
Definition link_of (w : world) : link := {| ln_db := w_db w; ln_wire := w_wire w |}.
Definition put_link (ls : Z -> link) (k : Z) (l : link) : Z -> link := fun j => if j =? k then l else ls j.
Definition now (t : uthread) (x : option (ucall * code world outcome)) : uthread := {| ut_program := ut_program t; ut_done := ut_done t; ut_now := x |}.

(** One move of thread [i]; [proto_of k]: the protocol of master [k] *)
Definition umove (proto_of : Z -> proto) (i : nat) (s : usystem) : usystem :=
  match nth_error (us_threads s) i with
  | None => s
  | Some t =>
      match ut_now t with
      | None =>
          match ut_program t (ut_done t) with
          | None => s
          | Some c =>
              let begun lock := {| us_threads := list_upd (us_threads s) i (now t (Some (c, m_execute (proto_of (uc_master c)) (uc_args c))));
                                   us_links := us_links s; us_count := us_count s; us_lock := lock; us_done := us_done s |} in
              if uc_safe c then match us_lock s with None => begun (Some i) | Some _ => s end
              else begun (us_lock s)
          end
      | Some (c, Done r) =>
          {| us_threads := list_upd (us_threads s) i {| ut_program := ut_program t; ut_done := ut_done t ++ [(c, r)]; ut_now := None |};
             us_links := us_links s; us_count := us_count s; us_lock := if uc_safe c then None else us_lock s; us_done := us_done s ++ [(i, c, r)] |}
      | Some (c, Micro f) =>
          let k := uc_master c in
          let '(w, code') := f (view (us_count s) (us_links s k)) in
          {| us_threads := list_upd (us_threads s) i (now t (Some (c, code')));
             us_links := put_link (us_links s) k (link_of w); us_count := w_last w; us_lock := us_lock s; us_done := us_done s |}
      end
  end.
Definition umoves (proto_of : Z -> proto) (schedule : list nat) (s : usystem) : usystem := fold_left (fun s i => umove proto_of i s) schedule s.
Definition ustart (links : Z -> link) (count : Z) (programs : list uprogram) : usystem :=
  {| us_threads := map (fun p => {| ut_program := p; ut_done := []; ut_now := None |}) programs; us_links := links; us_count := count; us_lock := None; us_done := [] |}.
