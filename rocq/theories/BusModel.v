(** Several RtuServers on one serial line (RS-485), modbus_rtu.py 253-314: every station hears everything that is said on the line - the
    request of the master and the answers of the other stations - and treats what it hears as a request.
    Simplifications: everybody hears the silence after a frame; a station does not hear itself unless stated; stations that answer at
    the same time are reported as several answers (on a real line their bytes collide); no hooks. *)
From Verif Require Import Base QueryModel DatabankModel TransportModel.

(** One turn of one station for a frame said on the line: _do_run, modbus_rtu.py 253-314.  [cut]: the pieces in which the bytes come. *)
Definition hear (cut : list Z -> list (list Z)) (d : databank) (frame : list Z) : databank * option (list Z) :=
  match rtu_do_run no_rtu_hooks true false d (map Burst (cut frame) ++ [Silence]) with
  | Some t => (rt_db t, rt_written t)
  | None => (d, None)
  end.
(** Every station but the speaker hears the frame; [k] is the number of the first station of the list. *)
Fixpoint all_hear (cuts : nat -> list Z -> list (list Z)) (speaker : option nat) (k : nat) (stations : list databank) (frame : list Z)
  : list databank * list (nat * list Z) :=
  match stations with
  | [] => ([], [])
  | d :: t =>
      let silent := match speaker with Some i => Nat.eqb i k | None => false end in
      let '(d', out) := if silent then (d, None) else hear (cuts k) d frame in
      let '(t', outs) := all_hear cuts speaker (S k) t frame in
      (d' :: t', match out with Some a => (k, a) :: outs | None => outs end)
  end.
(** The master says [frame]; the stations answer; every answer is heard by the other stations, and what they say to that is the third
    component. *)
Fixpoint hear_answers (cuts : nat -> list Z -> list (list Z)) (stations : list databank) (answers : list (nat * list Z))
  : list databank * list (nat * list Z) :=
  match answers with
  | [] => (stations, [])
  | (i, a) :: t =>
      let '(st1, o1) := all_hear cuts (Some i) 0 stations a in
      let '(st2, o2) := hear_answers cuts st1 t in (st2, o1 ++ o2)
  end.
Definition on_bus (cuts : nat -> list Z -> list (list Z)) (stations : list databank) (frame : list Z)
  : list databank * list (nat * list Z) * list (nat * list Z) :=
  let '(st1, answers) := all_hear cuts None 0 stations frame in
  let '(st2, noise) := hear_answers cuts st1 answers in (st2, answers, noise).

(** A line adapter that echoes what the station says: the station then treats its own answer as a request.  What it says in [n] turns. *)
Fixpoint own_echo (n : nat) (cut : list Z -> list (list Z)) (d : databank) (frame : list Z) : databank * list (list Z) :=
  match n with
  | O => (d, [])
  | S m => match hear cut d frame with
           | (d', Some a) => let '(d'', outs) := own_echo m cut d' a in (d'', a :: outs)
           | (d', None) => (d', [])
           end
  end.
