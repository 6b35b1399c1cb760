(** What "as if one at a time" means for operations called from several threads. *)
From Verif Require Import Base ConcModel.

Section Spec.
Context {S Op O : Type}.

(** A call that has returned: which thread made it, on which object, what it asked for, what it got. *)
Definition event : Type := nat * Z * Op * O.

(** [sequential atomic init h final]: the calls [h], made one after the other starting with the objects
    [init], give exactly the answers recorded in [h] and leave the objects as in [final]. *)
Inductive sequential (atomic : S -> Op -> S * O) (init : Z -> S) : list event -> (Z -> S) -> Prop :=
| seq_nil final : (forall k, final k = init k) -> sequential atomic init [] final
| seq_snoc h before i k op s' o final :
    sequential atomic init h before ->
    atomic (before k) op = (s', o) ->
    final k = s' -> (forall x, x <> k -> final x = before x) ->
    sequential atomic init (h ++ [(i, k, op, o)]) final.

(** The calls of thread [i]. *)
Fixpoint calls_of (i : nat) (h : list event) : list (Z * Op * O) :=
  match h with
  | [] => []
  | (j, k, op, o) :: rest => if Nat.eqb i j then (k, op, o) :: calls_of i rest else calls_of i rest
  end.

(** The calls that return while the machine follows a schedule, in the order in which they return. *)
Fixpoint returned (guarded : bool) (sem : Op -> code S O) (schedule : list nat) (m : machine S Op O) : list event :=
  match schedule with
  | [] => []
  | i :: rest =>
      match nth_error (m_threads m) i with
      | Some th => match th_now th with Some (k, op, Done o) => [(i, k, op, o)] | _ => [] end
      | None => []
      end ++ returned guarded sem rest (move guarded sem m i)
  end.

(** The calls [done] are calls the program [p] makes: each is the next one after those before it. *)
Definition follows (p : list (Z * Op * O) -> option (Z * Op)) (done : list (Z * Op * O)) : Prop :=
  forall before k op o after, done = before ++ (k, op, o) :: after -> p before = Some (k, op).

(** The calls on object [k], in order. *)
Fixpoint on_object (k : Z) (h : list event) : list Op :=
  match h with
  | [] => []
  | (_, k', op, _) :: rest => if k' =? k then op :: on_object k rest else on_object k rest
  end.
End Spec.
