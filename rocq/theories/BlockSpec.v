(** Specification vocabulary for histories of block administration (C01, C02). *)
From Coq Require Permutation.
From Verif Require Import Base Defines SlaveModel SlaveSpec.

(** Two ways of laying out a table: every new block starts at or above all the
    blocks already there, or every new block starts at or below some block
    already there (or the table is empty). *)
Inductive policy := Upwards | Downwards.

Definition respects (p : btype -> policy) (s : slave) (o : slave_op) : Prop :=
  match o with
  | OpAddBlock _ z start _ =>
      forall t, btype_of_Z z = Some t ->
      match p t with
      | Upwards => forall b, In b (blocks s t) -> b_start b <= start
      | Downwards => blocks s t = [] \/ exists b, In b (blocks s t) /\ start <= b_start b
      end
  | _ => True
  end.
Fixpoint history_respects (p : btype -> policy) (s : slave) (ops : list slave_op) : Prop :=
  match ops with
  | [] => True
  | o :: rest => respects p s o /\ history_respects p (fst (slave_step s o)) rest
  end.

(** A range of [size] cells from [start] meets a block of the table. *)
Definition meets (s : slave) (t : btype) (start size : Z) : Prop :=
  exists b a, In b (blocks s t) /\ holds b a /\ start <= a < start + size.

Definition registered (s : slave) (name : string) : Prop :=
  assoc String.eqb name (sl_names s) <> None.

(** [name] was added as a block of type [t] starting at [start]. *)
Definition named (s : slave) (name : string) (t : btype) (start : Z) : Prop :=
  assoc String.eqb name (sl_names s) = Some (t, start).

(** Adding or removing a block under a name other than [name]. *)
Definition other_name (o : slave_op) (name : string) : Prop :=
  match o with
  | OpAddBlock n _ _ _ | OpRemoveBlock n => n <> name
  | _ => False
  end.

(** What a user can observe of a slave: the answers to every later sequence of calls. *)
Fixpoint outputs (s : slave) (ops : list slave_op) : list slave_out :=
  match ops with
  | [] => []
  | o :: rest => snd (slave_step s o) :: outputs (fst (slave_step s o)) rest
  end.
Definition indistinguishable (s s' : slave) : Prop := forall ops, outputs s ops = outputs s' ops.

(** Slaves a program can obtain: a fresh slave (with the default memory, or with a
    user-supplied memory whose blocks have all their cells), after any calls. *)
Inductive fresh : slave -> Prop :=
| fresh_default u : fresh (new_slave u None)
| fresh_memory u al ls : (forall r, Forall wf_block (get4 ls r)) -> fresh (new_slave u (Some (al, ls))).
Definition reachable (s : slave) : Prop := exists s0 ops, fresh s0 /\ s = slave_run s0 ops.

(** The values written by set_values: a sequence, or one number. *)
Definition values_of (v : setval) : list Z := match v with SvSeq l => l | SvNum x => [x] end.

(** The block [name] denotes: the first block of the registered type with the
    registered start (the only one, when the blocks of a type do not overlap). *)
Definition denotes (s : slave) (name : string) (t : btype) (b : block) : Prop :=
  named s name t (b_start b) /\
  exists l1 l2, blocks s t = l1 ++ b :: l2 /\ forall c, In c l1 -> b_start c <> b_start b.
(** [a .. a+n-1] lies inside the block denoted by [name]. *)
Definition inside (s : slave) (name : string) (a n : Z) : Prop :=
  exists t b, denotes s name t b /\ covers b a n.

(** A slave with the same blocks and settings, listed in another order. *)
Record reordered (s s' : slave) : Prop := {
  re_unsigned : sl_unsigned s' = sl_unsigned s;
  re_alias : sl_alias s' = sl_alias s;
  re_blocks : forall t, Permutation.Permutation (blocks s t) (blocks s' t) }.
