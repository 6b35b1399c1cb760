(** What "as if one after the other" means for masters that call a server over the network. *)
From Verif Require Import Base QueryModel DatabankModel MasterModel MasterSpec DbSpec TransportModel TransportSpec LinkSpec NetModel.

(** The network carries frames in one piece. *)
Definition in_one_piece (l : list Z) : list (list Z) := match l with [] => [] | _ => [l] end.

(** What happened: master [i] called execute(u, c...) and got the result; or the application did something. *)
Inductive happening :=
| Called (i : nat) (u : Z) (c : call) (result : option (res exec_result))
| Did (o : db_op).

(** [one_by_one d0 h d lasts]: starting with the databank [d0] and new masters, the happenings [h], one after the other - each call
    alone with the server from beginning to end - give the results recorded in [h], and leave the databank [d] and the transaction
    counters [lasts]. *)
Inductive one_by_one (d0 : databank) : list happening -> databank -> (nat -> Z) -> Prop :=
| ob_nil lasts : (forall i, lasts i = 0) -> one_by_one d0 [] d0 lasts
| ob_call h d lasts i u c d' e lasts' :
    one_by_one d0 h d lasts ->
    over_tcp in_one_piece in_one_piece (lasts i) d u c = (d', e) ->
    lasts' i = ex_last e -> (forall j, j <> i -> lasts' j = lasts j) ->
    one_by_one d0 (h ++ [Called i u c (ex_result e)]) d' lasts'
| ob_did h d lasts o : one_by_one d0 h d lasts -> one_by_one d0 (h ++ [Did o]) (db_step d o) lasts.

(** The calls of master [i], with their results. *)
Fixpoint calls_by (i : nat) (h : list happening) : list (Z * call) :=
  match h with
  | [] => []
  | Called j u c _ :: t => if Nat.eqb i j then (u, c) :: calls_by i t else calls_by i t
  | Did _ :: t => calls_by i t
  end.
Fixpoint results_of (i : nat) (h : list happening) : list (option (res exec_result)) :=
  match h with
  | [] => []
  | Called j _ _ r :: t => if Nat.eqb i j then r :: results_of i t else results_of i t
  | Did _ :: t => results_of i t
  end.
(** What the application did. *)
Fixpoint direct_ops (h : list happening) : list db_op :=
  match h with
  | [] => []
  | Called _ _ _ _ :: t => direct_ops t
  | Did o :: t => o :: direct_ops t
  end.
Fixpoint direct_actions (schedule : list action) : list db_op :=
  match schedule with
  | [] => []
  | Direct o :: t => o :: direct_actions t
  | _ :: t => direct_actions t
  end.

(** [explains d0 programs schedule w h]: the one-by-one history [h] accounts for what the network [w] shows after [schedule]. Each master
    has made the first calls of its program, in order; those that have returned are in [h] with the results they returned; apart from
    them only the call a master is in may be in [h]. *)
Definition explains (d0 : databank) (programs : list (list (Z * call))) (schedule : list action) (w : network) (h : list happening) : Prop :=
  (exists lasts, one_by_one d0 h (net_db w) lasts) /\
  direct_ops h = direct_actions schedule /\
  length (net_peers w) = length programs /\
  (forall i u c r, In (Called i u c r) h -> (i < length programs)%nat) /\
  forall i program k, nth_error programs i = Some program -> nth_error (net_peers w) i = Some k ->
    exists returned, program = returned ++ match k_phase k with Idle => [] | Asked u c | Handled u c => [(u, c)] end ++ k_todo k /\
      length returned = length (k_done k) /\
      ((calls_by i h = returned /\ results_of i h = k_done k) \/
       (exists u c r, (k_phase k = Asked u c \/ k_phase k = Handled u c) /\
          calls_by i h = returned ++ [(u, c)] /\ results_of i h = k_done k ++ [r])).

(** Every piece of the network is non-empty and the pieces together are the frame. *)
Definition fair_cuts (schedule : list action) : Prop :=
  Forall (fun a => match a with Send _ cut | Serve _ cut => cutting cut | _ => True end) schedule.
(** Raw requests are byte strings. *)
Definition byte_strings (programs : list (list (Z * call))) : Prop :=
  forall program u pdu, In program programs -> In (u, Raw pdu) program -> bytes pdu.
