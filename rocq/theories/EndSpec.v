(** A master talking to a server: the exchange is the server's answer (no answer: a timeout). *)
From Verif Require Import Base Spec Defines SlaveSpec QueryModel DatabankModel MasterModel MasterSpec.

Definition answer (d : databank) (p : proto) (request : list Z) : res (list Z) :=
  match snd (db_handle_request d p request) with
  | Ok r => match sent r with Some b => Ok b | None => Err SocketTimeout end
  | Err _ => Err SocketTimeout
  end.
(** master.execute(...) with the given arguments against the databank [d]: the databank
    afterwards, and what execute did. *)
Definition round_trip_args (p : proto) (last : Z) (d : databank) (a : exec_args) : databank * executed :=
  let e := execute p last a (fun request _ => answer d p request) in
  (match ex_sent e with
   | Some (request, _) => fst (db_handle_request d p request)
   | None => d
   end, e).
Definition round_trip (p : proto) (last : Z) (d : databank) (u : Z) (c : call) : databank * executed :=
  round_trip_args p last d (args_of u c).

(** A 16-bit register value as the master sees it, a coil as the master sees it. *)
Definition as_word (v : Z) : Z := v mod 65536.
Definition as_bit (v : Z) : Z := if v =? 0 then 0 else 1.

(** The range [a .. a+n-1] of table [t] of slave [s] lies in one block, whose cells hold [vals]. *)
Definition stored (s : SlaveModel.slave) (t : btype) (a n : Z) (vals : list Z) : Prop :=
  has_table s t /\ exists b, served_by s t a n b /\ values_at b a n = vals.

(** The other slaves of the databank. *)
Definition others_same (d d' : databank) (u : Z) : Prop := forall v, v <> u -> get_slave d' v = get_slave d v.
