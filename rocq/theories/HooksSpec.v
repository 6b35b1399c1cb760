(** Vocabulary of the properties about hooks. *)
From Verif Require Import Base HooksModel DatabankModel.

(** ** The registry *)
Inductive hook_event := Installs (name : string) (f : Z) | Uninstalls (name : string) (f : Z) | UninstallsAll (name : string).
Definition names_event (e : hook_event) : string :=
  match e with Installs n _ | Uninstalls n _ | UninstallsAll n => n end.
(** The program performing an event; exceptions of uninstall_hook are caught by the caller. *)
Definition perform (r : registry) (e : hook_event) : registry :=
  match e with
  | Installs n f => install_hook r n f
  | Uninstalls n f => fst (uninstall_hook r n (Some f))
  | UninstallsAll n => fst (uninstall_hook r n None)
  end.
Definition perform_all (es : list hook_event) : registry := fold_left perform es [].

(** What an event does to the functions installed under [name]. *)
Inductive changes (name : string) : hook_event -> list Z -> list Z -> Prop :=
| ch_install f l : changes name (Installs name f) l (l ++ [f])
| ch_remove f a b : ~ In f a -> changes name (Uninstalls name f) (a ++ f :: b) (a ++ b)
| ch_absent f l : ~ In f l -> changes name (Uninstalls name f) l l
| ch_all l : changes name (UninstallsAll name) l []
| ch_other e l : names_event e <> name -> changes name e l l.
(** [l] is what a history of events leaves installed under [name]. *)
Inductive leaves (name : string) : list hook_event -> list Z -> Prop :=
| lv_nil : leaves name [] []
| lv_snoc es e l l' : leaves name es l -> changes name e l l' -> leaves name (es ++ [e]) l'.

(** The functions installed under a name. *)
Definition installed (r : registry) (name : string) : list Z :=
  match assoc String.eqb name r with Some l => l | None => [] end.

(** ** Calling *)
Section Consult.
Context {W A V : Type}.
Variable beh : Z -> A -> registry * W -> (registry * W) * res (option V).
(** The functions asked in order, up to the first that answers or raises. *)
Inductive consulted (args : A) : list Z -> registry * W -> registry * W -> res (option V) -> Prop :=
| co_nobody st : consulted args [] st st (Ok None)
| co_declines f l st st' st'' r : beh f args st = (st', Ok None) -> consulted args l st' st'' r -> consulted args (f :: l) st st'' r
| co_answers f l st st' v : beh f args st = (st', Ok (Some v)) -> consulted args (f :: l) st st' (Ok (Some v))
| co_raises f l st st' e : beh f args st = (st', Err e) -> consulted args (f :: l) st st' (Err e).
(** No hook function installs or uninstalls hooks. *)
Definition leave_registry_alone : Prop := forall f args st, fst (fst (beh f args st)) = fst st.
End Consult.

(** ** Hooks of slaves, databanks and servers *)
(** Hooks that return None and do not raise. *)
Definition observers (h : hooks) : Prop :=
  (forall p, h_request h p = Ok None) /\ (forall f p, h_handler h f p = Ok tt) /\ (forall b i v, h_setitem h b i v = Ok tt) /\
  (forall p, h_broadcast h p = Ok tt) /\ (forall f c, h_exception h f c = Ok tt) /\ (forall e p, h_error h e p = Ok tt).
