(** C113: masters and applications that use different units, or different cells of a unit, of one server do not notice each other. *)
From Verif Require Import Base PyStruct Defines SlaveModel BaseFacts StructFacts SlaveSpec SlaveProofs HandlerProofs RequestProofs GeneralProofs SlaveInv BlockSpec AtomicProofs QueryModel DatabankModel DbSpec DatabankProofs PropDatabank PropApart.
From Coq Require Import Lia.
Open Scope string_scope. Open Scope list_scope. Open Scope Z_scope.

(** ** Specification *)
(** What a user of the server does: a master sends a frame (serial or TCP), the application does something with the slave of one unit
    (server.get_slave(unit).set_values(...), get_values). *)
Inductive dact :=
| DFrame (p : proto) (request : list Z)
| DSlave (unit : Z) (x : act).
Inductive dgot :=
| DAnswer (r : res response)
| DGot (r : res got).
Definition dact_step (d : databank) (x : dact) : databank * dgot :=
  match x with
  | DFrame p request => let '(d', r) := db_handle_request d p request in (d', DAnswer r)
  | DSlave u x =>
      match get_slave d u with
      | Err e => (d, DGot (Err e))
      | Ok s => let '(s', g) := act_step s x in (put_slave d u s', DGot (Ok g))
      end
  end.
Fixpoint dhappens (d : databank) (h : list (nat * dact)) : databank * list (nat * dgot) :=
  match h with
  | [] => (d, [])
  | (w, x) :: rest => let '(d1, g) := dact_step d x in let '(d2, gs) := dhappens d1 rest in (d2, (w, g) :: gs)
  end.
(** The cells a user may use, unit by unit. *)
Definition dregion := Z -> region.
(** The user asks only for cells of its region; a broadcast (unit 0) asks for cells of all units. *)
Definition dkeeps (d : databank) (m : dregion) (x : dact) : Prop :=
  match x with
  | DFrame p request => forall hdr u pdu, parse_request p request = Ok (hdr, u, pdu) ->
      forall v, u = 0 \/ v = u -> inside_opt (m v) (read_range pdu) /\ inside_opt (m v) (write_range pdu)
  | DSlave u x => forall s, get_slave d u = Ok s -> keeps_to s (m u) x
  end.
Definition dapart (d : databank) (m m' : dregion) : Prop := forall u s, get_slave d u = Ok s -> apart s (m u) (m' u).
(** Two servers with the same units, in the same order, whose cells in the region are the same. *)
Definition rows (R : Z -> slave -> slave -> Prop) (l l' : list (Z * slave)) : Prop := Forall2 (fun a b => fst a = fst b /\ R (fst a) (snd a) (snd b)) l l'.
Definition dagree (m : dregion) (d d' : databank) : Prop :=
  db_error_on_missing d = db_error_on_missing d' /\ rows (fun u => agree (m u)) (db_slaves d) (db_slaves d').

(** ** Proofs *)
Lemma rows_assoc R u l l' : rows R l l' ->
  match assoc Z.eqb u l, assoc Z.eqb u l' with Some s, Some s' => R u s s' | None, None => True | _, _ => False end.
Proof.
  induction 1 as [|[k s] [k' s'] l l' (E & H) F IH]; [exact I|]. cbn [fst snd assoc] in *. subst k'. destruct (u =? k) eqn:Q; [|exact IH].
  apply Z.eqb_eq in Q. now subst.
Qed.
Lemma rows_put R u s s' l l' : rows R l l' -> R u s s' -> rows R (assoc_put Z.eqb u s l) (assoc_put Z.eqb u s' l').
Proof.
  intros F H. induction F as [|[k x] [k' x'] l l' (E & Q) F IH]; cbn [assoc_put]; [now repeat constructor|]. cbn [fst snd] in *. subst k'.
  destruct (u =? k) eqn:K; [apply Z.eqb_eq in K; subst k|]; constructor; auto.
Qed.
Lemma rows_put_self (R : Z -> slave -> slave -> Prop) u s s' l : (forall v x, R v x x) -> assoc Z.eqb u l = Some s -> R u s s' -> rows R l (assoc_put Z.eqb u s' l).
Proof.
  intros Re A H. assert (G : forall l, rows R l l) by (induction l0; constructor; auto). induction l as [|[k x] t IH]; [discriminate|]. cbn [assoc assoc_put] in *.
  destruct (u =? k) eqn:K; [apply Z.eqb_eq in K; subst k; injection A as ->|]; constructor; cbn [fst snd]; auto; apply G || apply IH, A.
Qed.
Lemma rows_broadcast (R : Z -> slave -> slave -> Prop) pdu : (forall u s s', R u s s' -> R u (fst (handle_request s pdu true)) (fst (handle_request s' pdu true)) /\ snd (handle_request s pdu true) = snd (handle_request s' pdu true)) ->
  forall l l', rows R l l' -> rows R (fst (broadcast_loop l pdu)) (fst (broadcast_loop l' pdu)) /\ snd (broadcast_loop l pdu) = snd (broadcast_loop l' pdu).
Proof.
  intros H l l'. induction 1 as [|[k s] [k' s'] l l' (E & Q) F (IH1 & IH2)]; [split; [constructor|reflexivity]|]. cbn [fst snd broadcast_loop] in *. subst k'.
  destruct (H k s s' Q) as (A & B). destruct (handle_request s pdu true) as [s1 r1], (handle_request s' pdu true) as [s2 r2]. cbn [fst snd] in *. subst r2.
  destruct r1 as [r|e]; [|split; [constructor; auto|reflexivity]]. destruct (broadcast_loop l pdu) as [t1 q1], (broadcast_loop l' pdu) as [t2 q2]. cbn [fst snd] in *. subst q2.
  split; [constructor; auto|reflexivity].
Qed.
Lemma rows_broadcast_self (R : Z -> slave -> slave -> Prop) pdu : (forall v x, R v x x) -> forall l, (forall u s, In (u, s) l -> R u s (fst (handle_request s pdu true))) -> rows R l (fst (broadcast_loop l pdu)).
Proof.
  intros Re. assert (G : forall l, rows R l l) by (induction l; constructor; auto).
  induction l as [|[k s] t IH]; intros H; [constructor|]. cbn [broadcast_loop]. pose proof (H k s (or_introl eq_refl)) as A. destruct (handle_request s pdu true) as [s1 r1]. cbn [fst] in A.
  destruct r1 as [r|e]; [|constructor; [auto|apply G]]. specialize (IH (fun u x I => H u x (or_intror I))). destruct (broadcast_loop t pdu) as [t1 q1]. constructor; auto.
Qed.
Lemma rows_impl (R R' : Z -> slave -> slave -> Prop) l l' : (forall u s s', R u s s' -> R' u s s') -> rows R l l' -> rows R' l l'.
Proof. intros H. induction 1 as [|a b l l' (E & Q) F IH]; constructor; auto. Qed.
Lemma rows_trans (R : Z -> slave -> slave -> Prop) : (forall u a b c, R u a b -> R u b c -> R u a c) -> forall l1 l2 l3, rows R l1 l2 -> rows R l2 l3 -> rows R l1 l3.
Proof.
  intros T l1 l2 l3 F. revert l3. induction F as [|a b l1 l2 (E & Q) F IH]; intros l3 G; [exact G|]. inversion_clear G as [|? c ? l (E' & Q') G']. constructor; [|now apply IH].
  split; [congruence|]. apply T with (snd b); [exact Q|]. now rewrite E.
Qed.
Lemma rows_sym (R : Z -> slave -> slave -> Prop) : (forall u a b, R u a b -> R u b a) -> forall l1 l2, rows R l1 l2 -> rows R l2 l1.
Proof. intros T l1 l2. induction 1 as [|a b l1 l2 (E & Q) F IH]; constructor; [|exact IH]. split; [auto|]. rewrite <- E. auto. Qed.
Lemma dagree_refl m d : dagree m d d.
Proof. split; [reflexivity|]. induction (db_slaves d); constructor; [split; [reflexivity|apply agree_refl]|assumption]. Qed.
Lemma dagree_trans m a b c : dagree m a b -> dagree m b c -> dagree m a c.
Proof. intros (A1 & A2) (B1 & B2). split; [congruence|]. eapply rows_trans; [|exact A2|exact B2]. intros u x y z. apply agree_trans. Qed.
Lemma dagree_sym m a b : dagree m a b -> dagree m b a.
Proof. intros (A1 & A2). split; [auto|]. eapply rows_sym; [|exact A2]. intros u x y. apply agree_sym. Qed.

Lemma frame_alike m d d' p request : dinv d -> dinv d' -> dagree m d d' -> dkeeps d m (DFrame p request) ->
  dagree m (fst (db_handle_request d p request)) (fst (db_handle_request d' p request)) /\ snd (db_handle_request d p request) = snd (db_handle_request d' p request).
Proof.
  intros _ _ (Eo & F) K. cbn [dkeeps] in K. unfold db_handle_request. destruct (parse_request p request) as [[[hdr u] pdu]|e]; [|split; [split; assumption|reflexivity]].
  specialize (K hdr u pdu eq_refl).
  destruct (u =? 0) eqn:U.
  - apply Z.eqb_eq in U. destruct (rows_broadcast (fun u => agree (m u)) pdu) with (l := db_slaves d) (l' := db_slaves d') as (A & B).
    + intros v s s' G. destruct (K v (or_introl U)) as (K1 & _). apply (hr_alike (m v) pdu true s s' G K1).
    + exact F.
    + destruct (broadcast_loop (db_slaves d) pdu) as [l q], (broadcast_loop (db_slaves d') pdu) as [l' q']. cbn [fst snd] in *. subst q'.
      destruct q; cbn [fst snd]; (split; [split; [exact Eo|exact A]|reflexivity]).
  - pose proof (rows_assoc _ u _ _ F) as A. unfold get_slave. destruct (assoc Z.eqb u (db_slaves d)) as [s|], (assoc Z.eqb u (db_slaves d')) as [s'|]; try contradiction.
    + destruct (K u (or_intror eq_refl)) as (K1 & _). destruct (hr_alike (m u) pdu false s s' A K1) as (B & C).
      destruct (handle_request s pdu false) as [s1 r1], (handle_request s' pdu false) as [s2 r2]. cbn [fst snd] in *. subst r2.
      assert (G : dagree m (put_slave d u s1) (put_slave d' u s2)) by (split; [exact Eo|]; now apply rows_put).
      destruct (bind r1 _); cbn [fst snd]; auto.
    + pose proof (conj Eo F : dagree m d d') as G. rewrite <- Eo. destruct (db_error_on_missing d); cbn [fst snd]; (split; [exact G|reflexivity]).
Qed.
Lemma dget_in d u s : get_slave d u = Ok s -> assoc Z.eqb u (db_slaves d) = Some s.
Proof. unfold get_slave. destruct (assoc _ _ _); congruence. Qed.
Lemma in_dget d u s : dinv d -> In (u, s) (db_slaves d) -> get_slave d u = Ok s.
Proof. intros (N & _) I. unfold get_slave. now rewrite (zassoc_nodup u s). Qed.
Lemma dget_reachable d u s : dinv d -> get_slave d u = Ok s -> reachable s.
Proof. intros (_ & _ & R) G. apply dget_in, zassoc_in in G. rewrite Forall_forall in R. exact (R _ G). Qed.
Lemma dact_alike m d d' x : dinv d -> dinv d' -> dagree m d d' -> dkeeps d m x ->
  dagree m (fst (dact_step d x)) (fst (dact_step d' x)) /\ snd (dact_step d x) = snd (dact_step d' x).
Proof.
  intros I I' G K. destruct x as [p request|u x]; cbn [dact_step].
  - destruct (frame_alike m d d' p request I I' G K) as (A & B). destruct (db_handle_request d p request), (db_handle_request d' p request). cbn [fst snd] in *. split; [exact A|congruence].
  - cbn [dkeeps] in K. pose proof (dget_reachable d u) as Ru. pose proof (dget_reachable d' u) as Ru'. destruct G as (Eo & F). pose proof (rows_assoc _ u _ _ F) as A. unfold get_slave in *.
    destruct (assoc Z.eqb u (db_slaves d)) as [s|], (assoc Z.eqb u (db_slaves d')) as [s'|]; try contradiction; [|split; [split; assumption|reflexivity]].
    destruct (act_alike (m u) s s' x A (reachable_wf _ (Ru s I eq_refl)) (reachable_wf _ (Ru' s' I' eq_refl)) (K s eq_refl)) as (B & C).
    destruct (act_step s x) as [s1 g1], (act_step s' x) as [s2 g2]. cbn [fst snd] in *. subst g2. split; [|reflexivity]. split; [exact Eo|]. now apply rows_put.
Qed.
(** a step relates the server to itself, given that the acts of its slaves do *)
Lemma dact_self (R : Z -> slave -> slave -> Prop) d x : dinv d -> (forall v s, R v s s) ->
  (forall u s y, get_slave d u = Ok s -> (match x with DFrame p request => exists hdr v pdu, parse_request p request = Ok (hdr, v, pdu) /\ (v = 0 \/ u = v) /\ exists bc, y = ARequest pdu bc | DSlave v z => u = v /\ y = z end) ->
     R u s (fst (act_step s y))) ->
  db_error_on_missing (fst (dact_step d x)) = db_error_on_missing d /\ rows R (db_slaves d) (db_slaves (fst (dact_step d x))).
Proof.
  intros I Re H. assert (G : forall l, rows R l l) by (induction l; constructor; auto). destruct x as [p request|u x]; cbn [dact_step].
  - unfold db_handle_request. destruct (parse_request p request) as [[[hdr u] pdu]|e]; [|split; [reflexivity|apply G]].
    assert (H' : forall v s bc, get_slave d v = Ok s -> u = 0 \/ v = u -> R v s (fst (handle_request s pdu bc))).
    { intros v s bc E V. specialize (H v s (ARequest pdu bc) E). cbn [act_step] in H. destruct (handle_request s pdu bc). cbn [fst] in *. apply H. exists hdr, u, pdu. split; [reflexivity|]. split; [exact V|eauto]. }
    destruct (u =? 0) eqn:U.
    + apply Z.eqb_eq in U. pose proof (rows_broadcast_self R pdu Re (db_slaves d) (fun v s J => H' v s true (in_dget d v s I J) (or_introl U))) as A.
      destruct (broadcast_loop (db_slaves d) pdu) as [l q]. destruct q; (split; [reflexivity|exact A]).
    + destruct (get_slave d u) as [s|e] eqn:E; [|destruct e; try (split; [reflexivity|apply G]); destruct (db_error_on_missing d) eqn:Eo; (split; [exact Eo || reflexivity|apply G])].
      specialize (H' u s false E (or_intror eq_refl)). destruct (handle_request s pdu false) as [s' r]. cbn [fst] in H'.
      pose proof (rows_put_self R u s s' (db_slaves d) Re (dget_in _ _ _ E) H') as A. destruct (bind r _); (split; [reflexivity|exact A]).
  - destruct (get_slave d u) as [s|e] eqn:E; [|split; [reflexivity|apply G]]. specialize (H u s x E (conj eq_refl eq_refl)). destruct (act_step s x) as [s' g]. cbn [fst] in *.
    split; [reflexivity|]. now apply rows_put_self with s; [|apply dget_in|].
Qed.
Lemma dact_dinv d x : dinv d -> dinv (fst (dact_step d x)).
Proof.
  intros I. destruct (dact_self (fun _ s s' => reachable s -> reachable s') d x I) as (_ & F).
  - auto.
  - intros u s y _ _. apply act_reachable.
  - destruct I as (N & B & R). assert (E : map fst (db_slaves (fst (dact_step d x))) = map fst (db_slaves d)).
    { clear -F. induction F as [|a b l l' (E & _) F IH]; [reflexivity|]. cbn. now rewrite E, IH. }
    unfold dinv. rewrite E. split; [exact N|]. split; [exact B|]. clear -F R. induction F as [|a b l l' (_ & Q) F IH]; [constructor|]. inversion_clear R. constructor; auto.
Qed.
Lemma dact_shape d x : dinv d -> rows (fun _ s s' => sl_names s' = sl_names s /\ sl_alias s' = sl_alias s) (db_slaves d) (db_slaves (fst (dact_step d x))).
Proof.
  intros I. apply (dact_self _ d x I); [auto|]. intros u s y G _. apply act_same, reachable_wf. now apply (dget_reachable d u).
Qed.
Lemma shape_get (R : Z -> slave -> slave -> Prop) d d' u s' : rows R (db_slaves d) (db_slaves d') -> get_slave d' u = Ok s' -> exists s, get_slave d u = Ok s /\ R u s s'.
Proof.
  intros F G. apply dget_in in G. pose proof (rows_assoc _ u _ _ F) as A. rewrite G in A. unfold get_slave. destruct (assoc Z.eqb u (db_slaves d)) as [s|]; [eauto|contradiction].
Qed.
Lemma shape_keeps d d' m x : rows (fun _ s s' => sl_names s' = sl_names s /\ sl_alias s' = sl_alias s) (db_slaves d) (db_slaves d') -> dkeeps d m x -> dkeeps d' m x.
Proof.
  intros F. destruct x as [p r|u x]; cbn [dkeeps]; [auto|]. intros K s' G. destruct (shape_get _ _ _ _ _ F G) as (s & G0 & E & _). apply keeps_names with s; auto.
Qed.
Lemma shape_apart d d' m m' : rows (fun _ s s' => sl_names s' = sl_names s /\ sl_alias s' = sl_alias s) (db_slaves d) (db_slaves d') -> dapart d m m' -> dapart d' m m'.
Proof.
  intros F A u s' G. destruct (shape_get _ _ _ _ _ F G) as (s & G0 & _ & E). apply apart_alias with s; auto.
Qed.
Lemma dact_apart m m' d x : dinv d -> dkeeps d m' x -> dapart d m m' -> dagree m d (fst (dact_step d x)).
Proof.
  intros I K Ap. destruct (dact_self (fun u => agree (m u)) d x I) as (A & B).
  - intros v s. apply agree_refl.
  - intros u s y G Q. apply act_apart with (m' u); [now apply reachable_wf, (dget_reachable d u)| |now apply Ap].
    destruct x as [p request|v z]; cbn [dkeeps] in K.
    + destruct Q as (hdr & v & pdu & P & V & bc & ->). cbn [keeps_to]. apply (K hdr v pdu P u V).
    + destruct Q as (-> & ->). now apply K.
  - split; [auto|exact B].
Qed.
Definition all_dkeep (d : databank) (regions : nat -> dregion) (h : list (nat * dact)) : Prop := Forall (fun p => dkeeps d (regions (fst p)) (snd p)) h.
Lemma dalone_from w regions : forall h d d2, dinv d -> dinv d2 -> dagree (regions w) d d2 -> all_dkeep d regions h -> (forall v, v <> w -> dapart d (regions w) (regions v)) ->
  own w (snd (dhappens d h)) = snd (dhappens d2 (own w h)) /\ dagree (regions w) (fst (dhappens d h)) (fst (dhappens d2 (own w h))).
Proof.
  induction h as [|(v, x) h IH]; intros d d2 I I2 G K Ap; [auto|]. inversion_clear K as [|? ? K1 K2]. cbn [fst snd] in K1. cbn [dhappens own filter fst].
  pose proof (dact_dinv d x I) as I'. pose proof (dact_shape d x I) as Sh.
  assert (K' : all_dkeep (fst (dact_step d x)) regions h) by (eapply Forall_impl; [|exact K2]; intros q; now apply shape_keeps).
  assert (A' : forall v, v <> w -> dapart (fst (dact_step d x)) (regions w) (regions v)) by (intros u U; now apply shape_apart with d, Ap).
  destruct (Nat.eqb v w) eqn:Q.
  - apply Nat.eqb_eq in Q as ->. destruct (dact_alike (regions w) d d2 x I I2 G K1) as (A & B). pose proof (dact_dinv d2 x I2) as I2'. cbn [dhappens].
    destruct (dact_step d x) as [d1 g], (dact_step d2 x) as [d3 g3]. cbn [fst snd] in *. subst g3.
    destruct (IH d1 d3 I' I2' A K' A') as (J1 & J2). fold (own w h).
    destruct (dhappens d1 h) as [d4 gs], (dhappens d3 (own w h)) as [d5 gs5]. cbn [fst snd own filter] in *. rewrite Nat.eqb_refl. cbn [fst]. rewrite <- J1. split; [reflexivity|exact J2].
  - apply Nat.eqb_neq in Q. pose proof (dact_apart (regions w) (regions v) d x I K1 (Ap v Q)) as A. fold (own w h).
    destruct (dact_step d x) as [d1 g]. cbn [fst snd] in *. destruct (IH d1 d2 I' I2) as (J1 & J2); [eapply dagree_trans; [apply dagree_sym, A|exact G]|exact K'|exact A'|].
    destruct (dhappens d1 h) as [d4 gs]. cbn [fst snd own filter] in *. replace (Nat.eqb v w) with false by (symmetry; now apply Nat.eqb_neq). auto.
Qed.
(** ** The properties *)
(** If everybody keeps to its own cells, then everybody gets exactly the answers it would get if it were the only user of the server, and finds
    in its cells what it would find there. *)
Theorem C113_alone : forall d h regions w, db_reachable d -> all_dkeep d regions h -> (forall v, v <> w -> dapart d (regions w) (regions v)) ->
  let '(d1, gs) := dhappens d h in let '(d2, gs2) := dhappens d (own w h) in own w gs = gs2 /\ dagree (regions w) d1 d2.
Proof.
  intros d h regions w R K Ap. apply db_reachable_inv in R. pose proof (dalone_from w regions h d d R R (dagree_refl _ _) K Ap) as H.
  destruct (dhappens d h), (dhappens d (own w h)). exact H.
Qed.
(** In particular users of different units: the regions are "all of this unit" and "all of that unit". *)
Definition whole_unit (u : Z) : dregion := fun v _ _ => v = u.
Definition same_slave (s s' : slave) : Prop := sl_unsigned s = sl_unsigned s' /\ sl_names s = sl_names s' /\ sl_alias s = sl_alias s' /\ forall t, blocks s t = blocks s' t.
(** the request is for this unit: it is addressed to it, or it cannot be parsed, so that no slave sees it *)
Definition for_unit (u : Z) (x : dact) : Prop :=
  match x with
  | DFrame p request => forall hdr v pdu, parse_request p request = Ok (hdr, v, pdu) -> v = u
  | DSlave v x => v = u /\ match x with AGet _ _ n => 0 <= n | _ => True end
  end.
Theorem C113_units : forall d h (unit_of : nat -> Z) w, db_reachable d -> Forall (fun p => for_unit (unit_of (fst p)) (snd p)) h ->
  (forall v, unit_of v <> 0) -> (forall v, v <> w -> unit_of v <> unit_of w) ->
  let '(d1, gs) := dhappens d h in let '(d2, gs2) := dhappens d (own w h) in 
  own w gs = gs2 /\ match get_slave d1 (unit_of w), get_slave d2 (unit_of w) with Ok s1, Ok s2 => same_slave s1 s2 | Err e, Err e' => e = e' | _, _ => False end.
Proof.
  intros d h unit_of w R F N D. pose proof (C113_alone d h (fun v => whole_unit (unit_of v)) w R) as H.
  destruct (dhappens d h) as [d1 gs], (dhappens d (own w h)) as [d2 gs2]. destruct H as (A & (_ & B)).
  - eapply Forall_impl; [|exact F]. intros [v x]. cbn [fst snd]. destruct x as [p r|u x]; cbn [for_unit dkeeps].
    + intros E hdr u pdu P z Z. specialize (E hdr u pdu P). destruct Z as [Z|Z]; [exfalso; apply (N v); congruence|]. subst z u.
      split; [destruct (read_range pdu) as [[[]]|]|destruct (write_range pdu) as [[[]]|]]; cbn [inside_opt]; auto; intros y _; reflexivity.
    + intros (-> & P) s G. destruct x as [pdu bc|name a v0|name a n]; cbn [keeps_to].
      * split; [destruct (read_range pdu) as [[[]]|]|destruct (write_range pdu) as [[[]]|]]; cbn [inside_opt]; auto; intros y _; reflexivity.
      * intros t st _ y _. reflexivity.
      * split; [exact P|]. intros t st _ y _. reflexivity.
  - intros v V u s G t t' x _ E1 E2. unfold whole_unit in *. apply (D v V). congruence.
  - split; [exact A|]. pose proof (rows_assoc _ (unit_of w) _ _ B) as C. unfold get_slave.
    destruct (assoc Z.eqb (unit_of w) (db_slaves d1)) as [s1|], (assoc Z.eqb (unit_of w) (db_slaves d2)) as [s2|]; try contradiction; [|reflexivity].
    destruct C as (C1 & C2 & C3 & C4). repeat split; auto. intros t. specialize (C4 t). clear -C4. induction C4 as [|b b' l l' N F IH]; [reflexivity|]. f_equal; [|exact IH].
    apply near_eq. destruct N as (N1 & N2 & N3 & N4). repeat split; auto. intros x _. now apply N4.
Qed.
(** ** The order does not matter *)
Lemma cover_same s0 s1 s2 regions : sl_alias s1 = sl_alias s0 -> (forall w : nat, agree (regions w) s1 s2) -> agree (nobodys s0 regions) s1 s2 -> same_slave s1 s2.
Proof.
  intros Al F N. pose proof N as (U1 & U2 & U3 & U4). repeat split; auto. intros t.
  assert (P : forall k b b', nth_error (blocks s1 t) k = Some b -> nth_error (blocks s2 t) k = Some b' -> b = b').
  { intros k b b' E E'. apply near_eq. pose proof (F2_nth _ _ _ _ _ _ (U4 t) E E') as (A1 & A2 & A3 & A4). repeat split; auto. intros x _. destruct (optZ_dec (cell b x) (cell b' x)) as [Y|Y]; [exact Y|]. apply A4.
    intros w t' Q H. apply Y. destruct (F w) as (_ & _ & _ & Fw). specialize (Fw t').
    assert (T1 : blocks s1 t' = blocks s1 t) by (unfold blocks, same_table in *; rewrite Al, Q; reflexivity). assert (T2 : blocks s2 t' = blocks s2 t) by (unfold blocks, same_table in *; rewrite <- U3, Al, Q; reflexivity).
    rewrite T1, T2 in Fw. pose proof (F2_nth _ _ _ _ _ _ Fw E E') as (_ & _ & _ & C). now apply C. }
  specialize (U4 t). remember (blocks s1 t) as l1 eqn:L1. remember (blocks s2 t) as l2 eqn:L2. clear L1 L2. induction U4 as [|b b' l1 l2 _ F2 IH]; [reflexivity|].
  f_equal; [exact (P 0%nat b b' eq_refl eq_refl)|]. apply IH. intros k c c' E E'. exact (P (S k) c c' E E').
Qed.
(** Cells that belong to nobody do not change. *)
Definition dnobodys (d : databank) (regions : nat -> dregion) : dregion := fun u t x => forall s, get_slave d u = Ok s -> nobodys s (fun w => regions w u) t x.
Lemma drest_from regions d0 : forall h d, dinv d -> rows (fun _ s s' => sl_names s' = sl_names s /\ sl_alias s' = sl_alias s) (db_slaves d0) (db_slaves d) -> all_dkeep d regions h ->
  dagree (dnobodys d0 regions) d (fst (dhappens d h)) /\ rows (fun _ s s' => sl_names s' = sl_names s /\ sl_alias s' = sl_alias s) (db_slaves d0) (db_slaves (fst (dhappens d h))).
Proof.
  induction h as [|(v, x) h IH]; intros d I E K; [split; [apply dagree_refl|exact E]|]. inversion_clear K as [|? ? K1 K2]. cbn [fst snd] in K1. cbn [dhappens].
  pose proof (dact_dinv d x I) as I'. pose proof (dact_shape d x I) as Sh.
  assert (K' : all_dkeep (fst (dact_step d x)) regions h) by (eapply Forall_impl; [|exact K2]; intros q; now apply shape_keeps).
  assert (A : dagree (dnobodys d0 regions) d (fst (dact_step d x))).
  { apply dact_apart with (regions v); auto. intros u s G t t' y S1 N Y. destruct (shape_get _ _ _ _ _ E G) as (s0 & G0 & _ & Al). apply (N s0 G0 v t'); [|exact Y]. unfold same_table in *. now rewrite <- Al. }
  assert (E' : rows (fun _ s s' => sl_names s' = sl_names s /\ sl_alias s' = sl_alias s) (db_slaves d0) (db_slaves (fst (dact_step d x)))).
  { eapply rows_trans; [|exact E|exact Sh]. intros u a b c (P & Q) (P' & Q'). split; congruence. }
  destruct (dact_step d x) as [d1 g]. cbn [fst] in *. destruct (IH d1 I' E' K') as (J1 & J2). destruct (dhappens d1 h) as [d2 gs]. cbn [fst] in *.
  split; [eapply dagree_trans; [exact A|exact J1]|exact J2].
Qed.
Lemma rows_refl (R : Z -> slave -> slave -> Prop) : (forall u s, R u s s) -> forall l, rows R l l.
Proof. intros H. induction l; constructor; auto. Qed.
Lemma F2_impl {A} (P Q : A -> A -> Prop) : (forall a b, P a b -> Q a b) -> forall l l', Forall2 P l l' -> Forall2 Q l l'.
Proof. intros H l l'. induction 1; constructor; auto. Qed.
Theorem C113_order : forall d h h' regions, db_reachable d -> all_dkeep d regions h -> all_dkeep d regions h' -> (forall v w, v <> w -> dapart d (regions v) (regions w)) -> (forall w, own w h = own w h') ->
  let '(d1, gs) := dhappens d h in let '(d2, gs') := dhappens d h' in
  (forall w, own w gs = own w gs') /\ rows (fun _ => same_slave) (db_slaves d1) (db_slaves d2).
Proof.
  intros d h h' regions R K K' Ap O. apply db_reachable_inv in R as I.
  assert (F : forall w, own w (snd (dhappens d h)) = own w (snd (dhappens d h')) /\ dagree (regions w) (fst (dhappens d h)) (fst (dhappens d h'))).
  { intros w. assert (Aw : forall v, v <> w -> dapart d (regions w) (regions v)) by (intros v V; apply Ap; congruence).
    destruct (dalone_from w regions h d d I I (dagree_refl _ _) K Aw) as (A1 & A2). destruct (dalone_from w regions h' d d I I (dagree_refl _ _) K' Aw) as (B1 & B2). rewrite <- (O w) in B1, B2.
    split; [congruence|]. eapply dagree_trans; [exact A2|apply dagree_sym, B2]. }
  pose proof (rows_refl (fun _ s s' => sl_names s' = sl_names s /\ sl_alias s' = sl_alias s) (fun _ s => conj eq_refl eq_refl) (db_slaves d)) as Re.
  destruct (drest_from regions d h d I Re K) as (N1 & S1). destruct (drest_from regions d h' d I Re K') as (N2 & S2). pose proof (dagree_trans _ _ _ _ (dagree_sym _ _ _ N1) N2) as (_ & N).
  destruct (dhappens d h) as [d1 gs], (dhappens d h') as [d2 gs']. cbn [fst snd] in *. split; [intros w; apply F|].
  assert (Fw : forall w, rows (fun u => agree (regions w u)) (db_slaves d1) (db_slaves d2)) by (intros w; apply F). clear F N1 N2 S2 K K' Ap O Re.
  assert (G : forall u s, In (u, s) (db_slaves d) -> get_slave d u = Ok s) by (intros; now apply in_dget). unfold dnobodys in N. set (gd := get_slave d) in *. clearbody gd.
  revert Fw G N. generalize (db_slaves d2). induction S1 as [|[u0 s0] [u1 s1] l0 l1 (E1 & _ & Al) S1 IH]; intros l2 Fw G N.
  - inversion_clear N. constructor.
  - inversion N as [|? [u2 s2] ? l2' (E2 & N2) N']. subst. cbn [fst snd] in *. subst u1 u2. constructor; cbn [fst snd].
    + split; [reflexivity|]. apply (cover_same s0 s1 s2 (fun w => regions w u0)); [exact Al| |].
      * intros w. specialize (Fw w). now inversion_clear Fw as [|? ? ? ? (_ & Q) ?].
      * destruct N2 as (V1 & V2 & V3 & V4). repeat split; auto. intros t. specialize (V4 t). eapply F2_impl; [|exact V4]. intros b b' (W1 & W2 & W3 & W4). repeat split; auto.
        intros x X. apply W4. intros s Gs. rewrite (G u0 s0 (or_introl eq_refl)) in Gs. now injection Gs as <-.
    + apply IH; [intros w; specialize (Fw w); now inversion_clear Fw|intros u s H; apply G; now right|exact N'].
Qed.

(** ** Concrete cases *)
(** three masters, each with a unit of its own (one of them is not there), and an application *)
Definition unit_of_user (w : nat) : Z := match w with 0%nat => 3 | 1%nat => 9 | 2%nat => 77 | S n => 100 + Z.of_nat n end.
Definition units_history : list (nat * dact) :=
  [(0%nat, DFrame RTU (on_wire None 3 (6 :: word 100 ++ word 7))); (1%nat, DFrame TCP (on_wire (Some (5, 0)) 9 (3 :: word 100 ++ word 2)));
   (2%nat, DFrame TCP (on_wire (Some (6, 0)) 77 (6 :: word 100 ++ word 1))); (1%nat, DSlave 9 (ASet "r" 100 (SvSeq [1; 2]))); (0%nat, DFrame RTU (on_wire None 3 (3 :: word 100 ++ word 1)));
   (1%nat, DFrame RTU [1; 2; 3])].
Example C113_units_ex : db_reachable demo_db /\ Forall (fun p => for_unit (unit_of_user (fst p)) (snd p)) units_history /\ (forall v, unit_of_user v <> 0) /\
  (forall v, v <> 0%nat -> unit_of_user v <> unit_of_user 0) /\
  own 0 (snd (dhappens demo_db units_history)) =
    [(0%nat, DAnswer (Ok (Some (on_wire None 3 (6 :: word 100 ++ word 7))))); (0%nat, DAnswer (Ok (Some (on_wire None 3 (3 :: 2 :: word 7)))))].
Proof.
  split; [apply demo_db_reachable|]. split.
  - repeat apply Forall_cons; [..|apply Forall_nil]; cbn [fst snd for_unit unit_of_user];
      try (intros hdr v pdu E; vm_compute in E; injection E; intros; congruence). { auto. } intros hdr v pdu E. vm_compute in E. discriminate E.
  - split; [intros [|[|[|v]]]; cbn [unit_of_user]; lia|]. split; [intros [|[|[|v]]] V; cbn [unit_of_user]; lia|]. vm_compute. reflexivity.
Qed.
(** user 1 has the registers 100..104 of all units and broadcasts; user 2 has the other cells *)
Definition halves (w : nat) : dregion := fun u t x =>
  match w with
  | 1%nat => t = HOLDING_REGISTERS /\ x < 105
  | 2%nat => (t = HOLDING_REGISTERS /\ 105 <= x) \/ t = COILS
  | _ => False
  end.
Definition halves_history : list (nat * dact) :=
  [(1%nat, DFrame RTU (on_wire None 0 (6 :: word 101 ++ word 8))); (2%nat, DFrame TCP (on_wire (Some (3, 0)) 3 (6 :: word 105 ++ word 4))); (1%nat, DFrame TCP (on_wire (Some (1, 0)) 9 (3 :: word 100 ++ word 3)))].
Lemma demo_tables u s : get_slave demo_db u = Ok s -> forall t t', same_table s t t' -> t = t'.
Proof.
  intros G. unfold get_slave, demo_db in G. cbn in G. repeat match type of G with context [if ?c then _ else _] => destruct c end; try discriminate G;
    injection G as <-; intros [] [] E; vm_compute in E; congruence.
Qed.
Example C113_alone_ex : all_dkeep demo_db halves halves_history /\ (forall v w, v <> w -> dapart demo_db (halves v) (halves w)) /\
  own 1 (snd (dhappens demo_db halves_history)) = [(1%nat, DAnswer (Ok None)); (1%nat, DAnswer (Ok (Some (on_wire (Some (1, 0)) 9 (3 :: 6 :: word 0 ++ word 8 ++ word 0)))))].
Proof.
  split; [|split].
  - repeat apply Forall_cons; [..|apply Forall_nil]; cbn [fst snd dkeeps]; intros hdr u pdu E v _; vm_compute in E; injection E as <- <- <-.
    + split; [exact I|]. change (write_range _) with (Some (HOLDING_REGISTERS, 101, 1)). intros x X. cbn. split; [reflexivity|lia].
    + split; [exact I|]. change (write_range _) with (Some (HOLDING_REGISTERS, 105, 1)). intros x X. left. split; [reflexivity|lia].
    + split; [|exact I]. change (read_range _) with (Some (HOLDING_REGISTERS, 100, 3)). intros x X. cbn. split; [reflexivity|lia].
  - intros v w V u s G t t' x S1 H H'. apply (demo_tables u s G) in S1. subst t'. destruct v as [|[|[|v]]], w as [|[|[|w]]]; cbn in H, H'; try contradiction; try congruence.
    + destruct H as (-> & H), H' as [(_ & H')|D]; [lia|discriminate D].
    + destruct H' as (-> & H'), H as [(_ & H)|D]; [lia|discriminate D].
  - vm_compute. reflexivity.
Qed.

Print Assumptions C113_alone.
Print Assumptions C113_units.
Print Assumptions C113_order.
