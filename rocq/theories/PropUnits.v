(** C125: slaves are added to and removed from a running server without disturbing the users of the others. *)
From Verif Require Import Base PyStruct Defines SlaveModel BaseFacts StructFacts SlaveSpec QueryModel DatabankModel DbSpec DatabankProofs PropDatabank.
From Coq Require Import Lia.
Open Scope string_scope. Open Scope list_scope. Open Scope Z_scope.

(** ** Specification *)
(** What a user of the server does: a master sends a frame (serial or TCP); the application calls server.add_slave, remove_slave,
    remove_all_slaves, or any method of server.get_slave(unit). *)
Inductive sact :=
| Frame (p : proto) (request : list Z)
| AddSlave (unit : Z) (unsigned : bool) (memory : option (per4 (option btype) * per4 (list block)))
| RemoveSlave (unit : Z)
| RemoveAllSlaves
| OnSlave (unit : Z) (o : slave_op).
Inductive sgot :=
| GAnswer (r : res response)
| GUnit (r : res unit)
| GCall (r : res slave_out).
Definition sact_step (d : databank) (x : sact) : databank * sgot :=
  match x with
  | Frame p request => let '(d', r) := db_handle_request d p request in (d', GAnswer r)
  | AddSlave u unsigned memory => let '(d', r) := add_slave d u unsigned memory in (d', GUnit r)
  | RemoveSlave u => let '(d', r) := remove_slave d u in (d', GUnit r)
  | RemoveAllSlaves => (remove_all_slaves d, GUnit (Ok tt))
  | OnSlave u o =>
      match get_slave d u with
      | Err e => (d, GCall (Err e))
      | Ok s => let '(s', g) := slave_step s o in (put_slave d u s', GCall (Ok g))
      end
  end.
(** A history: numbered users, what they do in the order in which it happens; what they get. *)
Fixpoint sruns (d : databank) (h : list (nat * sact)) : databank * list (nat * sgot) :=
  match h with
  | [] => (d, [])
  | (w, x) :: rest => let '(d1, g) := sact_step d x in let '(d2, gs) := sruns d1 rest in (d2, (w, g) :: gs)
  end.
(** The units an act is about: a broadcast and remove_all_slaves are about all of them, a frame that is none about none. *)
Definition about (x : sact) (u : Z) : Prop :=
  match x with
  | Frame p request => exists hdr v pdu, parse_request p request = Ok (hdr, v, pdu) /\ (v = 0 \/ v = u)
  | AddSlave v _ _ | RemoveSlave v | OnSlave v _ => u = v
  | RemoveAllSlaves => True
  end.
Definition of_user {A} (w : nat) (l : list (nat * A)) : list (nat * A) := filter (fun x => Nat.eqb (fst x) w) l.

(** ** Proofs *)
Section Mine.
Variable m : Z -> bool.
Definition mine (l : list (Z * slave)) : list (Z * slave) := filter (fun x => m (fst x)) l.
Lemma mine_assoc u l : m u = true -> assoc Z.eqb u (mine l) = assoc Z.eqb u l.
Proof.
  intros M. induction l as [|[k s] l IH]; [reflexivity|]. cbn [mine filter fst]. destruct (m k) eqn:K; cbn [assoc]; [now rewrite <- IH|].
  destruct (u =? k) eqn:Q; [apply Z.eqb_eq in Q; congruence|exact IH].
Qed.
Lemma mine_put u s l : mine (assoc_put Z.eqb u s l) = if m u then assoc_put Z.eqb u s (mine l) else mine l.
Proof.
  induction l as [|[k x] l IH]; cbn [assoc_put mine filter fst]; [now destruct (m u)|].
  destruct (u =? k) eqn:Q.
  - apply Z.eqb_eq in Q. subst k. cbn [mine filter fst]. destruct (m u) eqn:M; [|reflexivity]. cbn [assoc_put]. now rewrite Z.eqb_refl.
  - cbn [mine filter fst]. fold (mine l) (mine (assoc_put Z.eqb u s l)). rewrite IH. destruct (m k), (m u); try reflexivity. cbn [assoc_put]. now rewrite Q.
Qed.
Lemma mine_del u l : mine (assoc_del Z.eqb u l) = if m u then assoc_del Z.eqb u (mine l) else mine l.
Proof.
  induction l as [|[k x] l IH]; cbn [assoc_del mine filter fst]; [now destruct (m u)|].
  destruct (u =? k) eqn:Q.
  - apply Z.eqb_eq in Q. subst k. destruct (m u) eqn:M; [|reflexivity]. cbn [assoc_del]. now rewrite Z.eqb_refl.
  - cbn [mine filter fst]. fold (mine l) (mine (assoc_del Z.eqb u l)). rewrite IH. destruct (m k), (m u); try reflexivity. cbn [assoc_del]. now rewrite Q.
Qed.
Lemma mine_all l : (forall u, m u = true) -> mine l = l.
Proof. intros A. induction l as [|[k s] l IH]; [reflexivity|]. cbn [mine filter fst]. rewrite A. f_equal. exact IH. Qed.
Lemma mine_none l : (forall u, m u = false) -> mine l = [].
Proof. intros A. induction l as [|[k s] l IH]; [reflexivity|]. cbn [mine filter fst]. now rewrite A. Qed.

(** The same units of mine, in the same order, with the same contents. *)
Definition alike (d d' : databank) : Prop := db_error_on_missing d = db_error_on_missing d' /\ mine (db_slaves d) = mine (db_slaves d').
Lemma alike_get d d' u : alike d d' -> m u = true -> get_slave d u = get_slave d' u.
Proof. intros (_ & A) M. unfold get_slave. now rewrite <- (mine_assoc u (db_slaves d) M), A, mine_assoc. Qed.
Lemma alike_put d d' u s : alike d d' -> alike (put_slave d u s) (put_slave d' u s).
Proof. intros (E & A). split; [exact E|]. cbn. rewrite !mine_put, A. reflexivity. Qed.
Lemma alike_put_other d u s : m u = false -> alike (put_slave d u s) d.
Proof. intros M. split; [reflexivity|]. cbn. now rewrite mine_put, M. Qed.
Lemma alike_refl d : alike d d. Proof. split; reflexivity. Qed.
Lemma alike_all d d' : alike d d' -> (forall u, m u = true) -> d = d'.
Proof. intros (E & A) M. rewrite !mine_all in A by exact M. destruct d, d'. cbn in *. congruence. Qed.

Lemma step_mine d d' x : alike d d' -> (forall u, about x u -> m u = true) ->
  alike (fst (sact_step d x)) (fst (sact_step d' x)) /\ snd (sact_step d x) = snd (sact_step d' x).
Proof.
  intros A M. pose proof A as (E & L). destruct x as [p request|u b memory|u| |u o]; cbn [sact_step about] in *.
  - unfold db_handle_request. destruct (parse_request p request) as [[[hdr v] pdu]|e] eqn:P; [|split; [exact A|reflexivity]].
    destruct (v =? 0) eqn:V.
    + rewrite (alike_all d d' A); [split; [apply alike_refl|reflexivity]|]. intros u. apply M. exists hdr, v, pdu. split; [reflexivity|]. left. lia.
    + rewrite (alike_get d d' v A) by (apply M; exists hdr, v, pdu; auto). rewrite E.
      destruct (get_slave d' v) as [s|e]; [|destruct e; try (split; [exact A|reflexivity]); destruct (db_error_on_missing d'); split; exact A || reflexivity].
      destruct (SlaveModel.handle_request s pdu false) as [s' r]. destruct (response_pdu <- r ;; build_response hdr response_pdu); cbn [fst snd]; (split; [now apply alike_put|reflexivity]).
  - unfold add_slave. destruct (_ || _); [split; [exact A|reflexivity]|].
    rewrite <- (mine_assoc u (db_slaves d)), L, mine_assoc by now apply M. destruct (assoc _ _ _); [split; [exact A|reflexivity]|]. split; [|reflexivity].
    split; [exact E|]. cbn. now rewrite !mine_put, L.
  - unfold remove_slave. rewrite <- (mine_assoc u (db_slaves d)), L, mine_assoc by now apply M. destruct (assoc _ _ _); [|split; [exact A|reflexivity]].
    split; [|reflexivity]. split; [exact E|]. cbn. now rewrite !mine_del, L.
  - split; [|reflexivity]. split; [exact E|reflexivity].
  - rewrite (alike_get d d' u A) by now apply M. destruct (get_slave d' u) as [s|]; [|split; [exact A|reflexivity]].
    destruct (slave_step s o) as [s' g]. split; [now apply alike_put|reflexivity].
Qed.
Lemma step_other d x : (forall u, about x u -> m u = false) -> alike (fst (sact_step d x)) d.
Proof.
  intros M. destruct x as [p request|u b memory|u| |u o]; cbn [sact_step about] in *.
  - unfold db_handle_request. destruct (parse_request p request) as [[[hdr v] pdu]|e] eqn:P; [|apply alike_refl].
    destruct (v =? 0) eqn:V.
    + assert (N : forall u, m u = false) by (intros u; apply M; exists hdr, v, pdu; split; [reflexivity|left; lia]).
      destruct (broadcast_loop (db_slaves d) pdu) as [l r]. destruct r; cbn [fst]; (split; [reflexivity|]; cbn; now rewrite !mine_none).
    + assert (N : m v = false) by (apply M; exists hdr, v, pdu; auto).
      destruct (get_slave d v) as [s|e]; [|destruct e; try apply alike_refl; destruct (db_error_on_missing d); apply alike_refl].
      destruct (SlaveModel.handle_request s pdu false) as [s' r]. destruct (response_pdu <- r ;; build_response hdr response_pdu); cbn [fst]; now apply alike_put_other.
  - unfold add_slave. destruct (_ || _); [apply alike_refl|]. destruct (assoc _ _ _); [apply alike_refl|]. cbn [fst]. split; [reflexivity|]. cbn.
    now rewrite mine_put, M.
  - unfold remove_slave. destruct (assoc _ _ _); [|apply alike_refl]. cbn [fst]. split; [reflexivity|]. cbn. now rewrite mine_del, M.
  - split; [reflexivity|]. cbn. symmetry. apply mine_none. auto.
  - destruct (get_slave d u) as [s|]; [|apply alike_refl]. destruct (slave_step s o) as [s' g]. now apply alike_put_other, M.
Qed.
End Mine.

(** Users of different units: whoever else uses, adds, removes and reconfigures other units, a user gets act by act what he would get
    alone, and finds his units as if he had been alone. *)
Theorem C125_undisturbed : forall (units : nat -> Z -> bool) w h d,
  (forall v x u, In (v, x) h -> about x u -> units v u = true) ->
  (forall v u, v <> w -> units v u = true -> units w u = false) ->
  let '(d1, got) := sruns d h in
  let '(d2, alone) := sruns d (of_user w h) in
  of_user w got = alone /\ forall u, units w u = true -> get_slave d1 u = get_slave d2 u.
Proof.
  intros units w h d K Ap.
  assert (G : forall d d', alike (units w) d d' -> let '(d1, got) := sruns d h in let '(d2, alone) := sruns d' (of_user w h) in
    of_user w got = alone /\ alike (units w) d1 d2).
  { clear d. induction h as [|[v x] h IH]; intros d d' A; [split; [reflexivity|exact A]|].
    assert (K' : forall v x u, In (v, x) h -> about x u -> units v u = true) by (intros; eapply K; [right|]; eassumption).
    specialize (IH K'). cbn [sruns of_user filter fst]. fold (of_user w h). destruct (Nat.eqb v w) eqn:Q.
    - apply Nat.eqb_eq in Q as ->. destruct (step_mine (units w) d d' x A) as (A1 & A2); [intros u; apply K; now left|].
      destruct (sact_step d x) as [d1 g]. cbn [sruns]. destruct (sact_step d' x) as [d1' g']. cbn [fst snd] in *. subst g'. specialize (IH _ _ A1).
      destruct (sruns d1 h) as [d2 gs]. destruct (sruns d1' (of_user w h)) as [d2' gs']. destruct IH as (<- & IH).
      split; [|exact IH]. cbn [of_user filter fst]. now rewrite Nat.eqb_refl.
    - pose proof Q as Q'. apply Nat.eqb_neq in Q'. pose proof (step_other (units w) d x) as A1.
      assert (A2 : alike (units w) (fst (sact_step d x)) d') by
        (destruct A1 as (B1 & B2); [intros u Hu; apply (Ap v); [exact Q'|]; apply (K v x u); [now left|exact Hu]|]; destruct A; split; congruence).
      destruct (sact_step d x) as [d1 g]. cbn [fst] in A2. specialize (IH _ _ A2). destruct (sruns d1 h) as [d2 gs]. destruct (sruns d' (of_user w h)) as [d2' gs'].
      destruct IH as (<- & IH). split; [|exact IH]. cbn [of_user filter fst]. now rewrite Q. }
  specialize (G d d (alike_refl _ d)). destruct (sruns d h) as [d1 got]. destruct (sruns d (of_user w h)) as [d2 alone]. destruct G as (G1 & G2).
  split; [exact G1|]. intros u U. now apply (alike_get (units w)).
Qed.

(** Unit 9 is user 0's, unit 3 user 1's; user 2 removes unit 12, adds unit 20 and gives it a block. User 0 reads, user 1 empties unit 3. *)
Definition read_frame (u a n : Z) : list Z := [0; 1; 0; 0; 0; 6; u; 3; 0; a; 0; n].
Definition demo_history : list (nat * sact) :=
  [(2%nat, RemoveSlave 12); (0%nat, Frame TCP (read_frame 9 100 1)); (1%nat, OnSlave 3 OpRemoveAll); (2%nat, AddSlave 20 true None);
   (0%nat, OnSlave 9 (OpSetValues "r" 100 (SvNum 77))); (2%nat, OnSlave 20 (OpAddBlock "x" 3 0 10)); (1%nat, Frame TCP (read_frame 3 100 1));
   (0%nat, Frame TCP (read_frame 9 100 1)); (2%nat, Frame TCP (read_frame 20 0 1))].
Definition demo_units (v : nat) (u : Z) : bool :=
  match v with 0%nat => u =? 9 | 1%nat => u =? 3 | 2%nat => (u =? 12) || (u =? 20) | _ => false end.
Example C125_ex : (forall v x u, In (v, x) demo_history -> about x u -> demo_units v u = true) /\
  (forall v v' u, v <> v' -> demo_units v u = true -> demo_units v' u = false) /\
  of_user 0 (snd (sruns demo_db demo_history)) =
    [(0%nat, GAnswer (Ok (Some [0; 1; 0; 0; 0; 5; 9; 3; 2; 0; 0]))); (0%nat, GCall (Ok (OutUnit (Ok tt)))); (0%nat, GAnswer (Ok (Some [0; 1; 0; 0; 0; 5; 9; 3; 2; 0; 77])))] /\
  of_user 1 (snd (sruns demo_db demo_history)) = [(1%nat, GCall (Ok (OutUnit (Ok tt)))); (1%nat, GAnswer (Ok (Some [0; 1; 0; 0; 0; 3; 3; 131; 2])))].
Proof.
  split; [|split; [|split; vm_compute; reflexivity]].
  - intros v x u H A. cbn [demo_history In] in H.
    repeat match type of H with _ \/ _ => destruct H as [H|H] end; try (destruct H; fail); injection H as <- <-;
      try (cbn [about] in A; subst u; reflexivity);
      destruct A as (hdr & k & pdu & P & [->|Q]); vm_compute in P; try discriminate P; injection P as <- <- <-; subst u; reflexivity.
  - intros v v' u N. destruct v as [|[|[|v]]], v' as [|[|[|v']]]; cbn [demo_units]; try congruence; try discriminate; lia.
Qed.

Print Assumptions C125_undisturbed.
