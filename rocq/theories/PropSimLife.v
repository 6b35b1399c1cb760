(** C133: closing a Simulator ends its interfaces and stops its server, if start() got so far.
    Vocabulary: SimLifeModel.v (the turns of the caller, of the console thread and of the RPC thread, in any order). *)
From Coq Require Import ZArith Lia.
From Verif Require Import Base SimLifeModel.
Open Scope list_scope.

(** ** Spec *)
(** What can have become of a Simulator, whatever its caller, its console and its RPC clients did. *)
Definition life (l : list turn) (s : sim) : Prop := exists s0, new_simulator false = Ok s0 /\ turns s0 l = Some s.
(** a turn of the RPC thread *)
Definition of_rpc (t : turn) : bool := match t with RpcTurn | RpcCommand => true | _ => false end.
Definition rpc_turns (l : list turn) : nat := length (filter of_rpc l).

(** ** Proofs *)
Definition leaving (p : place) : bool := match p with InClose (S _) | Closed => true | _ => false end.
Definition past (p : place) : bool := match p with InClose (S (S (S _))) | Closed => true | _ => false end.
Definition linv (s : sim) : Prop :=
  (s_shut s = true <-> s_rpc s = REnded) /\ (leaving (s_place s) = true -> s_go s = false) /\ (past (s_place s) = true -> s_rpc s = REnded) /\
  (s_place s = Closed -> s_up s = false) /\ (s_place s = InClose 2 -> s_rpc s <> REnded -> s_request s = true) /\
  (forall n, s_place s = InStart n -> (1 <= n)%nat -> s_up s = true) /\ (s_place s = InHandle -> s_up s = true) /\ s_bound s = true.
Ltac cases := repeat match goal with
  | H : context [match ?x with _ => _ end] |- _ => destruct x eqn:?; try discriminate H
  end.
Lemma turn_inv s t s' : linv s -> turn_of s t = Some s' -> linv s'.
Proof.
  intros (A & B & C & D & E & F & G & K) T. unfold linv. destruct s as [p up go c n r q sh m b]. cbn in *.
  destruct t as [| |o| | | | |]; cbn in T; unfold caller in T; cbn in T; cases; try discriminate T; injection T as <-; cbn in *; subst; repeat split; intros; try tauto; try discriminate; try congruence; auto; try (destruct A as [A1 A2]; auto; try discriminate (A1 eq_refl); try discriminate (A2 eq_refl); fail);
    try (now specialize (C eq_refl)); try (now specialize (B eq_refl)).
  all: try (now apply E); try (now apply (F _ eq_refl); lia).
all: try (match goal with H : InStart _ = InStart _ |- _ => injection H as <- end); try lia; try (eapply F; [reflexivity|lia]); auto.
  all: try (match goal with H : past _ = true |- _ => specialize (C H); congruence end); try (match goal with H : ?x = true |- _ => apply A in H; congruence end); try (destruct A as [A1 A2]; first [specialize (A1 eq_refl)|specialize (A2 eq_refl)]; congruence); try congruence.
  all: try (eapply F; eassumption).
Qed.
Lemma turns_app s l1 l2 : turns s (l1 ++ l2) = match turns s l1 with Some s1 => turns s1 l2 | None => None end.
Proof. revert s. induction l1 as [|t l1 IH]; intros s; [reflexivity|]. cbn. destruct (turn_of s t); auto. Qed.
Lemma turns_ind (P : sim -> Prop) : (forall s t s', P s -> turn_of s t = Some s' -> P s') -> forall l s s', P s -> turns s l = Some s' -> P s'.
Proof.
  intros H. induction l as [|t l IH]; intros s s' Q T; cbn in T; [injection T as <-; exact Q|]. destruct (turn_of s t) as [s1|] eqn:E; [|discriminate T]. eapply IH; [|exact T]. eapply H; eauto.
Qed.
Lemma life_inv l s : life l s -> linv s.
Proof.
  intros (s0 & N & T). cbn in N. injection N as <-. eapply (turns_ind linv turn_inv); [|exact T]. unfold linv. cbn. repeat split; intros; try discriminate; auto.
Qed.
(** threads that were started stay so; who is in the handler or beyond console.close() has started them *)
Definition going (s : sim) : Prop := s_console s <> CFresh /\ s_rpc s <> RFresh.
Lemma going_turn s t s' : going s -> turn_of s t = Some s' -> going s'.
Proof.
  intros (A & B) T. destruct s as [p up go c n r q sh m b]. cbn in *. destruct t; cbn in T; unfold caller in T; cbn in T; cases; try discriminate T; injection T as <-; split; cbn in *; congruence.
Qed.
Definition begun (s : sim) : Prop := (s_place s = InStart 2 -> s_console s <> CFresh) /\ (s_place s = InHandle -> going s) /\ (leaving (s_place s) = true -> s_console s <> CFresh) /\ (forall n, s_place s = InStart n -> (n <= 2)%nat).
Lemma begun_turn s t s' : begun s -> turn_of s t = Some s' -> begun s'.
Proof.
  intros (A & B & C & D) T. unfold begun, going in *. destruct s as [p up go c n r q sh m b]. cbn in *.
  destruct t; cbn in T; unfold caller in T; cbn in T; cases; try discriminate T; injection T as <-; cbn in *; subst; repeat split; intros; try discriminate; try congruence; try (now apply B); try (now apply C); try (now apply A);
    try (match goal with H : InStart _ = InStart _ |- _ => injection H as <- end); try lia; auto.
  all: try (intros ->; apply A; [|reflexivity]; f_equal; specialize (D _ eq_refl); lia).
  all: try (specialize (B ltac:(assumption)); destruct B; congruence).
Qed.
Lemma life_begun l s : life l s -> begun s.
Proof.
  intros (s0 & N & T). cbn in N. injection N as <-. eapply (turns_ind begun begun_turn); [|exact T]. unfold begun. cbn. repeat split; intros; discriminate.
Qed.

(** ** C133 *)
(** start() reaches its handler only with the server and both threads started; a thread never becomes a new one again. *)
Theorem C133_started : forall l s, life l s -> s_place s = InHandle ->
  s_up s = true /\ forall l' s', turns s l' = Some s' -> s_console s' <> CFresh /\ s_rpc s' <> RFresh.
Proof.
  intros l s L P. pose proof (life_inv l s L) as (_ & _ & _ & _ & _ & _ & U & _). split; [now apply U|]. pose proof (life_begun l s L) as (_ & G & _). intros l' s' T.
  exact (turns_ind going going_turn l' s s' (G P) T).
Qed.
(** When close() has returned, the server was stopped, the RPC thread has left its loop and the console is told to end; from then on no
    RPC command is taken any more, and one line of the console at most, whatever is done with the Simulator. *)
Definition pending (c : cthread) : nat := match c with CReading => 1 | _ => 0 end.
Lemma after_close s t s' : s_go s = false /\ s_rpc s = REnded -> turn_of s t = Some s' ->
  (s_go s' = false /\ s_rpc s' = REnded) /\ s_called s' = s_called s /\ (s_typed s' + pending (s_console s') <= s_typed s + pending (s_console s))%nat.
Proof.
  intros (A & B) T. destruct s as [p up go c n r q sh m b]. cbn in *. subst go r. destruct t; cbn in T; unfold caller in T; cbn in T; cases; try (injection T as <-); try discriminate T; subst; cbn; auto; repeat split; lia.
Qed.
Theorem C133_closed_partial : forall l s, life l s -> s_place s = Closed ->
  s_up s = false /\ s_go s = false /\ s_rpc s = REnded /\
  forall l' s', turns s l' = Some s' -> s_called s' = s_called s /\ (s_typed s' <= s_typed s + 1)%nat.
Proof.
  intros l s L P. pose proof (life_inv l s L) as (_ & B & C & D & _). rewrite P in *. specialize (B eq_refl). specialize (C eq_refl). specialize (D eq_refl). split; [exact D|]. split; [exact B|]. split; [exact C|].
  assert (K : forall l s s', s_go s = false /\ s_rpc s = REnded -> turns s l = Some s' -> s_called s' = s_called s /\ (s_typed s' + pending (s_console s') <= s_typed s + pending (s_console s))%nat).
  { clear. induction l as [|t l IH]; intros s s' I T; cbn in T; [injection T as <-; auto|]. destruct (turn_of s t) as [s1|] eqn:E; [|discriminate T].
    destruct (after_close s t s1 I E) as (I1 & E1 & E2). destruct (IH s1 s' I1 T) as (E3 & E4). split; [congruence|lia]. }
  intros l' s' T. destruct (K l' s s' (conj B C) T) as (K1 & K2). split; [exact K1|]. assert (pending (s_console s) <= 1)%nat by (destruct (s_console s); cbn; lia). lia.
Qed.
(** close() of a Simulator whose threads were started comes to its end: while it waits for the RPC thread, that thread has two turns left at
    most, and one of the two can always go on; nowhere else does close() wait. *)
Definition left_of (r : rthread) : nat := match r with RStarted | RHandling => 2 | RServing => 1 | _ => 0 end.
Lemma rpc_measure s t s' : s_rpc s <> RFresh -> (s_request s = true \/ s_rpc s = REnded) -> turn_of s t = Some s' ->
  s_rpc s' <> RFresh /\ (s_request s' = true \/ s_rpc s' = REnded) /\ (left_of (s_rpc s') + (if of_rpc t then 1 else 0) <= left_of (s_rpc s))%nat.
Proof.
  intros A B T. destruct s as [p up go c n r q sh m b]. cbn in *. destruct t; cbn in T; unfold caller in T; cbn in T; cases; try discriminate T; injection T as <-; subst; cbn in *; repeat split; auto; try congruence; try lia; destruct B; discriminate || auto.
Qed.
Theorem C133_ends : forall l s, life l s -> s_rpc s <> RFresh -> s_place s = InClose 2 -> forall l' s', turns s l' = Some s' ->
  (rpc_turns l' <= 2)%nat /\
  (forall n, s_place s' = InClose n -> (exists s2, turn_of s' (Returns (Ok tt)) = Some s2) \/ (n = 2%nat /\ exists s2, turn_of s' RpcTurn = Some s2)).
Proof.
  intros l s L F P l' s' T. pose proof (life_inv l s L) as (_ & _ & _ & _ & E & _).
  assert (R : s_request s = true \/ s_rpc s = REnded) by (destruct (s_rpc s) eqn:X; auto; left; apply E; auto; discriminate).
  assert (K : forall l s s', s_rpc s <> RFresh -> (s_request s = true \/ s_rpc s = REnded) -> turns s l = Some s' -> s_rpc s' <> RFresh /\ (left_of (s_rpc s') + rpc_turns l <= left_of (s_rpc s))%nat).
  { clear. induction l as [|t l IH]; intros s s' A B T; cbn in T; [injection T as <-; unfold rpc_turns; cbn; split; [exact A|lia]|]. destruct (turn_of s t) as [s1|] eqn:E; [|discriminate T].
    destruct (rpc_measure s t s1 A B E) as (A1 & B1 & M1). destruct (IH s1 s' A1 B1 T) as (A2 & M2). split; [exact A2|]. unfold rpc_turns in *. cbn [filter]. destruct (of_rpc t); cbn [length] in *; lia. }
  destruct (K l' s s' F R T) as (F' & M). split; [destruct (s_rpc s); cbn in M; lia|]. intros n Pn.
  assert (L' : life (l ++ l') s') by (destruct L as (s0 & N & T0); exists s0; split; [exact N|rewrite turns_app, T0; exact T]).
  pose proof (life_inv _ s' L') as (SH & _ & _ & _ & _). destruct n as [|[|[|[|n]]]]; cbn [turn_of]; unfold caller; rewrite Pn; try (left; eexists; reflexivity).
  - left. destruct (s_console (with_console s' false (s_console s') (s_typed s'))); eexists; reflexivity.
  - destruct (s_shut s') eqn:X; [left; eexists; reflexivity|]. right. split; [reflexivity|]. destruct (s_rpc s') eqn:Y; try (eexists; reflexivity); [congruence| |].
    + destruct (s_request s'); eexists; reflexivity.
    + destruct SH as [_ SH]. discriminate (SH eq_refl).
Qed.
(** Then nothing but the server's stop() makes close() raise. *)
Theorem C133_raises : forall s t s' n e, s_console s <> CFresh -> s_place s = InClose n -> turn_of s t = Some s' -> s_place s' = Raised e -> t = Returns (Err e) /\ (4 <= n)%nat.
Proof.
  intros s t s' n e C P T R. destruct s as [p up go c m r q sh k b]. cbn in *. subst p. destruct t; cbn in T; unfold caller in T; cbn in T; cases; try discriminate T; injection T as <-; cbn in R; try discriminate R; try (injection R as <-); try congruence; split; auto; lia.
Qed.
(** Refuted: (1) closing a Simulator that was not started raises; nothing after the console is closed. *)
Theorem C133_never_started_refuted : exists s, life [CallClose; Returns (Ok tt)] s /\ s_place s = Raised PyRuntimeError.
Proof. eexists. split; [eexists; split; [reflexivity|vm_compute; reflexivity]|reflexivity]. Qed.
(** The same when start() raised before the console thread was started: the server that was started keeps running. *)
Theorem C133_server_left_refuted : exists l s, life l s /\ s_place s = Raised PyRuntimeError /\ s_up s = true /\ l = [CallStart; Returns (Ok tt); Returns (Err PyRuntimeError); CallClose; Returns (Ok tt)].
Proof. eexists _, _. split; [|split; [|split; [|reflexivity]]]; [eexists; split; [reflexivity|vm_compute; reflexivity]|reflexivity|reflexivity]. Qed.
(** (2) When the RPC thread could not be started, close() waits for it for ever, and the server is never stopped. *)
Theorem C133_stuck_refuted : exists l s, life l s /\ s_place s = InClose 2 /\ s_up s = true /\ forall l' s', turns s l' = Some s' -> s_place s' = InClose 2 /\ s_up s' = true.
Proof.
  exists [CallStart; Returns (Ok tt); Returns (Ok tt); Returns (Err PyRuntimeError); CallClose; Returns (Ok tt); Returns (Ok tt)]. eexists. split; [eexists; split; [reflexivity|vm_compute; reflexivity]|]. split; [reflexivity|]. split; [reflexivity|].
  intros l' s' T. set (s := {| s_place := _ |}) in T. assert (I : s_place s = InClose 2 /\ s_rpc s = RFresh /\ s_shut s = false /\ s_up s = true) by (unfold s; auto). clearbody s.
  assert (K : s_place s' = InClose 2 /\ s_rpc s' = RFresh /\ s_shut s' = false /\ s_up s' = true); [|tauto]. revert I T. apply (turns_ind (fun s => s_place s = InClose 2 /\ s_rpc s = RFresh /\ s_shut s = false /\ s_up s = true)).
  clear. intros s t s' (A & B & C & D) T. destruct s as [p up go c n r q sh m b]. cbn in *. subst. destruct t; cbn in T; unfold caller in T; cbn in T; cases; try discriminate T; injection T as <-; cbn; auto.
Qed.
(** (3) A Simulator cannot be started again after close(): the second start() starts the server and raises. *)
Theorem C133_restart_refuted : forall l s, life l s -> s_place s = Closed -> forall r s', turns s [CallStart; Returns (Ok tt); Returns r] = Some s' -> s_place s' = Raised PyRuntimeError /\ s_up s' = true.
Proof.
  intros l s L P r s' T. pose proof (life_begun l s L) as (_ & _ & C & _). rewrite P in C. specialize (C eq_refl). destruct s as [p up go c n rr q sh m b]. cbn in *. subst p. destruct c; cbn in T; [congruence|..]; injection T as <-; auto.
Qed.
(** (4) close() does not give the RPC port back: as long as the Simulator is referenced, closed or not, no other can be made. *)
Theorem C133_port_refuted : forall l s, life l s -> new_simulator (s_bound s) = Err SocketTimeout.
Proof. intros l s L. pose proof (life_inv l s L) as (_ & _ & _ & _ & _ & _ & _ & B). now rewrite B. Qed.
(** ** A concrete case: a line and a command by RPC, quit, close() *)
Definition demo_life : list turn :=
  [CallStart; Returns (Ok tt); Returns (Ok tt); Returns (Ok tt); RpcTurn; ConsoleTurn; RpcCommand; ConsoleTurn; ConsoleTurn; ConsoleTurn; Returns (Ok tt); CallClose; Returns (Ok tt); Returns (Ok tt)].
Example C133_ex : (exists s, life demo_life s /\ s_rpc s = RHandling /\ s_place s = InClose 2 /\ turn_of s (Returns (Ok tt)) = None) /\
  (exists s, life (demo_life ++ [RpcTurn; RpcTurn; Returns (Ok tt); Returns (Ok tt); Returns (Ok tt)]) s /\ s_place s = Closed /\ s_called s = 1%nat /\ s_typed s = 1%nat /\
    exists s', turns s [ConsoleTurn; ConsoleDies] = Some s' /\ s_typed s' = 2%nat).
Proof.
  split; [eexists; split; [eexists; split; [reflexivity|vm_compute; reflexivity]|]; repeat split|]. eexists. split; [eexists; split; [reflexivity|vm_compute; reflexivity]|]. split; [reflexivity|]. split; [reflexivity|]. split; [reflexivity|].
  eexists. split; [vm_compute; reflexivity|reflexivity].
Qed.

Print Assumptions C133_started.
Print Assumptions C133_closed_partial.
Print Assumptions C133_ends.
Print Assumptions C133_raises.
Print Assumptions C133_never_started_refuted.
Print Assumptions C133_server_left_refuted.
Print Assumptions C133_stuck_refuted.
Print Assumptions C133_restart_refuted.
Print Assumptions C133_port_refuted.
