(** Property C53: opening and closing the link of a master.  Vocabulary: OpenModel.v. *)
From Verif Require Import Base OpenModel.

(* ------------------------------------------------------------------ C53, RtuMaster *)
(** The port was not closed behind the master's back, and no after_close hook raised. *)
Definition undisturbed (ops : list rtu_op) : Prop := forall op, In op ops -> op <> PortClosed /\ op <> RClose AfterCloseRaises.
Lemma rtu_inv ops : forall l, undisturbed ops -> (rl_opened l = true -> rl_port l = true) ->
  rl_opened (rtu_ops ops l) = true -> rl_port (rtu_ops ops l) = true.
Proof.
  induction ops as [|op ops IH]; intros l U H; [exact H|]. cbn. apply IH; [intros x Hx; apply U; now right|].
  destruct (U op (or_introl eq_refl)) as [U1 U2]. destruct l as [[|] [|]]; cbn in H; try (specialize (H eq_refl); discriminate H);
  destruct op as [[|]|[| |]|[|]| |]; cbn; auto; congruence.
Qed.
(** Then an execute writes its request whenever the port can be opened ... *)
Theorem C53_rtu_execute_partial : forall port_open ops,
  undisturbed ops -> snd (rtu_execute OpensOk (rtu_ops ops (new_rtu port_open))) = Ok tt.
Proof.
  intros port_open ops U. pose proof (rtu_inv ops (new_rtu port_open) U ltac:(discriminate)) as H.
  destruct (rtu_ops ops (new_rtu port_open)) as [[|] [|]]; cbn in *; auto. specialize (H eq_refl). discriminate H.
Qed.
(** ... an execute that has written its request leaves the master open, and a close() that returns then leaves
    the port closed. *)
Theorem C53_rtu_close_partial : forall port_open ops o c l l',
  undisturbed ops ->
  rtu_execute o (rtu_ops ops (new_rtu port_open)) = (l, Ok tt) ->
  rtu_close c l = (l', Ok tt) ->
  rl_port l' = false /\ snd (rtu_execute OpensOk l') = Ok tt.
Proof.
  intros port_open ops o c l l' U. pose proof (rtu_inv ops (new_rtu port_open) U ltac:(discriminate)) as H.
  destruct (rtu_ops ops (new_rtu port_open)) as [[|] [|]]; cbn in H; try (specialize (H eq_refl); discriminate H);
    destruct o; cbn; intros E; try discriminate E; injection E as <-; destruct c; cbn; intros E; try discriminate E; injection E as <-; auto.
Qed.
Example C53_rtu_ex : undisturbed [RExecute OpensOk; RClose ClosesOk; ROpen OpenRaises; RExecute OpensOk; RClose PortCloseRaises] /\
  rl_opened (rtu_ops [RExecute OpensOk; RClose ClosesOk; ROpen OpenRaises; RExecute OpensOk; RClose PortCloseRaises] (new_rtu false)) = true.
Proof. split; [|reflexivity]. intros op H. repeat (destruct H as [<-|H]; [split; discriminate|]). destruct H. Qed.
(** When the port of an open master has been closed by somebody else, no later execute works, whatever calls are made:
    close() leaves self._is_opened set, so that open() does nothing. *)
Theorem C53_rtu_refuted : forall port_open ops later o,
  rl_opened (rtu_ops ops (new_rtu port_open)) = true ->
  ~ In PortOpened later ->
  snd (rtu_execute o (rtu_ops later (fst (rtu_op_step (rtu_ops ops (new_rtu port_open)) PortClosed)))) = Err GenericException.
Proof.
  intros port_open ops later o H N. destruct (rtu_ops ops (new_rtu port_open)) as [op p]. cbn in H. subst op. cbn.
  assert (K : rtu_ops later {| rl_opened := true; rl_port := false |} = {| rl_opened := true; rl_port := false |}).
  { induction later as [|x later IH]; [reflexivity|]. cbn. destruct x as [| | | |]; cbn; try (apply IH; intros X; apply N; now right).
    exfalso. apply N. now left. }
  now rewrite K.
Qed.
(** The same when an after_close hook has raised. *)
Theorem C53_rtu_hook_refuted : forall port_open ops later o l e,
  rtu_close AfterCloseRaises (rtu_ops ops (new_rtu port_open)) = (l, Err e) ->
  ~ In PortOpened later ->
  snd (rtu_execute o (rtu_ops later l)) = Err GenericException.
Proof.
  intros port_open ops later o l e H N. destruct (rtu_ops ops (new_rtu port_open)) as [[|] [|]]; cbn in H; try discriminate H. injection H as <- <-.
  assert (K : rtu_ops later {| rl_opened := true; rl_port := false |} = {| rl_opened := true; rl_port := false |}).
  { induction later as [|x later IH]; [reflexivity|]. cbn. destruct x as [| | | |]; cbn; try (apply IH; intros X; apply N; now right).
    exfalso. apply N. now left. }
  now rewrite K.
Qed.
Example C53_rtu_hook_ex : exists l, rtu_close AfterCloseRaises (rtu_ops [RExecute OpensOk] (new_rtu true)) = (l, Err GenericException) /\ ~ In PortOpened [RClose ClosesOk; ROpen OpensOk].
Proof. eexists. split; [reflexivity|]. intros [H|[H|[]]]; discriminate H. Qed.
(** close() of a master that was given an open port and has not been used leaves the port open. *)
Theorem C53_rtu_unused_refuted : rtu_close ClosesOk (new_rtu true) = (new_rtu true, Ok tt).
Proof. reflexivity. Qed.

(* ------------------------------------------------------------------ C53, TcpMaster *)
(** Whatever has happened, peers gone, hooks and connects that raised included: an execute writes its request to a live
    connection as soon as connecting works. *)
Theorem C53_tcp_execute : forall ops,
  exists l, tcp_execute Connects Connects (tcp_ops ops new_tcp) = (l, Ok tt) /\ tl_sock l = Connected.
Proof. intros ops. destruct (tcp_ops ops new_tcp) as [[|] [| |]]; cbn; eexists; split; reflexivity. Qed.
(** After a close() that returned no connection is left, if no after_connect hook has raised. *)
Theorem C53_tcp_close_partial : forall ops c l,
  (forall op, In op ops -> op <> TOpen AfterConnectRaises /\ forall o2, op <> TExecute AfterConnectRaises o2) ->
  tcp_close c (tcp_ops ops new_tcp) = (l, Ok tt) -> tl_sock l <> Connected /\ snd (tcp_execute Connects Connects l) = Ok tt.
Proof.
  intros ops c l U.
  assert (Inv : tl_opened (tcp_ops ops new_tcp) = false -> tl_sock (tcp_ops ops new_tcp) <> Connected).
  { assert (G : forall l, (tl_opened l = false -> tl_sock l <> Connected) -> tl_opened (tcp_ops ops l) = false -> tl_sock (tcp_ops ops l) <> Connected).
    { clear -U. induction ops as [|op ops IH]; intros l H; [exact H|]. cbn. apply IH; [intros x Hx; apply U; now right|].
      destruct (U op (or_introl eq_refl)) as [U1 U2].
      destruct l as [[|] [| |]]; cbn in H; try (exfalso; apply H; reflexivity);
      destruct op as [[| | |]|[| |]|[| | |] [| | |]|]; cbn; try discriminate; try congruence; intros _; specialize (U2 Connects); try congruence;
      destruct (U op) ; congruence. }
    apply G. discriminate. }
  destruct (tcp_ops ops new_tcp) as [[|] [| |]]; cbn in *; destruct c; cbn; intros E; try discriminate E; injection E as <-; cbn; (split; [|reflexivity]); try discriminate; try (apply Inv; reflexivity).
Qed.
Example C53_tcp_close_ex : exists l,
  (forall op, In op [TExecute ConnectRaises Connects; TExecute Connects Connects; PeerGone; TExecute Connects ConnectRaises] ->
     op <> TOpen AfterConnectRaises /\ forall o2, op <> TExecute AfterConnectRaises o2) /\
  tcp_close Disconnects (tcp_ops [TExecute ConnectRaises Connects; TExecute Connects Connects; PeerGone; TExecute Connects ConnectRaises] new_tcp) = (l, Ok tt) /\
  tl_opened (tcp_ops [TExecute ConnectRaises Connects; TExecute Connects Connects; PeerGone; TExecute Connects ConnectRaises] new_tcp) = true.
Proof.
  eexists. split; [|split; reflexivity]. intros op H. repeat (destruct H as [<-|H]; [split; [discriminate|intros o2; discriminate]|]). destruct H.
Qed.
(** With a raising after_connect hook: the connection is there, the master thinks it is not open, and close() does nothing. *)
Theorem C53_tcp_hook_refuted : exists ops l,
  tcp_close Disconnects (tcp_ops ops new_tcp) = (l, Ok tt) /\ tl_sock l = Connected.
Proof. exists [TOpen AfterConnectRaises]. eexists. split; reflexivity. Qed.

(** open() that returns on a master that is not open leaves it open on a live connection; on one that is open it does nothing. *)
Theorem C53_tcp_opened : forall ops o l,
  tcp_open o (tcp_ops ops new_tcp) = (l, Ok tt) ->
  (tl_opened (tcp_ops ops new_tcp) = false -> tl_opened l = true /\ tl_sock l = Connected) /\
  (tl_opened (tcp_ops ops new_tcp) = true -> l = tcp_ops ops new_tcp).
Proof.
  intros ops o l. destruct (tcp_ops ops new_tcp) as [[|] k]; cbn; intros E.
  - injection E as <-. split; [discriminate|reflexivity].
  - destruct o; cbn in E; try discriminate E; injection E as <-. cbn. split; [auto|discriminate].
Qed.
(** After a close() that returned the master is not open, whatever has happened: the next open() connects again. *)
Theorem C53_tcp_closed : forall ops c l,
  tcp_close c (tcp_ops ops new_tcp) = (l, Ok tt) ->
  tl_opened l = false /\ tcp_open Connects l = ({| tl_opened := true; tl_sock := Connected |}, Ok tt).
Proof.
  intros ops c l.
  assert (G : forall l, (tl_opened l = true -> tl_sock l <> NoSock) -> tl_opened (tcp_ops ops l) = true -> tl_sock (tcp_ops ops l) <> NoSock).
  { clear. induction ops as [|op ops IH]; intros l H; [exact H|]. cbn. apply IH. clear IH.
    destruct l as [[|] k]; cbn in H; destruct op as [o|c|o1 o2|]; cbn; try exact H.
    all: destruct k; try (exfalso; apply (H eq_refl); reflexivity); try (destruct c); try (destruct o); try (destruct o1); try (destruct o2); cbn;
      try exact H; try discriminate; intros _; discriminate. }
  specialize (G new_tcp ltac:(discriminate)). destruct (tcp_ops ops new_tcp) as [[|] k]; cbn in *.
  - specialize (G eq_refl). destruct k; [contradiction|destruct c; cbn; intros E; try discriminate E; injection E as <-; auto..].
  - intros E. injection E as <-. auto.
Qed.
Example C53_tcp_closed_applies : exists l, tcp_close Disconnects (tcp_ops [TOpen Connects; PeerGone; TExecute Connects ConnectRaises] new_tcp) = (l, Ok tt) /\ l = new_tcp.
Proof. eexists. split; reflexivity. Qed.

(** An execute on an open master whose connection is lost connects again, and once only: it writes its request exactly if that one attempt works; the master stays open. *)
Theorem C53_tcp_second_chance : forall ops o1 o2 l,
  tl_opened (tcp_ops ops new_tcp) = true -> tl_sock (tcp_ops ops new_tcp) <> Connected ->
  tcp_ops (ops ++ [TExecute o1 o2]) new_tcp = l ->
  tl_opened l = true /\ (tl_sock l = Connected <-> o2 = Connects \/ o2 = AfterConnectRaises) /\
  (snd (tcp_op_step (tcp_ops ops new_tcp) (TExecute o1 o2)) = Ok tt <-> o2 = Connects).
Proof.
  intros ops o1 o2 l. unfold tcp_ops at 3. rewrite fold_left_app. change (fold_left (fun l op => fst (tcp_op_step l op)) ops new_tcp) with (tcp_ops ops new_tcp).
  destruct (tcp_ops ops new_tcp) as [[|] k]; cbn; [|discriminate]. intros _ N <-.
  destruct k; try (exfalso; now apply N); destruct o2; cbn; repeat split; auto; try discriminate; intros [E|E]; discriminate E.
Qed.
Example C53_tcp_second_chance_applies : let l := tcp_ops [TOpen Connects; PeerGone] new_tcp in tl_opened l = true /\ tl_sock l <> Connected.
Proof. split; [reflexivity|discriminate]. Qed.
(** A close() that raises: raised before the connection is closed, it changes nothing; raised after it, the connection is closed. In both cases the
    master goes on counting as open. *)
Theorem C53_tcp_close_raises : forall ops c l e,
  tcp_close c (tcp_ops ops new_tcp) = (l, Err e) ->
  tl_opened l = true /\ (c = BeforeCloseRaises /\ l = tcp_ops ops new_tcp \/ c = AfterTcpCloseRaises /\ tl_sock l = Useless).
Proof.
  intros ops c l e. destruct (tcp_ops ops new_tcp) as [[|] k]; cbn; [|discriminate]. destruct k, c; cbn; intros E; try discriminate E; injection E as <- <-; auto.
Qed.
Example C53_tcp_close_raises_applies : exists l e, tcp_close AfterTcpCloseRaises (tcp_ops [TOpen Connects] new_tcp) = (l, Err e).
Proof. do 2 eexists. reflexivity. Qed.

Print Assumptions C53_rtu_execute_partial.
Print Assumptions C53_rtu_close_partial.
Print Assumptions C53_rtu_refuted.
Print Assumptions C53_rtu_hook_refuted.
Print Assumptions C53_rtu_unused_refuted.
Print Assumptions C53_tcp_execute.
Print Assumptions C53_tcp_close_partial.
Print Assumptions C53_tcp_hook_refuted.
Print Assumptions C53_tcp_opened.
Print Assumptions C53_tcp_closed.
Print Assumptions C53_tcp_second_chance.
Print Assumptions C53_tcp_close_raises.
