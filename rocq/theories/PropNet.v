(** C85: masters, each with its own connection, calling one TCP server. *)
From Verif Require Import Base BaseFacts Spec SlaveModel UtilsModel QueryModel DatabankModel MasterModel MasterSpec DbSpec PropDatabank TransportModel TransportSpec LinkSpec PropTransport
  NetModel NetSpec NetProofs.
Open Scope string_scope. Open Scope list_scope. Open Scope Z_scope.

(* ------------------------------------------------------------------ C85 *)
(** Whatever the masters call, in whatever order requests, turns of the server, answers and direct operations of the application
    follow each other, and however frames are cut: there is an order of the calls and operations, each alone from beginning to end,
    that gives every master the results it got and the server the databank it has.  The order only grows as time goes on: a call that
    has returned is in it before a call that has not begun. *)
Theorem C85_one_by_one : forall d0 programs past future, byte_strings programs -> fair_cuts (past ++ future) ->
  exists h h', explains d0 programs past (net_run (network_of d0 programs) past) h /\
               explains d0 programs (past ++ future) (net_run (network_of d0 programs) (past ++ future)) (h ++ h').
Proof.
  intros d0 programs past future RB F. unfold fair_cuts in F. rewrite Forall_app in F. destruct F as [F1 F2].
  destruct (net_run_inv d0 programs past _ [] RB F1 (net_start_inv d0 programs)) as (h & V & D). cbn [app] in V.
  destruct (net_run_inv d0 programs future _ h RB F2 V) as (h' & V' & D'). exists h, h'. split; [now apply inv_explains|].
  rewrite net_run_app. apply inv_explains; [exact V'|]. rewrite direct_ops_app, direct_actions_app. congruence.
Qed.
(** A call that returned belongs to the part of the order that is already there; a call that had not begun comes after it. *)
Theorem C85_no_reordering : forall d0 programs past future, byte_strings programs -> fair_cuts (past ++ future) ->
  exists h h', explains d0 programs (past ++ future) (net_run (network_of d0 programs) (past ++ future)) (h ++ h') /\
    forall i program k, nth_error programs i = Some program -> nth_error (net_peers (net_run (network_of d0 programs) past)) i = Some k ->
      (length (k_done k) <= length (calls_by i h) <= length program - length (k_todo k))%nat.
Proof.
  intros d0 programs past future RB F. destruct (C85_one_by_one d0 programs past future RB F) as (h & h' & E & E'). exists h, h'. split; [exact E'|].
  intros i program k Np N.
  destruct E as (_ & _ & _ & _ & E). destruct (E _ _ _ Np N) as (ret & Hp & L & H). apply (f_equal (@length _)) in Hp. rewrite !app_length in Hp.
  destruct H as [[-> _]|(u & c & r & P & -> & _)]; [destruct (k_phase k); cbn [length] in *; lia|].
  rewrite app_length. cbn [length]. destruct P as [P|P]; rewrite P in Hp; cbn [length] in Hp; lia.
Qed.

(** No call is lost or waits for ever because of the others: a master that is given as many rounds (write, be served, read - with
    anything happening in between) as its program has calls has finished it, with one result per call. *)
Inductive rounds (i : nat) : nat -> list action -> Prop :=
| no_round s : rounds i 0 s
| one_more n s1 s2 s3 s4 cut cut' t : rounds i n t ->
    rounds i (S n) ((s1 ++ Send i cut :: s2 ++ Serve i cut' :: s3 ++ Receive i :: s4) ++ t).
Theorem C85_returns : forall d0 programs past future i program k, byte_strings programs -> fair_cuts (past ++ future) ->
  nth_error programs i = Some program -> rounds i (length program) future ->
  nth_error (net_peers (net_run (network_of d0 programs) (past ++ future))) i = Some k ->
  k_phase k = Idle /\ k_todo k = [] /\ length (k_done k) = length program.
Proof.
  intros d0 programs past future i program k RB F Np RD N.
  assert (G : forall n future, rounds i n future -> fair_cuts future -> forall w h, net_inv d0 programs w h -> (rank_at w i <= 3 * n)%nat -> rank_at (net_run w future) i = 0%nat).
  { clear - RB. intros n future R. induction R as [s|n s1 s2 s3 s4 cut cut' t R IH]; intros F w h V K.
    - pose proof (rank_run s w i). lia.
    - unfold fair_cuts in F. rewrite Forall_app in F. destruct F as [F1 F2]. rewrite net_run_app.
      destruct (net_run_inv _ _ _ w h RB F1 V) as (h1 & V1 & _). eapply IH; [exact F2|exact V1|]. eapply round_step; eauto. }
  unfold fair_cuts in F. rewrite Forall_app in F. destruct F as [F1 F2].
  destruct (net_run_inv d0 programs past _ [] RB F1 (net_start_inv d0 programs)) as (h & V & _). cbn [app] in V.
  destruct (net_run_inv d0 programs future _ h RB F2 V) as (h' & V' & _). rewrite net_run_app in N.
  assert (R0 : (rank_at (net_run (network_of d0 programs) past) i <= 3 * length program)%nat).
  { etransitivity; [apply rank_run|]. unfold rank_at. cbn [network_of net_peers]. rewrite nth_error_map, Np. cbn. lia. }
  pose proof (G _ _ RD F2 _ _ V R0) as Z0. unfold rank_at in Z0. rewrite N in Z0. unfold rank in Z0.
  destruct V' as (lasts & _ & _ & _ & P). destruct (P _ _ _ Np N) as (_ & ret & L & H).
  destruct (k_phase k); try lia. destruct H as (Hp & _). destruct (k_todo k); [|cbn [length] in Z0; lia]. rewrite app_nil_r in Hp. subst ret. auto.
Qed.
(** Two masters and the application on the demo databank, frames cut differently, turns interleaved. *)
Definition by_two (l : list Z) : list (list Z) := match l with a :: b :: c :: t => [[a; b]; c :: t] | [] => [] | _ => [l] end.
Definition demo_programs : list (list (Z * call)) :=
  [[(9, WriteReg 100 7); (9, ReadRegs true 100 2)]; [(9, WriteRegs 100 [5; 6]); (77, ReadRegs true 0 1); (9, WriteReg 1 99999)]].
Definition demo_schedule : list action :=
  [Send 0 by_two; Send 1 in_one_piece; Serve 1 by_two; Serve 0 in_one_piece; Direct (DbCall 9 (OpSetValues "r" 101 (SvSeq [8]))); Receive 1; Send 1 by_two; Receive 0;
   Send 0 by_two; Serve 1 by_two; Serve 0 by_two; Receive 0; Receive 1; Send 1 by_two].
Example C85_ex :
  map k_done (net_peers (net_run (network_of demo_db demo_programs) demo_schedule)) =
  [[Some (Ok (RTuple [100; 7])); Some (Ok (RTuple [7; 8]))];
   [Some (Ok (RTuple [100; 2])); Some (Err SocketTimeout); Some (Err StructError)]] /\
  byte_strings demo_programs /\ fair_cuts demo_schedule.
Proof.
  assert (C : cutting by_two) by (intros [|a [|b [|c t]]]; (split; [cbn; rewrite ?app_nil_r; reflexivity|]); repeat constructor; discriminate).
  pose proof one_piece_cutting as C'. split; [vm_compute; reflexivity|]. split; [|repeat (constructor; [assumption || exact Logic.I|]); constructor]. intros program u pdu I J. cbn in I. intuition (subst; cbn in J; intuition discriminate).
Qed.

Print Assumptions C85_one_by_one.
Print Assumptions C85_no_reordering.
Print Assumptions C85_returns.
