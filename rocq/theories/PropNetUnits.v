(** C127: masters on the network get the results they would get alone while units of the server that they do not use are added,
    removed and reconfigured. *)
From Verif Require Import Base BaseFacts Spec PyStruct StructFacts StructMore Defines SlaveModel SlaveSpec SlaveInv UtilsModel QueryModel DatabankModel MasterModel MasterSpec MasterProofs FrameSpec QueryProofs DbSpec DatabankProofs PropDatabank
  TransportModel TransportSpec TransportProofs LinkSpec PropTransport SessionModel PropSession NetModel NetSpec NetProofs PropNet.
From Verif Require Import PropApart PropServerApart PropNetApart PropUnits.
From Coq Require Import Lia.
Open Scope string_scope. Open Scope list_scope. Open Scope Z_scope.

(** ** Specification *)
(** The units something the application does with the server is about (a frame handed to handle_request: the unit in it, 0 = all). *)
Definition op_about (o : db_op) (u : Z) : Prop :=
  match o with
  | DbAdd v _ _ | DbRemove v | DbCall v _ => u = v
  | DbRemoveAll => True
  | DbRequest p request => about (Frame p request) u
  end.

(** ** Proofs *)
Lemma sent_unit last u c ex w n : 0 <= last <= 65535 -> is_raw_ok c -> ex_sent (execute TCP last (args_of u c) ex) = Some (w, n) ->
  forall v, about (Frame TCP w) v -> u = 0 \/ v = u.
Proof.
  intros T R S v (hdr & k & q & Q & Kv). destruct (execute_sent last _ ex _ w n ltac:(lia) eq_refl S) as (b & EB & _ & U & L & _ & -> & _).
  assert (E : encodable c).
  { destruct (encodable_decide c) as [E|E]; [exact E|]. destruct c; try (destruct (build_err u _ E ltac:(discriminate)) as [e X]; congruence). cbn. now apply R. }
  destruct (build_call u c E) as (pdu & P & B & X). rewrite X in EB. injection EB as <-. change (bl_pdu (built_as c pdu)) with pdu in *.
  assert (Ea : ea_slave (args_of u c) = u) by (now destruct c). rewrite Ea in *.
  change TCP with (proto_of (Some (next_transaction_id last, 0))) in Q.
  change (tcp_frame (next_transaction_id last) 0 u pdu) with (on_wire (Some (next_transaction_id last, 0)) u pdu) in Q.
  rewrite parse_on_wire in Q; [|exact U|]. 2:{ split; [exact B|]. rewrite next_tid by lia. lia. }
  injection Q as _ <- <-. intuition.
Qed.
Lemma served_as d w : served_request d TCP w = (fst (sact_step d (Frame TCP w)), snd (served_request d TCP w)).
Proof. cbn [sact_step]. unfold served_request. now destruct (db_handle_request d TCP w). Qed.
Lemma served_same m d d2 w : alike m d d2 -> (forall v, about (Frame TCP w) v -> m v = true) ->
  alike m (fst (served_request d TCP w)) (fst (served_request d2 TCP w)) /\ snd (served_request d TCP w) = snd (served_request d2 TCP w).
Proof.
  intros A M. destruct (step_mine m d d2 (Frame TCP w) A M) as (A1 & A2). rewrite (served_as d w), (served_as d2 w). cbn [fst snd]. split; [exact A1|].
  cbn [sact_step] in A2. unfold served_request. destruct (db_handle_request d TCP w), (db_handle_request d2 TCP w). cbn [fst snd] in *. now injection A2 as ->.
Qed.
Lemma call_mine m last u c d d2 : 0 <= last <= 65535 -> is_raw_ok c -> alike m d d2 -> (forall v, u = 0 \/ v = u -> m v = true) ->
  alike m (fst (over_tcp in_one_piece in_one_piece last d u c)) (fst (over_tcp in_one_piece in_one_piece last d2 u c)) /\
  snd (over_tcp in_one_piece in_one_piece last d u c) = snd (over_tcp in_one_piece in_one_piece last d2 u c).
Proof.
  intros T R A M. destruct (call_cases last u c T R) as [(e & E)|(w & n & Sx & E)].
  - rewrite (proj1 (E d)), (proj1 (E d2)). auto.
  - assert (Mw : forall v, about (Frame TCP w) v -> m v = true) by (intros v V; apply M, (sent_unit last u c (fun _ _ => Err SocketTimeout) w n T R (Sx _) v V)).
    destruct (served_same m d d2 w A Mw) as (B1 & B2). rewrite !(call_as last _ u c w n T R Sx). cbn [fst snd]. split; [exact B1|]. now rewrite B2.
Qed.
Lemma call_other m last u c d : 0 <= last <= 65535 -> is_raw_ok c -> (forall v, u = 0 \/ v = u -> m v = false) ->
  alike m (fst (over_tcp in_one_piece in_one_piece last d u c)) d.
Proof.
  intros T R M. destruct (call_cases last u c T R) as [(e & E)|(w & n & Sx & E)].
  - rewrite (proj1 (E d)). apply alike_refl.
  - rewrite (call_as last _ u c w n T R Sx), served_as. cbn [fst]. apply step_other. intros v V. apply M, (sent_unit last u c (fun _ _ => Err SocketTimeout) w n T R (Sx _) v V).
Qed.
Lemma call_last last u c d : 0 <= last <= 65535 -> is_raw_ok c -> 0 <= ex_last (snd (over_tcp in_one_piece in_one_piece last d u c)) <= 65535.
Proof.
  intros T R. destruct (call_cases last u c T R) as [(e & E)|(w & n & Sx & E)]; [destruct (E d) as (-> & L); exact L|]. rewrite E. cbn [snd]. now apply last_range.
Qed.
Lemma did_other m d o : (forall v, op_about o v -> m v = false) -> alike m (db_step d o) d.
Proof.
  intros M. assert (exists x, db_step d o = fst (sact_step d x) /\ forall v, about x v -> op_about o v) as (x & -> & X).
  { destruct o as [u b mem|u| |p r|u o]; cbn [db_step op_about].
    - exists (AddSlave u b mem). split; [cbn [sact_step]; now destruct (add_slave d u b mem)|auto].
    - exists (RemoveSlave u). split; [cbn [sact_step]; now destruct (remove_slave d u)|auto].
    - exists RemoveAllSlaves. auto.
    - exists (Frame p r). split; [cbn [sact_step]; now destruct (db_handle_request d p r)|auto].
    - exists (OnSlave u o). split; [cbn [sact_step]; destruct (get_slave d u) as [s|]; [now destruct (slave_step s o)|reflexivity]|auto]. }
  apply step_other. auto.
Qed.
Lemma alike_trans m a b c : alike m a b -> alike m b c -> alike m a c.
Proof. intros (A & B) (A' & B'). split; congruence. Qed.
Lemma alike_sym m a b : alike m a b -> alike m b a.
Proof. intros (A & B). split; congruence. Qed.

Definition seen (d : databank) (m : Z -> bool) (last : Z) (results : list (option (res exec_result))) (x : databank * Z * list (option (res exec_result))) : Prop :=
  let '(da, la, ra) := x in la = last /\ ra = results /\ alike m d da.
Lemma one_by_one_units d0 (units : nat -> Z -> bool) app :
  (forall i j v, i <> j -> units i v = true -> units j v = false) -> (forall i v, app v = true -> units i v = false) ->
  forall h d lasts, one_by_one d0 h d lasts -> (forall i u c r, In (Called i u c r) h -> is_raw_ok c /\ forall v, u = 0 \/ v = u -> units i v = true) ->
  (forall o, In (Did o) h -> forall v, op_about o v -> app v = true) ->
  (forall i, 0 <= lasts i <= 65535) /\ forall i, seen d (units i) (lasts i) (results_of i h) (alone d0 (calls_by i h)).
Proof.
  intros Ap Aa h d lasts O. induction O as [lasts L|h d lasts i u c d' e lasts' O IH E Li Lo|h d lasts o O IH]; intros Hc Hd.
  - split; [intros i; rewrite L; lia|]. intros i. cbn [results_of calls_by]. unfold alone, seen. cbn [fold_left]. split; [symmetry; apply L|]. split; [reflexivity|apply alike_refl].
  - destruct IH as (Lr & H); [intros j v b r In0; apply (Hc j v b r), in_or_app; now left|intros o In0; apply Hd, in_or_app; now left|].
    destruct (Hc i u c (ex_result e)) as (R & K); [apply in_or_app; right; now left|].
    pose proof (call_last (lasts i) u c d (Lr i) R) as S2. rewrite E in S2. cbn [snd] in S2.
    split; [intros j; destruct (Nat.eq_dec j i) as [-> | N]; [now rewrite Li|now rewrite Lo]|].
    intros j. rewrite results_of_app, calls_by_app. cbn [results_of calls_by]. specialize (H j). unfold seen in *. destruct (Nat.eqb j i) eqn:Q.
    + apply Nat.eqb_eq in Q. subst j. rewrite alone_snoc. destruct (alone d0 (calls_by i h)) as [[da la] ra]. destruct H as (H2 & H3 & H4). subst la ra. unfold alone_step. cbn [fst snd].
      destruct (call_mine (units i) (lasts i) u c d da (Lr i) R H4 K) as (A & B). rewrite E in A, B. cbn [fst snd] in *.
      destruct (over_tcp in_one_piece in_one_piece (lasts i) da u c) as [da' ea]. cbn [fst snd] in *. subst ea. split; [auto|]. split; [reflexivity|exact A].
    + apply Nat.eqb_neq in Q. rewrite !app_nil_r. destruct (alone d0 (calls_by j h)) as [[da la] ra]. destruct H as (H2 & H3 & H4). split; [now rewrite Lo|]. split; [exact H3|].
      pose proof (call_other (units j) (lasts i) u c d (Lr i) R) as S4. rewrite E in S4. cbn [fst] in S4. eapply alike_trans; [apply S4|exact H4].
      intros v V. apply (Ap i); auto.
  - destruct IH as (Lr & H); [intros j v b r In0; apply (Hc j v b r), in_or_app; now left|intros o' In0; apply Hd, in_or_app; now left|].
    split; [exact Lr|]. intros j. rewrite results_of_app, calls_by_app. cbn [results_of calls_by]. rewrite !app_nil_r. specialize (H j). unfold seen in *. destruct (alone d0 (calls_by j h)) as [[da la] ra].
    destruct H as (H2 & H3 & H4). split; [exact H2|]. split; [exact H3|]. eapply alike_trans; [apply did_other|exact H4]. intros v V. apply Aa. apply (Hd o); [apply in_or_app; right; now left|exact V].
Qed.

(** ** The property *)
(** Masters with their own connections call one TCP server, each its own units, while the application adds, removes and reconfigures
    other units. Whatever the schedule and however the network cuts the frames: the results a master has got so far are the first
    results it would have got if it had been alone. *)
Theorem C127_alone : forall d0 programs schedule (units : nat -> Z -> bool) (app : Z -> bool), byte_strings programs -> fair_cuts schedule ->
  (forall i program u c, nth_error programs i = Some program -> In (u, c) program -> forall v, u = 0 \/ v = u -> units i v = true) ->
  (forall o, In (Direct o) schedule -> forall v, op_about o v -> app v = true) ->
  (forall i j v, i <> j -> units i v = true -> units j v = false) -> (forall i v, app v = true -> units i v = false) ->
  forall i program k, nth_error programs i = Some program -> nth_error (net_peers (net_run (network_of d0 programs) schedule)) i = Some k ->
  exists later, results_alone d0 program = k_done k ++ later.
Proof.
  intros d0 programs schedule units app B F Kp Ka Ap Aa i program k Np N.
  assert (F' : fair_cuts (schedule ++ [])) by (now rewrite app_nil_r). destruct (C85_one_by_one d0 programs schedule [] B F') as (h & _ & X & _).
  destruct X as ((lasts & O) & Dd & Len & Lt & X).
  assert (P : forall j p kj, nth_error programs j = Some p -> nth_error (net_peers (net_run (network_of d0 programs) schedule)) j = Some kj -> exists rest, p = calls_by j h ++ rest).
  { intros j p kj Nj Nk. destruct (X j p kj Nj Nk) as (ret & Hp & _ & [[C _]|(u & c & r & Ph & C & _)]).
    - rewrite C. eexists. exact Hp.
    - exists (k_todo kj). rewrite C, Hp, <- app_assoc. now destruct Ph as [-> | ->]. }
  assert (Q : forall j u c r, In (Called j u c r) h -> is_raw_ok c /\ forall v, u = 0 \/ v = u -> units j v = true).
  { intros j u c r In0. pose proof (Lt _ _ _ _ In0) as Lj. destruct (nth_error programs j) as [p|] eqn:Nj; [|apply nth_error_None in Nj; lia].
    destruct (nth_error (net_peers (net_run (network_of d0 programs) schedule)) j) as [kj|] eqn:Nk; [|apply nth_error_None in Nk; lia].
    destruct (P j p kj Nj Nk) as (rest & E). assert (Iu : In (u, c) p) by (rewrite E; apply in_or_app; left; eapply called_in; eauto).
    split; [|exact (Kp j p u c Nj Iu)]. intros pdu ->. apply (B p u pdu); [now apply nth_error_In with j|exact Iu]. }
  destruct (one_by_one_units d0 units app Ap Aa h _ lasts O Q) as (_ & H).
  { intros o In0. apply Ka, direct_in. rewrite <- Dd. now apply did_in. }
  specialize (H i). unfold seen in H. destruct (P i program k Np N) as (rest & E). destruct (alone_prefix d0 (calls_by i h) rest) as (more & M). rewrite E, M.
  assert (R : results_alone d0 (calls_by i h) = results_of i h) by (unfold results_alone; destruct (alone d0 (calls_by i h)) as [[da la] ra]; apply H). rewrite R.
  destruct (X i program k Np N) as (ret & _ & _ & [[_ C]|(u & c & r & _ & _ & C)]); rewrite C; [now exists more|]. exists (r :: more). now rewrite <- app_assoc.
Qed.
(** A master that is given enough rounds gets all of them. *)
Theorem C127_all : forall d0 programs past future (units : nat -> Z -> bool) (app : Z -> bool), byte_strings programs -> fair_cuts (past ++ future) ->
  (forall i program u c, nth_error programs i = Some program -> In (u, c) program -> forall v, u = 0 \/ v = u -> units i v = true) ->
  (forall o, In (Direct o) (past ++ future) -> forall v, op_about o v -> app v = true) ->
  (forall i j v, i <> j -> units i v = true -> units j v = false) -> (forall i v, app v = true -> units i v = false) ->
  forall i program k, nth_error programs i = Some program -> rounds i (length program) future ->
  nth_error (net_peers (net_run (network_of d0 programs) (past ++ future))) i = Some k -> k_done k = results_alone d0 program.
Proof.
  intros d0 programs past future units app B F Kp Ka Ap Aa i program k Np Rd N.
  destruct (C127_alone d0 programs (past ++ future) units app B F Kp Ka Ap Aa i program k Np N) as (later & E).
  destruct (C85_returns d0 programs past future i program k B F Np Rd N) as (_ & _ & L).
  rewrite E. pose proof (alone_length d0 program) as A. rewrite E, app_length in A. destruct later; [now rewrite app_nil_r|cbn in A; lia].
Qed.

(** ** A concrete case: master 0 uses unit 9, master 1 unit 3; the application removes unit 12, adds unit 20 and gives it registers, and
    answers a frame for it itself. *)
Definition unit_programs : list (list (Z * call)) :=
  [[(9, WriteReg 100 7); (9, ReadRegs true 100 2)]; [(3, WriteRegs 105 [5; 6]); (3, ReadRegs true 105 1)]].
Definition unit_schedule : list action :=
  [Send 0 by_two; Direct (DbRemove 12); Send 1 in_one_piece; Direct (DbAdd 20 true None); Serve 1 by_two; Serve 0 in_one_piece; Direct (DbCall 20 (OpAddBlock "x" 3 0 10));
   Receive 1; Send 1 by_two; Receive 0; Direct (DbRequest TCP (read_frame 20 0 1)); Send 0 by_two; Serve 1 by_two; Direct (DbCall 20 OpRemoveAll); Serve 0 by_two; Receive 0; Receive 1].
Definition units_of (i : nat) (u : Z) : bool := match i with 0%nat => u =? 9 | 1%nat => u =? 3 | _ => false end.
Example C127_ex : byte_strings unit_programs /\ fair_cuts unit_schedule /\
  (forall i program u c, nth_error unit_programs i = Some program -> In (u, c) program -> forall v, u = 0 \/ v = u -> units_of i v = true) /\
  (forall o, In (Direct o) unit_schedule -> forall v, op_about o v -> (v =? 12) || (v =? 20) = true) /\
  (forall i j v, i <> j -> units_of i v = true -> units_of j v = false) /\ (forall i v, (v =? 12) || (v =? 20) = true -> units_of i v = false) /\
  map k_done (net_peers (net_run (network_of demo_db unit_programs) unit_schedule)) =
    [[Some (Ok (RTuple [100; 7])); Some (Ok (RTuple [7; 0]))]; [Some (Ok (RTuple [105; 2])); Some (Ok (RTuple [5]))]].
Proof.
  split; [intros program u pdu H J; cbn in H; intuition (subst; cbn in J; intuition discriminate)|]. split.
  { assert (C : cutting by_two) by (intros [|a [|b [|c t]]]; (split; [cbn; rewrite ?app_nil_r; reflexivity|]); repeat constructor; discriminate).
    pose proof one_piece_cutting as C'. repeat (constructor; [assumption || exact Logic.I|]); constructor. }
  split.
  { intros [|[|i]] program u c E J v V; [| |destruct i; discriminate E]; injection E as <-; cbn [In] in J;
      (destruct J as [J|[J|[]]]; injection J as <- <-; (destruct V as [V|V]; [discriminate V|subst v; reflexivity])). }
  split.
  { intros o J v V. cbn [unit_schedule In] in J.
    repeat match type of J with _ \/ _ => destruct J as [J|J] end; try discriminate J; try (destruct J; fail); injection J as <-; cbn [op_about] in V; try (subst v; reflexivity).
    destruct V as (hdr & k & pdu & P & V). vm_compute in P. injection P as <- <- <-. destruct V as [V|V]; [discriminate V|subst v; reflexivity]. }
  split; [intros [|[|i]] [|[|j]] v N H; cbn [units_of] in *; lia|]. split; [intros [|[|i]] v H; cbn [units_of]; lia|]. vm_compute. reflexivity.
Qed.

Print Assumptions C127_alone.
Print Assumptions C127_all.
