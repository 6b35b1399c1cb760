(** C114: masters that call one TCP server over the network, each with its own cells, get the results they would get alone. *)
From Verif Require Import Base BaseFacts Spec PyStruct StructFacts StructMore Defines SlaveModel SlaveSpec SlaveInv UtilsModel QueryModel DatabankModel MasterModel MasterSpec MasterProofs FrameSpec QueryProofs DbSpec DatabankProofs PropDatabank
  TransportModel TransportSpec TransportProofs LinkSpec PropTransport SessionModel PropSession NetModel NetSpec NetProofs PropNet.
From Verif Require Import PropApart PropServerApart.
From Coq Require Import Lia.
Open Scope string_scope. Open Scope list_scope. Open Scope Z_scope.

(** ** Specification *)
(** The cells a call of execute reads and writes. *)
Definition reads_of (c : call) : option (btype * Z * Z) :=
  match c with
  | ReadBits coils a n => Some (if coils then COILS else DISCRETE_INPUTS, a, n)
  | ReadRegs holding a n => Some (if holding then HOLDING_REGISTERS else ANALOG_INPUTS, a, n)
  | MaskWrite a _ _ => Some (HOLDING_REGISTERS, a, 1)
  | ReadWriteRegs a n _ _ => Some (HOLDING_REGISTERS, a, n)
  | Raw pdu => read_range pdu
  | _ => None
  end.
Definition writes_of (c : call) : option (btype * Z * Z) :=
  match c with
  | WriteCoil a _ => Some (COILS, a, 1)
  | WriteReg a _ | MaskWrite a _ _ => Some (HOLDING_REGISTERS, a, 1)
  | WriteCoils a vals => Some (COILS, a, zlen vals)
  | WriteRegs a vals | ReadWriteRegs _ _ a vals => Some (HOLDING_REGISTERS, a, zlen vals)
  | Raw pdu => write_range pdu
  | _ => None
  end.
(** The call asks only for cells of the region; unit 0 asks for cells of all units. *)
Definition call_keeps (m : dregion) (u : Z) (c : call) : Prop :=
  forall v, u = 0 \/ v = u -> inside_opt (m v) (reads_of c) /\ inside_opt (m v) (writes_of c).
(** The application only sets values, in its own region. *)
Definition app_keeps (d : databank) (m : dregion) (o : db_op) : Prop :=
  match o with
  | DbCall u (OpSetValues name a v) => dkeeps d m (DSlave u (ASet name a v))
  | _ => False
  end.
(** A new master makes the calls one after the other, and nobody else uses the server: databank, transaction counter and results. *)
Definition alone_step (x : databank * Z * list (option (res exec_result))) (uc : Z * call) : databank * Z * list (option (res exec_result)) :=
  let '(d, last, rs) := x in
  let '(d', e) := over_tcp in_one_piece in_one_piece last d (fst uc) (snd uc) in (d', ex_last e, rs ++ [ex_result e]).
Definition alone (d : databank) (program : list (Z * call)) : databank * Z * list (option (res exec_result)) := fold_left alone_step program (d, 0, []).
Definition results_alone (d : databank) (program : list (Z * call)) : list (option (res exec_result)) := snd (alone d program).

(** ** What is sent *)
Lemma word_value a : fits true a -> (a / 256) mod 256 * 256 + a mod 256 = a.
Proof. unfold fits. intros H. rewrite (Z.mod_small (a / 256)) by (split; [apply Z.div_pos; lia|apply Z.div_lt_upper_bound; lia]). rewrite Z.mul_comm. symmetry. apply Z.div_mod. lia. Qed.
Lemma ranges_of c pdu : encodable c -> prescribed c pdu -> read_range pdu = reads_of c /\ write_range pdu = writes_of c.
Proof.
  intros E P. destruct c as [coils a n|holding a n|subs|a v|a v|a am om|a vals|a vals| |sub data|a n wa vals|code obj|raw]; cbn [prescribed encodable reads_of writes_of] in *;
    try (subst pdu; split; reflexivity).
  - destruct E as (E1 & E2). subst pdu. destruct coils; cbn [fc_of read_range write_range Z.eqb Pos.eqb]; unfold be16, word; cbn [app nth]; rewrite !word_value by assumption; auto.
  - destruct E as (E1 & E2). subst pdu. destruct holding; cbn [fc_of read_range write_range Z.eqb Pos.eqb]; unfold be16, word; cbn [app nth]; rewrite !word_value by assumption; auto.
  - subst pdu. cbn [read_range write_range Z.eqb Pos.eqb]. unfold be16, word. cbn [app nth]. rewrite !word_value by assumption. auto.
  - destruct E as (E1 & E2). subst pdu. cbn [read_range write_range Z.eqb Pos.eqb]. unfold be16, word. cbn [app nth]. rewrite !word_value by assumption. auto.
  - destruct E as (E1 & E2 & E3). subst pdu. cbn [read_range write_range Z.eqb Pos.eqb]. unfold be16, word. cbn [app nth]. rewrite !word_value by assumption. auto.
  - destruct E as (E1 & E2). destruct P as (out & _ & ->). pose proof (zlen_nonneg vals). cbn [read_range write_range Z.eqb Pos.eqb]. unfold be16, word. cbn [app nth]. rewrite !word_value by (assumption || (unfold fits; lia)). auto.
  - destruct E as (E1 & E2 & _). subst pdu. pose proof (zlen_nonneg vals). cbn [read_range write_range Z.eqb Pos.eqb]. unfold be16, word. cbn [app nth]. rewrite !word_value by (assumption || (unfold fits; lia)). auto.
  - destruct E as (E1 & E2 & E3 & E4 & _). subst pdu. pose proof (zlen_nonneg vals). cbn [read_range write_range Z.eqb Pos.eqb]. unfold be16, word. cbn [app nth]. rewrite !word_value by (assumption || (unfold fits; lia)). auto.
Qed.
Definition is_raw_ok (c : call) : Prop := forall pdu, c = Raw pdu -> bytes pdu.
Lemma sent_keeps last u c ex w n d m : 0 <= last <= 65535 -> is_raw_ok c -> call_keeps m u c ->
  ex_sent (execute TCP last (args_of u c) ex) = Some (w, n) -> dkeeps d m (DFrame TCP w).
Proof.
  intros T R K S. destruct (execute_sent last _ ex _ w n ltac:(lia) eq_refl S) as (b & EB & _ & U & L & _ & -> & _).
  assert (E : encodable c).
  { destruct (encodable_decide c) as [E|E]; [exact E|]. destruct c; try (destruct (build_err u _ E ltac:(discriminate)) as [e X]; congruence). cbn. now apply R. }
  destruct (build_call u c E) as (pdu & P & B & X). rewrite X in EB. injection EB as <-. change (bl_pdu (built_as c pdu)) with pdu in *.
  assert (Ea : ea_slave (args_of u c) = u) by (now destruct c). rewrite Ea in *.
  cbn [dkeeps]. intros hdr v q Q. change TCP with (proto_of (Some (next_transaction_id last, 0))) in Q.
  change (tcp_frame (next_transaction_id last) 0 u pdu) with (on_wire (Some (next_transaction_id last, 0)) u pdu) in Q.
  rewrite parse_on_wire in Q; [|exact U|]. 2:{ split; [exact B|]. rewrite next_tid by lia. lia. }
  injection Q as _ <- <-. destruct (ranges_of c pdu E P) as (-> & ->). exact K.
Qed.
(** ** One call, on two servers *)
Definition received (out : option (list Z)) : res (list Z) :=
  match out with
  | Some out => match tcp_master_recv no_hook {| c_segs := in_one_piece out; c_end := Stalled |} with Some (_, r) => r | None => Err NotModelled end
  | None => Err SocketTimeout
  end.
Lemma call_as last d u c w n : 0 <= last <= 65535 -> is_raw_ok c -> (forall ex, ex_sent (execute TCP last (args_of u c) ex) = Some (w, n)) ->
  over_tcp in_one_piece in_one_piece last d u c = (fst (served_request d TCP w), execute TCP last (args_of u c) (fun _ _ => received (snd (served_request d TCP w)))).
Proof.
  intros T R Sx. destruct (sent_frame last u c (fun _ _ => Err SocketTimeout) w n T R (Sx _)) as (D & L). unfold over_tcp. rewrite Sx.
  destruct (C46_one_request d {| c_segs := in_one_piece w; c_end := Stalled |} w [] D L) as (c' & SV & _).
  { unfold stream. cbn [c_segs]. rewrite app_nil_r. apply cut_stream, one_piece_cutting. }
  rewrite SV. f_equal. apply (execute_congr last _ _ _ w n); [apply Sx|]. unfold tcp_exchange. rewrite SV. reflexivity.
Qed.
Lemma served_step d w : fst (served_request d TCP w) = fst (dact_step d (DFrame TCP w)).
Proof. cbn [dact_step]. unfold served_request. now destruct (db_handle_request d TCP w). Qed.
Lemma call_cases last u c : 0 <= last <= 65535 -> is_raw_ok c ->
  (exists e, forall d, over_tcp in_one_piece in_one_piece last d u c = (d, e) /\ 0 <= ex_last e <= 65535) \/
  exists w n, (forall ex, ex_sent (execute TCP last (args_of u c) ex) = Some (w, n)) /\
    forall d, over_tcp in_one_piece in_one_piece last d u c = (fst (dact_step d (DFrame TCP w)), execute TCP last (args_of u c) (fun _ _ => received (snd (served_request d TCP w)))) .
Proof.
  intros T R. destruct (ex_sent (execute TCP last (args_of u c) (fun _ _ => Err SocketTimeout))) as [[w n]|] eqn:S.
  - right. assert (Sx : forall ex, ex_sent (execute TCP last (args_of u c) ex) = Some (w, n)) by (intros ex; rewrite <- S; apply execute_before).
    exists w, n. split; [exact Sx|]. intros d. rewrite <- served_step. now apply call_as with n.
  - left. eexists. intros d. split; [now apply alone_nothing, S|]. now apply last_range.
Qed.
Lemma call_alike m last u c d d2 : 0 <= last <= 65535 -> is_raw_ok c -> dinv d -> dinv d2 -> dagree m d d2 -> call_keeps m u c ->
  dagree m (fst (over_tcp in_one_piece in_one_piece last d u c)) (fst (over_tcp in_one_piece in_one_piece last d2 u c)) /\
  snd (over_tcp in_one_piece in_one_piece last d u c) = snd (over_tcp in_one_piece in_one_piece last d2 u c).
Proof.
  intros T R I I2 G K. destruct (call_cases last u c T R) as [(e & E)|(w & n & Sx & E)].
  - rewrite (proj1 (E d)), (proj1 (E d2)). auto.
  - rewrite !E. cbn [fst snd]. pose proof (sent_keeps last u c _ w n d m T R K (Sx (fun _ _ => Err SocketTimeout))) as Kw.
    destruct (dact_alike m d d2 _ I I2 G Kw) as (A & _). split; [exact A|]. destruct (frame_alike m d d2 TCP w I I2 G Kw) as (_ & B). unfold served_request. cbn [snd]. now rewrite B.
Qed.
(** what a call does to a server *)
Lemma call_step last u c d : 0 <= last <= 65535 -> is_raw_ok c -> dinv d ->
  dinv (fst (over_tcp in_one_piece in_one_piece last d u c)) /\ 0 <= ex_last (snd (over_tcp in_one_piece in_one_piece last d u c)) <= 65535 /\
  rows (fun _ s s' => sl_names s' = sl_names s /\ sl_alias s' = sl_alias s) (db_slaves d) (db_slaves (fst (over_tcp in_one_piece in_one_piece last d u c))) /\
  forall m m', call_keeps m' u c -> dapart d m m' -> dagree m d (fst (over_tcp in_one_piece in_one_piece last d u c)).
Proof.
  intros T R I. destruct (call_cases last u c T R) as [(e & E)|(w & n & Sx & E)].
  - destruct (E d) as (-> & L). cbn [fst snd]. split; [exact I|]. split; [exact L|]. split; [apply rows_refl; auto|]. intros m m' _ _. apply dagree_refl.
  - rewrite E. cbn [fst snd]. split; [now apply dact_dinv|]. split; [now apply last_range|]. split; [now apply dact_shape|].
    intros m m' K A. apply dact_apart with m'; auto. now apply (sent_keeps last u c _ w n d m' T R K (Sx (fun _ _ => Err SocketTimeout))).
Qed.
Lemma did_step d o m' : dinv d -> app_keeps d m' o -> exists x, db_step d o = fst (dact_step d x) /\ dkeeps d m' x.
Proof.
  intros I K. destruct o as [| | | |u [| | |name a v| |]]; try contradiction. exists (DSlave u (ASet name a v)). split; [|exact K]. cbn [db_step dact_step slave_step act_step].
  destruct (get_slave d u) as [s|]; [|reflexivity]. now destruct (set_values s name a v).
Qed.
(** ** Histories of calls *)
Definition same_shape (d d' : databank) : Prop := rows (fun _ s s' => sl_names s' = sl_names s /\ sl_alias s' = sl_alias s) (db_slaves d) (db_slaves d').
Lemma same_shape_trans a b c : same_shape a b -> same_shape b c -> same_shape a c.
Proof. intros A B. eapply rows_trans; [|exact A|exact B]. intros u x y z (P & Q) (P' & Q'). split; congruence. Qed.
Lemma alone_snoc d program uc : alone d (program ++ [uc]) = alone_step (alone d program) uc.
Proof. unfold alone. now rewrite fold_left_app. Qed.
Definition held (d : databank) (i : nat) (regions : nat -> dregion) (last : Z) (results : list (option (res exec_result))) (x : databank * Z * list (option (res exec_result))) : Prop :=
  let '(da, la, ra) := x in dinv da /\ la = last /\ ra = results /\ dagree (regions i) d da.
Lemma one_by_one_alone d0 regions app : dinv d0 -> (forall i j, i <> j -> dapart d0 (regions i) (regions j)) -> (forall i, dapart d0 (regions i) app) ->
  forall h d lasts, one_by_one d0 h d lasts -> (forall i u c r, In (Called i u c r) h -> is_raw_ok c /\ call_keeps (regions i) u c) -> (forall o, In (Did o) h -> app_keeps d0 app o) ->
  dinv d /\ same_shape d0 d /\ (forall i, 0 <= lasts i <= 65535) /\ forall i, held d i regions (lasts i) (results_of i h) (alone d0 (calls_by i h)).
Proof.
  intros I0 Ap Aa h d lasts O. induction O as [lasts L|h d lasts i u c d' e lasts' O IH E Li Lo|h d lasts o O IH]; intros Hc Hd.
  - split; [exact I0|]. split; [apply rows_refl; auto|]. split; [intros i; rewrite L; lia|]. intros i. cbn [results_of calls_by]. unfold alone, held. cbn [fold_left]. split; [exact I0|]. split; [symmetry; apply L|]. split; [reflexivity|apply dagree_refl].
  - destruct IH as (I & Sh & Lr & H); [intros j v b r In0; apply (Hc j v b r), in_or_app; now left|intros o In0; apply Hd, in_or_app; now left|].
    destruct (Hc i u c (ex_result e)) as (R & K); [apply in_or_app; right; now left|].
    destruct (call_step (lasts i) u c d (Lr i) R I) as (S1 & S2 & S3 & S4). rewrite E in S1, S2, S3, S4. cbn [fst snd] in *.
    split; [exact S1|]. split; [eapply same_shape_trans; [exact Sh|exact S3]|]. split; [intros j; destruct (Nat.eq_dec j i) as [-> | N]; [now rewrite Li|now rewrite Lo]|].
    intros j. rewrite results_of_app, calls_by_app. cbn [results_of calls_by]. specialize (H j). unfold held in *. destruct (Nat.eqb j i) eqn:Q.
    + apply Nat.eqb_eq in Q. subst j. rewrite alone_snoc. destruct (alone d0 (calls_by i h)) as [[da la] ra]. destruct H as (H1 & H2 & H3 & H4). subst la ra. unfold alone_step. cbn [fst snd].
      destruct (call_alike (regions i) (lasts i) u c d da (Lr i) R I H1 H4 K) as (A & B). destruct (call_step (lasts i) u c da (Lr i) R H1) as (T1 & _). rewrite E in A, B. cbn [fst snd] in *.
      destruct (over_tcp in_one_piece in_one_piece (lasts i) da u c) as [da' ea]. cbn [fst snd] in *. subst ea. split; [exact T1|]. split; [auto|]. split; [reflexivity|exact A].
    + apply Nat.eqb_neq in Q. rewrite !app_nil_r. destruct (alone d0 (calls_by j h)) as [[da la] ra]. destruct H as (H1 & H2 & H3 & H4). split; [exact H1|]. split; [now rewrite Lo|]. split; [exact H3|].
      eapply dagree_trans; [apply dagree_sym, (S4 (regions j) (regions i) K); apply shape_apart with d0; [exact Sh|now apply Ap]|exact H4].
  - destruct IH as (I & Sh & Lr & H); [intros j v b r In0; apply (Hc j v b r), in_or_app; now left|intros o' In0; apply Hd, in_or_app; now left|].
    assert (K : app_keeps d app o). { assert (Ho : app_keeps d0 app o) by (apply Hd, in_or_app; right; now left). clear Hd. destruct o as [| | | |u [| | |name a v| |]]; try contradiction. cbn [app_keeps] in *. now apply shape_keeps with d0. }
    destruct (did_step d o app I K) as (x & E & Kx). rewrite E. split; [now apply dact_dinv|]. split; [eapply same_shape_trans; [exact Sh|now apply dact_shape]|]. split; [exact Lr|].
    intros j. rewrite results_of_app, calls_by_app. cbn [results_of calls_by]. rewrite !app_nil_r. specialize (H j). unfold held in *. destruct (alone d0 (calls_by j h)) as [[da la] ra]. destruct H as (H1 & H2 & H3 & H4).
    split; [exact H1|]. split; [exact H2|]. split; [exact H3|]. eapply dagree_trans; [apply dagree_sym, (dact_apart (regions j) app d x I Kx); apply shape_apart with d0; [exact Sh|apply Aa]|exact H4].
Qed.
Lemma alone_prefix d p q : exists more, results_alone d (p ++ q) = results_alone d p ++ more.
Proof.
  unfold results_alone, alone. rewrite fold_left_app. destruct (fold_left alone_step p (d, 0, [])) as [[da la] ra]. cbn [snd]. revert da la ra. induction q as [|uc q IH]; intros da la ra; [exists []; now rewrite app_nil_r|].
  cbn [fold_left alone_step]. destruct (over_tcp in_one_piece in_one_piece la da (fst uc) (snd uc)) as [d' e]. destruct (IH d' (ex_last e) (ra ++ [ex_result e])) as (more & E). exists (ex_result e :: more). rewrite E, <- app_assoc. reflexivity.
Qed.
Lemma called_in i u c r h : In (Called i u c r) h -> In (u, c) (calls_by i h).
Proof.
  induction h as [|[j v b q|o] t IH]; cbn [calls_by In]; intros H; [destruct H| |destruct H as [H|H]; [discriminate|auto]].
  destruct H as [H|H]; [injection H as -> -> -> ->; rewrite Nat.eqb_refl; now left|]. destruct (Nat.eqb i j); [right|]; auto.
Qed.
Lemma did_in o h : In (Did o) h -> In o (direct_ops h).
Proof. induction h as [|[j v b q|o'] t IH]; cbn [direct_ops In]; intros H; [destruct H| |]; (destruct H as [H|H]; [try discriminate; injection H as ->; now left|try (right; auto); auto]). Qed.
Lemma direct_in o schedule : In o (direct_actions schedule) -> In (Direct o) schedule.
Proof. induction schedule as [|[]  t IH]; cbn [direct_actions In]; intros H; auto. destruct H as [-> | H]; auto. Qed.

(** ** The property *)
(** Masters with their own connections call one TCP server, each asking only for its own cells, while the application sets values of its own.
    Whatever the schedule and however the network cuts the frames: the results a master has got so far are the first results it would have got
    if it had been alone. *)
Theorem C114_alone : forall d0 programs schedule regions app, db_reachable d0 -> byte_strings programs -> fair_cuts schedule ->
  (forall i program u c, nth_error programs i = Some program -> In (u, c) program -> call_keeps (regions i) u c) ->
  (forall o, In (Direct o) schedule -> app_keeps d0 app o) ->
  (forall i j, i <> j -> dapart d0 (regions i) (regions j)) -> (forall i, dapart d0 (regions i) app) ->
  forall i program k, nth_error programs i = Some program -> nth_error (net_peers (net_run (network_of d0 programs) schedule)) i = Some k ->
  exists later, results_alone d0 program = k_done k ++ later.
Proof.
  intros d0 programs schedule regions app D B F Kp Ka Ap Aa i program k Np N. apply db_reachable_inv in D as I0.
  assert (F' : fair_cuts (schedule ++ [])) by (now rewrite app_nil_r). destruct (C85_one_by_one d0 programs schedule [] B F') as (h & _ & X & _).
  destruct X as ((lasts & O) & Dd & Len & Lt & X).
  assert (P : forall j p kj, nth_error programs j = Some p -> nth_error (net_peers (net_run (network_of d0 programs) schedule)) j = Some kj -> exists rest, p = calls_by j h ++ rest).
  { intros j p kj Nj Nk. destruct (X j p kj Nj Nk) as (ret & Hp & _ & [[C _]|(u & c & r & Ph & C & _)]).
    - rewrite C. eexists. exact Hp.
    - exists (k_todo kj). rewrite C, Hp, <- app_assoc. now destruct Ph as [-> | ->]. }
  assert (Q : forall j u c r, In (Called j u c r) h -> is_raw_ok c /\ call_keeps (regions j) u c).
  { intros j u c r In0. pose proof (Lt _ _ _ _ In0) as Lj. destruct (nth_error programs j) as [p|] eqn:Nj; [|apply nth_error_None in Nj; lia].
    destruct (nth_error (net_peers (net_run (network_of d0 programs) schedule)) j) as [kj|] eqn:Nk; [|apply nth_error_None in Nk; lia].
    destruct (P j p kj Nj Nk) as (rest & E). assert (Iu : In (u, c) p) by (rewrite E; apply in_or_app; left; eapply called_in; eauto).
    split; [|now apply (Kp j p)]. intros pdu ->. apply (B p u pdu); [now apply nth_error_In with j|exact Iu]. }
  destruct (one_by_one_alone d0 regions app I0 Ap Aa h _ lasts O Q) as (_ & _ & _ & H).
  { intros o In0. apply Ka, direct_in. rewrite <- Dd. now apply did_in. }
  specialize (H i). unfold held in H. destruct (P i program k Np N) as (rest & E). destruct (alone_prefix d0 (calls_by i h) rest) as (more & M). rewrite E, M.
  assert (R : results_alone d0 (calls_by i h) = results_of i h) by (unfold results_alone; destruct (alone d0 (calls_by i h)) as [[da la] ra]; apply H). rewrite R.
  destruct (X i program k Np N) as (ret & _ & _ & [[_ C]|(u & c & r & _ & _ & C)]); rewrite C; [now exists more|]. exists (r :: more). now rewrite <- app_assoc.
Qed.
Lemma alone_length d p : length (results_alone d p) = length p.
Proof.
  unfold results_alone, alone. assert (G : forall p da la ra, length (snd (fold_left alone_step p (da, la, ra))) = (length ra + length p)%nat).
  { clear. induction p as [|uc p IH]; intros da la ra; cbn [fold_left alone_step]; [cbn; lia|]. destruct (over_tcp in_one_piece in_one_piece la da (fst uc) (snd uc)) as [d' e]. rewrite IH, app_length. cbn [length]. lia. }
  rewrite G. reflexivity.
Qed.
(** A master that is given enough rounds gets all of them. *)
Theorem C114_all : forall d0 programs past future regions app, db_reachable d0 -> byte_strings programs -> fair_cuts (past ++ future) ->
  (forall i program u c, nth_error programs i = Some program -> In (u, c) program -> call_keeps (regions i) u c) ->
  (forall o, In (Direct o) (past ++ future) -> app_keeps d0 app o) ->
  (forall i j, i <> j -> dapart d0 (regions i) (regions j)) -> (forall i, dapart d0 (regions i) app) ->
  forall i program k, nth_error programs i = Some program -> rounds i (length program) future ->
  nth_error (net_peers (net_run (network_of d0 programs) (past ++ future))) i = Some k -> k_done k = results_alone d0 program.
Proof.
  intros d0 programs past future regions app D B F Kp Ka Ap Aa i program k Np Rd N.
  destruct (C114_alone d0 programs (past ++ future) regions app D B F Kp Ka Ap Aa i program k Np N) as (later & E).
  destruct (C85_returns d0 programs past future i program k B F Np Rd N) as (_ & _ & L).
  rewrite E. pose proof (alone_length d0 program) as A. rewrite E, app_length in A. destruct later; [now rewrite app_nil_r|cbn in A; lia].
Qed.

(** ** A concrete case: master 0 has the registers 100..104 of all units, master 1 the registers from 105, the application the coils *)
Definition shares (i : nat) : dregion := fun u t x => t = HOLDING_REGISTERS /\ match i with 0%nat => x < 105 | 1%nat => 105 <= x | _ => False end.
Definition coils_only : dregion := fun u t x => t = COILS.
Definition apart_programs : list (list (Z * call)) :=
  [[(9, WriteReg 100 7); (9, ReadRegs true 100 2)]; [(9, WriteRegs 105 [5; 6]); (77, ReadRegs true 105 1); (9, MaskWrite 105 1 2)]].
Definition apart_schedule : list action :=
  [Send 0 by_two; Send 1 in_one_piece; Serve 1 by_two; Serve 0 in_one_piece; Direct (DbCall 9 (OpSetValues "c" 1 (SvSeq [1]))); Receive 1; Send 1 by_two; Receive 0;
   Send 0 by_two; Serve 1 by_two; Serve 0 by_two; Receive 0; Receive 1; Send 1 by_two].
Example C114_ex : db_reachable demo_db /\ byte_strings apart_programs /\ fair_cuts apart_schedule /\
  (forall i program u c, nth_error apart_programs i = Some program -> In (u, c) program -> call_keeps (shares i) u c) /\
  (forall o, In (Direct o) apart_schedule -> app_keeps demo_db coils_only o) /\
  (forall i j, i <> j -> dapart demo_db (shares i) (shares j)) /\ (forall i, dapart demo_db (shares i) coils_only) /\
  map k_done (net_peers (net_run (network_of demo_db apart_programs) apart_schedule)) =
    [[Some (Ok (RTuple [100; 7])); Some (Ok (RTuple [7; 0]))]; [Some (Ok (RTuple [105; 2])); Some (Err SocketTimeout)]].
Proof.
  split; [apply demo_db_reachable|]. split; [intros program u pdu H J; cbn in H; intuition (subst; cbn in J; intuition discriminate)|]. split.
  { assert (C : cutting by_two) by (intros [|a [|b [|c t]]]; (split; [cbn; rewrite ?app_nil_r; reflexivity|]); repeat constructor; discriminate).
    pose proof one_piece_cutting as C'. repeat (constructor; [assumption || exact Logic.I|]); constructor. }
  split.
  { intros [|[|i]] program u c E J; [| |destruct i; discriminate E]; injection E as <-; cbn [In] in J; intuition (try discriminate);
      match goal with H : (_, _) = (_, _) |- _ => injection H as <- <- end; intros v _; cbn [reads_of writes_of inside_opt]; unfold inside, shares; split; try exact Logic.I; intros x X; (split; [reflexivity|]);
      try change (zlen [5; 6]) with 2 in X; lia. }
  split.
  { intros o J. cbn [apart_schedule In] in J. intuition (try discriminate). match goal with H : Direct _ = Direct _ |- _ => injection H as <- end.
    cbn [app_keeps dkeeps keeps_to]. intros s G t start Nm x X. vm_compute in G. injection G as <-. injection Nm as <- <-. reflexivity. }
  split.
  { intros i j V u s G t t' x S1 H H'. unfold shares in *. destruct i as [|[|i]], j as [|[|j]]; try tauto; destruct H, H'; lia. }
  split.
  { intros i u s G t t' x S1 H H'. apply (demo_tables u s G) in S1. unfold shares, coils_only in *. destruct H as (H & _). congruence. }
  vm_compute. reflexivity.
Qed.

Print Assumptions C114_alone.
Print Assumptions C114_all.
