(** Property C76: several calls of one master; responses that come late.
    Vocabulary: Spec.v, FrameSpec.v, MasterSpec.v, TransportSpec.v and the definitions marked "spec" below. *)
From Coq Require Import Lia ZifyBool ZifyNat.
From Verif Require Import Base BaseFacts PyStruct Spec StructFacts StructMore.
From Verif Require Import DatabankModel DatabankProofs FrameSpec CrcSpec UtilsModel QueryModel QueryProofs SlaveSpec DbSpec MasterModel MasterSpec MasterProofs.
From Verif Require Import PropDatabank TransportModel TransportSpec TransportProofs PropTransport SessionModel.
Ltac Zify.zify_post_hook ::= Z.div_mod_to_equations.
Open Scope string_scope.
Open Scope list_scope.
Open Scope Z_scope.

(** Spec: the frame a server sends back for the request frame [request] when its response is [pdu]: the request's transaction id,
    protocol id and unit id, the length, the response. *)
Definition reply_to (request pdu : list Z) : list Z :=
  firstn 4 request ++ word (zlen pdu + 1) ++ nth 6 request 0 :: pdu.
(** Spec: [bs] consists of whole replies to requests sent during calls number 0, ..., i of the session, at most 65535 calls ago. *)
Definition replies_only (es : list executed) (i : nat) (bs : list Z) : Prop :=
  exists frames, bs = concat frames /\
  Forall (fun f => exists j e w x pdu, (j <= i)%nat /\ Z.of_nat i - Z.of_nat j < 65536 /\ nth_error es j = Some e /\ ex_sent e = Some (w, x) /\
                     bytes pdu /\ zlen pdu < 65535 /\ f = reply_to w pdu) frames.
(** Spec: what execute(a) returns or raises if its request is answered at once with [pdu]. *)
Definition answered_with (a : exec_args) (pdu : list Z) : option (res exec_result) :=
  ex_result (execute TCP 0 a (fun request _ => Ok (reply_to request pdu))).

(** ** One call *)
Lemma tid_range last : 0 <= last < 65536 -> 0 <= next_transaction_id last < 65536.
Proof. intros H. rewrite next_tid by exact H. lia. Qed.
Lemma build_shape last pdu u last' r : 0 <= last < 65536 -> tcp_build_request last pdu u = (last', r) ->
  (last' = last /\ exists e, r = Err e) \/
  (last' = next_transaction_id last /\ (exists e, r = Err e)) \/
  (last' = next_transaction_id last /\ is_byte u /\ zlen pdu < 65535 /\
   r = Ok ({| mb_tid := next_transaction_id last; mb_pid := 0; mb_len := zlen pdu + 1; mb_uid := u |}, tcp_frame (next_transaction_id last) 0 u pdu)).
Proof.
  intros T. unfold tcp_build_request. destruct ((u <? 0) || (255 <? u)) eqn:U; [intros [= <- <-]; left; eauto|].
  intros [= <- <-]. right.
  pose proof (tid_range last T) as R.
  destruct (Z.ltb_spec (zlen pdu) 65535) as [L|L].
  - right. assert (B : is_byte u) by (unfold is_byte; lia). repeat split; auto; try apply B.
    pose proof (mbap_pack_ok (next_transaction_id last) 0 u pdu ltac:(unfold fits; lia) ltac:(unfold fits; lia) B L) as X.
    destruct (mbap_pack _); cbn [bind] in *; [|discriminate]. injection X as ->. reflexivity.
  - left. split; [reflexivity|]. rewrite mbap_pack_long by lia. eexists; reflexivity.
Qed.
Lemma reply_frame t u q pdu : reply_to (tcp_frame t 0 u q) pdu = tcp_frame t 0 u pdu.
Proof. reflexivity. Qed.
Lemma frame_self_delimited t u pdu : is_byte u -> bytes pdu -> zlen pdu < 65535 -> self_delimited (tcp_frame t 0 u pdu).
Proof.
  intros U B L. pose proof (tcp_frame_bytes t 0 u pdu U B) as W. unfold tcp_frame, word in *. cbn [app] in *.
  do 7 eexists. split; [reflexivity|]. split; [|exact W]. rewrite zlen_cons. pose proof (zlen_nonneg pdu). lia.
Qed.
Lemma parse_own t u q pdu : 0 <= t < 65536 -> is_byte u -> bytes pdu -> zlen pdu < 65535 ->
  tcp_parse_response {| mb_tid := t; mb_pid := 0; mb_len := q; mb_uid := u |} (tcp_frame t 0 u pdu) = Ok pdu.
Proof.
  intros T U B L. apply tcp_parse_response_frame; cbn [mb_tid mb_pid mb_uid]; try (unfold fits; lia); [now apply tcp_frame_bytes|auto].
Qed.
(** What a call that sends something does, for any exchange. *)
Lemma execute_sent last a ex e w x : 0 <= last < 65536 -> e = execute TCP last a ex -> ex_sent e = Some (w, x) ->
  exists b, execute_build a = Ok b /\ x = bl_expected b /\ is_byte (ea_slave a) /\ zlen (bl_pdu b) < 65535 /\
  ex_last e = next_transaction_id last /\ w = tcp_frame (next_transaction_id last) 0 (ea_slave a) (bl_pdu b) /\
  ex_result e = match (response <- ex w x ;; tcp_parse_response {| mb_tid := next_transaction_id last; mb_pid := 0; mb_len := zlen (bl_pdu b) + 1; mb_uid := ea_slave a |} response) with
                | Err er => Some (Err er)
                | Ok pdu => execute_decode (file_fuel pdu) a b pdu
                end.
Proof.
  intros T -> S. unfold execute in *. destruct (execute_build a) as [b|er] eqn:EB; [|discriminate S].
  cbn [build_request] in *. destruct (tcp_build_request last (bl_pdu b) (ea_slave a)) as [last' r] eqn:EQ.
  destruct (build_shape _ _ _ _ _ T EQ) as [(-> & er & ->)|[(-> & er & ->)|(-> & U & L & ->)]]; cbn [bind] in *; try discriminate S.
  cbn [fst snd ex_sent ex_last ex_result] in *. injection S as <- <-.
  exists b. repeat split; auto; try apply U.
Qed.
Lemma answered_own last a b : execute_build a = Ok b -> is_byte (ea_slave a) -> zlen (bl_pdu b) < 65535 -> 0 <= last < 65536 ->
  forall pdu, bytes pdu -> zlen pdu < 65535 -> answered_with a pdu = execute_decode (file_fuel pdu) a b pdu.
Proof.
  intros EB U L T pdu B Lp. unfold answered_with, execute. rewrite EB. cbn [build_request].
  destruct (tcp_build_request 0 (bl_pdu b) (ea_slave a)) as [last' r] eqn:EQ.
  assert (T0 : 0 <= 0 < 65536) by lia.
  assert (r = Ok ({| mb_tid := next_transaction_id 0; mb_pid := 0; mb_len := zlen (bl_pdu b) + 1; mb_uid := ea_slave a |}, tcp_frame (next_transaction_id 0) 0 (ea_slave a) (bl_pdu b))) as ->.
  { unfold tcp_build_request in EQ. unfold is_byte in U. destruct ((ea_slave a <? 0) || (255 <? ea_slave a)) eqn:Q; [lia|]. injection EQ as <- <-.
    pose proof (mbap_pack_ok (next_transaction_id 0) 0 (ea_slave a) (bl_pdu b) ltac:(unfold fits, next_transaction_id; cbn; lia) ltac:(unfold fits; lia) U L) as X.
    destruct (mbap_pack _); cbn [bind] in *; [|discriminate]. injection X as ->. reflexivity. }
  cbn [bind fst snd ex_result]. rewrite reply_frame. cbn [parse_response]. rewrite parse_own; auto; try (apply tid_range; lia).
Qed.
(** The call reads from a connection whose stream is exactly what arrived after the request was written. *)
Lemma send_recv_stream b n w : (exists er, n_reopen n = Err er /\ snd (tcp_send_recv b n w) = Err er) \/
  exists c, stream c = stream (n_after n) /\ c_end c = c_end (n_after n) /\
    snd (tcp_send_recv b n w) = match tcp_master_recv no_hook c with Some (_, r) => r | None => Err NotModelled end.
Proof.
  unfold tcp_send_recv. destruct (tcp_master_send no_hook (at_flush b n) (n_reopen n) w) as [[on out]|er] eqn:S.
  - right. exists (conn_on on n). destruct (C66_no_stale_bytes _ _ _ _ _ S) as [_ K].
    destruct on as [b'|]; cbn [conn_on].
    + destruct K as [K _]. unfold stream. cbn [c_segs c_end]. rewrite K. cbn [concat app]. repeat split.
      destruct (tcp_master_recv _ _) as [[? ?]|]; reflexivity.
    + repeat split. destruct (tcp_master_recv _ _) as [[? ?]|]; reflexivity.
  - left. exists er. split; [|reflexivity]. unfold tcp_master_send in S. destruct (flush_socket _ 3) as [? [?|?]]; [discriminate|].
    destruct (n_reopen n) as [?|?]; [discriminate|]. injection S as <-. reflexivity.
Qed.

(** ** Sessions *)
(** the state before call i *)
Lemma session_nth calls : forall s s' es i a n e, tcp_session s calls = (s', es) ->
  nth_error calls i = Some (a, n) -> nth_error es i = Some e ->
  exists si, e = snd (tcp_call si a n) /\ (0 <= st_last s < 65536 -> 0 <= st_last si < 65536).
Proof.
  induction calls as [|[a0 n0] t IH]; intros s s' es i a n e H Hc He; [destruct i; discriminate|].
  cbn [tcp_session] in H. destruct (tcp_call s a0 n0) as [s1 e0] eqn:C0. destruct (tcp_session s1 t) as [s2 es0] eqn:S0.
  injection H as <- <-. destruct i as [|i]; cbn [nth_error] in *.
  - injection Hc as -> ->. injection He as <-. exists s. rewrite C0. auto.
  - destruct (IH s1 s2 es0 i a n e S0 Hc He) as (si & E & R). exists si. split; [exact E|]. intros T. apply R.
    unfold tcp_call in C0. injection C0 as <- <-. cbn [st_last]. unfold execute. destruct (execute_build a0) as [b|]; [|exact T].
    cbn [build_request]. destruct (tcp_build_request (st_last s) (bl_pdu b) (ea_slave a0)) as [l r] eqn:Q.
    destruct (build_shape _ _ _ _ _ T Q) as [(-> & er & ->)|[(-> & er & ->)|(-> & _ & _ & ->)]]; cbn; try exact T; now apply tid_range.
Qed.
(** how the counter moves *)
Lemma call_last s a n : 0 <= st_last s < 65536 ->
  let e := snd (tcp_call s a n) in
  st_last (fst (tcp_call s a n)) = ex_last e /\
  exists k, (k = 0 \/ k = 1) /\ ex_last e = (st_last s + k) mod 65536 /\ (ex_sent e <> None -> k = 1).
Proof.
  intros T. unfold tcp_call. cbn [fst snd st_last]. split; [reflexivity|]. unfold execute. destruct (execute_build a) as [b|]; [|exists 0; cbn; split; [auto|split; [lia|congruence]]].
  cbn [build_request]. destruct (tcp_build_request (st_last s) (bl_pdu b) (ea_slave a)) as [l r] eqn:Q.
  destruct (build_shape _ _ _ _ _ T Q) as [(-> & er & ->)|[(-> & er & ->)|(-> & _ & _ & ->)]]; cbn [bind ex_last ex_sent fst snd].
  - exists 0. split; [auto|]. split; [lia|congruence].
  - exists 1. split; [auto|]. split; [now apply next_tid|congruence].
  - exists 1. split; [auto|]. split; [now apply next_tid|congruence].
Qed.
Lemma session_later calls : forall s s' es i e, tcp_session s calls = (s', es) -> 0 <= st_last s < 65536 ->
  nth_error es i = Some e -> ex_sent e <> None ->
  exists k, 1 <= k <= Z.of_nat i + 1 /\ ex_last e = (st_last s + k) mod 65536.
Proof.
  induction calls as [|[a0 n0] t IH]; intros s s' es i e H T He Hs; [injection H as <- <-; destruct i; discriminate|].
  cbn [tcp_session] in H. destruct (tcp_call s a0 n0) as [s1 e0] eqn:C0. destruct (tcp_session s1 t) as [s2 es0] eqn:S0.
  injection H as <- <-. destruct (call_last s a0 n0 T) as [L (k & K & E & KS)]. rewrite C0 in L, E, KS. cbn [fst snd] in *.
  destruct i as [|i]; cbn [nth_error] in He.
  - injection He as <-. exists 1. split; [lia|]. rewrite E, (KS Hs). reflexivity.
  - destruct (IH s1 s2 es0 i e S0 ltac:(rewrite L, E; lia) He Hs) as (k' & K' & E'). rewrite L, E in E'.
    exists (k + k'). split; [lia|]. rewrite E'. lia.
Qed.
Lemma session_ids calls : forall s s' es i j ei ej, tcp_session s calls = (s', es) -> 0 <= st_last s < 65536 ->
  (j < i)%nat -> Z.of_nat i - Z.of_nat j < 65536 -> nth_error es i = Some ei -> nth_error es j = Some ej -> ex_sent ei <> None -> ex_sent ej <> None ->
  ex_last ei <> ex_last ej.
Proof.
  induction calls as [|[a0 n0] t IH]; intros s s' es i j ei ej H T J D Hi Hj Si Sj; [injection H as <- <-; destruct i; discriminate|].
  cbn [tcp_session] in H. destruct (tcp_call s a0 n0) as [s1 e0] eqn:C0. destruct (tcp_session s1 t) as [s2 es0] eqn:S0.
  injection H as <- <-. destruct (call_last s a0 n0 T) as [L (k & K & E & KS)]. rewrite C0 in L, E, KS. cbn [fst snd] in *.
  destruct i as [|i]; [lia|]. cbn [nth_error] in Hi.
  assert (T1 : 0 <= st_last s1 < 65536) by (rewrite L, E; lia).
  destruct j as [|j]; cbn [nth_error] in Hj.
  - injection Hj as <-. destruct (session_later t s1 s2 es0 i ei S0 T1 Hi Si) as (k' & K' & E'). rewrite E', L. rewrite L in T1. lia.
  - apply (IH s1 s2 es0 i j ei ej S0 T1); try assumption; lia.
Qed.

Lemma nil_timeout c : stream c = [] -> tcp_master_recv no_hook c = Some (c, match c_end c with Closed => Ok [] | Stalled => Err SocketTimeout end).
Proof.
  intros H. unfold tcp_master_recv. assert (F : tcp_recv_fuel = S (Z.to_nat 65599)) by (unfold tcp_recv_fuel; lia). rewrite F.
  cbn [tcp_recv_loop]. change (zlen [] <? 255) with true. cbn match. rewrite (recv_nil 1 c H). destruct (c_end c); reflexivity.
Qed.

(* ------------------------------------------------------------------ C76 *)
(** In any session of calls over one TcpMaster, whatever failed or timed out before, whatever was lost: as long as what arrives after
    request [i] was written are whole replies to requests of this session (to this one or earlier ones, in any order, repeated, cut into
    any segments), call [i] either gets its own reply, or raises one of the transport's exceptions.  It never returns (nor raises a
    ModbusError from) the reply to another call. *)
Theorem C76_own_reply_partial : forall s calls s' es i a n e w x,
  0 <= st_last s <= 65535 -> tcp_session s calls = (s', es) ->
  nth_error calls i = Some (a, n) -> nth_error es i = Some e -> ex_sent e = Some (w, x) ->
  replies_only es i (stream (n_after n)) ->
  (exists pdu rest, stream (n_after n) = reply_to w pdu ++ rest /\ ex_result e = answered_with a pdu) \/
  ex_result e = Some (Err SocketTimeout) \/ ex_result e = Some (Err ModbusInvalidMbapError) \/
  ex_result e = Some (Err ModbusInvalidResponseError) \/
  (exists er, n_reopen n = Err er /\ ex_result e = Some (Err er)).
Proof.
  intros s calls s' es i a n e w x T H Hc He Hs (frames & HF & FF). assert (T' : 0 <= st_last s < 65536) by lia.
  destruct (session_nth calls s s' es i a n e H Hc He) as (si & EE & TI). specialize (TI T').
  unfold tcp_call in EE. cbn [snd] in EE.
  destruct (execute_sent _ _ _ _ _ _ TI EE Hs) as (b & EB & Ex & U & L & EL & EW & ER).
  pose proof (tid_range _ TI) as TR. set (tid := next_transaction_id (st_last si)) in *.
  destruct (send_recv_stream (st_buf si) n w) as [(er & R1 & R2)|(c & C1 & C2 & C3)].
  { rewrite R2 in ER. cbn [bind] in ER. right; right; right; right. eauto. }
  rewrite C3 in ER. clear C3.
  destruct frames as [|f frames].
  - cbn [concat] in HF. rewrite nil_timeout in ER by congruence. destruct (c_end c); cbn [bind] in ER; [|now auto].
    right; right; right; left. exact ER.
  - inversion_clear FF as [|? ? F0 FR]. destruct F0 as (j & ej & wj & xj & pdu & J1 & J2 & Ej & Sj & B & Lp & ->).
    assert (exists cj, nth_error calls j = Some cj) as [[aj nj] Cj].
    { destruct (nth_error calls j) eqn:Q; [eauto|]. exfalso. apply nth_error_None in Q. assert (i < length calls)%nat by (apply nth_error_Some; congruence). lia. }
    destruct (session_nth calls s s' es j aj nj ej H Cj Ej) as (sj & EEj & TJ). specialize (TJ T'). unfold tcp_call in EEj. cbn [snd] in EEj.
    destruct (execute_sent _ _ _ _ _ _ TJ EEj Sj) as (bj & EBj & _ & Uj & Ljj & ELj & EWj & _).
    pose proof (tid_range _ TJ) as TRj. set (tidj := next_transaction_id (st_last sj)) in *.
    rewrite EWj, reply_frame in HF. cbn [concat] in HF.
    destruct (C45_one_frame c (tcp_frame tidj 0 (ea_slave aj) pdu) (concat frames) (frame_self_delimited _ _ _ Uj B Lp) ltac:(congruence)) as (c' & RV & _).
    rewrite RV in ER. cbn [bind] in ER.
    destruct (Nat.eq_dec j i) as [->|NE].
    + assert (ej = e) by congruence. assert ((aj, nj) = (a, n)) as [= -> ->] by congruence. subst ej. left.
      assert (wj = w) by congruence. assert (tidj = tid) as QT by congruence. rewrite QT in *.
      exists pdu, (concat frames). split; [rewrite EW, reply_frame; exact HF|].
      rewrite parse_own in ER by (assumption || lia). rewrite ER. symmetry. apply (answered_own (st_last si)); assumption.
    + assert (D : ex_last e <> ex_last ej).
      { apply (session_ids calls s s' es i j e ej H T'); try assumption; try congruence; lia. }
      rewrite EL, ELj in D.
      destruct (tcp_parse_response_cases {| mb_tid := tid; mb_pid := 0; mb_len := zlen (bl_pdu b) + 1; mb_uid := ea_slave a |} (tcp_frame tidj 0 (ea_slave aj) pdu)
                  ltac:(now apply tcp_frame_bytes)) as [[r P]|[[_ P]|[_ P]]].
      * exfalso. apply tcp_parse_response_frame in P; try (cbn [mb_tid mb_pid]; unfold fits; lia); try (now apply tcp_frame_bytes).
        destruct P as [_ P]. cbn [mb_tid mb_pid mb_uid] in P. apply tcp_frame_inj in P; try (unfold fits; lia).
      * rewrite P in ER. auto.
      * rewrite P in ER. auto.
Qed.
(** No failure is lasting: whatever happened in the calls before, a call whose reply is the first to arrive after its request gets it. *)
Theorem C76_recovers : forall s calls s' es i a n e w x pdu rest,
  0 <= st_last s <= 65535 -> tcp_session s calls = (s', es) ->
  nth_error calls i = Some (a, n) -> nth_error es i = Some e -> ex_sent e = Some (w, x) -> n_reopen n = Ok tt ->
  bytes pdu -> zlen pdu < 65535 -> stream (n_after n) = reply_to w pdu ++ rest ->
  ex_result e = answered_with a pdu.
Proof.
  intros s calls s' es i a n e w x pdu rest T H Hc He Hs Hr B Lp HF. assert (T' : 0 <= st_last s < 65536) by lia.
  destruct (session_nth calls s s' es i a n e H Hc He) as (si & EE & TI). specialize (TI T').
  unfold tcp_call in EE. cbn [snd] in EE.
  destruct (execute_sent _ _ _ _ _ _ TI EE Hs) as (b & EB & Ex & U & L & EL & EW & ER).
  pose proof (tid_range _ TI) as TR. set (tid := next_transaction_id (st_last si)) in *.
  destruct (send_recv_stream (st_buf si) n w) as [(er & R1 & _)|(c & C1 & C2 & C3)]; [congruence|].
  rewrite C3 in ER. rewrite EW, reply_frame in HF.
  destruct (C45_one_frame c (tcp_frame tid 0 (ea_slave a) pdu) rest (frame_self_delimited _ _ _ U B Lp) ltac:(congruence)) as (c' & RV & _).
  rewrite RV in ER. cbn [bind] in ER. rewrite parse_own in ER by (assumption || lia). rewrite ER. symmetry. apply (answered_own (st_last si)); assumption.
Qed.
(** three calls: the reply to the first comes after the request of the second, the reply to the second is there before the third *)
Definition late_session : list (exec_args * net) :=
  [ (args_of 1 (ReadRegs true 0 1), {| n_before := []; n_closed := false; n_reopen := Ok tt; n_after := {| c_segs := []; c_end := Stalled |} |});
    (args_of 1 (ReadRegs true 9 1), {| n_before := []; n_closed := false; n_reopen := Ok tt; n_after := {| c_segs := [tcp_frame 1 0 1 [3; 2; 0; 17]]; c_end := Stalled |} |});
    (args_of 1 (ReadRegs true 5 1), {| n_before := tcp_frame 2 0 1 [3; 2; 0; 18]; n_closed := false; n_reopen := Ok tt;
                                       n_after := {| c_segs := [tcp_frame 3 0 1 [3; 2; 0; 19]]; c_end := Stalled |} |}) ].
Definition start0 : tcp_state := {| st_last := 0; st_buf := {| rb_data := []; rb_closed := false |} |}.
Example C76_nonvacuous :
  map ex_result (snd (tcp_session start0 late_session)) =
    [Some (Err SocketTimeout); Some (Err ModbusInvalidMbapError); Some (Ok (RTuple [19]))] /\
  replies_only (snd (tcp_session start0 late_session)) 1 (tcp_frame 1 0 1 [3; 2; 0; 17]).
Proof.
  split; [vm_compute; reflexivity|]. exists [tcp_frame 1 0 1 [3; 2; 0; 17]]. split; [reflexivity|]. constructor; [|constructor].
  exists 0%nat. do 3 eexists. exists [3; 2; 0; 17]. split; [lia|]. split; [lia|]. split; [vm_compute; reflexivity|]. split; [vm_compute; reflexivity|].
  split; [apply bytes_compute; reflexivity|]. split; [reflexivity|]. vm_compute. reflexivity.
Qed.

(** Refuted without the hypotheses: (1) a reply that is in the middle of arriving when the next request is written.  The flush throws away
    its beginning, and register values in its end are taken for the reply to the next call, to which nobody replied. *)
Theorem C76_split_refuted : exists a0 n0 a1 n1 e0 e1 w vals,
  snd (tcp_session start0 [(a0, n0); (a1, n1)]) = [e0; e1] /\
  a0 = args_of 1 (ReadRegs true 0 7) /\ a1 = args_of 1 (ReadRegs true 100 1) /\
  ex_sent e0 = Some (w, 19) /\ ex_result e0 = Some (Err SocketTimeout) /\
  zlen vals = 7 /\ Forall (fits true) vals /\ n_closed n1 = false /\
  n_before n1 ++ stream (n_after n1) = reply_to w (3 :: 14 :: words vals) /\
  ex_result e1 = Some (Ok (RTuple [57005])).
Proof.
  pose (vals := [2; 0; 5; 259; 734; 44288; 0]). pose (late := tcp_frame 1 0 1 (3 :: 14 :: words vals)).
  exists (args_of 1 (ReadRegs true 0 7)), {| n_before := []; n_closed := false; n_reopen := Ok tt; n_after := {| c_segs := []; c_end := Stalled |} |}.
  exists (args_of 1 (ReadRegs true 100 1)), {| n_before := firstn 9 late; n_closed := false; n_reopen := Ok tt; n_after := {| c_segs := [skipn 9 late]; c_end := Stalled |} |}.
  do 3 eexists. exists vals. split; [vm_compute; reflexivity|].
  split; [reflexivity|]. split; [reflexivity|]. split; [vm_compute; reflexivity|]. split; [vm_compute; reflexivity|].
  split; [reflexivity|]. split; [unfold vals, fits; repeat (constructor; [lia|]); constructor|]. split; [reflexivity|].
  split; vm_compute; reflexivity.
Qed.

(** (2) a reply that is 65536 calls late is taken for the reply to the present call: the transaction ids have come round. *)
Definition silent : net := {| n_before := []; n_closed := false; n_reopen := Ok tt; n_after := {| c_segs := []; c_end := Stalled |} |}.
Lemma silent_call last : 0 <= last < 65536 ->
  tcp_call {| st_last := last; st_buf := {| rb_data := []; rb_closed := false |} |} (args_of 1 (ReadRegs true 0 1)) silent =
  ({| st_last := (last + 1) mod 65536; st_buf := {| rb_data := []; rb_closed := false |} |},
   {| ex_last := (last + 1) mod 65536; ex_sent := Some (tcp_frame ((last + 1) mod 65536) 0 1 [3; 0; 0; 0; 1], 7); ex_result := Some (Err SocketTimeout) |}).
Proof.
  intros T. unfold tcp_call. cbn [st_last st_buf].
  assert (X : forall w, tcp_send_recv {| rb_data := []; rb_closed := false |} silent w = ({| rb_data := []; rb_closed := false |}, Err SocketTimeout)).
  { intros w. unfold tcp_send_recv.
    change (tcp_master_send no_hook (at_flush {| rb_data := []; rb_closed := false |} silent) (n_reopen silent) w) with (@Ok (sent_on * list Z) (SameConnection {| rb_data := []; rb_closed := false |}, w)).
    cbn match. rewrite nil_timeout by reflexivity. reflexivity. }
  unfold execute.
  replace (execute_build (args_of 1 (ReadRegs true 0 1))) with (Ok {| bl_pdu := [3; 0; 0; 0; 1]; bl_is_read := true; bl_digits := 0; bl_format := ">H"; bl_expected := 7 |}) by (vm_compute; reflexivity).
  cbn [build_request bl_pdu bl_expected args_of ea_slave].
  rewrite tcp_build_request_ok by (first [apply bytes_compute; reflexivity | unfold is_byte; lia | reflexivity | lia]).
  cbn [bind fst snd ex_last ex_sent]. rewrite !X. cbn [fst snd bind]. rewrite next_tid by lia. reflexivity.
Qed.
Lemma silent_calls k : forall last, 0 <= last < 65536 ->
  fst (tcp_session {| st_last := last; st_buf := {| rb_data := []; rb_closed := false |} |} (repeat (args_of 1 (ReadRegs true 0 1), silent) k))
  = {| st_last := (last + Z.of_nat k) mod 65536; st_buf := {| rb_data := []; rb_closed := false |} |}.
Proof.
  induction k as [|k IH]; intros last T.
  - cbn [repeat tcp_session fst]. f_equal. lia.
  - cbn [repeat tcp_session]. rewrite silent_call by exact T. specialize (IH ((last + 1) mod 65536) ltac:(lia)).
    destruct (tcp_session _ _) as [s2 es]. cbn [fst] in *. rewrite IH. f_equal. lia.
Qed.
Lemma session_app l1 : forall s l2, tcp_session s (l1 ++ l2) =
  (fst (tcp_session (fst (tcp_session s l1)) l2), snd (tcp_session s l1) ++ snd (tcp_session (fst (tcp_session s l1)) l2)).
Proof.
  induction l1 as [|[a n] t IH]; intros s l2; [cbn [tcp_session fst snd app]; now destruct (tcp_session s l2)|].
  cbn [app tcp_session]. destruct (tcp_call s a n) as [s1 e]. rewrite IH. destruct (tcp_session s1 t) as [s2 es]. cbn [fst snd].
  destruct (tcp_session s2 l2). reflexivity.
Qed.
Lemma session_length l : forall s, length (snd (tcp_session s l)) = length l.
Proof.
  induction l as [|[a n] t IH]; intros s; [reflexivity|]. cbn [tcp_session]. destruct (tcp_call s a n) as [s1 e]. specialize (IH s1).
  destruct (tcp_session s1 t). cbn [snd length] in *. lia.
Qed.
Lemma session_cons s a n t : snd (tcp_session s ((a, n) :: t)) = snd (tcp_call s a n) :: snd (tcp_session (fst (tcp_call s a n)) t).
Proof. cbn [tcp_session]. destruct (tcp_call s a n) as [s1 e]. cbn [fst snd]. destruct (tcp_session s1 t). reflexivity. Qed.
Definition much_too_late : net :=
  {| n_before := []; n_closed := false; n_reopen := Ok tt; n_after := {| c_segs := [tcp_frame 1 0 1 [3; 2; 0; 17]]; c_end := Stalled |} |}.
Lemma wrap_session k : (1 + Z.of_nat k) mod 65536 = 0 -> forall a,
  snd (tcp_session start0 (((args_of 1 (ReadRegs true 0 1), silent) :: repeat (args_of 1 (ReadRegs true 0 1), silent) k) ++ [(a, much_too_late)])) =
  snd (tcp_call start0 (args_of 1 (ReadRegs true 0 1)) silent) ::
  snd (tcp_session {| st_last := 1; st_buf := {| rb_data := []; rb_closed := false |} |} (repeat (args_of 1 (ReadRegs true 0 1), silent) k)) ++
  [snd (tcp_call start0 a much_too_late)].
Proof.
  intros E a. rewrite <- app_comm_cons, session_cons. f_equal. unfold start0 at 1. rewrite silent_call by lia. cbn [fst].
  change ((0 + 1) mod 65536) with 1. rewrite session_app. cbn [snd]. rewrite silent_calls by lia. rewrite E.
  rewrite session_cons. reflexivity.
Qed.
Theorem C76_wrap_refuted : exists calls n es0 e0 e w v, Z.of_nat (length calls) = 65536 /\
  snd (tcp_session start0 (calls ++ [(args_of 1 (ReadRegs true 9 1), n)])) = e0 :: es0 ++ [e] /\
  ex_sent e0 = Some (w, 7) /\ stream (n_after n) = reply_to w (3 :: 2 :: word v) /\ (exists c t, calls = c :: t /\ fst c = args_of 1 (ReadRegs true 0 1)) /\
  ex_result e = Some (Ok (RTuple [v])).
Proof.
  assert (K : exists k, Z.of_nat k = 65535) by (exists (Z.to_nat 65535); rewrite Z2Nat.id by lia; reflexivity). destruct K as [k K].
  exists ((args_of 1 (ReadRegs true 0 1), silent) :: repeat (args_of 1 (ReadRegs true 0 1), silent) k), much_too_late. do 3 eexists.
  exists (tcp_frame 1 0 1 [3; 0; 0; 0; 1]), 17.
  split; [cbn [length]; rewrite repeat_length; lia|].
  split; [apply wrap_session; rewrite K; reflexivity|].
  split; [vm_compute; reflexivity|]. split; [reflexivity|]. split; [do 2 eexists; split; reflexivity|]. vm_compute. reflexivity.
Qed.

(** (3) On a serial line there are no transaction ids: whatever arrives after the request, a read of [n] registers at one address gets the
    same result as a read of [n] registers at any other address.  A late response to the one is returned as the result of the other. *)
Theorem C76_serial_refuted : forall u holding a a' n after, 0 <= u <= 255 -> fits true a -> fits true a' -> fits true n ->
  ex_result (rtu_call (args_of u (ReadRegs holding a n)) after) = ex_result (rtu_call (args_of u (ReadRegs holding a' n)) after).
Proof.
  intros u h a a' n after U A A' N.
  assert (X : forall b, fits true b -> rtu_call (args_of u (ReadRegs h b n)) after =
     {| ex_last := 0; ex_sent := ex_sent (rtu_call (args_of u (ReadRegs h b n)) after);
        ex_result := match (response <- match rtu_master_recv no_hook TPositive [] (expected_call (ReadRegs h 0 n)) after with Some (_, r) => r | None => Err NotModelled end ;; rtu_parse_response u response) with
                     | Err e => Some (Err e)
                     | Ok pdu => execute_decode (file_fuel pdu) (args_of u (ReadRegs h 0 n)) (built_as (ReadRegs h 0 n) []) pdu
                     end |}).
  { intros b B. destruct (build_call u (ReadRegs h b n)) as (pdu & P & Bp & EB); [split; assumption|].
    unfold rtu_call, execute. rewrite EB. cbn [build_request]. unfold built_as. cbn [bl_pdu]. cbn [ea_slave args_of].
    rewrite rtu_build_request_ok by (assumption || (unfold is_byte; lia)). cbn [bind fst snd ex_sent bl_expected]. reflexivity. }
  rewrite (X a A), (X a' A'). reflexivity.
Qed.
(** the response to a read at 0 arrives after the request for a read at 9 *)
Example C76_serial_ex : ex_result (rtu_call (args_of 1 (ReadRegs true 9 1)) [Burst (sealed [1; 3; 2; 0; 17]); Silence]) = Some (Ok (RTuple [17])).
Proof. vm_compute. reflexivity. Qed.

(** When a call needs a new connection: the peer has closed the old one, or more than 2048 bytes wait to be thrown away. *)
Definition needs_new (s : tcp_state) (n : net) : Prop :=
  rb_closed (st_buf s) = true \/ n_closed n = true \/ 2048 < zlen (rb_data (st_buf s)) + zlen (n_before n).
Lemma flush3 b : (exists b', flush_socket b 3 = (b', Ok tt)) <-> rb_closed b = false /\ zlen (rb_data b) <= 2048.
Proof.
  destruct b as [d c]. unfold flush_socket. cbn [rb_closed rb_data].
  assert (K : forall l : list Z, skipn 1024 l = [] <-> zlen l <= 1024). { intros l. unfold zlen. split; intros H; [|apply skipn_all2; lia]. apply (f_equal (@length Z)) in H. rewrite skipn_length in H. cbn [length] in H. lia. }
  destruct c.
  - split; [|intros [X _]; discriminate X]. intros (b' & H). exfalso. cbn [flush_loop rb_data rb_closed] in H. destruct d; [|destruct (skipn 1024 _); [|destruct (skipn 1024 _)]]; cbn in H; try discriminate H; repeat (destruct (skipn 1024 _)); discriminate H.
  - cbn [flush_loop rb_data rb_closed]. destruct d as [|x d]; [split; [intros _; split; [reflexivity|unfold zlen; cbn; lia]|intros _; eauto]|].
    destruct (skipn 1024 (x :: d)) as [|y l] eqn:E1.
    + split; [intros _; split; [reflexivity|apply K in E1; lia]|intros _; eauto].
    + destruct (skipn 1024 (y :: l)) as [|z l2] eqn:E2.
      * split; [intros _; split; [reflexivity|]|intros _; eauto]. apply K in E2. rewrite <- E1 in E2. unfold zlen in *. rewrite skipn_length in E2. lia.
      * split; [intros (b' & H); discriminate H|]. intros (_ & H). exfalso. assert (X : skipn 1024 (y :: l) = []); [|congruence]. apply K. rewrite <- E1. unfold zlen in *. rewrite skipn_length. lia.
Qed.
Theorem C76_new_connection : forall s a n,
  (needs_new s n -> forall er e w x, n_reopen n = Err er -> snd (tcp_call s a n) = e -> ex_sent e = Some (w, x) -> ex_result e = Some (Err er)) /\
  (~ needs_new s n -> forall other, tcp_call s a n = tcp_call s a {| n_before := n_before n; n_closed := n_closed n; n_reopen := other; n_after := n_after n |}).
Proof.
  intros s a n. assert (D : needs_new s n <-> ~ exists b', flush_socket (at_flush (st_buf s) n) 3 = (b', Ok tt)).
  { rewrite flush3. unfold at_flush, needs_new. cbn [rb_data rb_closed]. rewrite zlen_app. destruct (rb_closed (st_buf s)), (n_closed n); cbn [orb]; split; intros H; try (intros (X & _); discriminate X); auto.
    - destruct H as [H|[H|H]]; try discriminate H. lia.
    - right. right. destruct (Z.le_gt_cases (zlen (rb_data (st_buf s)) + zlen (n_before n)) 2048) as [L|L]; [exfalso; apply H; auto|lia]. }
  split.
  - intros N er e w x R <- Sd. apply D in N. cbn [tcp_call snd] in *.
    assert (F : forall w, snd (tcp_send_recv (st_buf s) n w) = Err er).
    { intros w0. unfold tcp_send_recv, tcp_master_send. destruct (flush_socket _ 3) as [b' [u|q]]; [exfalso; apply N; destruct u; eauto|]. rewrite R. reflexivity. }
    unfold execute in *. destruct (execute_build a) as [b|]; [|discriminate Sd]. destruct (build_request _ _ _ _) as [l [(h, q)|]]; [|discriminate Sd]. cbn [ex_result] in *. now rewrite F.
  - intros N other. assert (E : exists b', flush_socket (at_flush (st_buf s) n) 3 = (b', Ok tt)).
    { apply flush3. unfold needs_new in N. unfold at_flush. cbn [rb_data rb_closed]. rewrite zlen_app. destruct (rb_closed (st_buf s)), (n_closed n); try (exfalso; apply N; auto; fail). split; [reflexivity|lia]. }
    destruct E as (b' & E). set (n' := {| n_before := n_before n; n_closed := n_closed n; n_reopen := other; n_after := n_after n |}).
    assert (F : forall w, tcp_send_recv (st_buf s) n w = tcp_send_recv (st_buf s) n' w).
    { intros w. unfold tcp_send_recv, tcp_master_send. change (at_flush (st_buf s) n') with (at_flush (st_buf s) n). rewrite E. reflexivity. }
    unfold tcp_call. change (at_flush (st_buf s) n') with (at_flush (st_buf s) n). unfold execute.
    destruct (execute_build a) as [b|]; [|reflexivity]. destruct (build_request _ _ _ _) as [l [(h, q)|]]; [|reflexivity]. cbn [ex_result ex_sent ex_last]. now rewrite F.
Qed.

(** After a reconnection that failed there is no connection: every next call tries to make one again, and ends with the error of
    that attempt if it fails too. *)
Theorem C76_stays_down : forall s a n er s' e w x, needs_new s n -> n_reopen n = Err er -> tcp_call s a n = (s', e) -> ex_sent e = Some (w, x) ->
  forall n', needs_new s' n'.
Proof.
  intros s a n er s' e w x N R T Sd n'. assert (D : ~ exists b', flush_socket (at_flush (st_buf s) n) 3 = (b', Ok tt)).
  { rewrite flush3. unfold at_flush. cbn [rb_data rb_closed]. rewrite zlen_app. unfold needs_new in N. destruct (rb_closed (st_buf s)), (n_closed n); cbn [orb]; intros (X & Y); try discriminate X. destruct N as [N|[N|N]]; try discriminate N; lia. }
  assert (F : forall w, fst (tcp_send_recv (st_buf s) n w) = {| rb_data := []; rb_closed := true |}).
  { intros w0. unfold tcp_send_recv, tcp_master_send. destruct (flush_socket _ 3) as [b' [u|q]]; [exfalso; apply D; destruct u; eauto|]. now rewrite R. }
  unfold tcp_call in T. injection T as <- <-. left. cbn [st_buf]. cbn [ex_sent] in Sd |- *. match goal with |- context [match ?e with _ => _ end] => replace e with (Some (w, x)) by (symmetry; exact Sd) end. now rewrite F.
Qed.

Print Assumptions C76_own_reply_partial.
Print Assumptions C76_recovers.
Print Assumptions C76_split_refuted.
Print Assumptions C76_wrap_refuted.
Print Assumptions C76_serial_refuted.
Print Assumptions C76_new_connection.
Print Assumptions C76_stays_down.
