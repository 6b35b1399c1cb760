(** Property C94: calls of one master, one after the other, with functions installed at its hooks that replace or raise: a call that
    failed leaves nothing behind.
    Vocabulary: Spec.v, FrameSpec.v, CrcSpec.v, MasterSpec.v, TransportSpec.v, reply_to and answered_with of PropSession.v, and the
    definitions marked "spec" below. *)
From Coq Require Import Lia ZifyBool ZifyNat.
From Verif Require Import Base BaseFacts PyStruct Spec StructFacts StructMore.
From Verif Require Import DatabankModel DatabankProofs FrameSpec CrcSpec UtilsModel QueryModel QueryProofs SlaveSpec DbSpec MasterModel MasterSpec MasterProofs.
From Verif Require Import PropDatabank PropMaster TransportModel TransportSpec TransportProofs PropTransport SessionModel PropSession HookedCallModel.
Ltac Zify.zify_post_hook ::= Z.div_mod_to_equations.
Open Scope string_scope.
Open Scope list_scope.
Open Scope Z_scope.

(** Spec: no function at any hook, or functions that return None. *)
Definition quiet (h : call_hooks) : Prop :=
  (forall b, ch_before_send h b = Ok None) /\ (forall b, ch_mac_before_send h b = Ok None) /\ ch_after_send h = None /\
  (forall b, ch_mac_after_recv h b = Ok None) /\ (forall b, ch_after_recv h b = Ok None).
Definition no_hooks : call_hooks :=
  {| ch_before_send := fun _ => Ok None; ch_mac_before_send := fun _ => Ok None; ch_after_send := None;
     ch_mac_after_recv := fun _ => Ok None; ch_after_recv := fun _ => Ok None |}.
(** Spec: a function called with the request before it is sent raises [er]. *)
Definition raises_before (h : call_hooks) (request : list Z) (er : exn) : Prop :=
  ch_before_send h request = Err er \/
  (ch_before_send h request = Ok None /\ ch_mac_before_send h request = Err er).
(** Spec: what execute(a) returns or raises over RTU if its request is answered at once with the bytes [response]. *)
Definition rtu_answered_with (a : exec_args) (response : list Z) : option (res exec_result) :=
  ex_result (execute RTU 0 a (fun _ _ => Ok response)).

(** ** One call *)
Lemma quiet_before h w : quiet h -> before_sending h w = Ok w.
Proof. intros (A & B & _). unfold before_sending. rewrite A. cbn [bind kept_or]. rewrite B. reflexivity. Qed.
Lemma quiet_after h w : quiet h -> after_receiving h w = Ok w.
Proof. intros (_ & _ & _ & A & B). unfold after_receiving. rewrite A. cbn [bind kept_or]. rewrite B. reflexivity. Qed.
Lemma rtu_loop_same e fuel : forall c c' r, same_stream c c' -> same_outcome (rtu_tcp_recv_loop fuel c r e) (rtu_tcp_recv_loop fuel c' r e).
Proof.
  induction fuel as [|fuel IH]; intros c c' r S; cbn [rtu_tcp_recv_loop]; [exact Logic.I|].
  destruct (zlen r <? 255); [|split; [reflexivity|exact S]].
  destruct (recv1_same c c' S) as (d & d' & v & R & R' & S' & [->|[[er ->]|[x ->]]]); rewrite R, R'; try (split; [reflexivity|exact S']).
  - destruct ((0 <=? e) && _); [split; [reflexivity|exact S']|now apply IH].
  - destruct ((0 <=? e) && _); [split; [reflexivity|exact S']|now apply IH].
Qed.
Lemma sock_recv_tcp e c : sock_recv false e c = tcp_master_recv no_hook c.
Proof. reflexivity. Qed.
Lemma sock_recv_same rtu e c c' : same_stream c c' -> same_outcome (sock_recv rtu e c) (sock_recv rtu e c').
Proof.
  intros S. unfold sock_recv. destruct rtu.
  - unfold rtu_tcp_master_recv. destruct S as [S E]. unfold stream in S. rewrite S.
    pose proof (rtu_loop_same e (length (concat (c_segs c')) + 300) c c' [] (conj S E)) as K. unfold same_outcome in *.
    destruct (rtu_tcp_recv_loop _ c _ _) as [[d [r|?]]|], (rtu_tcp_recv_loop _ c' _ _) as [[d' [r'|?]]|]; try contradiction; try exact K;
      destruct K as [K1 K2]; try discriminate K1; injection K1 as ->; split; auto.
  - pose proof (C45_segmentation c c' S) as K. exact K.
Qed.
(** the connection after the request: what arrives after it, only *)
Lemma sent_stream b n w on out : tcp_master_send no_hook (at_flush b n) (n_reopen n) w = Ok (on, out) ->
  out = w /\ same_stream (conn_on on n) (n_after n).
Proof.
  intros H. destruct (C66_no_stale_bytes _ _ _ _ _ H) as [-> K]. split; [reflexivity|].
  destruct on as [b'|]; cbn [conn_on]; [|split; reflexivity].
  destruct K as [K _]. split; [|reflexivity]. unfold stream. cbn [c_segs concat]. rewrite K. reflexivity.
Qed.
Lemma send_possible b n w : n_reopen n = Ok tt -> exists on, tcp_master_send no_hook (at_flush b n) (n_reopen n) w = Ok (on, w).
Proof.
  intros R. unfold tcp_master_send. rewrite R. destruct (flush_socket _ 3) as [b' [?|?]]; eexists; reflexivity.
Qed.
(** what one exchange writes and returns depends on what arrives after the request only *)
Lemma exchange_same rtu h b b' n n' w x : n_reopen n = Ok tt -> n_reopen n' = Ok tt -> same_stream (n_after n) (n_after n') ->
  dn_written (sock_exchange rtu h b n w x) = dn_written (sock_exchange rtu h b' n' w x) /\
  dn_response (sock_exchange rtu h b n w x) = dn_response (sock_exchange rtu h b' n' w x).
Proof.
  intros R R' S. unfold sock_exchange. destruct (before_sending h w) as [w'|er]; [|auto].
  destruct (send_possible b n w' R) as [on E], (send_possible b' n' w' R') as [on' E']. rewrite E, E'.
  destruct (sent_stream _ _ _ _ _ E) as [_ [K1 K2]], (sent_stream _ _ _ _ _ E') as [_ [K1' K2']]. destruct S as [S1 S2].
  destruct (ch_after_send h); [auto|].
  pose proof (sock_recv_same rtu x (conn_on on n) (conn_on on' n') ltac:(split; congruence)) as K. unfold same_outcome in K.
  destruct (sock_recv rtu x (conn_on on n)) as [[c r]|], (sock_recv rtu x (conn_on on' n')) as [[c' r']|]; try contradiction; [|auto].
  destruct K as [-> _]. auto.
Qed.
(** any exchange *)
Lemma execute_same m last a ex ex' : (forall w x, ex w x = ex' w x) -> execute m last a ex = execute m last a ex'.
Proof.
  intros H. unfold execute. destruct (execute_build a); [|reflexivity]. destruct (build_request m last _ _) as [l [[hd r]|e]]; [|reflexivity].
  cbn [fst snd]. rewrite H. reflexivity.
Qed.
Lemma execute_result m last a ex ex' w x : ex_sent (execute m last a ex) = Some (w, x) -> ex w x = ex' w x ->
  execute m last a ex = execute m last a ex'.
Proof.
  unfold execute. destruct (execute_build a); [|auto]. destruct (build_request m last _ _) as [l [[hd r]|e]]; [|auto].
  cbn [bind fst snd ex_sent]. intros [= <- <-] ->. reflexivity.
Qed.
Lemma execute_err m last a ex w x er : ex_sent (execute m last a ex) = Some (w, x) -> ex w x = Err er ->
  ex_result (execute m last a ex) = Some (Err er).
Proof.
  unfold execute. destruct (execute_build a); [|discriminate]. destruct (build_request m last _ _) as [l [[hd r]|e]]; [|discriminate].
  cbn [bind fst snd ex_sent ex_result]. intros [= <- <-] ->. reflexivity.
Qed.
Lemma any_last_range m last a ex : 0 <= last <= 65535 -> 0 <= ex_last (execute m last a ex) <= 65535.
Proof.
  intros T. unfold execute. destruct (execute_build a) as [b|]; [|exact T]. destruct m; cbn [build_request].
  - destruct (rtu_build_request _ _); cbn; exact T.
  - destruct (tcp_build_request last (bl_pdu b) (ea_slave a)) as [l r] eqn:Q.
    assert (T' : 0 <= last < 65536) by lia. destruct (build_shape _ _ _ _ _ T' Q) as [(-> & er & ->)|[(-> & er & ->)|(-> & _ & _ & ->)]]; cbn; try exact T;
      pose proof (tid_range last ltac:(lia)); lia.
Qed.
Lemma rtu_any_last last last' a ex : ex_result (execute RTU last a ex) = ex_result (execute RTU last' a ex) /\
  ex_sent (execute RTU last a ex) = ex_sent (execute RTU last' a ex).
Proof. unfold execute. destruct (execute_build a); [|auto]. cbn [build_request]. destruct (rtu_build_request _ _); auto. Qed.
Lemma call_shape rtu s a h n : exists ex,
  ex = (fun request expected => dn_response (sock_exchange rtu h (st_buf s) n request expected)) /\
  fst (snd (sock_call rtu s a h n)) = execute (if rtu then RTU else TCP) (st_last s) a ex /\
  st_last (fst (sock_call rtu s a h n)) = ex_last (execute (if rtu then RTU else TCP) (st_last s) a ex) /\
  (forall w x, ex_sent (execute (if rtu then RTU else TCP) (st_last s) a ex) = Some (w, x) ->
     snd (snd (sock_call rtu s a h n)) = dn_written (sock_exchange rtu h (st_buf s) n w x) /\
     st_buf (fst (sock_call rtu s a h n)) = dn_buf (sock_exchange rtu h (st_buf s) n w x)) /\
  (ex_sent (execute (if rtu then RTU else TCP) (st_last s) a ex) = None -> snd (snd (sock_call rtu s a h n)) = None).
Proof.
  eexists. split; [reflexivity|]. unfold sock_call.
  destruct (ex_sent (execute _ (st_last s) a _)) as [[w x]|] eqn:E; cbn [fst snd st_last st_buf].
  - split; [reflexivity|]. split; [reflexivity|]. split; [intros w' x' [= <- <-]; auto|discriminate].
  - split; [reflexivity|]. split; [reflexivity|]. split; [discriminate|reflexivity].
Qed.
Lemma sock_nth rtu calls : forall s s' es i a h n e, sock_session rtu s calls = (s', es) ->
  nth_error calls i = Some (a, h, n) -> nth_error es i = Some e -> 0 <= st_last s <= 65535 ->
  exists si, e = snd (sock_call rtu si a h n) /\ 0 <= st_last si <= 65535.
Proof.
  induction calls as [|[[a0 h0] n0] t IH]; intros s s' es i a h n e H Hc He T; [destruct i; discriminate|].
  cbn [sock_session] in H. destruct (sock_call rtu s a0 h0 n0) as [s1 e0] eqn:C0. destruct (sock_session rtu s1 t) as [s2 es0] eqn:S0.
  injection H as <- <-. destruct i as [|i]; cbn [nth_error] in *.
  - injection Hc as -> -> ->. injection He as <-. exists s. rewrite C0. auto.
  - apply (IH s1 s2 es0 i a h n e S0 Hc He). destruct (call_shape rtu s a0 h0 n0) as (ex & _ & _ & K & _). rewrite C0 in K. cbn [fst] in K. rewrite K.
    now apply any_last_range.
Qed.
Lemma quiet_exchange rtu h b n w x : quiet h -> n_reopen n = Ok tt -> exists c, same_stream c (n_after n) /\
  dn_written (sock_exchange rtu h b n w x) = Some w /\
  dn_response (sock_exchange rtu h b n w x) = match sock_recv rtu x c with Some (_, r) => r | None => Err NotModelled end.
Proof.
  intros Q R. destruct (send_possible b n w R) as [on E]. exists (conn_on on n). destruct (sent_stream _ _ _ _ _ E) as [_ K]. split; [exact K|].
  unfold sock_exchange. rewrite quiet_before by exact Q. rewrite E. destruct Q as (Q1 & Q2 & -> & Q4).
  destruct (sock_recv rtu x (conn_on on n)) as [[c [r|?]]|]; cbn [dn_written dn_response bind]; auto.
  split; [reflexivity|]. unfold after_receiving. destruct Q4 as [Q4 Q5]. rewrite Q4. cbn [bind kept_or]. rewrite Q5. reflexivity.
Qed.

(** ** C94 *)
(** (1) After any calls, with any functions at the hooks, failing in any way: a call of a TcpMaster without hooks whose reply is the first
    thing to arrive after its request writes its request as it is and returns what the reply says. *)
Theorem C94_recovers_tcp : forall s calls s' es i a h n e written w x pdu rest,
  0 <= st_last s <= 65535 -> sock_session false s calls = (s', es) ->
  nth_error calls i = Some (a, h, n) -> nth_error es i = Some (e, written) -> quiet h -> ex_sent e = Some (w, x) -> n_reopen n = Ok tt ->
  bytes pdu -> zlen pdu < 65535 -> stream (n_after n) = reply_to w pdu ++ rest ->
  written = Some w /\ ex_result e = answered_with a pdu.
Proof.
  intros s calls s' es i a h n e written w x pdu rest T H Hc He Q Hs Hr B Lp HF.
  destruct (sock_nth false calls s s' es i a h n _ H Hc He T) as (si & EE & TI).
  destruct (call_shape false si a h n) as (ex & EX & E1 & _ & E3 & _). rewrite <- EE in E1, E3. cbn [fst snd] in E1, E3.
  rewrite E1 in Hs. destruct (E3 w x Hs) as [EWr _]. rewrite <- E1 in Hs.
  assert (TI' : 0 <= st_last si < 65536) by lia.
  destruct (execute_sent _ _ _ _ _ _ TI' E1 Hs) as (b & EB & Ex & U & L & EL & EW & ER).
  pose proof (tid_range _ TI') as TR. set (tid := next_transaction_id (st_last si)) in *.
  destruct (quiet_exchange false h (st_buf si) n w x Q Hr) as (c & [C1 C2] & C3 & C4). split; [congruence|].
  rewrite EX, C4 in ER. rewrite EW, reply_frame in HF. rewrite sock_recv_tcp in ER.
  destruct (C45_one_frame c (tcp_frame tid 0 (ea_slave a) pdu) rest (frame_self_delimited _ _ _ U B Lp) ltac:(congruence)) as (c' & RV & _).
  rewrite RV in ER. cbn [bind] in ER. rewrite parse_own in ER by (assumption || lia). rewrite ER. symmetry. apply (answered_own (st_last si)); assumption.
Qed.
(** The same for an RtuOverTcpMaster, whose frames carry no number: the response must have the length that the call expects, and at most
    255 bytes (property C49 says what happens otherwise). *)
Theorem C94_recovers_rtu_over_tcp_partial : forall s calls s' es i a h n e written w x response rest,
  0 <= st_last s <= 65535 -> sock_session true s calls = (s', es) ->
  nth_error calls i = Some (a, h, n) -> nth_error es i = Some (e, written) -> quiet h -> ex_sent e = Some (w, x) -> n_reopen n = Ok tt ->
  response <> [] -> zlen response = x -> x <= 255 -> stream (n_after n) = response ++ rest ->
  written = Some w /\ ex_result e = rtu_answered_with a response.
Proof.
  intros s calls s' es i a h n e written w x response rest T H Hc He Q Hs Hr B Lp L5 HF.
  destruct (sock_nth true calls s s' es i a h n _ H Hc He T) as (si & EE & TI).
  destruct (call_shape true si a h n) as (ex & EX & E1 & _ & E3 & _). rewrite <- EE in E1, E3. cbn [fst snd] in E1, E3.
  rewrite E1 in Hs. destruct (E3 w x Hs) as [EWr _].
  destruct (quiet_exchange true h (st_buf si) n w x Q Hr) as (c & [C1 C2] & C3 & C4). split; [congruence|].
  destruct (C49_complete_partial c response rest (length (concat (c_segs c)) + 300) B ltac:(lia) ltac:(congruence)) as (c' & RV & _).
  { rewrite HF in C1. unfold stream in C1. rewrite C1, app_length. lia. }
  unfold sock_recv in C4. rewrite <- Lp, RV in C4.
  assert (K : ex w x = Ok response) by (rewrite EX; subst x; exact C4).
  rewrite E1, (execute_result RTU (st_last si) a ex (fun _ _ => Ok response) w x Hs K). unfold rtu_answered_with. apply rtu_any_last.
Qed.

(** (2) What a call does - the request, what is written, the result - does not depend on the calls before it, on what they left in the
    receive buffer, nor on what arrived since: over RTU over TCP not at all, over TCP only by the number of the request.  A reconnection
    must succeed if one is needed. *)
Lemma call_no_memory rtu s1 s2 a h n1 n2 :
  (rtu = true \/ st_last s1 = st_last s2) -> n_reopen n1 = Ok tt -> n_reopen n2 = Ok tt -> same_stream (n_after n1) (n_after n2) ->
  ex_sent (fst (snd (sock_call rtu s1 a h n1))) = ex_sent (fst (snd (sock_call rtu s2 a h n2))) /\
  ex_result (fst (snd (sock_call rtu s1 a h n1))) = ex_result (fst (snd (sock_call rtu s2 a h n2))) /\
  snd (snd (sock_call rtu s1 a h n1)) = snd (snd (sock_call rtu s2 a h n2)).
Proof.
  intros L R1 R2 S.
  destruct (call_shape rtu s1 a h n1) as (ex & EX & E1 & _ & E3 & E4), (call_shape rtu s2 a h n2) as (ex' & EX' & E1' & _ & E3' & E4').
  assert (K : forall w x, ex w x = ex' w x) by (intros w x; subst ex ex'; apply exchange_same; assumption).
  assert (M : ex_sent (execute (if rtu then RTU else TCP) (st_last s1) a ex) = ex_sent (execute (if rtu then RTU else TCP) (st_last s2) a ex') /\
              ex_result (execute (if rtu then RTU else TCP) (st_last s1) a ex) = ex_result (execute (if rtu then RTU else TCP) (st_last s2) a ex')).
  { rewrite (execute_same _ _ a ex ex' K). destruct L as [-> | ->]; [|auto].
    destruct (rtu_any_last (st_last s1) (st_last s2) a ex') as [A B]. auto. }
  rewrite E1, E1'. destruct M as [M1 M2]. split; [exact M1|]. split; [exact M2|].
  destruct (ex_sent (execute _ (st_last s1) a ex)) as [[w x]|] eqn:Q.
  - destruct (E3 w x eq_refl) as [-> _], (E3' w x (eq_sym M1)) as [-> _]. apply exchange_same; assumption.
  - rewrite E4, E4' by congruence. reflexivity.
Qed.
Theorem C94_no_memory : forall s1 calls1 s1' es1 i s2 calls2 s2' es2 j a h n1 n2 e1 written1 e2 written2,
  0 <= st_last s1 <= 65535 -> sock_session true s1 calls1 = (s1', es1) ->
  0 <= st_last s2 <= 65535 -> sock_session true s2 calls2 = (s2', es2) ->
  nth_error calls1 i = Some (a, h, n1) -> nth_error es1 i = Some (e1, written1) ->
  nth_error calls2 j = Some (a, h, n2) -> nth_error es2 j = Some (e2, written2) ->
  n_reopen n1 = Ok tt -> n_reopen n2 = Ok tt -> same_stream (n_after n1) (n_after n2) ->
  ex_sent e1 = ex_sent e2 /\ written1 = written2 /\ ex_result e1 = ex_result e2.
Proof.
  intros s1 calls1 s1' es1 i s2 calls2 s2' es2 j a h n1 n2 e1 written1 e2 written2 T1 H1 T2 H2 C1 E1 C2 E2 R1 R2 S.
  destruct (sock_nth _ _ _ _ _ _ _ _ _ _ H1 C1 E1 T1) as (si & F1 & _), (sock_nth _ _ _ _ _ _ _ _ _ _ H2 C2 E2 T2) as (sj & F2 & _).
  destruct (call_no_memory true si sj a h n1 n2 (or_introl eq_refl) R1 R2 S) as (A & B & C). rewrite <- F1, <- F2 in A, B, C. auto.
Qed.
Theorem C94_no_memory_tcp : forall s1 s2 a h n1 n2, st_last s1 = st_last s2 ->
  n_reopen n1 = Ok tt -> n_reopen n2 = Ok tt -> same_stream (n_after n1) (n_after n2) ->
  ex_sent (fst (snd (sock_call false s1 a h n1))) = ex_sent (fst (snd (sock_call false s2 a h n2))) /\
  snd (snd (sock_call false s1 a h n1)) = snd (snd (sock_call false s2 a h n2)) /\
  ex_result (fst (snd (sock_call false s1 a h n1))) = ex_result (fst (snd (sock_call false s2 a h n2))).
Proof. intros s1 s2 a h n1 n2 L R1 R2 S. destruct (call_no_memory false s1 s2 a h n1 n2 (or_intror L) R1 R2 S) as (A & B & C). auto. Qed.

(** (3) A function that raises before the request is sent: the caller gets the exception, nothing is written, and what is in the receive
    buffer stays there. *)
Theorem C94_raises_before : forall rtu s a h n w x er e written s',
  sock_call rtu s a h n = (s', (e, written)) -> ex_sent e = Some (w, x) -> raises_before h w er ->
  ex_result e = Some (Err er) /\ written = None /\ st_buf s' = at_flush (st_buf s) n.
Proof.
  intros rtu s a h n w x er e written s' H Hs R.
  destruct (call_shape rtu s a h n) as (ex & EX & E1 & _ & E3 & _). rewrite H in E1, E3. cbn [fst snd] in E1, E3. rewrite E1 in *.
  destruct (E3 w x Hs) as [E4 E5].
  assert (B : before_sending h w = Err er).
  { unfold before_sending. destruct R as [R|[R R']]; rewrite R; [reflexivity|]. cbn [bind kept_or]. rewrite R'. reflexivity. }
  unfold sock_exchange in E4, E5. rewrite B in E4, E5. split; [|split; [exact E4|exact E5]].
  apply (execute_err _ _ _ _ w x); [exact Hs|]. rewrite EX. unfold sock_exchange. rewrite B. reflexivity.
Qed.
(** A function that raises after the request was sent or after the response was received: the request has been written all the same - the
    device may have carried it out - and the caller gets the exception and not the response. *)
Theorem C94_raises_after_send : forall rtu s a h n w x er e written s',
  sock_call rtu s a h n = (s', (e, written)) -> ex_sent e = Some (w, x) ->
  ch_before_send h w = Ok None -> ch_mac_before_send h w = Ok None -> ch_after_send h = Some er -> n_reopen n = Ok tt ->
  ex_result e = Some (Err er) /\ written = Some w.
Proof.
  intros rtu s a h n w x er e written s' H Hs B1 B2 A R.
  destruct (call_shape rtu s a h n) as (ex & EX & E1 & _ & E3 & _). rewrite H in E1, E3. cbn [fst snd] in E1, E3. rewrite E1 in *.
  destruct (E3 w x Hs) as [E4 E5].
  assert (B : before_sending h w = Ok w) by (unfold before_sending; rewrite B1; cbn [bind kept_or]; rewrite B2; reflexivity).
  destruct (send_possible (st_buf s) n w R) as [on E].
  unfold sock_exchange in E4. rewrite B, E, A in E4. split; [|exact E4].
  apply (execute_err _ _ _ _ w x); [exact Hs|]. rewrite EX. unfold sock_exchange. rewrite B, E, A. reflexivity.
Qed.
Theorem C94_raises_after_recv : forall rtu s a h n w x er e written s' e0 written0 s0,
  sock_call rtu s a h n = (s', (e, written)) -> ex_sent e = Some (w, x) ->
  ch_before_send h w = Ok None -> ch_mac_before_send h w = Ok None -> ch_after_send h = None ->
  ((forall b, ch_mac_after_recv h b = Err er) \/ ((forall b, ch_mac_after_recv h b = Ok None) /\ forall b, ch_after_recv h b = Err er)) ->
  (* the same call without hooks *)
  sock_call rtu s a no_hooks n = (s0, (e0, written0)) ->
  written = written0 /\ st_buf s' = st_buf s0 /\
  (ex_result e = Some (Err er) \/ ex_result e = ex_result e0 /\ exists er0, ex_result e0 = Some (Err er0)).
Proof.
  intros rtu s a h n w x er e written s' e0 written0 s0 H Hs B1 B2 A C H0.
  destruct (call_shape rtu s a h n) as (ex & EX & E1 & _ & E3 & _). rewrite H in E1, E3. cbn [fst snd] in E1, E3. rewrite E1 in *.
  destruct (call_shape rtu s a no_hooks n) as (ex0 & EX0 & F1 & _ & F3 & _). rewrite H0 in F1, F3. cbn [fst snd] in F1, F3. rewrite F1 in *.
  assert (Hs0 : ex_sent (execute (if rtu then RTU else TCP) (st_last s) a ex0) = Some (w, x)).
  { revert Hs. unfold execute. destruct (execute_build a); [|auto]. destruct (build_request _ _ _ _) as [l [[hd r]|er']]; auto. }
  destruct (E3 w x Hs) as [E4 E5], (F3 w x Hs0) as [F4 F5]. rewrite E4, E5, F4, F5.
  assert (B : before_sending h w = Ok w) by (unfold before_sending; rewrite B1; cbn [bind kept_or]; rewrite B2; reflexivity).
  assert (B0 : before_sending no_hooks w = Ok w) by reflexivity.
  assert (AR : forall r, after_receiving h r = Err er).
  { intros r. unfold after_receiving. destruct C as [C|[C C']]; rewrite C; [reflexivity|]. cbn [bind kept_or]. rewrite C'. reflexivity. }
  assert (AR0 : forall r, after_receiving no_hooks r = Ok r) by reflexivity.
  assert (K : (exists er0, ex w x = Err er0 /\ ex0 w x = Err er0) \/ ex w x = Err er).
  { subst ex ex0. cbv beta. unfold sock_exchange. rewrite B, B0. destruct (tcp_master_send _ _ _ _) as [[on out]|er0]; [|left; eexists; split; reflexivity].
    rewrite A. change (ch_after_send no_hooks) with (@None exn). cbv iota. destruct (sock_recv rtu x (conn_on on n)) as [[c [r|er0]]|]; cbn [dn_response bind].
    - right. apply AR.
    - left. eexists. split; reflexivity.
    - left. eexists. split; reflexivity. }
  split; [|split].
  - unfold sock_exchange. rewrite B, B0. destruct (tcp_master_send _ _ _ _) as [[on out]|er0]; [|reflexivity].
    rewrite A. change (ch_after_send no_hooks) with (@None exn). cbv iota. destruct (sock_recv rtu x (conn_on on n)) as [[c r]|]; reflexivity.
  - unfold sock_exchange. rewrite B, B0. destruct (tcp_master_send _ _ _ _) as [[on out]|er0]; [|reflexivity].
    rewrite A. change (ch_after_send no_hooks) with (@None exn). cbv iota. destruct (sock_recv rtu x (conn_on on n)) as [[c r]|]; reflexivity.
  - destruct K as [(er0 & K & K0)|K].
    + right. rewrite (execute_err _ _ _ _ _ _ _ Hs K), (execute_err _ _ _ _ _ _ _ Hs0 K0). split; [reflexivity|eauto].
    + left. apply (execute_err _ _ _ _ _ _ _ Hs K).
Qed.

(** Functions that replace: the one at Master.before_send first, then the one of the transport, and the other way round for the response. *)
Theorem C94_replaced_request : forall rtu s a h n w x e written s' r1 r2,
  sock_call rtu s a h n = (s', (e, written)) -> ex_sent e = Some (w, x) -> n_reopen n = Ok tt ->
  ch_before_send h w = Ok r1 ->
  let w1 := match r1 with Some b => b | None => w end in
  ch_mac_before_send h w1 = Ok r2 ->
  written = Some (match r2 with Some b => b | None => w1 end).
Proof.
  intros rtu s a h n w x e written s' r1 r2 H Hs R B1 w1 B2.
  destruct (call_shape rtu s a h n) as (ex & EX & E1 & _ & E3 & _). rewrite H in E1, E3. cbn [fst snd] in E1, E3. rewrite E1 in *.
  destruct (E3 w x Hs) as [E4 E5]. rewrite E4. unfold sock_exchange, before_sending. rewrite B1. cbn [bind]. fold (kept_or r1 w) in w1. fold w1. rewrite B2. cbn [bind].
  fold (kept_or r2 w1). destruct (send_possible (st_buf s) n (kept_or r2 w1) R) as [on E]. rewrite E.
  destruct (ch_after_send h); [reflexivity|]. destruct (sock_recv rtu x (conn_on on n)) as [[c r]|]; reflexivity.
Qed.
Theorem C94_replaced_response : forall s a h n w x e written s' b0 r1 r2 frame rest,
  sock_call false s a h n = (s', (e, written)) -> ex_sent e = Some (w, x) -> n_reopen n = Ok tt ->
  before_sending h w = Ok b0 -> ch_after_send h = None ->
  self_delimited frame -> stream (n_after n) = frame ++ rest ->
  ch_mac_after_recv h frame = Ok r1 ->
  let f1 := match r1 with Some b => b | None => frame end in
  ch_after_recv h f1 = Ok r2 ->
  ex_result e = ex_result (execute TCP (st_last s) a (fun _ _ => Ok (match r2 with Some b => b | None => f1 end))) /\
  rb_data (st_buf s') = rest.
Proof.
  intros s a h n w x e written s' b0 r1 r2 frame rest H Hs R B0 A D F B1 f1 B2.
  destruct (call_shape false s a h n) as (ex & EX & E1 & _ & E3 & _). rewrite H in E1, E3. cbn [fst snd] in E1, E3. rewrite E1 in *.
  destruct (E3 w x Hs) as [E4 E5]. destruct (send_possible (st_buf s) n b0 R) as [on E]. destruct (sent_stream _ _ _ _ _ E) as [_ [K1 K2]].
  destruct (C45_one_frame (conn_on on n) frame rest D ltac:(congruence)) as (c' & RV & RS & _).
  split.
  - rewrite (execute_result TCP (st_last s) a ex (fun _ _ => Ok (match r2 with Some b => b | None => f1 end)) w x Hs); [reflexivity|].
    rewrite EX. unfold sock_exchange. rewrite B0, E, A, sock_recv_tcp, RV. cbn [dn_response bind]. unfold after_receiving. rewrite B1. cbn [bind].
    fold (kept_or r1 frame) in f1. fold f1. rewrite B2. reflexivity.
  - rewrite E5. unfold sock_exchange. rewrite B0, E, A, sock_recv_tcp, RV. exact RS.
Qed.

(** (4) An RtuMaster. *)
Lemma serial_nth calls : forall p p' es i a h before after e, serial_session p calls = (p', es) ->
  nth_error calls i = Some (a, h, (before, after)) -> nth_error es i = Some e -> exists pi, e = snd (serial_call pi a h before after).
Proof.
  induction calls as [|[[a0 h0] [b0 f0]] t IH]; intros p p' es i a h before after e H Hc He; [destruct i; discriminate|].
  cbn [serial_session] in H. destruct (serial_call p a0 h0 b0 f0) as [p1 e0] eqn:C0. destruct (serial_session p1 t) as [p2 es0] eqn:S0.
  injection H as <- <-. destruct i as [|i]; cbn [nth_error] in *.
  - injection Hc as -> -> -> ->. injection He as <-. exists p. rewrite C0. reflexivity.
  - apply (IH p1 p2 es0 i a h before after e S0 Hc He).
Qed.
Lemma serial_same h p1 b1 p2 b2 after w x :
  sd_written (serial_exchange h p1 b1 after w x) = sd_written (serial_exchange h p2 b2 after w x) /\
  sd_response (serial_exchange h p1 b1 after w x) = sd_response (serial_exchange h p2 b2 after w x).
Proof. unfold serial_exchange, reset_input_buffer. destruct (before_sending h w); auto. Qed.
Lemma serial_shape p a h before after : exists ex,
  ex = (fun request expected => sd_response (serial_exchange h p before after request expected)) /\
  fst (snd (serial_call p a h before after)) = execute RTU 0 a ex /\
  (forall w x, ex_sent (execute RTU 0 a ex) = Some (w, x) ->
     snd (snd (serial_call p a h before after)) = sd_written (serial_exchange h p before after w x)) /\
  (ex_sent (execute RTU 0 a ex) = None -> snd (snd (serial_call p a h before after)) = None).
Proof.
  eexists. split; [reflexivity|]. unfold serial_call.
  destruct (ex_sent (execute RTU 0 a _)) as [[w x]|] eqn:E; cbn [fst snd].
  - split; [reflexivity|]. split; [intros w' x' [= <- <-]; auto|discriminate].
  - split; [reflexivity|]. split; [discriminate|reflexivity].
Qed.
Theorem C94_no_memory_serial : forall p1 calls1 p1' es1 i p2 calls2 p2' es2 j a h before1 before2 after e1 e2,
  serial_session p1 calls1 = (p1', es1) -> serial_session p2 calls2 = (p2', es2) ->
  nth_error calls1 i = Some (a, h, (before1, after)) -> nth_error es1 i = Some e1 ->
  nth_error calls2 j = Some (a, h, (before2, after)) -> nth_error es2 j = Some e2 ->
  e1 = e2.
Proof.
  intros p1 calls1 p1' es1 i p2 calls2 p2' es2 j a h b1 b2 after e1 e2 H1 H2 C1 E1 C2 E2.
  destruct (serial_nth _ _ _ _ _ _ _ _ _ _ H1 C1 E1) as [pi ->], (serial_nth _ _ _ _ _ _ _ _ _ _ H2 C2 E2) as [pj ->].
  destruct (serial_shape pi a h b1 after) as (ex & EX & F1 & F2 & F3), (serial_shape pj a h b2 after) as (ex' & EX' & F1' & F2' & F3').
  assert (K : execute RTU 0 a ex = execute RTU 0 a ex') by (apply execute_same; intros w x; subst ex ex'; apply serial_same).
  rewrite (surjective_pairing (snd (serial_call pi a h b1 after))), (surjective_pairing (snd (serial_call pj a h b2 after))).
  rewrite F1, F1', K. f_equal. destruct (ex_sent (execute RTU 0 a ex)) as [[w x]|] eqn:Q.
  - rewrite (F2 w x eq_refl), (F2' w x ltac:(congruence)). apply serial_same.
  - rewrite F3, F3' by congruence. reflexivity.
Qed.
Theorem C94_recovers_serial : forall p calls p' es i a h before pieces extra rest e written w x response,
  serial_session p calls = (p', es) ->
  nth_error calls i = Some (a, h, (before, map Burst pieces ++ rest)) -> nth_error es i = Some (e, written) ->
  quiet h -> ex_sent e = Some (w, x) ->
  response <> [] -> zlen response = x -> Forall (fun b => b <> []) pieces -> concat pieces = response ++ extra ->
  written = Some w /\ ex_result e = rtu_answered_with a response.
Proof.
  intros p calls p' es i a h before pieces extra rest e written w x response H Hc He Q Hs N L F C.
  destruct (serial_nth _ _ _ _ _ _ _ _ _ _ H Hc He) as [pi EE].
  destruct (serial_shape pi a h before (map Burst pieces ++ rest)) as (ex & EX & F1 & F2 & F3). rewrite <- EE in F1, F2. cbn [fst snd] in F1, F2.
  rewrite F1 in *. specialize (F2 w x Hs).
  destruct (C47_exact pieces response extra rest N F C) as (lf & _ & RV). rewrite L in RV.
  assert (K : written = Some w /\ ex w x = Ok response).
  { rewrite F2, EX. unfold serial_exchange, reset_input_buffer, then_arrives. rewrite quiet_before by exact Q.
    destruct Q as (Q1 & Q2 & -> & Q4 & Q5). rewrite RV. cbn [sd_written sd_response bind]. split; [reflexivity|].
    unfold after_receiving. rewrite Q4. cbn [bind kept_or]. rewrite Q5. reflexivity. }
  destruct K as [K1 K2]. split; [exact K1|]. rewrite (execute_result RTU 0 a ex (fun _ _ => Ok response) w x Hs K2). reflexivity.
Qed.
Theorem C94_raises_before_serial : forall p a h before after w x er e written p',
  serial_call p a h before after = (p', (e, written)) -> ex_sent e = Some (w, x) -> raises_before h w er ->
  ex_result e = Some (Err er) /\ written = None.
Proof.
  intros p a h before after w x er e written p' H Hs R.
  destruct (serial_shape p a h before after) as (ex & EX & F1 & F2 & _). rewrite H in F1, F2. cbn [fst snd] in F1, F2. rewrite F1 in *. specialize (F2 w x Hs).
  assert (B : before_sending h w = Err er).
  { unfold before_sending. destruct R as [R|[R R']]; rewrite R; [reflexivity|]. cbn [bind kept_or]. rewrite R'. reflexivity. }
  unfold serial_exchange in F2. rewrite B in F2. split; [|exact F2].
  apply (execute_err _ _ _ _ w x); [exact Hs|]. rewrite EX. unfold serial_exchange. rewrite B. reflexivity.
Qed.
Theorem C94_raises_after_serial : forall p a h before after w x er e written p',
  serial_call p a h before after = (p', (e, written)) -> ex_sent e = Some (w, x) ->
  ch_before_send h w = Ok None -> ch_mac_before_send h w = Ok None -> ch_after_send h = Some er ->
  ex_result e = Some (Err er) /\ written = Some w.
Proof.
  intros p a h before after w x er e written p' H Hs B1 B2 A.
  destruct (serial_shape p a h before after) as (ex & EX & F1 & F2 & _). rewrite H in F1, F2. cbn [fst snd] in F1, F2. rewrite F1 in *. specialize (F2 w x Hs).
  assert (B : before_sending h w = Ok w) by (unfold before_sending; rewrite B1; cbn [bind kept_or]; rewrite B2; reflexivity).
  unfold serial_exchange in F2. rewrite B, A in F2. split; [|exact F2].
  apply (execute_err _ _ _ _ w x); [exact Hs|]. rewrite EX. unfold serial_exchange. rewrite B, A. reflexivity.
Qed.

Theorem C94_replaced_serial : forall p a h before pieces extra rest e written p' w x r1 r2 r3 response,
  serial_call p a h before (map Burst pieces ++ rest) = (p', (e, written)) -> ex_sent e = Some (w, x) ->
  response <> [] -> zlen response = x -> Forall (fun b => b <> []) pieces -> concat pieces = response ++ extra ->
  ch_before_send h w = Ok r1 ->
  let w1 := match r1 with Some b => b | None => w end in
  ch_mac_before_send h w1 = Ok r2 -> ch_after_send h = None ->
  ch_mac_after_recv h response = Ok r3 ->
  let f1 := match r3 with Some b => b | None => response end in
  written = Some (match r2 with Some b => b | None => w1 end) /\
  (forall r4, ch_after_recv h f1 = Ok r4 -> ex_result e = rtu_answered_with a (match r4 with Some b => b | None => f1 end)) /\
  (forall er, ch_after_recv h f1 = Err er -> ex_result e = Some (Err er)).
Proof.
  intros p a h before pieces extra rest e written p' w x r1 r2 r3 response H Hs N L F C B1 w1 B2 A B3 f1.
  destruct (serial_shape p a h before (map Burst pieces ++ rest)) as (ex & EX & F1 & F2 & _). rewrite H in F1, F2. cbn [fst snd] in F1, F2. rewrite F1 in *. specialize (F2 w x Hs).
  destruct (C47_exact pieces response extra rest N F C) as (lf & _ & RV). rewrite L in RV.
  assert (B : before_sending h w = Ok (match r2 with Some b => b | None => w1 end)).
  { unfold before_sending. rewrite B1. cbn [bind]. fold (kept_or r1 w) in w1. fold w1. rewrite B2. reflexivity. }
  assert (K : forall v, ch_after_recv h f1 = v -> ex w x = (r <- v ;; Ok (match r with Some b => b | None => f1 end))).
  { intros v V. rewrite EX. unfold serial_exchange, reset_input_buffer, then_arrives. rewrite B, A, RV. cbn [sd_response bind]. unfold after_receiving. rewrite B3. cbn [bind].
    fold (kept_or r3 response) in f1. fold f1. rewrite V. reflexivity. }
  split; [|split].
  - rewrite F2. unfold serial_exchange, reset_input_buffer, then_arrives. rewrite B, A, RV. reflexivity.
  - intros r4 V. apply K in V. cbn [bind] in V. now rewrite (execute_result RTU 0 a ex (fun _ _ => Ok (match r4 with Some b => b | None => f1 end)) w x Hs V).
  - intros er V. apply K in V. apply (execute_err _ _ _ _ _ _ _ Hs V).
Qed.

(** (5) With no hooks these sessions are those of property C76. *)
Lemma plain_exchange b n w x : bytes (stream (n_after n)) ->
  (dn_buf (sock_exchange false no_hooks b n w x), dn_response (sock_exchange false no_hooks b n w x)) = tcp_send_recv b n w.
Proof.
  intros B. unfold sock_exchange, tcp_send_recv. change (before_sending no_hooks w) with (Ok w : res (list Z)). cbv beta iota zeta.
  destruct (tcp_master_send no_hook (at_flush b n) (n_reopen n) w) as [[on out]|er] eqn:E; [|reflexivity].
  change (ch_after_send no_hooks) with (@None exn). cbv iota. rewrite sock_recv_tcp.
  destruct (sent_stream _ _ _ _ _ E) as [_ [K _]].
  pose proof (C45_terminates (conn_on on n) ltac:(congruence)) as T. 
  destruct (tcp_master_recv no_hook (conn_on on n)) as [[c [r|er]]|]; [reflexivity|reflexivity|congruence].
Qed.
Theorem C94_without_hooks : forall calls s, Forall (fun c => bytes (stream (n_after (snd c)))) calls ->
  fst (sock_session false s (map (fun c => (fst c, no_hooks, snd c)) calls)) = fst (tcp_session s calls) /\
  map fst (snd (sock_session false s (map (fun c => (fst c, no_hooks, snd c)) calls))) = snd (tcp_session s calls).
Proof.
  induction calls as [|[a n] t IH]; intros s F; [split; reflexivity|]. inversion_clear F as [|? ? B F']. cbn [snd] in B.
  assert (C : fst (sock_call false s a no_hooks n) = fst (tcp_call s a n) /\ fst (snd (sock_call false s a no_hooks n)) = snd (tcp_call s a n)).
  { assert (K : execute TCP (st_last s) a (fun request expected => dn_response (sock_exchange false no_hooks (st_buf s) n request expected)) =
                execute TCP (st_last s) a (fun request _ => snd (tcp_send_recv (st_buf s) n request))).
    { apply execute_same. intros w x. rewrite <- (plain_exchange (st_buf s) n w x B). reflexivity. }
    unfold sock_call, tcp_call. cbv zeta. rewrite K. cbn [fst snd].
    destruct (ex_sent (execute TCP (st_last s) a _)) as [[w x]|]; [|split; reflexivity].
    rewrite <- (plain_exchange (st_buf s) n w x B). split; reflexivity. }
  cbn [map fst snd sock_session tcp_session]. destruct (sock_call false s a no_hooks n) as [s1 e1], (tcp_call s a n) as [s1' e1']. cbn [fst snd] in C.
  destruct C as [-> <-]. specialize (IH s1' F'). destruct (sock_session false s1' _) as [s2 es], (tcp_session s1' t) as [s2' es'].
  cbn [fst snd map] in *. destruct IH as [-> ->]. split; reflexivity.
Qed.

(** ** Refuted: (a) what a failed call leaves behind is not always thrown away.  The function at after_send raises once; the device answers
    all the same, but after the next request was written: over RTU over TCP and on a serial line the next call takes it for its response. *)
Definition raises_once : call_hooks :=
  {| ch_before_send := fun _ => Ok None; ch_mac_before_send := fun _ => Ok None; ch_after_send := Some GenericException;
     ch_mac_after_recv := fun _ => Ok None; ch_after_recv := fun _ => Ok None |}.
Definition quiet_net (after : list (list Z)) : net :=
  {| n_before := []; n_closed := false; n_reopen := Ok tt; n_after := {| c_segs := after; c_end := Stalled |} |}.
Lemma read_regs_sent last u holding a n ex : 0 <= last <= 65535 -> 0 <= u <= 255 -> fits true a -> fits true n ->
  exists w, ex_sent (execute RTU last (args_of u (ReadRegs holding a n)) ex) = Some (w, 5 + 2 * n).
Proof.
  intros T U A N. destruct (build_call u (ReadRegs holding a n) (conj A N)) as (pdu & P & _ & _).
  destruct (execute_exact RTU last u (ReadRegs holding a n) pdu (conj A N) P Logic.I T U) as (hd & l & _ & _ & _ & R). rewrite R.
  eexists. cbn [ex_sent]. unfold expected_call. cbn [response_length]. do 2 f_equal. lia.
Qed.
Lemma read_regs_answer u (holding : bool) a vals : 0 <= u <= 255 -> fits true a -> Forall (fits true) vals -> zlen vals <= 127 ->
  rtu_answered_with (args_of u (ReadRegs holding a (zlen vals))) (sealed (u :: (if holding then 3 else 4) :: 2 * zlen vals :: words vals)) =
  Some (Ok (RTuple vals)).
Proof.
  intros U A V L. pose proof (zlen_nonneg vals). unfold rtu_answered_with. assert (N : fits true (zlen vals)) by (unfold fits; lia).
  apply (C38_registers RTU 0 u holding a (zlen vals) ((if holding then 3 else 4) :: 2 * zlen vals :: words vals)).
  - split; [split; assumption|]. split; [lia|]. split; [lia|]. intros; exact Logic.I.
  - split; [|split; [exact Logic.I|reflexivity]]. constructor; [unfold is_byte; destruct holding; lia|]. constructor; [unfold is_byte; lia|apply words_bytes].
  - exists (if holding then 3 else 4), vals. repeat split; auto. destruct holding; lia.
Qed.
Lemma answer_length u fc vals : zlen (sealed (u :: fc :: 2 * zlen vals :: words vals)) = 5 + 2 * zlen vals.
Proof. unfold sealed. rewrite zlen_app, !zlen_cons, words_zlen. unfold zlen at 2. cbn [length crc_bytes]. lia. Qed.
Theorem C94_late_refuted : forall u (holding : bool) a a' vals own, 0 <= u <= 255 -> fits true a -> fits true a' ->
  Forall (fits true) vals -> zlen vals <= 125 ->
  let n := zlen vals in
  let late := sealed (u :: (if holding then 3 else 4) :: 2 * n :: words vals) in
  map (fun c => ex_result (fst c))
    (snd (sock_session true start0 [(args_of u (ReadRegs holding a n), raises_once, quiet_net []);
                                    (args_of u (ReadRegs holding a' n), no_hooks, quiet_net [late; own])])) =
    [Some (Err GenericException); Some (Ok (RTuple vals))] /\
  map (fun c => ex_result (fst c))
    (snd (serial_session [] [(args_of u (ReadRegs holding a n), raises_once, ([], []));
                             (args_of u (ReadRegs holding a' n), no_hooks, ([], Burst late :: [Burst own]))])) =
    [Some (Err GenericException); Some (Ok (RTuple vals))].
Proof.
  intros u holding a a' vals own U A A' V L n late. pose proof (zlen_nonneg vals). assert (N : fits true n) by (unfold fits, n; lia).
  assert (Q : quiet no_hooks) by (unfold quiet; repeat split).
  assert (S00 : 0 <= st_last start0 <= 65535) by (unfold start0; cbn [st_last]; lia).
  assert (LN : late <> []) by (unfold late, sealed; discriminate).
  split.
  - destruct (sock_session true start0 _) as [s' es] eqn:S.
    cbn [snd].
    pose proof S as S0. cbn [sock_session] in S.
    destruct (sock_call true start0 (args_of u (ReadRegs holding a n)) raises_once (quiet_net [])) as [s1 [e1 w1]] eqn:C1.
    destruct (sock_call true s1 (args_of u (ReadRegs holding a' n)) no_hooks (quiet_net [late; own])) as [s2 [e2 w2]] eqn:C2.
    injection S as <- <-. cbn [map fst].
    destruct (call_shape true start0 (args_of u (ReadRegs holding a n)) raises_once (quiet_net [])) as (ex & _ & F & Fl & _). rewrite C1 in F, Fl. cbn [fst snd] in F, Fl.
    destruct (read_regs_sent (st_last start0) u holding a n ex S00 U A N) as [w W]. rewrite <- F in W.
    destruct (C94_raises_after_send true start0 _ raises_once (quiet_net []) w (5 + 2 * n) GenericException e1 w1 s1 C1 W eq_refl eq_refl eq_refl eq_refl) as [-> _].
    f_equal. f_equal.
    destruct (call_shape true s1 (args_of u (ReadRegs holding a' n)) no_hooks (quiet_net [late; own])) as (ex' & _ & F' & _). rewrite C2 in F'. cbn [fst snd] in F'.
    destruct (read_regs_sent (st_last s1) u holding a' n ex') as [w' W']; auto.
    { rewrite Fl. apply any_last_range. exact S00. }
    rewrite <- F' in W'.
    destruct (C94_recovers_rtu_over_tcp_partial start0 _ _ _ 1 (args_of u (ReadRegs holding a' n)) no_hooks (quiet_net [late; own]) e2 w2 w' (5 + 2 * n) late own S00 S0 eq_refl eq_refl Q W' eq_refl LN
                (answer_length _ _ _) ltac:(unfold n; lia)) as [_ R].
    { unfold stream. cbn. now rewrite app_nil_r. }
    rewrite R. apply read_regs_answer; auto. lia.
  - destruct (serial_session [] _) as [s' es] eqn:S. cbn [snd]. pose proof S as S0. cbn [serial_session] in S.
    destruct (serial_call [] (args_of u (ReadRegs holding a n)) raises_once [] []) as [s1 [e1 w1]] eqn:C1.
    destruct (serial_call s1 (args_of u (ReadRegs holding a' n)) no_hooks [] [Burst late; Burst own]) as [s2 [e2 w2]] eqn:C2.
    injection S as <- <-. cbn [map fst].
    destruct (serial_shape [] (args_of u (ReadRegs holding a n)) raises_once [] []) as (ex & _ & F & _). rewrite C1 in F. cbn [fst snd] in F.
    destruct (read_regs_sent 0 u holding a n ex ltac:(lia) U A N) as [w W]. rewrite <- F in W.
    destruct (C94_raises_after_serial [] _ raises_once [] [] w (5 + 2 * n) GenericException e1 w1 s1 C1 W eq_refl eq_refl eq_refl) as [-> _].
    f_equal. f_equal.
    destruct (serial_shape s1 (args_of u (ReadRegs holding a' n)) no_hooks [] [Burst late; Burst own]) as (ex' & _ & F' & _). rewrite C2 in F'. cbn [fst snd] in F'.
    destruct (read_regs_sent 0 u holding a' n ex' ltac:(lia) U A' N) as [w' W']. rewrite <- F' in W'.
    destruct (C94_recovers_serial [] _ _ _ 1 (args_of u (ReadRegs holding a' n)) no_hooks [] [late] [] [Burst own] e2 w2 w' (5 + 2 * n) late S0 eq_refl eq_refl Q W' LN (answer_length _ _ _)) as [_ R].
    { constructor; [exact LN|constructor]. }
    { reflexivity. }
    rewrite R. apply read_regs_answer; auto. lia.
Qed.
(** a session: the function at after_send raises, the reply comes and stays unread; the next call flushes it and gets its own *)
Example C94_ex :
  let own i v := tcp_frame i 0 1 [3; 2; 0; v] in
  map (fun c => (ex_result (fst c), snd c))
    (snd (sock_session false start0 [(args_of 1 (ReadRegs true 0 1), raises_once, quiet_net [own 1 17]); (args_of 1 (ReadRegs true 9 1), no_hooks, quiet_net [own 2 18])])) =
    [(Some (Err GenericException), Some (tcp_frame 1 0 1 [3; 0; 0; 0; 1])); (Some (Ok (RTuple [18])), Some (tcp_frame 2 0 1 [3; 0; 9; 0; 1]))].
Proof. vm_compute. reflexivity. Qed.
Example C94_raises_ex :
  let h := {| ch_before_send := fun b => if zlen b =? 12 then Err GenericException else Ok None; ch_mac_before_send := fun _ => Ok None; ch_after_send := None;
              ch_mac_after_recv := fun _ => Ok None; ch_after_recv := fun _ => Ok None |} in
  raises_before h (tcp_frame 1 0 1 [3; 0; 0; 0; 1]) GenericException /\
  snd (sock_call false start0 (args_of 1 (ReadRegs true 0 1)) h (quiet_net [])) =
    ({| ex_last := 1; ex_sent := Some (tcp_frame 1 0 1 [3; 0; 0; 0; 1], 7); ex_result := Some (Err GenericException) |}, None).
Proof. split; [left; reflexivity|vm_compute; reflexivity]. Qed.

Print Assumptions C94_recovers_tcp.
Print Assumptions C94_recovers_rtu_over_tcp_partial.
Print Assumptions C94_no_memory.
Print Assumptions C94_no_memory_tcp.
Print Assumptions C94_raises_before.
Print Assumptions C94_raises_after_send.
Print Assumptions C94_raises_after_recv.
Print Assumptions C94_no_memory_serial.
Print Assumptions C94_recovers_serial.
Print Assumptions C94_raises_before_serial.
Print Assumptions C94_raises_after_serial.
Print Assumptions C94_without_hooks.
Print Assumptions C94_late_refuted.
