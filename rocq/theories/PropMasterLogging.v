(** C119: logging, the masters.
    Vocabulary: SessionModel.v (tcp_session, rtu_call: the masters without a logger), PropLogging.v (texts_ok, no_udp) and below. *)
From Coq Require Import ZArith Lia ZifyBool ZifyNat String Ascii.
From Verif Require Import Base BaseFacts PyStruct Defines Spec CrcSpec UtilsModel QueryModel FrameSpec QueryProofs MasterModel MasterSpec TransportModel SessionModel PropTransport TransportSpec PropSession TextModel LogModel PropLog LoggingModel PropLogging MasterLoggingModel.
Open Scope string_scope.
Open Scope list_scope.
Open Scope Z_scope.

(** ** Spec *)
(** a frame a log line can carry: any, or, if a handler sends by UDP, at most 15000 bytes *)
Definition loggable (lg : logger) (l : list Z) : Prop := no_udp lg \/ (bytes l /\ zlen l <= 15000).
(** what is exchanged in a call: the frame written and the frame read, if any *)
Definition talk : Type := list Z * option (list Z).
Definition tcp_talk (s : tcp_state) (a : exec_args) (n : net) : list talk :=
  match ex_sent (snd (tcp_call s a n)) with
  | Some (request, _) => [(request, match snd (tcp_send_recv (st_buf s) n request) with Ok response => Some response | Err _ => None end)]
  | None => []
  end.
Fixpoint tcp_talks (s : tcp_state) (calls : list (exec_args * net)) : list talk :=
  match calls with [] => [] | (a, n) :: t => tcp_talk s a n ++ tcp_talks (fst (tcp_call s a n)) t end.
Definition talk_loggable (lg : logger) (t : talk) : Prop := loggable lg (fst t) /\ match snd t with Some r => loggable lg r | None => True end.
Definition talk_lines (t : talk) : list string := get_log_buffer "-> " (fst t) :: match snd t with Some r => [get_log_buffer "<- " r] | None => [] end.
Definition by_execute (o : output) : output := filter (fun x => String.eqb (rec_site (snd x)) "modbus.execute") o.
Definition written_by_execute (lg : logger) (l : list string) : output :=
  flat_map (fun t => map (fun h => (h, {| rec_level := 10; rec_site := "modbus.execute"; rec_text := t |})) (lg_handlers lg)) l.
(** whether frames are shown *)
Definition shows (lg : logger) : bool := lg_verbose lg && (lg_level lg <=? 10).

(** ** Proofs *)
Lemma by_execute_app a b : by_execute (a ++ b) = by_execute a ++ by_execute b.
Proof. apply filter_app. Qed.
Lemma by_execute_other lg level site t : site <> "modbus.execute" -> by_execute (record_of lg level site t) = [].
Proof.
  intros N. unfold record_of. destruct (level <? lg_level lg); [reflexivity|]. induction (lg_handlers lg) as [|h hs IH]; [reflexivity|]. cbn [map by_execute filter snd rec_site]. destruct (String.eqb_spec site "modbus.execute"); [congruence|exact IH].
Qed.
Section Neutral.
Variable lg : logger.
Variable tx : texts.
Hypothesis TX : no_udp lg \/ texts_ok tx.

Lemma frame_log prefix l : plain prefix = true -> plain (but_last prefix) = true -> slen prefix <= 10 -> loggable lg l ->
  exists o, lm_log lg tx prefix l = (o, None) /\ by_execute o = if shows lg then written_by_execute lg [get_log_buffer prefix l] else [].
Proof.
  intros P1 P2 P3 L. unfold lm_log, shows. destruct (lg_verbose lg); [|eexists; split; reflexivity].
  assert (T : takes lg (get_log_buffer prefix l)). { destruct L as [N|[B S]]; [now left|]. apply takes_frame; try assumption. right. lia. }
  rewrite (log_ok lg tx TX) by exact T. eexists. split; [reflexivity|]. unfold record_of, written_by_execute. cbn [andb flat_map]. rewrite app_nil_r. change (DEBUG <? lg_level lg) with (10 <? lg_level lg).
  destruct (10 <? lg_level lg) eqn:E, (lg_level lg <=? 10) eqn:F; try lia; [reflexivity|].
  induction (lg_handlers lg) as [|h hs IH]; [reflexivity|]. cbn [map by_execute filter snd rec_site]. rewrite String.eqb_refl. now f_equal.
Qed.
Definition lines_if (l : list string) : output := if shows lg then written_by_execute lg l else [].
Lemma lines_if_app a b : lines_if (a ++ b) = lines_if a ++ lines_if b.
Proof. unfold lines_if. destruct (shows lg); [|reflexivity]. unfold written_by_execute. apply flat_map_app. Qed.
(** the frames of a call of execute whose exchange is [x] *)
Definition exec_talk (e : executed) (x : list Z -> Z -> res (list Z)) : list talk :=
  match ex_sent e with Some (request, n) => [(request, match x request n with Ok r => Some r | Err _ => None end)] | None => [] end.
Lemma execute_ok p last a x lx : (forall r n, snd (lx r n) = x r n /\ by_execute (fst (lx r n)) = []) -> Forall (talk_loggable lg) (exec_talk (execute p last a x) x) ->
  snd (lm_execute lg tx p last a lx) = execute p last a x /\ by_execute (fst (lm_execute lg tx p last a lx)) = lines_if (flat_map talk_lines (exec_talk (execute p last a x) x)).
Proof.
  intros X. unfold execute, lm_execute. destruct (execute_build a) as [b|e]; [|intros _; split; [reflexivity|unfold lines_if; destruct (shows lg); reflexivity]].
  destruct (build_request p last (bl_pdu b) (ea_slave a)) as [last' [[hdr request]|e]]; [|intros _; split; [reflexivity|unfold lines_if; destruct (shows lg); reflexivity]].
  unfold exec_talk. cbn [ex_sent]. intros F. inversion F as [|? ? [F1 F2] _]; subst. cbn [fst snd] in F1, F2.
  destruct (frame_log "-> " request eq_refl eq_refl ltac:(vm_compute; discriminate) F1) as (o & -> & O). destruct (X request (bl_expected b)) as [X1 X2]. destruct (lx request (bl_expected b)) as [o1 x1]. cbn [fst snd] in X1, X2. subst x1.
  cbn [flat_map]. rewrite app_nil_r. unfold talk_lines. cbn [fst snd]. destruct (x request (bl_expected b)) as [response|e].
  - destruct (frame_log "<- " response eq_refl eq_refl ltac:(vm_compute; discriminate) F2) as (o2 & -> & O2). cbn [said fst snd bind]. split; [reflexivity|].
    change (?u :: [?v]) with ([u] ++ [v]). rewrite lines_if_app. rewrite !by_execute_app, O, X2, O2. rewrite app_nil_r. reflexivity.
  - cbn [said fst snd bind]. split; [reflexivity|]. rewrite !by_execute_app, O, X2, !app_nil_r. reflexivity.
Qed.
Lemma send_recv_ok b n request : snd (lm_send_recv lg tx b n request) = tcp_send_recv b n request /\ by_execute (fst (lm_send_recv lg tx b n request)) = [].
Proof.
  unfold lm_send_recv. destruct (flush_socket (at_flush b n) 3) as [b' [u|e]]; [split; reflexivity|].
  rewrite (log_ok lg tx TX); [|apply takes_err; try exact TX; try reflexivity; vm_compute; discriminate]. split; [reflexivity|]. now apply by_execute_other.
Qed.
Lemma call_ok s a n : Forall (talk_loggable lg) (tcp_talk s a n) -> snd (lm_call lg tx s a n) = tcp_call s a n /\ by_execute (fst (lm_call lg tx s a n)) = lines_if (flat_map talk_lines (tcp_talk s a n)).
Proof.
  intros F. unfold tcp_talk, tcp_call in *. unfold lm_call. cbn [snd] in *.
  set (x := fun (request : list Z) (_ : Z) => snd (tcp_send_recv (st_buf s) n request)) in *.
  set (lx := fun (request : list Z) (_ : Z) => let '(o, (_, r)) := lm_send_recv lg tx (st_buf s) n request in (o, r)).
  assert (X : forall r m, snd (lx r m) = x r m /\ by_execute (fst (lx r m)) = []).
  { intros r m. unfold lx, x. destruct (send_recv_ok (st_buf s) n r) as [E G]. destruct (lm_send_recv lg tx (st_buf s) n r) as [o [b1 r1]]. cbn [fst snd] in *. rewrite <- E. split; [reflexivity|exact G]. }
  pose proof (execute_ok TCP (st_last s) a x lx X) as H.
  assert (K : exec_talk (execute TCP (st_last s) a x) x =
    match ex_sent (execute TCP (st_last s) a x) with Some (request, _) => [(request, match snd (tcp_send_recv (st_buf s) n request) with Ok response => Some response | Err _ => None end)] | None => [] end) by (unfold exec_talk; destruct (ex_sent (execute TCP (st_last s) a x)) as [[r m]|]; reflexivity).
  rewrite K in H. destruct (H F) as [E G]. destruct (lm_execute lg tx TCP (st_last s) a lx) as [o e]. cbn [fst snd] in E, G. subst e. cbn [fst snd]. split; [|exact G].
  f_equal. f_equal. destruct (ex_sent (execute TCP (st_last s) a x)) as [[r m]|]; [|reflexivity]. now rewrite (proj1 (send_recv_ok (st_buf s) n r)).
Qed.
Lemma session_ok calls : forall s, Forall (talk_loggable lg) (tcp_talks s calls) ->
  snd (lm_session lg tx s calls) = tcp_session s calls /\ by_execute (fst (lm_session lg tx s calls)) = lines_if (flat_map talk_lines (tcp_talks s calls)).
Proof.
  induction calls as [|[a n] t IH]; intros s F; cbn [lm_session tcp_session tcp_talks] in *; [split; [reflexivity|unfold lines_if; destruct (shows lg); reflexivity]|].
  apply Forall_app in F as [F1 F2]. destruct (call_ok s a n F1) as [E G]. specialize (IH (fst (tcp_call s a n)) F2). destruct (lm_call lg tx s a n) as [o [s1 e]]. cbn [fst snd] in E, G. rewrite <- E in IH |- *. cbn [fst snd] in IH.
  destruct IH as [E2 G2]. destruct (lm_session lg tx s1 t) as [o' [s2 es]]. cbn [fst snd] in *. rewrite <- E2. split; [reflexivity|]. rewrite flat_map_app, lines_if_app, by_execute_app, G, G2. reflexivity.
Qed.
End Neutral.

(** C119: with whatever handlers at whatever level, verbose or not: if no handler sends by UDP, or error texts are ASCII and no frame is longer
    than 15000 bytes, every call of every session returns what it returns without a logger, writes the same frames on the same connections and
    leaves the master in the same state. *)
Theorem C119_neutral : forall lg tx s calls, (no_udp lg \/ texts_ok tx) -> Forall (talk_loggable lg) (tcp_talks s calls) ->
  snd (lm_session lg tx s calls) = tcp_session s calls.
Proof. intros. now apply session_ok. Qed.
Theorem C119_neutral_rtu : forall lg tx a after,
  let talks := match ex_sent (rtu_call a after) with
               | Some (request, n) => [(request, match rtu_master_recv no_hook TPositive [] n after with Some (_, Ok r) => Some r | _ => None end)]
               | None => [] end in
  (no_udp lg \/ texts_ok tx) -> Forall (talk_loggable lg) talks ->
  snd (lm_rtu_call lg tx a after) = rtu_call a after /\ (lg_verbose lg = true -> lg_level lg <= 10 -> by_execute (fst (lm_rtu_call lg tx a after)) = written_by_execute lg (flat_map talk_lines talks)).
Proof.
  intros lg tx a after talks TX F. unfold rtu_call, lm_rtu_call in *. set (x := fun (_ : list Z) (expected : Z) => match rtu_master_recv no_hook TPositive [] expected after with Some (_, r) => r | None => Err NotModelled end) in *.
  assert (K : talks = exec_talk (execute RTU 0 a x) x).
  { unfold talks, exec_talk. destruct (ex_sent (execute RTU 0 a x)) as [[r m]|]; [|reflexivity]. unfold x. destruct (rtu_master_recv no_hook TPositive [] m after) as [[q [y|e]]|]; reflexivity. }
  rewrite K in *. destruct (execute_ok lg tx TX RTU 0 a x (fun r n => ([], x r n)) ltac:(intros; split; reflexivity) F) as [E G]. split; [exact E|]. intros V L. unfold lines_if, shows in G. rewrite V in G. destruct (lg_level lg <=? 10) eqn:Z; [exact G|lia].
Qed.
(** C119: the verbose log of a session is its frames, in order, each given to every handler; nothing of them if not verbose. *)
Theorem C119_log_shows_talk : forall lg tx s calls, (no_udp lg \/ texts_ok tx) -> Forall (talk_loggable lg) (tcp_talks s calls) ->
  (lg_verbose lg = true -> lg_level lg <= 10 -> by_execute (fst (lm_session lg tx s calls)) = written_by_execute lg (flat_map talk_lines (tcp_talks s calls))) /\
  (lg_verbose lg = false -> by_execute (fst (lm_session lg tx s calls)) = []).
Proof.
  intros lg tx s calls TX F. destruct (session_ok lg tx TX calls s F) as [_ G]. rewrite G. unfold lines_if, shows. split.
  - intros -> L. destruct (lg_level lg <=? 10) eqn:Z; [reflexivity|lia].
  - now intros ->.
Qed.

(** C119: verbose, UDP: a response of 33000 bytes or more, which the log message cannot carry, makes the call raise the exception of the log
    call, whatever the response says. *)
Theorem C119_long_response_refuted : forall lg tx s a n request expected response, In Udp (lg_handlers lg) -> lg_verbose lg = true -> lg_level lg <= 10 -> texts_ok tx ->
  ex_sent (snd (tcp_call s a n)) = Some (request, expected) -> bytes request -> zlen request <= 15000 ->
  snd (tcp_send_recv (st_buf s) n request) = Ok response -> bytes response -> 33000 <= zlen response ->
  exists e, ex_result (snd (snd (lm_call lg tx s a n))) = Some (Err e) /\ (e = PyValueError \/ e = SocketTimeout).
Proof.
  intros lg tx s a n request expected response U V L TX S B1 L1 R B2 L2. unfold tcp_call in S. cbn [snd] in S. unfold lm_call. unfold execute, lm_execute in *.
  destruct (execute_build a) as [b|e]; [|discriminate S]. destruct (build_request TCP (st_last s) (bl_pdu b) (ea_slave a)) as [last' [[hdr rq]|e]]; [|discriminate S]. cbn [ex_sent] in S. injection S as -> ->.
  destruct (frame_log lg tx (or_intror TX) "-> " request eq_refl eq_refl ltac:(vm_compute; discriminate) (or_intror (conj B1 L1))) as (o & -> & _).
  destruct (send_recv_ok lg tx (or_intror TX) (st_buf s) n request) as [E _]. destruct (lm_send_recv lg tx (st_buf s) n request) as [o1 [b1 r1]]. cbn [snd] in E. rewrite <- E in R. cbn [snd] in R. subst r1.
  unfold lm_log. rewrite V. pose proof (frame_long "<- " response B2 ltac:(intros ->; cbn in L2; lia)) as F. change (slen "<- ") with 3 in F.
  destruct (udp_long lg tx DEBUG "modbus.execute" (get_log_buffer "<- " response) U L ltac:(lia)) as (o2 & e & -> & X). cbn [said fst snd ex_result]. eauto.
Qed.
(** a case: an error response with 33000 bytes after the exception code *)
Definition long_error : list Z := tcp_frame 1 0 3 ([131; 2] ++ repeat 0 (Z.to_nat 33000)).
Definition fresh : tcp_state := {| st_last := 0; st_buf := {| rb_data := []; rb_closed := false |} |}.
Definition read_one : exec_args := args_of 3 (ReadRegs true 100 1).
Definition gets (l : list Z) : net := {| n_before := []; n_closed := false; n_reopen := Ok tt; n_after := {| c_segs := [l]; c_end := Stalled |} |}.
Lemma gets_frame pdu : bytes pdu -> zlen pdu < 65535 -> snd (tcp_send_recv (st_buf fresh) (gets (tcp_frame 1 0 3 pdu)) (tcp_frame 1 0 3 [3; 0; 100; 0; 1])) = Ok (tcp_frame 1 0 3 pdu).
Proof.
  intros B L. unfold tcp_send_recv. change (tcp_master_send no_hook (at_flush (st_buf fresh) (gets (tcp_frame 1 0 3 pdu))) (n_reopen (gets (tcp_frame 1 0 3 pdu))) (tcp_frame 1 0 3 [3; 0; 100; 0; 1])) with (Ok (SameConnection {| rb_data := []; rb_closed := false |}, tcp_frame 1 0 3 [3; 0; 100; 0; 1]) : res (sent_on * list Z)).
  cbv beta iota. destruct (C45_one_frame (conn_on (SameConnection {| rb_data := []; rb_closed := false |}) (gets (tcp_frame 1 0 3 pdu))) (tcp_frame 1 0 3 pdu) []) as (c' & -> & _); [apply frame_self_delimited; [split; lia|exact B|exact L]| |reflexivity].
  unfold stream, conn_on, gets. cbn [c_segs n_after rb_data concat]. now rewrite !app_nil_r.
Qed.
Lemma exec_same p last a x y r n : ex_sent (execute p last a x) = Some (r, n) -> x r n = y r n -> execute p last a x = execute p last a y.
Proof.
  unfold execute. destruct (execute_build a) as [b|e]; [|reflexivity]. destruct (build_request p last (bl_pdu b) (ea_slave a)) as [last' [[hdr rq]|e]]; [|reflexivity]. cbn [ex_sent]. intros H E. injection H as -> ->. now rewrite E.
Qed.
Example C119_long_ex : ex_sent (snd (tcp_call fresh read_one (gets long_error))) = Some (tcp_frame 1 0 3 [3; 0; 100; 0; 1], 7) /\
  snd (tcp_send_recv (st_buf fresh) (gets long_error) (tcp_frame 1 0 3 [3; 0; 100; 0; 1])) = Ok long_error /\ bytes long_error /\ 33000 <= zlen long_error /\
  ex_result (snd (tcp_call fresh read_one (gets long_error))) = Some (Err (ModbusError 2)).
Proof.
  assert (B : bytes ([131; 2] ++ repeat 0 (Z.to_nat 33000))) by (apply bytes_app; [repeat constructor; unfold is_byte; lia|apply Forall_forall; intros x H; apply repeat_spec in H; subst; unfold is_byte; lia]).
  assert (ZL : zlen ([131; 2] ++ repeat 0 (Z.to_nat 33000)) = 33002) by (vm_compute; reflexivity).
  assert (G : snd (tcp_send_recv (st_buf fresh) (gets long_error) (tcp_frame 1 0 3 [3; 0; 100; 0; 1])) = Ok long_error) by (apply gets_frame; [exact B|rewrite ZL; lia]).
  split; [reflexivity|]. split; [exact G|]. split; [apply tcp_frame_bytes; [split; lia|exact B]|]. split; [vm_compute; discriminate|].
  set (x := fun (request : list Z) (_ : Z) => snd (tcp_send_recv (st_buf fresh) (gets long_error) request)).
  change (ex_result (execute TCP 0 read_one x) = Some (Err (ModbusError 2))).
  assert (X : x (tcp_frame 1 0 3 [3; 0; 100; 0; 1]) 7 = Ok long_error) by exact G. clearbody x.
  rewrite (exec_same TCP 0 read_one x (fun _ _ => Ok long_error) (tcp_frame 1 0 3 [3; 0; 100; 0; 1]) 7); [vm_compute; reflexivity|reflexivity|exact X].
Qed.

(** C119: a lost connection is reported: when a call finds the connection closed, or too much unread, it writes one record of level ERROR to
    every handler, before it reconnects. *)
Theorem C119_reconnect_reported : forall lg tx s n request, (no_udp lg \/ texts_ok tx) -> lg_level lg <= 40 ->
  fst (lm_send_recv lg tx (st_buf s) n request) =
    (if rb_closed (st_buf s) || n_closed n || (2048 <? zlen (rb_data (st_buf s)) + zlen (n_before n))
     then map (fun h => (h, {| rec_level := 40; rec_site := "modbus_tcp._send"; rec_text := ("Error while flushing the socket: " ++ tx_str tx GenericException)%string |})) (lg_handlers lg)
     else []).
Proof.
  intros lg tx s n request TX L. unfold lm_send_recv. pose proof (flush3 (at_flush (st_buf s) n)) as F. unfold at_flush in *. cbn [rb_closed rb_data] in F. rewrite zlen_app in F.
  set (fl := flush_socket _ 3) in *. assert (G : forall b e, fl = (b, Err e) -> e = GenericException).
  { subst fl. generalize {| rb_data := rb_data (st_buf s) ++ n_before n; rb_closed := rb_closed (st_buf s) || n_closed n |}. intros b0 b e. unfold flush_socket. generalize 3%nat. intros k. revert b0. induction k as [|k IH]; intros b0 H; cbn [flush_loop] in H; [now injection H as _ <-|].
    destruct (rb_data b0), (rb_closed b0); try discriminate H; (destruct k; [now injection H as _ <-|now apply IH in H]). }
  destruct fl as [b' [[]|e]].
  - destruct F as [F _]. destruct (F (ex_intro _ b' eq_refl)) as [F1 F2]. rewrite F1. cbn [orb]. destruct (2048 <? _) eqn:Z; [lia|reflexivity].
  - rewrite (G b' e eq_refl). rewrite (log_ok lg tx TX); [|apply takes_err; try exact TX; try reflexivity; vm_compute; discriminate]. cbn [fst]. unfold record_of. change (ERROR <? lg_level lg) with (40 <? lg_level lg).
    destruct (40 <? lg_level lg) eqn:Z; [lia|]. destruct (rb_closed (st_buf s) || n_closed n) eqn:C; [reflexivity|]. cbn [orb]. destruct (2048 <? _) eqn:Y; [reflexivity|]. exfalso. destruct F as [_ F]. destruct F as (b & X); [split; [reflexivity|lia]|discriminate X].
Qed.
Example C119_ex : tcp_talks fresh [(read_one, gets (tcp_frame 1 0 3 [3; 2; 0; 17])); (read_one, {| n_before := []; n_closed := true; n_reopen := Ok tt; n_after := {| c_segs := [tcp_frame 2 0 3 [3; 2; 0; 18]]; c_end := Stalled |} |})] =
    [(tcp_frame 1 0 3 [3; 0; 100; 0; 1], Some (tcp_frame 1 0 3 [3; 2; 0; 17])); (tcp_frame 2 0 3 [3; 0; 100; 0; 1], Some (tcp_frame 2 0 3 [3; 2; 0; 18]))] /\
  talk_lines (tcp_frame 1 0 3 [3; 0; 100; 0; 1], Some (tcp_frame 1 0 3 [3; 2; 0; 17])) = ["-> 0-1-0-0-0-6-3-3-0-100-0-1"; "<- 0-1-0-0-0-5-3-3-2-0-17"] /\
  map ex_result (snd (tcp_session fresh [(read_one, gets (tcp_frame 1 0 3 [3; 2; 0; 17]))])) = [Some (Ok (RTuple [17]))].
Proof. split; [vm_compute; reflexivity|]. split; vm_compute; reflexivity. Qed.

(** C119: the lines tell the frames: which, in which order, which call got which response.  An empty response ("<-") is told from the next call too. *)
Lemma out_head l : exists t, get_log_buffer "-> " l = String "-" t.
Proof. destruct l as [|x l]; [eexists; reflexivity|]. rewrite C81_line by discriminate. eexists. reflexivity. Qed.
Lemma in_head l : exists t, get_log_buffer "<- " l = String "<" t.
Proof. destruct l as [|x l]; [eexists; reflexivity|]. rewrite C81_line by discriminate. eexists. reflexivity. Qed.
Definition talk_bytes (t : talk) : Prop := bytes (fst t) /\ match snd t with Some r => bytes r | None => True end.
Theorem C119_log_tells : forall ts ts', Forall talk_bytes ts -> Forall talk_bytes ts' -> flat_map talk_lines ts = flat_map talk_lines ts' -> ts = ts'.
Proof.
  assert (H : forall ts t l, flat_map talk_lines ts = String "<" t :: l -> False).
  { intros [|e ts] t l E; [discriminate E|]. cbn [flat_map] in E. unfold talk_lines in E. destruct (out_head (fst e)) as [u X]. rewrite X in E. discriminate E. }
  induction ts as [|[q r] ts IH]; intros [|[q' r'] ts'] F F' E; try (cbn in E; discriminate E); [reflexivity|]. inversion F as [|? ? [B1 B2] F1]; subst. inversion F' as [|? ? [B1' B2'] F1']; subst.
  cbn [flat_map] in E. unfold talk_lines in E. cbn [fst snd app] in *. injection E as E1 E2. assert (q = q') as -> by (eapply C81_readable; eauto). destruct r as [b|], r' as [b'|]; cbn [app] in E2.
  - injection E2 as E2 E3. assert (b = b') as -> by (eapply C81_readable; eauto). f_equal. now apply IH.
  - exfalso. destruct (in_head b) as [t Et]. rewrite Et in E2. symmetry in E2. now apply H in E2.
  - exfalso. destruct (in_head b') as [t Et]. rewrite Et in E2. now apply H in E2.
  - f_equal. now apply IH.
Qed.

Print Assumptions C119_neutral.
Print Assumptions C119_neutral_rtu.
Print Assumptions C119_log_shows_talk.
Print Assumptions C119_long_response_refuted.
Print Assumptions C119_reconnect_reported.
Print Assumptions C119_log_tells.
