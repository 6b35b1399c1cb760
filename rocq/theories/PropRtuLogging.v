(** C118: logging, the RTU server.
    Vocabulary: RtuLoggingModel.v (rtu_life: the server without a logger), PropLogging.v (texts_ok, no_udp, by_handle, written) and below. *)
From Coq Require Import ZArith Lia ZifyBool ZifyNat String Ascii.
From Verif Require Import Base BaseFacts PyStruct Defines Spec CrcSpec SlaveModel QueryModel FrameSpec DatabankModel TransportModel LogModel PropLog PropDatabank LoggingModel PropLogging RtuLoggingModel.
Open Scope string_scope.
Open Scope list_scope.
Open Scope Z_scope.

(** ** Spec *)
(** requests that are bytes, and, if a handler sends by UDP, at most 15000 of them *)
Definition rtu_short (lg : logger) (ev : list rtu_event) : Prop := Forall (fun e => bytes (fst e) /\ (no_udp lg \/ zlen (fst e) <= 15000)) ev.
(** the lines of a request and of its response, if there is one *)
Definition two_lines (request : list Z) (response : option (list Z)) : list string :=
  get_log_buffer "-->" request :: match response with Some b => [get_log_buffer "<--" b] | None => [] end.
Definition rtu_lines (ev : list rtu_event) : list string := flat_map (fun e => two_lines (fst e) (snd e)) ev.

(** ** Proofs *)
Section Neutral.
Variable lg : logger.
Variable tx : texts.
Hypothesis TX : no_udp lg \/ texts_ok tx.

Lemma hookless_rtu d request : server_handle no_server_hooks d RTU request = db_handle_request d RTU request.
Proof. unfold server_handle. cbn. destruct (db_handle_request d RTU request) as [d' [r|e]]; reflexivity. Qed.
Lemma except_ok e t : exists o, lr_except lg tx e t = (o, (t, None)) /\ by_handle o = [].
Proof. unfold lr_except. rewrite (log_ok lg tx TX); [|apply takes_err; try exact TX; try reflexivity; vm_compute; discriminate]. eexists. split; [reflexivity|]. now apply by_handle_record. Qed.
(** what the lines of _handle are for a turn with or without a pending request: the response is the one computed *)
Definition computed (d : databank) (t : rtu_turn) : list rtu_event :=
  match rt_handled t with Some r => [(r, match snd (db_handle_request d RTU r) with Ok resp => sent resp | Err _ => None end)] | None => [] end.
Definition ev_lines (ev : list rtu_event) : output := flat_map (fun e => frame_lines lg (fst e) (snd e)) ev.
Lemma rest_ok pending d p rq : match rtu_rest no_rtu_hooks pending d p rq with
  | None => lr_rest lg tx pending d p rq = None
  | Some t => rtu_short lg (events_of t) -> exists o, lr_rest lg tx pending d p rq = Some (o, (t, None)) /\ by_handle o = ev_lines (computed d t)
  end.
Proof.
  unfold rtu_rest, lr_rest. destruct (rtu_read_rest (S (line_size p)) p rq) as [[p' [[|x l]|e]]|]; [| | |reflexivity].
  - intros _. eexists. split; reflexivity.
  - cbn [no_rtu_hooks rh_after_read rh_server rh_before_write]. unfold replaced, no_hook. cbv beta iota zeta. rewrite hookless_rtu. pose proof (handle_ok lg tx TX d RTU (x :: l)) as H.
    destruct (db_handle_request d RTU (x :: l)) as [d' r] eqn:DB. destruct (l_handle lg tx d RTU (x :: l)) as [o [d1 r1]]. cbn [fst snd] in H.
    destruct r as [resp|e]; intros S; inversion S as [|? ? S1 _]; subst; cbn [fst] in S1; destruct (H S1) as [E F]; injection E as -> ->.
    + unfold computed, ev_lines. cbn [rt_handled flat_map fst snd]. rewrite DB. cbn [snd]. rewrite app_nil_r. cbn [out_of] in F. destruct (sent resp) as [b|] eqn:SR.
      * destruct pending; [rewrite log_ok|]; try exact TX; try (right; split; [reflexivity|vm_compute; discriminate]); cbn [said fst snd]; eexists; (split; [reflexivity|]); rewrite ?by_handle_app, F, ?app_nil_r; try reflexivity.
        cbn [fst]. rewrite by_handle_record by discriminate. apply app_nil_r.
      * destruct pending; cbn [said fst snd]; eexists; (split; [reflexivity|]); now rewrite app_nil_r, F.
    + destruct (except_ok e {| rt_line := p'; rt_db := d'; rt_handled := Some (x :: l); rt_written := None |}) as (o2 & -> & G). cbn [said fst snd]. eexists. split; [reflexivity|].
      unfold computed, ev_lines. cbn [rt_handled flat_map fst snd]. rewrite DB. cbn [snd]. now rewrite by_handle_app, F, G.
  - intros _. destruct (except_ok e {| rt_line := p'; rt_db := d; rt_handled := None; rt_written := None |}) as (o & -> & G). exists o. split; [reflexivity|exact G].
Qed.
Lemma run_rtu_ok block pending d p : match rtu_do_run no_rtu_hooks block pending d p with
  | None => lr_do_run lg tx block pending d p = None
  | Some t => rtu_short lg (events_of t) -> exists o, lr_do_run lg tx block pending d p = Some (o, (t, None)) /\ by_handle o = ev_lines (computed d t)
  end.
Proof.
  unfold rtu_do_run, lr_do_run. destruct block; [|apply rest_ok]. destruct (serial_read_blocking p) as [[p' [b|[|]]]|]; [apply rest_ok|apply rest_ok| |reflexivity].
  intros _. destruct (except_ok GenericException {| rt_line := p'; rt_db := d; rt_handled := None; rt_written := None |}) as (o & -> & G). exists o. split; [reflexivity|exact G].
Qed.
(** the requests of a history with the responses computed, sent or not *)
Fixpoint computed_life (block : bool) (pend : list bool) (d : databank) (p : line) : list rtu_event :=
  match pend with
  | [] => []
  | b :: l => match rtu_do_run no_rtu_hooks block b d p with None => [] | Some t => computed d t ++ computed_life block l (rt_db t) (rt_line t) end
  end.
Lemma rtu_life_ok block pend : forall d p, let '(d', p', ev) := rtu_life block pend d p in rtu_short lg ev ->
  snd (lr_life lg tx block pend d p) = (d', p', ev, Running) /\ by_handle (fst (lr_life lg tx block pend d p)) = ev_lines (computed_life block pend d p).
Proof.
  induction pend as [|b l IH]; intros d p; [intros _; split; reflexivity|]. cbn [rtu_life lr_life computed_life]. pose proof (run_rtu_ok block b d p) as R.
  destruct (rtu_do_run no_rtu_hooks block b d p) as [t|]; [|rewrite R; intros _; split; reflexivity]. specialize (IH (rt_db t) (rt_line t)).
  destruct (rtu_life block l (rt_db t) (rt_line t)) as [[d' p'] ev]. intros S. apply Forall_app in S as [S1 S2]. destruct (R S1) as (o & -> & F). destruct (IH S2) as [E G].
  destruct (lr_life lg tx block l (rt_db t) (rt_line t)) as [o' [[[d2 p2] ev2] f]]. cbn [fst snd] in *. injection E as -> -> -> ->. split; [reflexivity|]. unfold ev_lines. now rewrite by_handle_app, F, G, flat_map_app.
Qed.
End Neutral.
(** with nothing pending, what is computed is what is written *)
Lemma computed_sent block pend : forall d p, Forall (fun b => b = false) pend -> computed_life block pend d p = snd (rtu_life block pend d p).
Proof.
  induction pend as [|b l IH]; intros d p A; [reflexivity|]. inversion A as [|? ? -> A2]; subst. cbn [computed_life rtu_life]. destruct (rtu_do_run no_rtu_hooks block false d p) as [t|] eqn:R; [|reflexivity].
  specialize (IH (rt_db t) (rt_line t) A2). destruct (rtu_life block l (rt_db t) (rt_line t)) as [[d' p'] ev]. cbn [snd] in *. rewrite IH. f_equal. unfold computed, events_of.
  assert (Q : forall q rq, rtu_rest no_rtu_hooks false d q rq = Some t -> match rt_handled t with Some r => rt_written t = match snd (db_handle_request d RTU r) with Ok resp => sent resp | Err _ => None end | None => True end).
  { intros q rq H. unfold rtu_rest in H. destruct (rtu_read_rest (S (line_size q)) q rq) as [[q' [[|x l0]|e]]|]; [| | |discriminate H]; try (injection H as <-; exact Logic.I).
    cbn [no_rtu_hooks rh_after_read rh_server rh_before_write] in H. unfold replaced, no_hook in H. cbv beta iota zeta in H. rewrite hookless_rtu in H. destruct (db_handle_request d RTU (x :: l0)) as [d2 r] eqn:DB.
    destruct r as [resp|e]; injection H as <-; cbn [rt_handled rt_written]; rewrite DB; reflexivity. }
  assert (W : match rt_handled t with Some r => rt_written t = match snd (db_handle_request d RTU r) with Ok resp => sent resp | Err _ => None end | None => True end).
  { unfold rtu_do_run in R. destruct block; [|now apply Q in R]. destruct (serial_read_blocking p) as [[p0 [b0|[|]]]|]; [now apply Q in R|now apply Q in R| |discriminate R]. injection R as <-. exact Logic.I. }
  destruct (rt_handled t); [now rewrite W|reflexivity].
Qed.

(** C118: with whatever handlers at whatever level, verbose or not: if no handler sends by UDP, or error texts are ASCII and no request is
    longer than 15000 bytes, the RTU server - its databank, what it reads, carries out and writes, its being alive - is what it is without a
    logger. *)
Theorem C118_neutral : forall lg tx block pend d p, let '(d', p', ev) := rtu_life block pend d p in
  rtu_short lg ev -> (no_udp lg \/ texts_ok tx) -> snd (lr_life lg tx block pend d p) = (d', p', ev, Running).
Proof.
  intros lg tx block pend d p. pose proof (rtu_life_ok lg tx) as L. destruct (rtu_life block pend d p) as [[d' p'] ev] eqn:E. intros S TX. specialize (L TX block pend d p). rewrite E in L. now apply L.
Qed.
(** C118: verbose, logger at DEBUG, the master waits for each response: the lines of Server._handle are those of the requests carried out
    and the responses written, in order, each given to every handler. *)
Theorem C118_log_shows_traffic_partial : forall lg tx block pend d p, Forall (fun b => b = false) pend -> let ev := snd (rtu_life block pend d p) in
  rtu_short lg ev -> (no_udp lg \/ texts_ok tx) -> lg_verbose lg = true -> lg_level lg <= 10 ->
  by_handle (fst (lr_life lg tx block pend d p)) = written lg (rtu_lines ev).
Proof.
  intros lg tx block pend d p A ev S TX V LV. pose proof (rtu_life_ok lg tx TX block pend d p) as L. pose proof (computed_sent block pend d p A) as C. subst ev. destruct (rtu_life block pend d p) as [[d' p'] ev]. cbn [snd] in *.
  destruct (L S) as [_ ->]. rewrite C. clear -V LV. unfold ev_lines, written, rtu_lines. induction ev as [|e ev IH]; [reflexivity|]. cbn [flat_map]. rewrite flat_map_app, IH. f_equal. unfold frame_lines, record_of, two_lines. rewrite V.
  destruct (DEBUG <? lg_level lg) eqn:G; [unfold DEBUG in G; lia|]. cbn [flat_map]. f_equal. destruct (snd e); [cbn [flat_map]; now rewrite app_nil_r|reflexivity].
Qed.

(** C118: in general the lines are those of the requests carried out and the responses computed ... *)
Theorem C118_log_shows_computed : forall lg tx block pend d p, rtu_short lg (snd (rtu_life block pend d p)) -> (no_udp lg \/ texts_ok tx) -> lg_verbose lg = true -> lg_level lg <= 10 ->
  by_handle (fst (lr_life lg tx block pend d p)) = written lg (rtu_lines (computed_life block pend d p)).
Proof.
  intros lg tx block pend d p S TX V LV. pose proof (rtu_life_ok lg tx TX block pend d p) as L. destruct (rtu_life block pend d p) as [[d' p'] ev]. cbn [snd] in *.
  destruct (L S) as [_ ->]. clear -V LV. generalize (computed_life block pend d p). intros ev. unfold ev_lines, written, rtu_lines. induction ev as [|e ev IH]; [reflexivity|]. cbn [flat_map]. rewrite flat_map_app, IH. f_equal. unfold frame_lines, record_of, two_lines. rewrite V.
  destruct (DEBUG <? lg_level lg) eqn:G; [unfold DEBUG in G; lia|]. cbn [flat_map]. f_equal. destruct (snd e); [cbn [flat_map]; now rewrite app_nil_r|reflexivity].
Qed.
(** ... and a request that arrives while one is carried out makes the log show a response that was never written: the same lines as if it had been. *)
Definition read_frame : list Z := sealed [3; 3; 0; 100; 0; 1].
Definition answer_frame : list Z := sealed [3; 3; 2; 0; 0].
Definition one_request : line := [Burst read_frame; Silence].
Definition console : logger := {| lg_level := 10; lg_handlers := [Console]; lg_verbose := true |}.
Theorem C118_unsent_response_refuted : exists lg tx d p,
  snd (rtu_life true [false] d p) = [(read_frame, Some answer_frame)] /\ snd (rtu_life true [true] d p) = [(read_frame, None)] /\
  by_handle (fst (lr_life lg tx true [true] d p)) = written lg [get_log_buffer "-->" read_frame; get_log_buffer "<--" answer_frame] /\
  by_handle (fst (lr_life lg tx true [false] d p)) = written lg [get_log_buffer "-->" read_frame; get_log_buffer "<--" answer_frame].
Proof.
  exists console, blank_texts, demo_db, one_request. split; [vm_compute; reflexivity|]. split; [vm_compute; reflexivity|]. split; vm_compute; reflexivity.
Qed.
(** The warning tells them apart: it is the last line of a turn that withholds a response, and is given to every handler. *)
Theorem C118_withheld : forall lg tx block d p t, lg_level lg <= 30 -> (no_udp lg \/ texts_ok tx) -> rtu_short lg (events_of t) ->
  rtu_do_run no_rtu_hooks block true d p = Some t -> (exists r b, computed d t = [(r, Some b)]) ->
  rt_written t = None /\ exists before, lr_do_run lg tx block true d p =
    Some (before ++ map (fun h => (h, {| rec_level := 30; rec_site := "modbus_rtu._do_run"; rec_text := "Not sending response because there is new request pending" |})) (lg_handlers lg), (t, None)).
Proof.
  intros lg tx block d p t LV TX S R (r0 & b0 & C).
  assert (Q : forall q rq, rtu_rest no_rtu_hooks true d q rq = Some t -> rt_written t = None /\ exists before, lr_rest lg tx true d q rq =
    Some (before ++ map (fun h => (h, {| rec_level := 30; rec_site := "modbus_rtu._do_run"; rec_text := "Not sending response because there is new request pending" |})) (lg_handlers lg), (t, None))).
  { intros q rq H. unfold rtu_rest, lr_rest in *. destruct (rtu_read_rest (Datatypes.S (line_size q)) q rq) as [[q' [[|x l0]|e]]|]; [| | |discriminate H]; try (injection H as <-; discriminate C).
    cbn [no_rtu_hooks rh_after_read rh_server rh_before_write] in H. unfold replaced, no_hook in H. cbv beta iota zeta in H. rewrite hookless_rtu in H. pose proof (handle_ok lg tx TX d RTU (x :: l0)) as HO.
    destruct (db_handle_request d RTU (x :: l0)) as [d2 r] eqn:DB. destruct (l_handle lg tx d RTU (x :: l0)) as [o [d1 r1]]. cbn [fst snd] in HO.
    destruct r as [resp|e]; injection H as <-; unfold computed in C; cbn [rt_handled] in C; rewrite DB in C; cbn [snd] in C; [|discriminate C]. injection C as _ SB.
    inversion S as [|? ? S1 _]; subst. destruct (HO S1) as [E F]. injection E as -> ->. split; [reflexivity|]. rewrite SB. rewrite (log_ok lg tx TX); [|right; split; [reflexivity|vm_compute; discriminate]].
    exists o. cbn [said fst snd]. unfold record_of. change (WARNING <? lg_level lg) with (30 <? lg_level lg). destruct (30 <? lg_level lg) eqn:G; [lia|]. reflexivity. }
  unfold rtu_do_run, lr_do_run in *. destruct block; [|now apply Q]. destruct (serial_read_blocking p) as [[p0 [bb|[|]]]|]; [now apply Q|now apply Q| |discriminate R]. injection R as <-. discriminate C.
Qed.
Example C118_ex : computed demo_db (match rtu_do_run no_rtu_hooks true true demo_db one_request with Some t => t | None => {| rt_line := []; rt_db := demo_db; rt_handled := None; rt_written := None |} end) = [(read_frame, Some answer_frame)] /\
  snd (rtu_life true [false; true; false] demo_db (one_request ++ one_request ++ [Fault true; Silence] ++ one_request)) = [(read_frame, Some answer_frame); (read_frame, None)] /\
  rtu_short console [(read_frame, Some answer_frame)] /\ texts_ok blank_texts.
Proof.
  split; [vm_compute; reflexivity|]. split; [vm_compute; reflexivity|]. split; [|exact blank_ok].
  constructor; [|constructor]. split; [|left; intros [H|[]]; discriminate H]. apply Forall_forall. cbv [fst]. vm_compute. intros x H. repeat (destruct H as [<- | H]; [split; [discriminate|reflexivity]|]). destruct H.
Qed.

(** C118: UDP: reopening the port fails with an error whose text is not ASCII; the report about it raises, so does that of the server loop, and
    the thread ends without a successor: the request that follows is not served, and start() cannot bring the server back.  Without the logger it
    is served. *)
Theorem C118_ends_refuted : exists lg tx pend d p, (exists b, snd (rtu_life true pend d p) = [(read_frame, Some b)]) /\
  snd (fst (snd (lr_life lg tx true pend d p))) = [] /\ snd (snd (lr_life lg tx true pend d p)) = EndedForGood.
Proof.
  exists {| lg_level := WARNING; lg_handlers := [Udp]; lg_verbose := false |}, localised, [false; false], demo_db, (Fault false :: one_request).
  split; [exists answer_frame; vm_compute; reflexivity|]. split; vm_compute; reflexivity.
Qed.
(** C118: verbose, UDP: what is read as one request of 33000 bytes or more is not carried out *)
Theorem C118_long_request_lost : forall lg tx pending d p p' request, In Udp (lg_handlers lg) -> lg_verbose lg = true -> lg_level lg <= 10 -> bytes request -> 33000 <= zlen request ->
  rtu_read_rest (S (line_size p)) p [] = Some (p', Ok request) ->
  exists o x, lr_do_run lg tx false pending d p = Some (o, ({| rt_line := p'; rt_db := d; rt_handled := Some request; rt_written := None |}, x)).
Proof.
  intros lg tx pending d p p' request U V L B N R. destruct (C100_long_request_lost lg tx d RTU request U V L B N) as (e & E).
  unfold lr_do_run, lr_rest. rewrite R. destruct request as [|x l]; [cbn in N; lia|]. destruct (l_handle lg tx d RTU (x :: l)) as [o [d' r]]. cbn [snd] in E. injection E as -> ->.
  unfold lr_except. destruct (log lg tx ERROR _ _) as [o' y]. exists (o ++ o')%list, y. reflexivity.
Qed.

(** C118: the levels: every line is of level 10, 30 or 40, of at least the level of the logger; a logger above 40 is silent. *)
Theorem C118_levels : forall lg tx block pend d p, within lg (fst (lr_life lg tx block pend d p)) /\ (40 < lg_level lg -> fst (lr_life lg tx block pend d p) = []).
Proof.
  intros lg tx block pend d p. assert (W : within lg (fst (lr_life lg tx block pend d p))).
  { revert d p. induction pend as [|b l IH]; intros d p; cbn [lr_life]; [constructor|].
    assert (X : forall e t, within lg (fst (lr_except lg tx e t))) by (intros e t; unfold lr_except; pose proof (within_log lg tx ERROR "modbus_rtu._do_run" (append "Error while handling request, Exception occurred: " (tx_str tx e)) ltac:(cbn; auto)) as W; destruct (log lg tx ERROR _ _); exact W).
    assert (Q : forall q rq, match lr_rest lg tx b d q rq with Some x => within lg (fst x) | None => True end).
    { intros q rq. unfold lr_rest. destruct (rtu_read_rest (S (line_size q)) q rq) as [[q' [[|x l0]|e]]|]; [constructor| |apply X|exact Logic.I].
      pose proof (within_handle lg tx d RTU (x :: l0)) as H. destruct (l_handle lg tx d RTU (x :: l0)) as [o [d1 r1]]. cbn [fst] in H. apply within_said; [exact H|]. destruct r1 as [resp|e]; [|apply X].
      destruct (sent resp); [|constructor]. destruct b; [|constructor]. pose proof (within_log lg tx WARNING "modbus_rtu._do_run" "Not sending response because there is new request pending" ltac:(cbn; auto)) as W. destruct (log lg tx WARNING _ _) as [o2 [e|]]; [apply within_said; [exact W|apply X]|exact W]. }
    assert (D : match lr_do_run lg tx block b d p with Some x => within lg (fst x) | None => True end).
    { unfold lr_do_run. destruct block; [|apply Q]. destruct (serial_read_blocking p) as [[p0 [bb|[|]]]|]; [apply Q|apply Q|apply X|exact Logic.I]. }
    destruct (lr_do_run lg tx block b d p) as [[o [t [e|]]]|]; [| |constructor]; cbn [fst] in D.
    - pose proof (within_log lg tx ERROR "modbus._run_server" (append "server error: " (tx_str tx e)) ltac:(cbn; auto)) as W. destruct (log lg tx ERROR _ _) as [o2 [x|]]; now apply within_app.
    - specialize (IH (rt_db t) (rt_line t)). destruct (lr_life lg tx block l (rt_db t) (rt_line t)) as [o2 [[[d2 p2] ev2] f]]. now apply within_app. }
  split; [exact W|]. intros L. destruct (fst (lr_life lg tx block pend d p)) as [|x o]; [reflexivity|]. exfalso. inversion W as [|? ? (I & G & _) _]. cbn in I. lia.
Qed.

(** C118: how the log of a server that has ended ends: every handler is told the exception of the server, or every handler before the one that cannot take
    the record, in which case the server has ended for good. *)
Theorem C118_ended : forall lg tx block pend d p out d' p' ev f, lr_life lg tx block pend d p = (out, (d', p', ev, f)) -> f <> Running -> lg_level lg <= 40 ->
  exists before e told, let r := {| rec_level := 40; rec_site := "modbus._run_server"; rec_text := ("server error: " ++ tx_str tx e)%string |} in
  out = before ++ map (fun h => (h, r)) told /\
  (f = Ended -> told = lg_handlers lg) /\
  (f = EndedForGood -> exists h rest x, lg_handlers lg = told ++ h :: rest /\ emit tx h r = Some x).
Proof.
  intros lg tx block pend. induction pend as [|b l IH]; intros d p out d' p' ev f H F L; cbn [lr_life] in H; [injection H as <- <- <- <- <-; congruence|].
  destruct (lr_do_run lg tx block b d p) as [[o [t [e|]]]|].
  - destruct (log lg tx ERROR "modbus._run_server" (append "server error: " (tx_str tx e))) as [o' [x|]] eqn:G; injection H as <- <- <- <- <-.
    + apply log_raises in G. destruct G as (told & h & rest & G & EM & ->). exists o, e, told. split; [reflexivity|]. split; [discriminate|]. intros _. now exists h, rest, x.
    + exists o, e, (lg_handlers lg). split; [|split; [reflexivity|discriminate]]. f_equal.
      unfold log in G. change ERROR with 40 in G. replace (40 <? lg_level lg) with false in G by (symmetry; apply Z.ltb_ge; exact L). revert G. clear.
      set (r := {| rec_level := 40; rec_site := _; rec_text := _ |}). clearbody r. revert o'. induction (lg_handlers lg) as [|h hs IH]; intros o' G; cbn [call_handlers] in G; [now injection G as <-|].
      destruct (emit tx h r); [discriminate G|]. destruct (call_handlers tx hs r) as [o x]. injection G as <- ->. cbn [map]. now rewrite (IH o eq_refl).
  - destruct (lr_life lg tx block l (rt_db t) (rt_line t)) as [o2 [[[d2 p2] ev2] f2]] eqn:E. injection H as <- <- <- <- <-.
    destruct (IH _ _ _ _ _ _ _ E F L) as (before & e & told & -> & Q). exists (o ++ before), e, told. now rewrite app_assoc.
  - injection H as <- <- <- <- <-. congruence.
Qed.
Example C118_ended_ex : let r := lr_life {| lg_level := WARNING; lg_handlers := [Console; Udp]; lg_verbose := false |} localised true [false; false] demo_db (Fault false :: one_request) in
  snd (snd r) = EndedForGood /\ last (map fst (fst r)) Dummy = Console /\ fst r <> [].
Proof. vm_compute. repeat split. discriminate. Qed.

Print Assumptions C118_neutral.
Print Assumptions C118_log_shows_traffic_partial.
Print Assumptions C118_log_shows_computed.
Print Assumptions C118_unsent_response_refuted.
Print Assumptions C118_withheld.
Print Assumptions C118_ends_refuted.
Print Assumptions C118_long_request_lost.
Print Assumptions C118_levels.
Print Assumptions C118_ended.
