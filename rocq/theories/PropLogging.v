(** C100: logging.
    Vocabulary: AvailModel.v (tcp_life: the server without a logger), LogModel.v (the line for a frame) and the definitions below. *)
From Coq Require Import ZArith Lia ZifyBool ZifyNat String Ascii.
From Verif Require Import Base BaseFacts PyStruct Defines Spec StructFacts SlaveSpec SlaveModel SlaveMore QueryModel FrameSpec QueryProofs GeneralProofs DatabankModel TransportModel AvailModel TextModel TextProofs LogModel PropLog PropDatabank PropTransport LoggingModel.
Open Scope string_scope.
Open Scope list_scope.
Open Scope Z_scope.

(** ** Spec *)
(** a text a UDP log message can carry, with a prefix of at most 5000 characters *)
Definition fine (t : string) : Prop := plain t = true /\ slen t <= 60100.
(** error texts, addresses, descriptors and prefixes are ASCII and not longer than a page *)
Definition texts_ok (tx : texts) : Prop :=
  (forall e, plain (tx_str tx e) = true /\ slen (tx_str tx e) <= 5000) /\ (forall i, plain (tx_addr tx i) = true /\ slen (tx_addr tx i) <= 5000) /\
  (forall f, plain (tx_fd tx f) = true /\ slen (tx_fd tx f) <= 5000) /\ (forall r, plain (tx_prefix tx r) = true /\ slen (tx_prefix tx r) <= 5000).
(** requests of at most 15000 bytes *)
Definition small (ev : list tcp_event) : Prop := Forall (fun e => zlen (snd (fst e)) <= 15000) ev.
Definition on_the_wire (ev : list tcp_event) : Prop := Forall (fun e => bytes (snd (fst e))) ev.
(** the lines Server._handle should write for what happened *)
Definition lines (ev : list tcp_event) : list string :=
  flat_map (fun e => get_log_buffer "-->" (snd (fst e)) :: match snd e with Some b => [get_log_buffer "<--" b] | None => [] end) ev.
Definition by_handle (o : output) : output := filter (fun x => String.eqb (rec_site (snd x)) "modbus._handle") o.
Definition written (lg : logger) (l : list string) : output :=
  flat_map (fun t => map (fun h => (h, {| rec_level := 10; rec_site := "modbus._handle"; rec_text := t |})) (lg_handlers lg)) l.

(** ** Texts *)
Lemma plain_app a b : plain (append a b) = plain a && plain b.
Proof. induction a as [|c a IH]; [reflexivity|]. cbn. rewrite IH. now rewrite andb_assoc. Qed.
Lemma slen_app a b : slen (append a b) = slen a + slen b.
Proof. unfold slen. induction a as [|c a IH]; [reflexivity|]. cbn [append String.length]. lia. Qed.
Lemma digits_len f : forall n rest, (String.length (digits f n rest) <= f + String.length rest)%nat.
Proof. induction f as [|f IH]; intros n rest; cbn [digits]; [lia|]. destruct (_ <? _); [cbn [String.length]; lia|]. etransitivity; [apply IH|]. cbn [String.length]. lia. Qed.
Lemma small_number q : 0 <= q < 65536 -> plain (py_str q) = true /\ slen (py_str q) <= 17.
Proof.
  intros H. unfold py_str. rewrite (proj2 (Z.ltb_ge q 0)) by lia. split.
  - assert (P : all_chars is_plain (str_of_pos q) = true).
    { unfold str_of_pos. apply digits_chars; [|lia|reflexivity]. intros c Hc. unfold is_digit in Hc. unfold is_plain. unfold code in Hc. lia. }
    revert P. generalize (str_of_pos q). intros s. induction s as [|c s IH]; [reflexivity|]. cbn. intros P. apply andb_prop in P as [-> P]. now rewrite IH.
  - unfold slen, str_of_pos. pose proof (digits_len (S (Z.to_nat (Z.log2 q))) q "") as L. cbn [String.length] in L.
    assert (Z.log2 q <= 15). { destruct (Z.eq_dec q 0) as [->|]; [cbn; lia|]. apply Z.lt_succ_r. apply Z.log2_lt_pow2; [lia|]. change (2 ^ Z.succ 15) with 65536. lia. }
    pose proof (Z.log2_nonneg q). lia.
Qed.
Lemma byte_text b : is_byte b -> slen (py_str b) <= 3.
Proof.
  intros H. assert (F : forallb (fun n => slen (py_str (Z.of_nat n)) <=? 3) (seq 0 256) = true) by (vm_compute; reflexivity).
  rewrite forallb_forall in F. specialize (F (Z.to_nat b)). unfold is_byte in H. rewrite Z2Nat.id in F by lia. apply Z.leb_le. apply F. apply in_seq. lia.
Qed.
Lemma dashed_fine l : bytes l -> plain (dashed l) = true /\ slen (dashed l) <= 4 * zlen l.
Proof.
  induction 1 as [|x l Hx Hl [IP IL]]; [split; [reflexivity|cbn; lia]|]. pose proof (byte_text x Hx) as B. destruct (small_number x) as [P _]; [unfold is_byte in Hx; lia|].
  rewrite zlen_cons. destruct l as [|y l]; [cbn [dashed]; change (zlen (@nil Z)) with 0; split; [exact P|lia]|].
  change (dashed (x :: y :: l)) with (append (py_str x) (append "-" (dashed (y :: l)))). rewrite !plain_app, P, IP, !slen_app. split; [reflexivity|]. change (slen "-") with 1. lia.
Qed.
Lemma frame_text prefix l : bytes l -> plain prefix = true -> plain (but_last prefix) = true -> plain (get_log_buffer prefix l) = true /\ slen (get_log_buffer prefix l) <= slen prefix + 4 * zlen l.
Proof.
  intros B P P'. destruct l as [|x l].
  - change (get_log_buffer prefix []) with (but_last prefix). split; [exact P'|]. unfold slen. rewrite but_last_length. change (zlen (@nil Z)) with 0. lia.
  - rewrite C81_line by discriminate. destruct (dashed_fine (x :: l) B) as [D1 D2]. rewrite plain_app, slen_app, P, D1. split; [reflexivity|lia].
Qed.

Lemma be_bytes_bytes n v : bytes (be_bytes n v) /\ length (be_bytes n v) = n.
Proof. induction n as [|n [IH1 IH2]]; [split; [constructor|reflexivity]|]. cbn [be_bytes]. split; [|cbn; now rewrite IH2]. constructor; [|exact IH1]. unfold is_byte. apply Z.mod_pos_bound. lia. Qed.
Lemma pack_items_bytes lt items : forall vals b, pack_items lt items vals = Ok b -> bytes b /\ length b = items_size items.
Proof.
  induction items as [|[n sg|] t IH]; intros vals b H; cbn [pack_items] in H.
  - destruct vals; [|discriminate]. injection H as <-. split; [constructor|reflexivity].
  - destruct vals as [|v vs]; [discriminate|]. unfold pack_int in H. destruct (int_in_range n sg v); [|discriminate]. cbn [bind] in H. destruct (pack_items lt t vs) as [r|] eqn:E; [|discriminate]. cbn [bind] in H. injection H as <-.
    destruct (IH vs r E) as [B L]. destruct (be_bytes_bytes n v) as [B1 L1]. cbn [items_size fold_right item_size]. fold (items_size t). destruct lt; rewrite app_length, ?rev_length, L1, L; (split; [apply bytes_app; [|exact B]|reflexivity]); [|exact B1].
    unfold bytes in *. now apply Forall_rev.
  - destruct (pack_items lt t vals) as [r|] eqn:E; [|discriminate]. cbn [bind] in H. injection H as <-. destruct (IH vals r E) as [B L]. split; [constructor; [unfold is_byte; lia|exact B]|]. cbn. now rewrite L.
Qed.
Lemma pack_bytes_out f pf vals b : parse_fmt f = Ok pf -> pack f vals = Ok b -> bytes b /\ zlen b = Z.of_nat (items_size (pf_items pf)).
Proof. intros P H. unfold pack in H. rewrite P in H. cbn [bind] in H. apply pack_items_bytes in H as [B L]. split; [exact B|]. unfold zlen. now rewrite L. Qed.
Lemma build_response_out h pdu b : bytes pdu -> build_response h pdu = Ok b -> bytes b /\ zlen b <= zlen pdu + 7.
Proof.
  intros B. destruct h as [a|m]; cbn [build_response]; unfold rtu_build_response, tcp_build_response.
  - destruct (pack ">B" [a]) as [h|] eqn:E; [|discriminate]. cbn [bind]. destruct (pack ">H" _) as [c|] eqn:E2; [|discriminate]. cbn [bind]. intros H. injection H as <-.
    destruct (pack_bytes_out ">B" _ _ _ eq_refl E) as [B1 L1]. destruct (pack_bytes_out ">H" _ _ _ eq_refl E2) as [B2 L2]. cbn in L1, L2. rewrite !zlen_app. split; [repeat apply bytes_app; assumption|lia].
  - unfold mbap_pack. destruct (pack _ _) as [h|] eqn:E; [|discriminate]. cbn [bind]. intros H. injection H as <-. destruct (pack_bytes_out ">HHHB" _ _ _ eq_refl E) as [B1 L1]. cbn in L1. rewrite zlen_app. split; [apply bytes_app; assumption|lia].
Qed.
Lemma failure_out pdu b : failure_response pdu = Ok (Some b) -> bytes b /\ zlen b = 2.
Proof.
  unfold failure_response. destruct (match pdu with [] => _ | _ => _ end) as [f|]; [|discriminate]. cbn [bind]. destruct (pack ">BB" _) as [c|] eqn:E; [|discriminate]. cbn [bind]. intros H. injection H as <-. exact (pack_bytes_out ">BB" _ _ _ eq_refl E).
Qed.

(** ** Log calls that do not raise *)
Definition no_udp (lg : logger) : Prop := ~ In Udp (lg_handlers lg).
Section Neutral.
Variable lg : logger.
Variable tx : texts.
Hypothesis TX : no_udp lg \/ texts_ok tx.
Definition takes (t : string) : Prop := no_udp lg \/ fine t.
Definition short (l : list Z) : Prop := bytes l /\ (no_udp lg \/ zlen l <= 15000).

Lemma handlers_ok r : takes (rec_text r) -> forall hs, (forall h, In h hs -> In h (lg_handlers lg)) -> call_handlers tx hs r = (map (fun h => (h, r)) hs, None).
Proof.
  intros T. induction hs as [|h hs IH]; intros I; [reflexivity|]. cbn [call_handlers map]. rewrite IH by (intros h' H'; apply I; now right).
  assert (E : emit tx h r = None); [|now rewrite E]. destruct h; [reflexivity|reflexivity|]. destruct TX as [N|(_ & _ & _ & PX)]; [exfalso; apply N; apply I; now left|].
  destruct T as [N|[F1 F2]]; [exfalso; apply N; apply I; now left|]. destruct (PX r) as [P1 P2]. cbn [emit]. rewrite plain_app, F1, P1. cbn [andb negb]. rewrite slen_app. destruct (65507 <? _) eqn:E; [lia|reflexivity].
Qed.
Definition record_of (level : Z) (site text : string) : output :=
  if level <? lg_level lg then [] else map (fun h => (h, {| rec_level := level; rec_site := site; rec_text := text |})) (lg_handlers lg).
Lemma log_ok level site t : takes t -> log lg tx level site t = (record_of level site t, None).
Proof. intros T. unfold log, record_of. destruct (_ <? _); [reflexivity|]. apply handlers_ok; [exact T|auto]. Qed.

Lemma takes_str e : takes (tx_str tx e).
Proof. destruct TX as [N|(S & _)]; [now left|right]. destruct (S e). split; [assumption|lia]. Qed.
Lemma takes_app a b : plain a = true -> slen a <= 100 -> (no_udp lg \/ (plain b = true /\ slen b <= 60000)) -> takes (append a b).
Proof. intros P L [N|[P' L']]; [now left|right]. split; [now rewrite plain_app, P, P'|rewrite slen_app; lia]. Qed.
Lemma takes_err a e : plain a = true -> slen a <= 100 -> takes (append a (tx_str tx e)).
Proof. intros P L. apply takes_app; [exact P|exact L|]. destruct TX as [N|(S & _)]; [now left|right]. destruct (S e). split; [assumption|lia]. Qed.
Lemma takes_number a q : plain a = true -> slen a <= 100 -> 0 <= q < 65536 -> takes (append a (py_str q)).
Proof. intros P L Q. apply takes_app; [exact P|exact L|right]. destruct (small_number q Q). split; [assumption|lia]. Qed.
Lemma takes_frame prefix l : bytes l -> (no_udp lg \/ zlen l <= 15010) -> plain prefix = true -> plain (but_last prefix) = true -> slen prefix <= 10 -> takes (get_log_buffer prefix l).
Proof. intros B S P P' L. destruct S as [N|S]; [now left|right]. destruct (frame_text prefix l B P P'). split; [assumption|lia]. Qed.
Lemma takes_error fd e : takes (error_text tx fd e).
Proof.
  destruct TX as [N|(S & _ & F & _)]; [now left|right]. destruct (S e), (F fd). unfold error_text, fine. rewrite !plain_app, !slen_app. rewrite H, H1.
  change (slen "Error while processing data on socket ") with 38. change (slen ": ") with 2. split; [reflexivity|lia].
Qed.
Lemma takes_connected id : takes (append (tx_addr tx id) (append " is connected with socket " (append (tx_fd tx (Some id)) "..."))).
Proof.
  destruct TX as [N|(_ & A & F & _)]; [now left|right]. destruct (A id), (F (Some id)). unfold fine. rewrite !plain_app, !slen_app. rewrite H, H1.
  change (slen " is connected with socket ") with 26. change (slen "...") with 3. split; [reflexivity|lia].
Qed.
Lemma takes_disconnected id : takes (append (tx_fd tx (Some id)) " is disconnected").
Proof.
  destruct TX as [N|(_ & _ & F & _)]; [now left|right]. destruct (F (Some id)). unfold fine. rewrite !plain_app, !slen_app, H. change (slen " is disconnected") with 16. split; [reflexivity|lia].
Qed.
Lemma by_handle_app a b : by_handle (a ++ b) = by_handle a ++ by_handle b.
Proof. apply filter_app. Qed.
Lemma by_handle_record level site t : site <> "modbus._handle" -> by_handle (record_of level site t) = [].
Proof.
  intros N. unfold record_of, by_handle. destruct (_ <? _); [reflexivity|]. induction (lg_handlers lg) as [|h hs IH]; [reflexivity|]. cbn [map filter snd rec_site]. apply String.eqb_neq in N. now rewrite N.
Qed.
Lemma by_handle_own level t : by_handle (record_of level "modbus._handle" t) = record_of level "modbus._handle" t.
Proof. unfold record_of, by_handle. destruct (_ <? _); [reflexivity|]. induction (lg_handlers lg) as [|h hs IH]; [reflexivity|]. cbn [map filter snd rec_site]. rewrite String.eqb_refl. now rewrite IH. Qed.

(** ** A request *)
Lemma be16_bound pdu i : bytes pdu -> 0 <= be16 pdu i < 65536.
Proof.
  intros B. assert (N : forall k, 0 <= nth k pdu 0 < 256).
  { intros k. destruct (nth_in_or_default k pdu 0) as [H| ->]; [|lia]. unfold bytes in B. rewrite Forall_forall in B. apply B in H. exact H. }
  unfold be16. pose proof (N i). pose proof (N (S i)). lia.
Qed.
Lemma takes_quantity fc pdu site t : bytes pdu -> quantity_text fc pdu = Some (site, t) -> takes t /\ site <> "modbus._handle".
Proof.
  intros B. unfold quantity_text. destruct ((fc =? READ_INPUT_REGISTERS) || (fc =? READ_HOLDING_REGISTERS)).
  - destruct (unpack2 ">HH" (py_slice pdu 1 5)) as [[a q]|e] eqn:E; [|discriminate]. apply (unpack2_inv ">HH" false _ _ _ eq_refl) in E as (_ & _ & ->). cbn beta iota.
    destruct (_ || _); [|discriminate]. intros X. injection X as <- <-. split; [|discriminate]. change (takes (append "quantity_of_x is " (py_str (be16 pdu 3)))). apply takes_number; [reflexivity|vm_compute; discriminate|now apply be16_bound].
  - destruct (fc =? READ_WRITE_MULTIPLE_REGISTERS); [|discriminate]. destruct (unpack5 ">HHHHB" (py_slice pdu 1 10)) as [[[[[v w] x] y] z]|e] eqn:E; [|discriminate]. apply unpack5_inv in E as (_ & _ & -> & _).
    destruct (_ || _); [|discriminate]. intros X. injection X as <- <-. split; [|discriminate]. change (takes (append "quantity_of_x_to_read is " (py_str (be16 pdu 3)))). apply takes_number; [reflexivity|vm_compute; discriminate|now apply be16_bound].
Qed.
(** what a log call away from Server._handle leaves: nothing of that function *)
Definition aside {A} (x : output * A) (y : A) : Prop := snd x = y /\ by_handle (fst x) = [].
Lemma aside_said {A} o (x : output * A) y : by_handle o = [] -> aside x y -> aside (said o x) y.
Proof. intros O [E F]. split; [exact E|]. cbn [said fst]. now rewrite by_handle_app, O, F. Qed.
Lemma aside_nil {A} (y : A) : aside ([], y) y. Proof. split; reflexivity. Qed.
Lemma catch_modbus_ok fc r : aside (l_catch_modbus lg tx fc r) (catch_modbus_error fc r).
Proof.
  unfold l_catch_modbus. destruct r as [x|e]; [apply aside_nil|]. destruct e; try apply aside_nil. rewrite log_ok by apply takes_str. split; [reflexivity|]. now apply by_handle_record.
Qed.
Lemma slave_ok s pdu bc : short pdu -> aside (l_slave lg tx s pdu bc) (handle_request s pdu bc).
Proof.
  intros [B S]. unfold l_slave, handle_request. destruct (unpack1 ">B" (py_slice pdu 0 1)) as [fc|e] eqn:U; [|apply aside_nil].
  destruct (fn_code_map fc) as [f|] eqn:F; [|destruct (catch_modbus_ok fc (Err (ModbusError ILLEGAL_FUNCTION))) as [-> E]; split; [reflexivity|exact E]].
  destruct (bc && cant_be_broadcasted fc) eqn:CB; [apply aside_nil|].
  assert (Q : exists o, (match quantity_text fc pdu with Some (site, t) => log lg tx DEBUG site t | None => ([], None) end) = (o, None) /\ by_handle o = []).
  { destruct (quantity_text fc pdu) as [[site t]|] eqn:E; [|eauto]. destruct (takes_quantity fc pdu site t B E) as [T N]. rewrite log_ok by exact T. eexists. split; [reflexivity|]. now apply by_handle_record. }
  destruct Q as (o & -> & OQ). apply aside_said; [exact OQ|]. destruct (f s pdu) as [s' r] eqn:FS. destruct r as [resp|e]; [|destruct (catch_modbus_ok fc (Err e)) as [-> E]; split; [reflexivity|exact E]].
  destruct resp as [|x resp]; [apply aside_nil|]. destruct bc; [|apply aside_nil].
  rewrite log_ok; [split; [reflexivity|now apply by_handle_record]|].
  destruct pdu as [|fc' rest]; [discriminate|].
  assert (HR : exists z, handle_request s (fc' :: rest) false = (s', Ok (z :: x :: resp))).
  { unfold handle_request. rewrite U, F. cbn [andb]. rewrite FS. assert (fc' = fc) as ->. { rewrite unpack_fc in U by exact B. now injection U. }
    rewrite pack_B_ok; [eexists; reflexivity|]. now inversion B. }
  destruct HR as (z & HR). destruct (hr_small s fc' rest false s' _ B HR) as (B2 & L & _). rewrite zlen_cons in L.
  apply takes_app; [reflexivity|vm_compute; discriminate|]. destruct S as [N|S]; [now left|right].
  destruct (frame_text "!!" (x :: resp)) as [P1 P2]; [now inversion B2|reflexivity|reflexivity|]. split; [exact P1|]. change (slen "!!") with 2 in P2. pose proof (zlen_nonneg (x :: resp)). lia.
Qed.
Lemma broadcast_ok pdu : short pdu -> forall l, aside (l_broadcast lg tx l pdu) (broadcast_loop l pdu).
Proof.
  intros S. induction l as [|[k s] t IH]; [apply aside_nil|]. cbn [l_broadcast broadcast_loop]. destruct (slave_ok s pdu true S) as [E F]. destruct (l_slave lg tx s pdu true) as [o [s' r]]. cbn [snd fst] in E, F. rewrite <- E.
  destruct r as [x|e]; [|split; [reflexivity|exact F]]. destruct IH as [E2 F2]. destruct (l_broadcast lg tx t pdu) as [o' [t' r']]. cbn [snd fst] in E2, F2. rewrite <- E2. split; [reflexivity|]. cbn [fst]. now rewrite by_handle_app, F, F2.
Qed.
Lemma db_catch_ok e pdu : aside (l_db_catch lg tx e pdu) (db_catch e pdu).
Proof.
  unfold l_db_catch. rewrite log_ok; [split; [reflexivity|now apply by_handle_record]|]. destruct e; apply takes_err; try reflexivity; vm_compute; discriminate.
Qed.
Lemma slice_part {A} (l : list A) x y : exists a b, l = a ++ py_slice l x y ++ b.
Proof.
  unfold py_slice. generalize (Z.to_nat (slice_bound (zlen l) y - slice_bound (zlen l) x)) (Z.to_nat (slice_bound (zlen l) x)). intros n m.
  exists (firstn m l), (skipn n (skipn m l)). now rewrite firstn_skipn, firstn_skipn.
Qed.
Lemma parse_part p request hdr id pdu : parse_request p request = Ok (hdr, id, pdu) -> exists a b, request = a ++ pdu ++ b.
Proof.
  destruct p; cbn [parse_request]; unfold rtu_parse_request, tcp_parse_request.
  - destruct (zlen request <? 3) eqn:L; [discriminate|]. destruct (unpack_one ">B" _); cbn [bind]; [|discriminate]. destruct (unpack_one ">H" _); cbn [bind]; [|discriminate]. destruct (negb _); cbn [bind]; [discriminate|].
    intros H. injection H as _ _ <-. unfold middle. apply slice_part.
  - destruct (6 <? zlen request); cbn [bind]; [|discriminate]. destruct (mbap_unpack _); cbn [bind]; [|discriminate]. destruct (mbap_length_ok _ _); cbn [bind]; [|discriminate].
    intros H. injection H as _ _ <-. unfold py_from. apply slice_part.
Qed.
Lemma part_short p request hdr id pdu : short request -> parse_request p request = Ok (hdr, id, pdu) -> short pdu /\ zlen pdu <= zlen request.
Proof.
  intros [B S] H. apply parse_part in H as (a & b & ->). apply bytes_app_inv in B as [_ B]. apply bytes_app_inv in B as [B _]. rewrite !zlen_app in *. pose proof (zlen_nonneg a). pose proof (zlen_nonneg b).
  split; [|lia]. split; [exact B|]. destruct S as [N|S]; [now left|right; lia].
Qed.
Lemma databank_ok d p request : short request -> aside (l_databank lg tx d p request) (db_handle_request d p request).
Proof.
  intros S. unfold l_databank, db_handle_request.
  assert (BK : forall (d : databank) e pdu, aside (fst (l_db_catch lg tx e pdu), (d, snd (l_db_catch lg tx e pdu))) (d, db_catch e pdu)) by (intros d' e pdu; destruct (db_catch_ok e pdu) as [-> F]; split; [reflexivity|exact F]).
  destruct (parse_request p request) as [[[hdr id] pdu]|e] eqn:P; [|apply BK]. destruct (part_short p request hdr id pdu S P) as [S' _]. destruct (id =? 0).
  - destruct (broadcast_ok pdu S' (db_slaves d)) as [E F]. destruct (l_broadcast lg tx (db_slaves d) pdu) as [o [l r]]. cbn [snd fst] in E, F. rewrite <- E. apply aside_said; [exact F|]. destruct r; [apply aside_nil|apply BK].
  - destruct (get_slave d id) as [s|e].
    + destruct (slave_ok s pdu false S') as [E F]. destruct (l_slave lg tx s pdu false) as [o [s' r]]. cbn [snd fst] in E, F. rewrite <- E. apply aside_said; [exact F|]. destruct (bind r _); [apply aside_nil|apply BK].
    + destruct e; try apply BK. destruct (db_error_on_missing d); [apply BK|apply aside_nil].
Qed.
Lemma response_out d p request d' b : bytes request -> db_handle_request d p request = (d', Ok (Some b)) -> bytes b /\ zlen b <= Z.max 259 (zlen request + 7).
Proof.
  intros B H. pose proof (zlen_nonneg request) as N0. unfold db_handle_request in H.
  assert (C : forall e pdu, db_catch e pdu = Ok (Some b) -> bytes b /\ zlen b <= Z.max 259 (zlen request + 7)).
  { intros e pdu E. unfold db_catch in E. destruct e; try (apply failure_out in E as [E1 E2]; split; [exact E1|lia]); injection E as <-; (split; [constructor|cbn; lia]). }
  destruct (parse_request p request) as [[[hdr id] pdu]|e] eqn:P; [|injection H as _ H; eauto].
  assert (PP := parse_part p request hdr id pdu P). destruct PP as (x & y & ER). assert (BP : bytes pdu) by (rewrite ER in B; apply bytes_app_inv in B as [_ B]; now apply bytes_app_inv in B as [B _]).
  assert (LP : zlen pdu <= zlen request) by (rewrite ER, !zlen_app; pose proof (zlen_nonneg x); pose proof (zlen_nonneg y); lia).
  destruct (id =? 0).
  - destruct (broadcast_loop (db_slaves d) pdu) as [l [u|e]]; injection H as _ H; [discriminate|eauto].
  - unfold get_slave in H. destruct (assoc Z.eqb id (db_slaves d)) as [s|].
    + destruct (handle_request s pdu false) as [s' r] eqn:HR. destruct (bind r _) as [b'|e] eqn:BR; injection H as _ H; [|eauto]. subst b'. destruct r as [resp|]; [|discriminate]. cbn [bind] in BR.
      destruct pdu as [|fc rest]; [discriminate HR|]. destruct (hr_small s fc rest false s' resp BP HR) as (B1 & L1 & _). apply build_response_out in BR as [B2 L2]; [|exact B1]. split; [exact B2|lia].
    + assert (b = []) as ->. { destruct (db_error_on_missing d); cbn [db_catch] in H; congruence. } split; [constructor|cbn; lia].
Qed.
(** what Server._handle itself writes *)
Definition frame_lines (request : list Z) (out : option (list Z)) : output :=
  if lg_verbose lg then record_of DEBUG "modbus._handle" (get_log_buffer "-->" request) ++ match out with Some b => record_of DEBUG "modbus._handle" (get_log_buffer "<--" b) | None => [] end else [].
Definition out_of (r : res response) : option (list Z) := match r with Ok resp => sent resp | Err _ => None end.
Lemma handle_ok d p request : short request -> let '(d', r) := db_handle_request d p request in
  snd (l_handle lg tx d p request) = (d', r) /\ by_handle (fst (l_handle lg tx d p request)) = frame_lines request (out_of r).
Proof.
  intros S. destruct (databank_ok d p request S) as [E F]. pose proof (response_out d p request) as RO. destruct (db_handle_request d p request) as [d' r] eqn:HR.
  assert (T1 : takes (get_log_buffer "-->" request)) by (destruct S as [B S]; apply takes_frame; [exact B| |reflexivity|reflexivity|vm_compute; discriminate]; destruct S; [now left|right; lia]).
  unfold l_handle. replace (if lg_verbose lg then log lg tx DEBUG "modbus._handle" (get_log_buffer "-->" request) else ([], None)) with (if lg_verbose lg then record_of DEBUG "modbus._handle" (get_log_buffer "-->" request) else [], @None exn)
    by (destruct (lg_verbose lg); [now rewrite log_ok|reflexivity]).
  destruct (l_databank lg tx d p request) as [o1 [d1 r1]]. cbn [snd fst] in E, F. injection E as -> ->. cbn [said snd fst]. rewrite !by_handle_app, F. cbn [app].
  assert (O1 : by_handle (if lg_verbose lg then record_of DEBUG "modbus._handle" (get_log_buffer "-->" request) else []) = if lg_verbose lg then record_of DEBUG "modbus._handle" (get_log_buffer "-->" request) else []) by (destruct (lg_verbose lg); [apply by_handle_own|reflexivity]).
  rewrite O1. unfold frame_lines, out_of. destruct r as [resp|e]; [|split; [reflexivity|]; cbn; destruct (lg_verbose lg); reflexivity].
  destruct (sent resp) as [b|] eqn:SR; [|split; [reflexivity|]; cbn; destruct (lg_verbose lg); reflexivity].
  destruct (lg_verbose lg); [|split; reflexivity].
  assert (resp = Some b) as -> by (unfold sent in SR; destruct resp as [[|x l]|]; try discriminate; now injection SR as <-).
  destruct S as [B S]. destruct (RO d' b B eq_refl) as [B2 L2]. rewrite log_ok; [split; [reflexivity|]; cbn [fst]; now rewrite by_handle_own|].
  apply takes_frame; [exact B2| |reflexivity|reflexivity|vm_compute; discriminate]. destruct S as [N|S]; [now left|right; lia].
Qed.
Lemma hookless d request : server_handle no_server_hooks d TCP request = db_handle_request d TCP request.
Proof. unfold server_handle. cbn. destruct (db_handle_request d TCP request) as [d' [r|e]]; reflexivity. Qed.
Lemma serve_ok d c : match serve_client no_tcp_hooks d c with
  | Gone => l_serve lg tx d c = ([], LGone)
  | Failed e => l_serve lg tx d c = ([], LFailed e d None)
  | Stays c' d' None out => l_serve lg tx d c = ([], LStays c' d' None None)
  | Stays c' d' (Some r) out => short r -> snd (l_serve lg tx d c) = LStays c' d' (Some r) out /\ by_handle (fst (l_serve lg tx d c)) = frame_lines r out
  end.
Proof.
  unfold serve_client, l_serve. destruct (snd (recv 1 c)) as [[|x l]|e]; [reflexivity| |reflexivity].
  destruct (read_more (missing 7 []) c []) as [c1 [[request is_ok]|e]]; [|reflexivity]. cbn [no_tcp_hooks th_after_recv th_server th_before_send]; unfold replaced, no_hook; cbv beta iota zeta. destruct is_ok; [|reflexivity].
  destruct (get_request_length request) as [len|e]; [|reflexivity]. destruct (read_more (missing (len + 6) request) c1 request) as [c2 [[request2 [|]]|e]]; [|reflexivity|reflexivity].
  rewrite hookless. pose proof (handle_ok d TCP request2) as H. destruct (db_handle_request d TCP request2) as [d' r]. intros S. destruct (H S) as [E F]. destruct (l_handle lg tx d TCP request2) as [o [d1 r1]]. cbn [snd fst] in E, F. injection E as -> ->.
  destruct r as [resp|e].
  - cbn [said fst snd]. rewrite app_nil_r, F. cbn [out_of]. destruct (sent resp); split; reflexivity.
  - rewrite log_ok by (apply takes_err; [reflexivity|vm_compute; discriminate]). cbn [said fst snd]. rewrite by_handle_app, F, by_handle_record by discriminate. split; [reflexivity|apply app_nil_r].
Qed.
Definition all_lines (ev : list tcp_event) : output := flat_map (fun e => frame_lines (snd (fst e)) (snd e)) ev.
Definition shorts (ev : list tcp_event) : Prop := Forall (fun e => short (snd (fst e))) ev.
Lemma run_ok ready : forall s, let '(s', ev) := tcp_do_run no_tcp_hooks ready s in shorts ev ->
  snd (l_run lg tx ready s) = (s', ev, None) /\ by_handle (fst (l_run lg tx ready s)) = all_lines ev.
Proof.
  induction ready as [|[accepted|id] t IH]; intros s.
  - intros _. split; reflexivity.
  - cbn [tcp_do_run l_run]. destruct (ts_listening s); [|apply IH]. destruct accepted as [[id c]|e].
    + rewrite log_ok by apply takes_connected. set (s1 := {| ts_listening := true; ts_conns := _; ts_db := _ |}). specialize (IH s1). destruct (tcp_do_run no_tcp_hooks t s1) as [s' ev]. intros S. destruct (IH S) as [E F].
      cbn [said fst snd]. rewrite by_handle_app, E, F, by_handle_record by discriminate. split; reflexivity.
    + rewrite log_ok by apply takes_error. set (s1 := {| ts_listening := false; ts_conns := _; ts_db := _ |}). specialize (IH s1). destruct (tcp_do_run no_tcp_hooks t s1) as [s' ev]. intros S. destruct (IH S) as [E F].
      cbn [said fst snd]. rewrite by_handle_app, E, F, by_handle_record by discriminate. split; reflexivity.
  - cbn [tcp_do_run l_run]. destruct (assoc Z.eqb id (ts_conns s)) as [c|]; [|apply IH]. pose proof (serve_ok (ts_db s) c) as SV. destruct (serve_client no_tcp_hooks (ts_db s) c) as [|e|c' d' handled out].
    + rewrite SV. rewrite log_ok by apply takes_disconnected. intros _. cbn [said fst snd app]. rewrite by_handle_record by discriminate. split; reflexivity.
    + rewrite SV. rewrite log_ok by apply takes_error. set (s1 := {| ts_listening := _; ts_conns := _; ts_db := _ |}). specialize (IH s1). destruct (tcp_do_run no_tcp_hooks t s1) as [s' ev]. intros S. destruct (IH S) as [E F].
      destruct (l_run lg tx t s1) as [o' [[s2 ev2] x]]. cbn [said fst snd app] in *. injection E as -> -> ->. rewrite by_handle_app, F, by_handle_record by discriminate. split; reflexivity.
    + set (s1 := {| ts_listening := _; ts_conns := _; ts_db := _ |}). specialize (IH s1). destruct (tcp_do_run no_tcp_hooks t s1) as [s' ev]. destruct handled as [r|].
      * intros S. inversion S as [|? ? S1 S2]; subst. cbn [fst snd] in S1. destruct (SV S1) as [E F]. destruct (l_serve lg tx (ts_db s) c) as [o sv]. cbn [fst snd] in E, F. subst sv. destruct (IH S2) as [E2 F2]. fold s1. destruct (l_run lg tx t s1) as [o' [[s2 ev2] x]]. cbn [fst snd] in *. injection E2 as -> -> ->.
        rewrite by_handle_app, F, F2. split; reflexivity.
      * rewrite SV. intros S. destruct (IH S) as [E2 F2]. fold s1. destruct (l_run lg tx t s1) as [o' [[s2 ev2] x]]. cbn [fst snd app] in *. injection E2 as -> -> ->. split; [reflexivity|exact F2].
Qed.
Lemma life_ok turns : forall s, let '(s', ev) := tcp_life no_tcp_hooks turns s in shorts ev ->
  snd (l_life lg tx turns s) = (s', ev, Running) /\ by_handle (fst (l_life lg tx turns s)) = all_lines ev.
Proof.
  induction turns as [|b t IH]; intros s; [intros _; split; reflexivity|]. cbn [tcp_life l_life]. unfold tcp_turn, l_turn. set (s0 := {| ts_listening := ts_listening s; ts_conns := arrive _ _; ts_db := ts_db s |}).
  pose proof (run_ok (selected s0 (bt_knock b)) s0) as R. destruct (tcp_do_run no_tcp_hooks (selected s0 (bt_knock b)) s0) as [s1 ev1]. specialize (IH s1). destruct (tcp_life no_tcp_hooks t s1) as [s2 ev2]. intros S. apply Forall_app in S as [S1 S2].
  destruct (R S1) as [E1 F1]. destruct (IH S2) as [E2 F2]. destruct (l_run lg tx (selected s0 (bt_knock b)) s0) as [o1 [[s1' ev1'] x]]. cbn [fst snd] in *. injection E1 as -> -> ->. destruct (l_life lg tx t s1) as [o2 [[s2' ev2'] f]]. cbn [fst snd] in *. injection E2 as -> -> ->.
  split; [reflexivity|]. unfold all_lines. rewrite by_handle_app, F1, F2, flat_map_app. reflexivity.
Qed.
End Neutral.

Lemma shorts_of lg tx ev : on_the_wire ev -> (no_udp lg \/ (texts_ok tx /\ small ev)) -> shorts lg ev.
Proof.
  intros W H. apply Forall_forall. intros e He. split; [exact (proj1 (Forall_forall _ _) W e He)|]. destruct H as [N|[_ M]]; [now left|right]. exact (proj1 (Forall_forall _ _) M e He).
Qed.
(** C100: with whatever handlers create_logger installed, at whatever level, verbose or not: if no handler sends by UDP, or the texts of
    errors and addresses are ASCII and no request is longer than 15000 bytes, the server - its databank, its connections, the requests it
    carries out, the responses it sends, its being alive - is what it is without a logger. *)
Theorem C100_neutral : forall lg tx turns s,
  let '(s', ev) := tcp_life no_tcp_hooks turns s in
  on_the_wire ev -> (no_udp lg \/ (texts_ok tx /\ small ev)) -> snd (l_life lg tx turns s) = (s', ev, Running).
Proof.
  intros lg tx turns s. pose proof (life_ok lg tx) as L. destruct (tcp_life no_tcp_hooks turns s) as [s' ev] eqn:E. intros W H.
  assert (TX : no_udp lg \/ texts_ok tx) by tauto. specialize (L TX turns s). rewrite E in L. apply L. now apply shorts_of with tx.
Qed.
(** C100: in verbose mode (logger at DEBUG) the lines written for Server._handle, in order, are those of the requests carried out and the
    responses sent; each is given to every handler. *)
Theorem C100_log_shows_traffic : forall lg tx turns s,
  let '(s', ev) := tcp_life no_tcp_hooks turns s in
  on_the_wire ev -> (no_udp lg \/ (texts_ok tx /\ small ev)) -> lg_verbose lg = true -> lg_level lg <= 10 ->
  by_handle (fst (l_life lg tx turns s)) = written lg (lines ev).
Proof.
  intros lg tx turns s. pose proof (life_ok lg tx) as L. destruct (tcp_life no_tcp_hooks turns s) as [s' ev] eqn:E. intros W H V LV.
  assert (TX : no_udp lg \/ texts_ok tx) by tauto. specialize (L TX turns s). rewrite E in L. destruct L as [_ ->].
  { now apply shorts_of with tx. }
  unfold all_lines, written, lines. clear E W H. induction ev as [|e ev IH]; [reflexivity|]. cbn [flat_map]. rewrite flat_map_app, IH. f_equal. unfold frame_lines, record_of. rewrite V.
  destruct (DEBUG <? lg_level lg) eqn:Z; [unfold DEBUG in Z; lia|]. cbn [flat_map]. f_equal. destruct (snd e); [cbn [flat_map]; now rewrite app_nil_r|reflexivity].
Qed.

(** C100: the lines tell the traffic: which requests, in which order, with which responses *)
Definition traffic (ev : list tcp_event) : list (list Z * option (list Z)) := map (fun e => (snd (fst e), snd e)) ev.
Definition frames (ev : list tcp_event) : Prop := Forall (fun e => bytes (snd (fst e)) /\ match snd e with Some b => bytes b /\ b <> [] | None => True end) ev.
Lemma line_head l : exists t, get_log_buffer "-->" l = String "-" t.
Proof. destruct l as [|x l]; [eexists; reflexivity|]. rewrite C81_line by discriminate. eexists. reflexivity. Qed.
Lemma answer_head b : b <> [] -> exists t, get_log_buffer "<--" b = String "<" t.
Proof. intros N. rewrite C81_line by exact N. eexists. reflexivity. Qed.
Lemma lines_head ev t l : lines ev = String "<" t :: l -> False.
Proof. destruct ev as [|e ev]; [discriminate|]. unfold lines. cbn [flat_map]. destruct (line_head (snd (fst e))) as [u E]. rewrite E. discriminate. Qed.
Theorem C100_log_tells : forall ev ev', frames ev -> frames ev' -> lines ev = lines ev' -> traffic ev = traffic ev'.
Proof.
  induction ev as [|e ev IH]; intros ev' F F' E.
  - destruct ev' as [|e' ev']; [reflexivity|]. unfold lines in E. cbn [flat_map app] in E. discriminate.
  - destruct ev' as [|e' ev']; [unfold lines in E; cbn [flat_map app] in E; discriminate|]. inversion F as [|? ? [B1 B2] F1]; subst. inversion F' as [|? ? [B1' B2'] F1']; subst.
    unfold lines in E. cbn [flat_map app] in E. fold (lines ev) (lines ev') in E. injection E as E1 E2. unfold traffic. cbn [map]. fold (traffic ev) (traffic ev'). unfold bytes in *.
    assert (R : snd (fst e) = snd (fst e')) by (eapply C81_readable; eauto). rewrite R. destruct (snd e) as [b|], (snd e') as [b'|]; cbn [app] in E2.
    + injection E2 as E2 E3. destruct B2, B2'. assert (b = b') as -> by (eapply C81_readable; eauto). f_equal. now apply IH.
    + exfalso. destruct B2 as [_ N]. destruct (answer_head b N) as [t Et]. rewrite Et in E2. exact (lines_head ev' t (lines ev) (eq_sym E2)).
    + exfalso. destruct B2' as [_ N]. destruct (answer_head b' N) as [t Et]. rewrite Et in E2. exact (lines_head ev t (lines ev') E2).
    + f_equal. now apply IH.
Qed.

(** ** What goes wrong with the UDP handler *)
Lemma digit_some n : 0 <= n -> 1 <= slen (py_str n).
Proof.
  intros H. unfold py_str. rewrite (proj2 (Z.ltb_ge n 0)) by lia. unfold str_of_pos. cbn [digits]. destruct (n <? 10); [unfold slen; cbn; lia|].
  assert (G : forall f n rest, (String.length rest <= String.length (digits f n rest))%nat) by (induction f as [|f IH]; intros m rest; cbn [digits]; [lia|]; destruct (m <? 10); [cbn; lia|]; etransitivity; [|apply IH]; cbn; lia).
  unfold slen. match goal with |- context [digits ?f ?m ?r] => pose proof (G f m r) as L end. cbn [String.length] in L. lia.
Qed.
Lemma dashed_long l : bytes l -> 2 * zlen l - 1 <= slen (dashed l).
Proof.
  induction 1 as [|x l Hx Hl IH]; [cbn; lia|]. rewrite zlen_cons. assert (D := digit_some x ltac:(unfold is_byte in Hx; lia)). destruct l as [|y l]; [cbn [dashed]; change (zlen (@nil Z)) with 0; lia|].
  change (dashed (x :: y :: l)) with (append (py_str x) (append "-" (dashed (y :: l)))). rewrite !slen_app. change (slen "-") with 1. lia.
Qed.
Lemma frame_long prefix l : bytes l -> l <> [] -> slen prefix + 2 * zlen l - 1 <= slen (get_log_buffer prefix l).
Proof. intros B N. rewrite C81_line by exact N. rewrite slen_app. pose proof (dashed_long l B). lia. Qed.
Lemma udp_long lg tx level site t : In Udp (lg_handlers lg) -> lg_level lg <= level -> 65506 <= slen t -> exists o e, log lg tx level site t = (o, Some e) /\ (e = PyValueError \/ e = SocketTimeout).
Proof.
  intros U L H. unfold log. rewrite (proj2 (Z.ltb_ge _ _)) by lia. induction (lg_handlers lg) as [|h hs IH]; [destruct U|]. cbn [call_handlers].
  assert (R : forall r, rec_text r = t -> exists e, emit tx Udp r = Some e /\ (e = PyValueError \/ e = SocketTimeout)).
  { intros r Er. cbn [emit]. rewrite Er. destruct (negb _); [eauto|]. rewrite slen_app. assert (0 <= slen (tx_prefix tx r)) by (unfold slen; lia). destruct (65507 <? _) eqn:Q; [eauto|lia]. }
  destruct h.
  - cbn [emit]. destruct IH as (o & e & -> & E); [destruct U; [discriminate|assumption]|]. eauto.
  - cbn [emit]. destruct IH as (o & e & -> & E); [destruct U; [discriminate|assumption]|]. eauto.
  - destruct (R {| rec_level := level; rec_site := site; rec_text := t |} eq_refl) as (e & -> & E). eauto.
Qed.
(** verbose, UDP: a request of 33000 bytes or more is not carried out, whatever it asks *)
Theorem C100_long_request_lost : forall lg tx d p request, In Udp (lg_handlers lg) -> lg_verbose lg = true -> lg_level lg <= 10 -> bytes request -> 33000 <= zlen request ->
  exists e, snd (l_handle lg tx d p request) = (d, Err e).
Proof.
  intros lg tx d p request U V L B S. assert (N : request <> []) by (intros ->; cbn in S; lia). pose proof (frame_long "-->" request B N) as F. change (slen "-->") with 3 in F.
  unfold l_handle. rewrite V. destruct (udp_long lg tx DEBUG "modbus._handle" (get_log_buffer "-->" request) U L ltac:(lia)) as (o & e & -> & _). eexists. reflexivity.
Qed.
(** ... although without the logger it would be *)
Definition long_request : list Z := [0; 1; 0; 0; 156; 69; 3; 6; 0; 100; 0; 7] ++ repeat 0 (Z.to_nat 39999).
Definition blank_texts : texts := {| tx_str := fun _ => ""; tx_addr := fun _ => ""; tx_fd := fun _ => ""; tx_prefix := fun _ => "" |}.
Lemma blank_ok : texts_ok blank_texts. Proof. repeat split; cbn; lia. Qed.
Lemma long_bytes : bytes long_request.
Proof. apply bytes_app; [repeat constructor; unfold is_byte; lia|]. generalize (Z.to_nat 39999). intros n. apply Forall_forall. intros x H. apply repeat_spec in H. subst. unfold is_byte. lia. Qed.
Lemma long_length : zlen long_request = 40011.
Proof. vm_compute. reflexivity. Qed.
Lemma long_served : match snd (db_handle_request demo_db TCP long_request) with Ok (Some _) => true | _ => false end = true.
Proof. vm_compute. reflexivity. Qed.
Definition reg100 (d : databank) : option Z := match get_slave d 3 with Ok s => match get_values s "r" 100 1 with Ok [v] => Some v | _ => None end | Err _ => None end.
Lemma long_effect : reg100 demo_db = Some 0 /\ reg100 (fst (db_handle_request demo_db TCP long_request)) = Some 7.
Proof. split; vm_compute; reflexivity. Qed.
Opaque long_request.
Theorem C100_long_refuted : exists lg tx d request d' b, bytes request /\ texts_ok tx /\
  db_handle_request d TCP request = (d', Ok (Some b)) /\ reg100 d = Some 0 /\ reg100 d' = Some 7 /\ exists e, snd (l_handle lg tx d TCP request) = (d, Err e).
Proof.
  exists {| lg_level := 10; lg_handlers := [Udp]; lg_verbose := true |}, blank_texts, demo_db, long_request.
  pose proof long_served as S. pose proof long_effect as [E1 E2]. destruct (db_handle_request demo_db TCP long_request) as [d' r] eqn:E. cbn [fst snd] in S, E2. destruct r as [[b|]|]; [|discriminate S|discriminate S]. exists d', b.
  split; [exact long_bytes|]. split; [exact blank_ok|]. split; [reflexivity|]. split; [exact E1|]. split; [exact E2|].
  apply (C100_long_request_lost _ blank_texts demo_db TCP long_request); [now left|reflexivity|cbn; lia|exact long_bytes|rewrite long_length; lia].
Qed.
Transparent long_request.
(** UDP, not verbose: a broadcast whose frame is long reaches the first slave only *)
Theorem C100_broadcast_refuted : forall lg tx k s t s' pdu, In Udp (lg_handlers lg) -> lg_level lg <= 10 -> bytes pdu -> 33000 <= zlen pdu -> hd 0 pdu = 6 ->
  handle_request s pdu false = (s', Ok pdu) ->
  exists e, snd (l_broadcast lg tx ((k, s) :: t) pdu) = ((k, s') :: t, Err e).
Proof.
  intros lg tx k s t s' pdu U L B S H6 HR. destruct pdu as [|fc rest]; [cbn in S; lia|]. cbn [hd] in H6. subst fc. cbn [l_broadcast]. unfold l_slave. rewrite unpack_fc by exact B. unfold handle_request in HR. rewrite unpack_fc in HR by exact B.
  change (fn_code_map 6) with (Some write_single_register) in *. cbn [andb] in HR. change (true && cant_be_broadcasted 6) with false. change (quantity_text 6 (6 :: rest)) with (@None (string * string)). cbv beta iota zeta.
  destruct (write_single_register s (6 :: rest)) as [s1 [[|x resp]|e]] eqn:W.
  - discriminate.
  - rewrite pack_B_ok in HR by (now inversion B). cbn [bind app] in HR. injection HR as -> E1. rewrite zlen_cons in S. rewrite <- E1 in *.
    assert (BR : bytes (x :: resp)) by now inversion B. pose proof (frame_long "!!" (x :: resp) BR ltac:(discriminate)) as F. change (slen "!!") with 2 in F.
    destruct (udp_long lg tx DEBUG "modbus.handle_request" (append "broadcast: " (get_log_buffer "!!" (x :: resp))) U L) as (o & e & E & _); [rewrite slen_app; change (slen "broadcast: ") with 11; lia|]. rewrite E. cbn [said fst snd]. eexists. reflexivity.
  - destruct e; cbn [catch_modbus_error] in HR; try discriminate. destruct (pack ">BB" [6 + 128; code]) as [b|] eqn:PB; [|discriminate]. injection HR as _ ->. pose proof (pack_bytes_out ">BB" _ _ _ eq_refl PB) as [_ Z]. rewrite Z in S. cbn in S. lia.
Qed.
Definition long_pdu : list Z := [6; 0; 100; 0; 7] ++ repeat 0 (Z.to_nat 33000).
Fixpoint same_list (a b : list Z) : bool := match a, b with [], [] => true | x :: a, y :: b => (x =? y) && same_list a b | _, _ => false end.
Lemma same_list_eq a : forall b, same_list a b = true -> a = b.
Proof. induction a as [|x a IH]; intros [|y b] H; try discriminate; [reflexivity|]. cbn in H. apply andb_prop in H as [H1 H2]. f_equal; [lia|now apply IH]. Qed.
Definition first_slave : slave := snd (hd (0, new_slave true None) (db_slaves demo_db)).
Lemma long_pdu_answer : match snd (handle_request first_slave long_pdu false) with Ok r => same_list r long_pdu | Err _ => false end = true.
Proof. vm_compute. reflexivity. Qed.
Example C100_broadcast_ex : zlen (db_slaves demo_db) = 3 /\ zlen long_pdu = 33005 /\ get_values first_slave "r" 100 1 = Ok [0] /\
  exists s', handle_request first_slave long_pdu false = (s', Ok long_pdu) /\ get_values s' "r" 100 1 = Ok [7].
Proof.
  split; [reflexivity|]. split; [vm_compute; reflexivity|]. split; [vm_compute; reflexivity|].
  assert (V : get_values (fst (handle_request first_slave long_pdu false)) "r" 100 1 = Ok [7]) by (vm_compute; reflexivity).
  pose proof long_pdu_answer as A. destruct (handle_request first_slave long_pdu false) as [s' [r|]]; [|discriminate A]. cbn [snd] in A. apply same_list_eq in A. subst r. exists s'. split; [reflexivity|exact V].
Qed.

(** UDP: accept() fails with an error whose text is not ASCII (a localised operating system); the warning about it raises, so does the
    report of the server loop, and the thread ends without a successor: start() cannot bring the server back.  Without the logger the
    server loses its listening socket, but lives on for the clients it has. *)
Definition localised : texts := {| tx_str := fun _ => String (ascii_of_nat 233) "chec"; tx_addr := fun _ => ""; tx_fd := fun _ => ""; tx_prefix := fun _ => "" |}.
Definition served_then_refused : list before_turn :=
  [{| bt_arrivals := []; bt_knock := Some (Err SocketTimeout) |}; {| bt_arrivals := [Arrives 7 demo_read]; bt_knock := None |}].
Definition one_client : tcp_server := {| ts_listening := true; ts_conns := [(7, {| c_segs := []; c_end := Stalled |})]; ts_db := demo_db |}.
Theorem C100_ends_refuted : exists lg tx turns s,
  (exists b, map snd (snd (tcp_life no_tcp_hooks turns s)) = [Some b]) /\ snd (fst (snd (l_life lg tx turns s))) = [] /\ snd (snd (l_life lg tx turns s)) = EndedForGood.
Proof.
  exists {| lg_level := WARNING; lg_handlers := [Udp]; lg_verbose := false |}, localised, served_then_refused, one_client.
  split; [exists (tcp_frame 2 0 3 [3; 2; 0; 0]); vm_compute; reflexivity|]. split; vm_compute; reflexivity.
Qed.

(** create_logger: one more handler on the one logger; what is written is written once more; an unknown name raises, and yet sets the level *)
Theorem C100_create_twice : forall name level lg lg1 lg2 tx site text, create_logger name level lg = (lg1, Ok tt) -> create_logger name level lg1 = (lg2, Ok tt) ->
  no_udp lg -> name <> "udp" -> forall l, level <= l ->
  exists h, fst (log lg1 tx l site text) = map (fun h => (h, {| rec_level := l; rec_site := site; rec_text := text |})) (lg_handlers lg) ++ [(h, {| rec_level := l; rec_site := site; rec_text := text |})] /\
  fst (log lg2 tx l site text) = fst (log lg1 tx l site text) ++ [(h, {| rec_level := l; rec_site := site; rec_text := text |})].
Proof.
  intros name level lg lg1 lg2 tx site text H1 H2 N U l L. unfold create_logger in H1, H2. apply String.eqb_neq in U. rewrite U in *.
  assert (K : exists h, h <> Udp /\ lg1 = {| lg_level := level; lg_handlers := lg_handlers lg ++ [h]; lg_verbose := lg_verbose lg |} /\ lg2 = {| lg_level := level; lg_handlers := lg_handlers lg1 ++ [h]; lg_verbose := lg_verbose lg1 |}).
  { destruct (String.eqb name "console"); [injection H1 as <-; injection H2 as <-; exists Console; split; [discriminate|now split]|]. destruct (String.eqb name "dummy"); [|discriminate]. injection H1 as <-. injection H2 as <-. exists Dummy. split; [discriminate|now split]. }
  destruct K as (h & Hh & -> & ->). exists h. cbn [lg_handlers lg_verbose].
  assert (N1 : no_udp {| lg_level := level; lg_handlers := lg_handlers lg ++ [h]; lg_verbose := lg_verbose lg |}). { unfold no_udp in *. cbn. rewrite in_app_iff. cbn. intros [X|[X|[]]]; [now apply N|now apply Hh]. }
  assert (N2 : no_udp {| lg_level := level; lg_handlers := (lg_handlers lg ++ [h]) ++ [h]; lg_verbose := lg_verbose lg |}). { unfold no_udp in *. cbn. rewrite !in_app_iff. cbn. intros [[X|[X|[]]]|[X|[]]]; [now apply N|now apply Hh|now apply Hh]. }
  rewrite (log_ok _ tx (or_introl N1)) by now left. rewrite (log_ok _ tx (or_introl N2)) by now left. unfold record_of. cbn [fst lg_level lg_handlers]. destruct (l <? level) eqn:Z; [lia|]. rewrite !map_app. split; reflexivity.
Qed.
Theorem C100_unknown_logger : forall name level lg, name <> "udp" -> name <> "console" -> name <> "dummy" ->
  create_logger name level lg = ({| lg_level := level; lg_handlers := lg_handlers lg; lg_verbose := lg_verbose lg |}, Err GenericException).
Proof. intros name level lg A B C. unfold create_logger. apply String.eqb_neq in A, B, C. now rewrite A, B, C. Qed.

(** the hypotheses of C100_neutral and C100_log_shows_traffic can be met: a write and a read, logged by UDP and on the console *)
Definition demo_turns : list before_turn :=
  [{| bt_arrivals := []; bt_knock := Some (Ok (8, {| c_segs := []; c_end := Stalled |})) |};
   {| bt_arrivals := [Arrives 7 (firstn 4 demo_write); Arrives 7 (skipn 4 demo_write); Arrives 8 demo_read]; bt_knock := None |}; {| bt_arrivals := [HangsUp 8]; bt_knock := None |}].
Example C100_ex : let lg := {| lg_level := 10; lg_handlers := [Console; Udp]; lg_verbose := true |} in
  let '(s', ev) := tcp_life no_tcp_hooks demo_turns one_client in
  on_the_wire ev /\ texts_ok blank_texts /\ small ev /\ zlen ev = 2 /\ zlen (fst (l_life lg blank_texts demo_turns one_client)) = 12 /\ zlen (lines ev) = 4.
Proof.
  assert (E : exists s', tcp_life no_tcp_hooks demo_turns one_client = (s', [(7, demo_write, Some demo_write); (8, demo_read, Some (tcp_frame 2 0 3 [3; 2; 0; 17]))])) by (eexists; vm_compute; reflexivity).
  destruct E as [s' ->]. split; [|split; [exact blank_ok|]].
  - constructor; [|constructor; [|constructor]]; cbn [fst snd]; (let r := eval vm_compute in demo_write in change demo_write with r); (let r := eval vm_compute in demo_read in change demo_read with r); repeat (apply Forall_cons; [unfold is_byte; lia|]); apply Forall_nil.
  - split; [constructor; [|constructor; [|constructor]]; vm_compute; discriminate|]. split; [reflexivity|]. split; vm_compute; reflexivity.
Qed.

(** C100: when a log call raises, exactly: the record passes the level, a UDP handler is there and the line (what the formatter puts in
    front, and the text) has a character that is not ASCII or is, with the two bytes added, above 65507 bytes. *)
Definition line_of (tx : texts) (level : Z) (site text : string) : string := append (tx_prefix tx {| rec_level := level; rec_site := site; rec_text := text |}) text.
Lemma plain_iff s : plain s = false <-> exists c, In c (list_ascii_of_string s) /\ (128 <= nat_of_ascii c)%nat.
Proof.
  induction s as [|a s IH]; cbn [plain list_ascii_of_string]; [split; [discriminate|intros (c & [] & _)]|].
  rewrite Bool.andb_false_iff, IH. unfold is_plain. rewrite Z.ltb_ge. split.
  - intros [H|(c & I & H)]; [exists a; split; [now left|lia]|exists c; split; [now right|exact H]].
  - intros (c & [->|I] & H); [left; lia|right; eauto].
Qed.
Theorem C100_raises_iff : forall lg tx level site text,
  (exists o e, log lg tx level site text = (o, Some e)) <->
  (lg_level lg <= level /\ In Udp (lg_handlers lg) /\
   ((exists c, In c (list_ascii_of_string (line_of tx level site text)) /\ (128 <= nat_of_ascii c)%nat) \/ 65505 < Z.of_nat (String.length (line_of tx level site text)))).
Proof.
  intros lg tx level site text. unfold log. destruct (level <? lg_level lg) eqn:L.
  - split; [intros (o & e & H); discriminate H|]. intros (H & _). lia.
  - rewrite <- plain_iff. set (r := {| rec_level := level; rec_site := site; rec_text := text |}). change (line_of tx level site text) with (append (tx_prefix tx r) (rec_text r)).
    assert (E : forall h, (exists e, emit tx h r = Some e) <-> h = Udp /\ (plain (append (tx_prefix tx r) (rec_text r)) = false \/ 65505 < Z.of_nat (String.length (append (tx_prefix tx r) (rec_text r))))).
    { intros h. destruct h; cbn [emit]; try (split; [intros (e & H); discriminate H|intros (H & _); discriminate H]).
      unfold slen. set (z := Z.of_nat _). destruct (plain _); cbn [negb]; [|split; [auto|eauto]]. destruct (65507 <? z + 2) eqn:Q; (split; [intros (e & H)|intros (_ & [H|H]); [discriminate H|]]).
      - split; [reflexivity|right; lia]. - eauto. - discriminate H. - lia. }
    split.
    + intros (o & e & H). split; [lia|]. revert o e H. induction (lg_handlers lg) as [|h hs IH]; intros o e; cbn [call_handlers]; [discriminate|].
      destruct (emit tx h r) as [x|] eqn:X.
      * intros _. destruct (proj1 (E h) (ex_intro _ x X)) as [-> K]. split; [now left|exact K].
      * destruct (call_handlers tx hs r) as [o' [x|]]; [|discriminate]. intros _. destruct (IH o' x eq_refl) as [I K]. split; [now right|exact K].
    + intros (_ & U & K). induction (lg_handlers lg) as [|h hs IH]; [destruct U|]. cbn [call_handlers]. destruct (emit tx h r) as [x|] eqn:X; [eauto|].
      destruct U as [->|U]; [destruct (proj2 (E Udp) (conj eq_refl K)) as (x & Y); congruence|]. destruct (IH U) as (o & e & ->). eauto.
Qed.
(** ** the levels of the records *)
(** Every line written is one of the levels 10 (debug), 30 (warning) or 40 (error), of at least the level of the logger, and is written by one of its handlers: a
    logger above the level 40 is silent. *)
Definition within (lg : logger) (o : output) : Prop :=
  Forall (fun x => In (rec_level (snd x)) [10; 30; 40] /\ lg_level lg <= rec_level (snd x) /\ In (fst x) (lg_handlers lg)) o.
Section Levels.
Variable lg : logger.
Variable tx : texts.
Lemma within_app o o' : within lg o -> within lg o' -> within lg (o ++ o').
Proof. intros. apply Forall_app. now split. Qed.
Lemma within_said {A} o (x : output * A) : within lg o -> within lg (fst x) -> within lg (fst (said o x)).
Proof. apply within_app. Qed.
Lemma within_log l site t : In l [10; 30; 40] -> within lg (fst (log lg tx l site t)).
Proof.
  intros L. unfold log. destruct (l <? lg_level lg) eqn:E; [constructor|]. cut (forall hs r, (forall h, In h hs -> In h (lg_handlers lg)) -> rec_level r = l -> within lg (fst (call_handlers tx hs r))); [intros H; now apply H|].
  induction hs as [|h hs IH]; intros r S R; cbn [call_handlers]; [constructor|]. destruct (emit tx h r); [constructor|].
  specialize (IH r (fun h' I => S h' (or_intror I)) R). destruct (call_handlers tx hs r) as [o x]. cbn [fst] in *. constructor; [|exact IH]. cbn [fst snd]. rewrite R. repeat split; [exact L|lia|apply S; now left].
Qed.
Ltac lev := cbn [fst snd]; first [ assumption | constructor | apply within_app; lev | apply within_said; lev | idtac ].
Ltac logs := match goal with |- context [log lg tx ?l ?s ?t] => let W := fresh "W" in pose proof (within_log l s t ltac:(cbn; auto)) as W; destruct (log lg tx l s t) as [? [?|]]; cbn [fst] in W end.
Lemma within_catch fc r : within lg (fst (l_catch_modbus lg tx fc r)).
Proof. unfold l_catch_modbus. destruct r as [|[]]; try constructor. logs; lev. Qed.
Lemma within_slave s pdu b : within lg (fst (l_slave lg tx s pdu b)).
Proof.
  unfold l_slave. destruct (unpack1 ">B" (py_slice pdu 0 1)) as [fc|]; [|constructor]. destruct (fn_code_map fc) as [f|]; [|cbn [fst]; apply within_catch].
  destruct (b && cant_be_broadcasted fc); [constructor|].
  assert (Q : within lg (fst (match quantity_text fc pdu with Some (site, t) => log lg tx DEBUG site t | None => ([], None) end))) by (destruct (quantity_text fc pdu) as [[site t]|]; [apply within_log; cbn; auto|constructor]).
  destruct (match quantity_text fc pdu with Some (site, t) => log lg tx DEBUG site t | None => ([], None) end) as [o [e|]]; [exact Q|]. cbn [fst] in Q. apply within_said; [exact Q|].
  destruct (f s pdu) as [s' [[|x r]|e]]; [constructor| |cbn [fst]; apply within_catch]. destruct b; [|constructor]. logs; lev.
Qed.
Lemma within_broadcast l pdu : within lg (fst (l_broadcast lg tx l pdu)).
Proof.
  induction l as [|[k s] l IH]; cbn [l_broadcast]; [constructor|]. pose proof (within_slave s pdu true) as W. destruct (l_slave lg tx s pdu true) as [o [s' [r|e]]]; [|exact W].
  destruct (l_broadcast lg tx l pdu) as [o' [t' r']]. now apply within_app.
Qed.
Lemma within_db_catch e pdu : within lg (fst (l_db_catch lg tx e pdu)).
Proof. unfold l_db_catch. logs; lev. Qed.
Lemma within_databank d p request : within lg (fst (l_databank lg tx d p request)).
Proof.
  unfold l_databank. destruct (parse_request p request) as [[[hdr id] pdu]|e]; [|cbn [fst]; apply within_db_catch]. destruct (id =? 0).
  - pose proof (within_broadcast (db_slaves d) pdu) as W. destruct (l_broadcast lg tx (db_slaves d) pdu) as [o [l [r|e]]]; apply within_said; try exact W; [constructor|cbn [fst]; apply within_db_catch].
  - destruct (get_slave d id) as [s|e].
    + pose proof (within_slave s pdu false) as W. destruct (l_slave lg tx s pdu false) as [o [s' r]]. apply within_said; [exact W|]. destruct (response_pdu <- r ;; build_response hdr response_pdu); [constructor|cbn [fst]; apply within_db_catch].
    + destruct e; try (cbn [fst]; apply within_db_catch). destruct (db_error_on_missing d); [cbn [fst]; apply within_db_catch|constructor].
Qed.
Lemma within_handle d p request : within lg (fst (l_handle lg tx d p request)).
Proof.
  assert (V : forall s, within lg (fst (if lg_verbose lg then log lg tx DEBUG "modbus._handle" s else ([], @None exn)))) by (intros s; destruct (lg_verbose lg); [apply within_log; cbn; auto|constructor]).
  unfold l_handle. pose proof (V (get_log_buffer "-->" request)) as W. destruct (if lg_verbose lg then log lg tx DEBUG "modbus._handle" (get_log_buffer "-->" request) else ([], None)) as [o [e|]]; [exact W|].
  apply within_said; [exact W|]. pose proof (within_databank d p request) as D. destruct (l_databank lg tx d p request) as [o1 [d' r]]. apply within_said; [exact D|]. destruct r as [resp|e]; [|constructor].
  destruct (sent resp) as [b|]; [|constructor]. specialize (V (get_log_buffer "<--" b)). destruct (if lg_verbose lg then log lg tx DEBUG "modbus._handle" (get_log_buffer "<--" b) else ([], None)) as [o2 [e|]]; exact V.
Qed.
Lemma within_serve d c : within lg (fst (l_serve lg tx d c)).
Proof.
  unfold l_serve. destruct (snd (recv 1 c)) as [[|x l]|e]; try constructor. destruct (read_more (missing 7 []) c []) as [c1 [[request ok]|e]]; [|constructor]. destruct ok; [|constructor].
  destruct (get_request_length request) as [n|e]; [|constructor]. destruct (read_more (missing (n + 6) request) c1 request) as [c2 [[request' [|]]|e]]; try constructor.
  pose proof (within_handle d TCP request') as W. destruct (l_handle lg tx d TCP request') as [o [d' r]]. apply within_said; [exact W|]. destruct r as [resp|e]; [constructor|]. logs; lev.
Qed.
Lemma within_run ready : forall s, within lg (fst (l_run lg tx ready s)).
Proof.
  induction ready as [|[accepted|id] t IH]; intros s; cbn [l_run]; [constructor| |].
  - destruct (ts_listening s); [|apply IH]. destruct accepted as [[id c]|e]; repeat logs; lev; try apply IH.
  - destruct (assoc Z.eqb id (ts_conns s)) as [c|]; [|apply IH]. pose proof (within_serve (ts_db s) c) as W. destruct (l_serve lg tx (ts_db s) c) as [o [|e d' h|c' d' h out]]; cbn [fst] in W.
    + apply within_said; [exact W|]. logs; [|lev]. apply within_said; [assumption|]. logs; [lev|].
      match goal with |- context [l_run lg tx t ?x] => pose proof (IH x) as R; destruct (l_run lg tx t x) as [? [[? ?] ?]] end. lev.
    + apply within_said; [exact W|]. logs; [lev|]. match goal with |- context [l_run lg tx t ?x] => pose proof (IH x) as R; destruct (l_run lg tx t x) as [? [[? ?] ?]] end. lev.
    + match goal with |- context [l_run lg tx t ?x] => pose proof (IH x) as R; destruct (l_run lg tx t x) as [? [[? ?] ?]] end. lev.
Qed.
End Levels.
Theorem C100_levels : forall lg tx turns s, within lg (fst (l_life lg tx turns s)) /\ (40 < lg_level lg -> fst (l_life lg tx turns s) = []).
Proof.
  intros lg tx turns s. assert (W : within lg (fst (l_life lg tx turns s))).
  { revert s. induction turns as [|b t IH]; intros s; cbn [l_life]; [constructor|]. pose proof (within_run lg tx (selected {| ts_listening := ts_listening s; ts_conns := arrive (bt_arrivals b) (ts_conns s); ts_db := ts_db s |} (bt_knock b)) {| ts_listening := ts_listening s; ts_conns := arrive (bt_arrivals b) (ts_conns s); ts_db := ts_db s |}) as W.
    unfold l_turn. destruct (l_run lg tx _ _) as [o [[s1 ev] [e|]]]; cbn [fst] in W.
    - pose proof (within_log lg tx ERROR "modbus._run_server" (append "server error: " (tx_str tx e)) ltac:(cbn; auto)) as L. destruct (log lg tx ERROR "modbus._run_server" (append "server error: " (tx_str tx e))) as [o' [|]]; now apply within_app.
    - specialize (IH s1). destruct (l_life lg tx t s1) as [o' [[s2 ev'] f]]. now apply within_app. }
  split; [exact W|]. intros L. destruct (fst (l_life lg tx turns s)) as [|x o]; [reflexivity|]. exfalso. inversion W as [|? ? (I & G & _) _]. cbn in I. lia.
Qed.

(** The end of the server thread is the last thing every handler is told, at level ERROR. *)
Theorem C100_ended : forall lg tx turns s out s' ev, l_life lg tx turns s = (out, (s', ev, Ended)) -> lg_level lg <= 40 ->
  exists before e, out = before ++ map (fun h => (h, {| rec_level := 40; rec_site := "modbus._run_server"; rec_text := ("server error: " ++ tx_str tx e)%string |})) (lg_handlers lg).
Proof.
  intros lg tx turns. induction turns as [|b t IH]; intros s out s' ev H L; cbn [l_life] in H; [discriminate H|].
  destruct (l_turn lg tx b s) as [o [[s1 ev1] [e|]]].
  - destruct (log lg tx ERROR "modbus._run_server" (append "server error: " (tx_str tx e))) as [o' [x|]] eqn:G; [discriminate H|]. injection H as <- <- <-. exists o, e. f_equal.
    unfold log in G. change ERROR with 40 in G. replace (40 <? lg_level lg) with false in G by (symmetry; apply Z.ltb_ge; exact L). revert G. clear.
    set (r := {| rec_level := 40; rec_site := _; rec_text := _ |}). clearbody r. revert o'. induction (lg_handlers lg) as [|h hs IH]; intros o' G; cbn [call_handlers] in G; [now injection G as <-|].
    destruct (emit tx h r); [discriminate G|]. destruct (call_handlers tx hs r) as [o x]. injection G as <- ->. cbn [map]. now rewrite (IH o eq_refl).
  - destruct (l_life lg tx t s1) as [o2 [[s2 ev2] f]] eqn:E. injection H as <- <- <- ->. destruct (IH s1 o2 s2 ev2 E L) as (before & e & ->). exists (o ++ before), e. now rewrite app_assoc.
Qed.

(** ... and when it ends for good, the last thing the handlers are told is the same record, up to the first handler that cannot take it. *)
Lemma log_raises lg tx level site text o x : log lg tx level site text = (o, Some x) ->
  exists told h rest, lg_handlers lg = told ++ h :: rest /\ emit tx h {| rec_level := level; rec_site := site; rec_text := text |} = Some x /\
    o = map (fun h => (h, {| rec_level := level; rec_site := site; rec_text := text |})) told.
Proof.
  unfold log. destruct (level <? lg_level lg); [discriminate|]. set (r := {| rec_level := level; rec_site := site; rec_text := text |}). clearbody r.
  revert o. induction (lg_handlers lg) as [|h hs IH]; intros o H; cbn [call_handlers] in H; [discriminate|].
  destruct (emit tx h r) as [e|] eqn:E.
  - injection H as <- ->. exists [], h, hs. now repeat split.
  - destruct (call_handlers tx hs r) as [o1 x1]. injection H as <- ->. destruct (IH o1 eq_refl) as (told & h1 & rest & -> & EM & ->). exists (h :: told), h1, rest. now repeat split.
Qed.
Theorem C100_ended_for_good : forall lg tx turns s out s' ev, l_life lg tx turns s = (out, (s', ev, EndedForGood)) ->
  exists before e x told h rest, let r := {| rec_level := 40; rec_site := "modbus._run_server"; rec_text := ("server error: " ++ tx_str tx e)%string |} in
  lg_handlers lg = told ++ h :: rest /\ emit tx h r = Some x /\ out = before ++ map (fun h => (h, r)) told.
Proof.
  intros lg tx turns. induction turns as [|b t IH]; intros s out s' ev H; cbn [l_life] in H; [discriminate H|].
  destruct (l_turn lg tx b s) as [o [[s1 ev1] [e|]]].
  - destruct (log lg tx ERROR "modbus._run_server" (append "server error: " (tx_str tx e))) as [o' [x|]] eqn:G; [|discriminate H]. injection H as <- <- <-.
    apply log_raises in G. destruct G as (told & h & rest & G & EM & ->). now exists o, e, x, told, h, rest.
  - destruct (l_life lg tx t s1) as [o2 [[s2 ev2] f]] eqn:E. injection H as <- <- <- ->. destruct (IH s1 o2 s2 ev2 E) as (before & e & x & told & h & rest & G & EM & ->).
    exists (o ++ before), e, x, told, h, rest. now rewrite app_assoc.
Qed.
Definition report : record := {| rec_level := 40; rec_site := "modbus._run_server"; rec_text := ("server error: " ++ tx_str localised SocketTimeout)%string |}.
Example C100_ended_for_good_ex : let r := l_life {| lg_level := WARNING; lg_handlers := [Console; Udp]; lg_verbose := false |} localised served_then_refused one_client in
  snd (snd r) = EndedForGood /\ last (map snd (fst r)) report = report /\ last (map fst (fst r)) Dummy = Console /\ fst r <> [].
Proof. vm_compute. repeat split. discriminate. Qed.

Print Assumptions C100_neutral.
Print Assumptions C100_log_shows_traffic.
Print Assumptions C100_log_tells.
Print Assumptions C100_long_request_lost.
Print Assumptions C100_long_refuted.
Print Assumptions C100_broadcast_refuted.
Print Assumptions C100_ends_refuted.
Print Assumptions C100_create_twice.
Print Assumptions C100_unknown_logger.
Print Assumptions C100_raises_iff.
Print Assumptions C100_levels.
Print Assumptions C100_ended.
Print Assumptions C100_ended_for_good.
