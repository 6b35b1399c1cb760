From Coq Require Import Lia ZifyBool ZifyNat.
From Verif Require Import Base BaseFacts PyStruct Spec FrameSpec StructFacts CrcSpec CrcProofs UtilsModel QueryModel.
Ltac Zify.zify_post_hook ::= Z.div_mod_to_equations.
Open Scope Z_scope.

(** ** Slices from the end *)
Lemma drop_last2_app l a b : drop_last2 (l ++ [a; b]) = l.
Proof.
  unfold drop_last2, py_slice. rewrite zlen_app. change (zlen [a; b]) with 2.
  pose proof (zlen_nonneg l). unfold slice_bound. change (0 <? 0) with false. change (-2 <? 0) with true. cbn iota.
  replace (Z.max 0 (-2 + (zlen l + 2)) - Z.min 0 (zlen l + 2)) with (zlen l) by lia.
  replace (Z.min 0 (zlen l + 2)) with 0 by lia. cbn [Z.to_nat skipn].
  unfold zlen. rewrite Nat2Z.id. rewrite firstn_app, Nat.sub_diag, firstn_all. cbn [firstn]. apply app_nil_r.
Qed.
Lemma last2_app l a b : last2 (l ++ [a; b]) = [a; b].
Proof.
  unfold last2, py_slice. rewrite zlen_app. change (zlen [a; b]) with 2.
  pose proof (zlen_nonneg l). unfold slice_bound. change (-2 <? 0) with true. cbn iota.
  destruct (zlen l + 2 <? 0) eqn:E; [lia|].
  replace (Z.max 0 (-2 + (zlen l + 2))) with (zlen l) by lia.
  replace (Z.min (zlen l + 2) (zlen l + 2) - zlen l) with 2 by lia.
  unfold zlen. rewrite Nat2Z.id, skipn_app, Nat.sub_diag, skipn_all. reflexivity.
Qed.
Lemma middle_app x l a b : middle (x :: l ++ [a; b]) = l.
Proof.
  unfold middle, py_slice. rewrite zlen_cons, zlen_app. change (zlen [a; b]) with 2.
  pose proof (zlen_nonneg l). unfold slice_bound. change (-2 <? 0) with true. change (1 <? 0) with false. cbn iota.
  replace (Z.min 1 (1 + (zlen l + 2))) with 1 by lia.
  replace (Z.max 0 (-2 + (1 + (zlen l + 2))) - 1) with (zlen l) by lia.
  change (Z.to_nat 1) with 1%nat. cbn [skipn].
  unfold zlen. rewrite Nat2Z.id, firstn_app, Nat.sub_diag, firstn_all. cbn [firstn]. apply app_nil_r.
Qed.
Lemma split_last2 {A} (l : list A) : (2 <= length l)%nat -> exists d a b, l = d ++ [a; b].
Proof.
  intros H. exists (firstn (length l - 2) l).
  assert (L : length (skipn (length l - 2) l) = 2%nat) by (rewrite skipn_length; lia).
  destruct (skipn (length l - 2) l) as [|a [|b [|]]] eqn:E; try discriminate.
  exists a, b. rewrite <- E. now rewrite firstn_skipn.
Qed.
Lemma head_slice {A} (x : A) l : py_slice (x :: l) 0 1 = [x].
Proof. rewrite py_slice_nonneg by lia. reflexivity. Qed.

Lemma crc_pack data : bytes data -> pack ">H" [calculate_crc data] = Ok (crc_bytes data).
Proof.
  intros H. rewrite calculate_crc_spec by exact H. pose proof (crc16_w16 data H) as W. unfold w16 in W.
  rewrite pack_H. unfold fits_b. set (c := crc16_modbus data) in *.
  destruct (_ && _) eqn:E; [|lia]. unfold word, crc_bytes. fold c. do 2 f_equal; [|f_equal]; lia.
Qed.
Lemma crc_bytes_bytes data : bytes data -> bytes (crc_bytes data).
Proof. intros H. pose proof (crc16_w16 data H) as W. unfold w16 in W. unfold crc_bytes. repeat constructor; lia. Qed.
Lemma sealed_bytes data : bytes data -> bytes (sealed data).
Proof. intros H. apply bytes_app; [exact H|now apply crc_bytes_bytes]. Qed.
Lemma crc_bytes_eq data a b : bytes data -> is_byte a -> is_byte b ->
  (a * 256 + b =? calculate_crc data) = true <-> [a; b] = crc_bytes data.
Proof.
  intros H Ha Hb. rewrite calculate_crc_spec by exact H. pose proof (crc16_w16 data H) as W. unfold w16, is_byte in *.
  unfold crc_bytes. set (c := crc16_modbus data) in *. rewrite Z.eqb_eq. split.
  - intros E. assert (a = c mod 256 /\ b = c / 256) as [-> ->] by lia. reflexivity.
  - intros E. injection E as -> ->. reflexivity.
Qed.

Lemma rtu_build_request_ok pdu slave : bytes pdu -> is_byte slave -> rtu_build_request pdu slave = Ok (sealed (slave :: pdu)).
Proof.
  intros H Hs. unfold rtu_build_request. unfold is_byte in Hs.
  destruct ((slave <? 0) || (255 <? slave)) eqn:E; [lia|].
  rewrite pack_B_ok by exact Hs. cbn [bind app]. rewrite crc_pack by (constructor; assumption). reflexivity.
Qed.
Lemma rtu_build_response_ok pdu slave : bytes pdu -> is_byte slave -> rtu_build_response slave pdu = Ok (sealed (slave :: pdu)).
Proof.
  intros H Hs. unfold rtu_build_response.
  rewrite pack_B_ok by exact Hs. cbn [bind app]. rewrite crc_pack by (constructor; assumption). reflexivity.
Qed.

(** every byte string of 3 bytes or more: address, pdu, two bytes *)
Lemma rtu_view f : bytes f -> (3 <= length f)%nat ->
  exists x pdu a b, f = x :: pdu ++ [a; b] /\ is_byte x /\ bytes pdu /\ is_byte a /\ is_byte b.
Proof.
  intros H L. destruct f as [|x f]; [cbn in L; lia|]. destruct (split_last2 f) as (pdu & a & b & ->); [cbn in L; lia|].
  exists x, pdu, a, b. inversion_clear H as [|? ? Hx Hf]. apply bytes_app_inv in Hf. destruct Hf as [Hp Hab].
  inversion_clear Hab as [|? ? Ha Hb']. inversion_clear Hb' as [|? ? Hb _]. tauto.
Qed.

Lemma rtu_parse_request_view x pdu a b : is_byte x -> bytes pdu -> is_byte a -> is_byte b ->
  rtu_parse_request (x :: pdu ++ [a; b]) =
  if a * 256 + b =? calculate_crc (x :: pdu) then Ok (x, pdu) else Err ModbusInvalidRequestError.
Proof.
  intros Hx Hp Ha Hb. unfold rtu_parse_request. rewrite head_slice, middle_app.
  change (x :: pdu ++ [a; b]) with ((x :: pdu) ++ [a; b]). rewrite drop_last2_app, last2_app, zlen_app, zlen_cons.
  change (zlen [a; b]) with 2. pose proof (zlen_nonneg pdu). destruct (_ <? 3) eqn:E; [lia|].
  unfold unpack_one. rewrite unpack_B, unpack_H. cbn [bind]. now destruct (_ =? _).
Qed.
Lemma rtu_parse_response_view addr x pdu a b : is_byte x -> bytes pdu -> is_byte a -> is_byte b ->
  rtu_parse_response addr (x :: pdu ++ [a; b]) =
  if (addr =? x) && (a * 256 + b =? calculate_crc (x :: pdu)) then Ok pdu else Err ModbusInvalidResponseError.
Proof.
  intros Hx Hp Ha Hb. unfold rtu_parse_response. rewrite head_slice, middle_app.
  change (x :: pdu ++ [a; b]) with ((x :: pdu) ++ [a; b]). rewrite drop_last2_app, last2_app, zlen_app, zlen_cons.
  change (zlen [a; b]) with 2. pose proof (zlen_nonneg pdu). destruct (_ <? 3) eqn:E; [lia|].
  unfold unpack_one. rewrite unpack_B. cbn [bind]. destruct (addr =? x); [|reflexivity]. cbn [negb andb].
  rewrite unpack_H. cbn [bind]. now destruct (_ =? _).
Qed.

Lemma sealed_view x pdu : sealed (x :: pdu) = x :: pdu ++ [crc16_modbus (x :: pdu) mod 256; crc16_modbus (x :: pdu) / 256].
Proof. reflexivity. Qed.

Lemma app2_inj {A} (l l' : list A) a b a' b' : l ++ [a; b] = l' ++ [a'; b'] -> l = l' /\ a = a' /\ b = b'.
Proof.
  intros E. change [a; b] with ([a] ++ [b]) in E. change [a'; b'] with ([a'] ++ [b']) in E. rewrite !app_assoc in E.
  apply app_inj_tail in E as [E ->]. apply app_inj_tail in E as [-> ->]. auto.
Qed.

Lemma rtu_parse_request_sealed request x pdu : bytes request ->
  rtu_parse_request request = Ok (x, pdu) <-> request = sealed (x :: pdu).
Proof.
  intros H. split.
  - intros E. destruct (Nat.lt_ge_cases (length request) 3) as [L|L].
    + unfold rtu_parse_request in E. replace (zlen request <? 3) with true in E by (unfold zlen; lia). discriminate.
    + destruct (rtu_view _ H L) as (x' & p' & a & b & -> & Hx & Hp & Ha & Hb).
      rewrite rtu_parse_request_view in E by assumption.
      destruct (_ =? _) eqn:C; [|discriminate]. injection E as -> ->.
      apply crc_bytes_eq in C; [|now constructor|assumption|assumption].
      unfold sealed. rewrite <- C. reflexivity.
  - intros E. rewrite E in H |- *. apply bytes_app_inv in H as [Hd Hc]. inversion_clear Hd as [|? ? Hx Hp].
    rewrite sealed_view. inversion_clear Hc as [|? ? Ha Hc']. inversion_clear Hc' as [|? ? Hb _].
    rewrite rtu_parse_request_view by assumption.
    replace (_ =? _) with true; [reflexivity|]. symmetry. apply crc_bytes_eq; try assumption; [now constructor|reflexivity].
Qed.
Lemma rtu_parse_response_sealed addr response pdu : bytes response ->
  rtu_parse_response addr response = Ok pdu <-> response = sealed (addr :: pdu).
Proof.
  intros H. split.
  - intros E. destruct (Nat.lt_ge_cases (length response) 3) as [L|L].
    + unfold rtu_parse_response in E. replace (zlen response <? 3) with true in E by (unfold zlen; lia). discriminate.
    + destruct (rtu_view _ H L) as (x' & p' & a & b & -> & Hx & Hp & Ha & Hb).
      rewrite rtu_parse_response_view in E by assumption.
      destruct (addr =? x') eqn:A; [|discriminate]. apply Z.eqb_eq in A. subst x'. cbn [andb] in E.
      destruct (_ =? _) eqn:C; [|discriminate]. injection E as ->.
      apply crc_bytes_eq in C; [|now constructor|assumption|assumption].
      unfold sealed. rewrite <- C. reflexivity.
  - intros E. rewrite E in H |- *. apply bytes_app_inv in H as [Hd Hc]. inversion_clear Hd as [|? ? Hx Hp].
    rewrite sealed_view. inversion_clear Hc as [|? ? Ha Hc']. inversion_clear Hc' as [|? ? Hb _].
    rewrite rtu_parse_response_view by assumption. rewrite Z.eqb_refl. cbn [andb].
    replace (_ =? _) with true; [reflexivity|]. symmetry. apply crc_bytes_eq; try assumption; [now constructor|reflexivity].
Qed.
Lemma rtu_parse_request_cases request : bytes request ->
  (exists r, rtu_parse_request request = Ok r) \/ rtu_parse_request request = Err ModbusInvalidRequestError.
Proof.
  intros H. destruct (Nat.lt_ge_cases (length request) 3) as [L|L].
  - right. unfold rtu_parse_request. now replace (zlen request <? 3) with true by (unfold zlen; lia).
  - destruct (rtu_view _ H L) as (x' & p' & a & b & -> & Hx & Hp & Ha & Hb).
    rewrite rtu_parse_request_view by assumption. destruct (_ =? _); eauto.
Qed.
Lemma rtu_parse_response_cases addr response : bytes response ->
  (exists r, rtu_parse_response addr response = Ok r) \/ rtu_parse_response addr response = Err ModbusInvalidResponseError.
Proof.
  intros H. destruct (Nat.lt_ge_cases (length response) 3) as [L|L].
  - right. unfold rtu_parse_response. now replace (zlen response <? 3) with true by (unfold zlen; lia).
  - destruct (rtu_view _ H L) as (x' & p' & a & b & -> & Hx & Hp & Ha & Hb).
    rewrite rtu_parse_response_view by assumption. destruct (_ && _); eauto.
Qed.

(** ** Line errors *)
Lemma sealed_residue data : bytes data -> feeds 65535 (frame_bits (sealed data)) = 0.
Proof.
  intros H. pose proof (crc_bytes_bytes data H) as B. inversion_clear B as [|? ? Ha B']. inversion_clear B' as [|? ? Hb _].
  now apply residue.
Qed.
Lemma line_error d1 d2 : bytes d1 -> bytes d2 -> length (sealed d1) = length (sealed d2) ->
  feeds 0 (xor_bits (frame_bits (sealed d1)) (frame_bits (sealed d2))) = 0.
Proof.
  intros H1 H2 L. change 0 with (Z.lxor 65535 65535) at 1. rewrite feeds_xor by (rewrite !frame_bits_length; lia).
  now rewrite !sealed_residue.
Qed.

Lemma noise_not_sealed d1 d2 : bytes d1 -> bytes d2 -> length (sealed d1) = length (sealed d2) ->
  ~ line_noise (sealed d1) (sealed d2).
Proof.
  intros H1 H2 L N. pose proof (line_error d1 d2 H1 H2 L) as E. revert E.
  assert (L2 : length (xor_bits (frame_bits (sealed d1)) (frame_bits (sealed d2))) = (8 * length (sealed d1))%nat)
    by (rewrite xor_bits_length, frame_bits_length; rewrite ?frame_bits_length; lia).
  unfold line_noise, odd_error, burst_error, double_error in N. rewrite flipped_ones in N by exact L.
  destruct N as [N|[[N [k Hk]]|[N Hs]]].
  - now apply odd_feeds.
  - eapply burst_feeds; eauto.
  - apply double_feeds; [exact N|]. rewrite L2. lia.
Qed.

(** ** TCP *)
Lemma mbap_pack_ok t p u pdu : fits true t -> fits true p -> is_byte u -> zlen pdu < 65535 ->
  (h <- mbap_pack {| mb_tid := t; mb_pid := p; mb_len := zlen pdu + 1; mb_uid := u |} ;; Ok (h ++ pdu)) = Ok (tcp_frame t p u pdu).
Proof.
  intros A B D L. pose proof (zlen_nonneg pdu). assert (C : fits true (zlen pdu + 1)) by (unfold fits; lia).
  unfold mbap_pack, pack. cbn [parse_fmt mb_tid mb_pid mb_len mb_uid].
  change (parse_items "HHHB" None) with (Ok [FInt 2 false; FInt 2 false; FInt 2 false; FInt 1 false]). cbn [bind pf_little pf_items].
  apply fits_b_iff in A, B, C. apply byte_b_iff in D.
  rewrite !pack_items_H_cons, pack_items_B_cons. cbn [negb].
  rewrite A, B, C, D. reflexivity.
Qed.
Lemma mbap_pack_long t p u n : 65535 < n -> mbap_pack {| mb_tid := t; mb_pid := p; mb_len := n; mb_uid := u |} = Err StructError.
Proof.
  intros L. unfold mbap_pack, pack. cbn [parse_fmt mb_tid mb_pid mb_len mb_uid].
  change (parse_items "HHHB" None) with (Ok [FInt 2 false; FInt 2 false; FInt 2 false; FInt 1 false]). cbn [bind pf_little pf_items].
  rewrite !pack_items_H_cons. cbn [negb]. destruct (fits_b true t); [|reflexivity]. destruct (fits_b true p); [|reflexivity].
  replace (fits_b true n) with false; [reflexivity|]. symmetry. unfold fits_b. lia.
Qed.

Lemma tcp_view f : bytes f -> 6 < zlen f -> exists a b c d e g u pdu, f = a :: b :: c :: d :: e :: g :: u :: pdu /\
  is_byte a /\ is_byte b /\ is_byte c /\ is_byte d /\ is_byte e /\ is_byte g /\ is_byte u /\ bytes pdu.
Proof.
  intros H L. do 7 (destruct f as [|? f]; [cbn in L; lia|]; inversion_clear H as [|? ? ? H']; rename H' into H).
  do 8 eexists. split; [reflexivity|]. auto 10.
Qed.
Lemma tcp_slices {A} (a b c d e g u : A) pdu :
  py_slice (a :: b :: c :: d :: e :: g :: u :: pdu) 0 7 = [a; b; c; d; e; g; u] /\
  py_from (a :: b :: c :: d :: e :: g :: u :: pdu) 7 = pdu.
Proof.
  split; [rewrite py_slice_nonneg by lia; reflexivity|]. rewrite py_from_nonneg by lia. reflexivity.
Qed.
Lemma word_inj a b x y c d : is_byte a -> is_byte b -> is_byte c -> is_byte d -> [a; b] = [x; y] -> [c; d] = [x; y] -> a * 256 + b = c * 256 + d.
Proof. congruence. Qed.

Lemma tcp_parse_request_frame request m u pdu : bytes request ->
  tcp_parse_request request = Ok (m, u, pdu) <->
  (zlen pdu < 65535 /\ u = mb_uid m /\ mb_len m = zlen pdu + 1 /\ fits true (mb_tid m) /\ fits true (mb_pid m) /\ is_byte u /\ bytes pdu /\
   request = tcp_frame (mb_tid m) (mb_pid m) (mb_uid m) pdu).
Proof.
  intros H. unfold tcp_parse_request. split.
  - destruct (6 <? zlen request) eqn:L; [|discriminate].
    destruct (tcp_view request H ltac:(lia)) as (a & b & c & d & e & g & x & q & -> & Ha & Hb & Hc & Hd & He & Hg & Hx & Hq).
    destruct (tcp_slices a b c d e g x q) as [-> ->]. unfold mbap_unpack. rewrite unpack_HHHB. cbn [bind].
    unfold mbap_length_ok. cbn [mb_len]. destruct (_ =? _) eqn:Q; [|discriminate].
    intros E. injection E as <- <- <-. cbn [mb_tid mb_pid mb_len mb_uid]. unfold tcp_frame.
    apply Z.eqb_eq in Q. rewrite <- Q. rewrite !word_value by assumption. unfold is_byte, fits in *.
    repeat split; try assumption; try lia.
  - intros (L & -> & E & T & P & U & B & ->). destruct m as [t p n u]. cbn [mb_tid mb_pid mb_len mb_uid] in *. subst n.
    unfold tcp_frame, word. cbn [app].
    rewrite !zlen_cons. pose proof (zlen_nonneg pdu). destruct (6 <? _) eqn:S; [|lia].
    match goal with |- context [py_slice (?a :: ?b :: ?c :: ?d :: ?e :: ?g :: ?x :: ?q) 0 7] =>
      destruct (tcp_slices a b c d e g x q) as [-> ->] end.
    unfold mbap_unpack. rewrite unpack_HHHB. cbn [bind]. unfold fits in *. rewrite !word_join by lia.
    unfold mbap_length_ok. cbn [mb_len]. now rewrite Z.eqb_refl.
Qed.
Lemma tcp_parse_request_cases request : bytes request ->
  (exists r, tcp_parse_request request = Ok r) \/
  (6 < zlen request /\ tcp_parse_request request = Err ModbusInvalidMbapError) \/
  (zlen request <= 6 /\ tcp_parse_request request = Err ModbusInvalidRequestError).
Proof.
  intros H. unfold tcp_parse_request. destruct (6 <? zlen request) eqn:L; [|right; right; split; [lia|reflexivity]].
  destruct (tcp_view request H ltac:(lia)) as (a & b & c & d & e & g & x & q & -> & _).
  destruct (tcp_slices a b c d e g x q) as [-> ->]. unfold mbap_unpack. rewrite unpack_HHHB. cbn [bind].
  destruct (mbap_length_ok _ _); [left; eauto|]. right; left. split; [lia|reflexivity].
Qed.

Lemma tcp_parse_response_frame m response pdu : bytes response -> fits true (mb_tid m) -> fits true (mb_pid m) ->
  tcp_parse_response m response = Ok pdu <->
  (zlen pdu < 65535 /\ response = tcp_frame (mb_tid m) (mb_pid m) (mb_uid m) pdu).
Proof.
  intros H T P. unfold tcp_parse_response. split.
  - destruct (6 <? zlen response) eqn:L; [|discriminate].
    destruct (tcp_view response H ltac:(lia)) as (a & b & c & d & e & g & x & q & -> & Ha & Hb & Hc & Hd & He & Hg & Hx & Hq).
    destruct (tcp_slices a b c d e g x q) as [-> ->]. unfold mbap_unpack. rewrite unpack_HHHB. cbn [bind].
    unfold mbap_check_response, mbap_ids_ok, mbap_length_ok. cbn [mb_tid mb_pid mb_len mb_uid].
    destruct (_ && _) eqn:Q; [|discriminate]. intros E. injection E as <-.
    rewrite !andb_true_iff, !Z.eqb_eq in Q. destruct Q as [[[Q1 Q2] Q3] Q4].
    unfold tcp_frame. rewrite Q1, Q2, Q3, <- Q4, !word_value by assumption. unfold is_byte in *. split; [lia|reflexivity].
  - intros (L & ->). destruct m as [t p n u]. cbn [mb_tid mb_pid mb_len mb_uid] in *.
    unfold tcp_frame, word. cbn [app].
    rewrite !zlen_cons. pose proof (zlen_nonneg pdu). destruct (6 <? _) eqn:S; [|lia].
    match goal with |- context [py_slice (?a :: ?b :: ?c :: ?d :: ?e :: ?g :: ?x :: ?q) 0 7] =>
      destruct (tcp_slices a b c d e g x q) as [-> ->] end.
    unfold mbap_unpack. rewrite unpack_HHHB. cbn [bind]. unfold fits in *. rewrite !word_join by lia.
    unfold mbap_check_response, mbap_ids_ok, mbap_length_ok. cbn [mb_tid mb_pid mb_len mb_uid]. now rewrite !Z.eqb_refl.
Qed.
Lemma tcp_parse_response_cases m response : bytes response ->
  (exists r, tcp_parse_response m response = Ok r) \/
  (6 < zlen response /\ tcp_parse_response m response = Err ModbusInvalidMbapError) \/
  (zlen response <= 6 /\ tcp_parse_response m response = Err ModbusInvalidResponseError).
Proof.
  intros H. unfold tcp_parse_response. destruct (6 <? zlen response) eqn:L; [|right; right; split; [lia|reflexivity]].
  destruct (tcp_view response H ltac:(lia)) as (a & b & c & d & e & g & x & q & -> & _).
  destruct (tcp_slices a b c d e g x q) as [-> ->]. unfold mbap_unpack. rewrite unpack_HHHB. cbn [bind].
  unfold mbap_check_response. destruct (_ && _); [left; eexists; reflexivity|]. right; left. split; [lia|reflexivity].
Qed.

Lemma tcp_frame_inj t p u q t' p' u' q' : fits true t -> fits true p -> fits true t' -> fits true p' ->
  tcp_frame t p u q = tcp_frame t' p' u' q' -> t = t' /\ p = p' /\ u = u' /\ q = q'.
Proof.
  unfold tcp_frame, word, fits. cbn [app]. intros A B C D E. injection E as E1 E2 E3 E4 E5 E6 -> ->. clear E5 E6.
  split; [lia|split; [lia|auto]].
Qed.
Lemma tcp_frame_bytes t p u q : is_byte u -> bytes q -> bytes (tcp_frame t p u q).
Proof. intros U Q. unfold tcp_frame. repeat apply bytes_app; try apply word_bytes. now constructor. Qed.
Lemma tcp_build_request_ok last pdu u : bytes pdu -> zlen pdu < 65535 -> is_byte u -> 0 <= last < 65536 ->
  tcp_build_request last pdu u =
  (next_transaction_id last,
   Ok ({| mb_tid := next_transaction_id last; mb_pid := 0; mb_len := zlen pdu + 1; mb_uid := u |},
       tcp_frame (next_transaction_id last) 0 u pdu)).
Proof.
  intros B L U T. unfold tcp_build_request. unfold is_byte in U. destruct ((u <? 0) || (255 <? u)) eqn:E; [lia|].
  assert (F : fits true (next_transaction_id last)) by (unfold next_transaction_id, fits; destruct (last <? 65535) eqn:Q; lia).
  pose proof (mbap_pack_ok _ 0 u pdu F ltac:(unfold fits; lia) U L) as X.
  destruct (mbap_pack _); cbn [bind] in *; [|discriminate]. injection X as ->. reflexivity.
Qed.
Lemma tcp_build_response_ok m pdu : fits true (mb_tid m) -> fits true (mb_pid m) -> is_byte (mb_uid m) -> zlen pdu < 65535 ->
  tcp_build_response m pdu = Ok (tcp_frame (mb_tid m) (mb_pid m) (mb_uid m) pdu).
Proof. intros. now apply mbap_pack_ok. Qed.

(** ** Transaction ids *)
Lemma next_tid last : 0 <= last < 65536 -> next_transaction_id last = (last + 1) mod 65536.
Proof. intros H. unfold next_transaction_id. destruct (last <? 65535) eqn:E; lia. Qed.
