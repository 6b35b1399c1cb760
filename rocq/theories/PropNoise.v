(** C117: a bad frame harms only itself. *)
From Verif Require Import Base BaseFacts Spec StructFacts PyStruct SlaveModel SlaveSpec QueryModel CrcSpec CrcProofs FrameSpec QueryProofs DatabankModel DbSpec DatabankProofs PropDatabank PropFrame
  TransportModel TransportSpec TransportProofs PropTransport.
From Coq Require Import Lia ZifyBool ZifyNat.
Open Scope string_scope. Open Scope list_scope. Open Scope Z_scope.

(** Spec: at least three bytes, the last two of which are the CRC of the others. *)
Definition intact (l : list Z) : bool :=
  (3 <=? zlen l) && (if list_eq_dec Z.eq_dec l (sealed (firstn (length l - 2) l)) then true else false).

Lemma sealed_length l : length (sealed l) = (length l + 2)%nat.
Proof. unfold sealed. rewrite app_length. reflexivity. Qed.
Lemma intact_sealed l : intact l = true <-> exists a pdu, l = sealed (a :: pdu).
Proof.
  unfold intact. rewrite Bool.andb_true_iff. split.
  - intros [L E]. destruct (list_eq_dec Z.eq_dec l _) as [Q|]; [|discriminate E]. destruct l as [|a [|b [|c l]]]; [discriminate L|discriminate L|discriminate L|].
    exists a, (firstn (length l) (b :: c :: l)). rewrite Q at 1. cbn [length]. replace (S (S (S (length l))) - 2)%nat with (S (length l)) by lia. reflexivity.
  - intros (a & pdu & ->). split; [unfold zlen; rewrite sealed_length; cbn [length]; lia|].
    rewrite sealed_length, Nat.add_sub. replace (firstn (length (a :: pdu)) (sealed (a :: pdu))) with (a :: pdu).
    + destruct (list_eq_dec Z.eq_dec _ _); [reflexivity|contradiction].
    + unfold sealed. rewrite firstn_app, Nat.sub_diag, firstn_all. cbn [firstn]. now rewrite app_nil_r.
Qed.
Lemma bad_served d l : bytes l -> intact l = false -> served_request d RTU l = (d, None).
Proof.
  intros B H. unfold served_request. destruct (C32_otherwise l B) as [_ E]; [|rewrite E; reflexivity].
  intros a pdu Q. assert (X : intact l = true) by (apply intact_sealed; eauto). congruence.
Qed.
Lemma replay_good log : forall d d', Forall bytes (map fst log) -> replay RTU d log d' ->
  replay RTU d (filter (fun e => intact (fst e)) log) d' /\ Forall (fun e => intact (fst e) = false -> snd e = None) log.
Proof.
  induction log as [|[request out] log IH]; intros d d' B R; cbn [replay] in R; [split; [exact R|constructor]|]. destruct R as [R1 R2]. inversion_clear B as [|? ? B1 B2].
  destruct (IH _ _ B2 R2) as [G F]. cbn [filter fst]. cbn [fst] in B1. destruct (intact request) eqn:Q.
  - split; [cbn [replay]; auto|]. constructor; [cbn; congruence|exact F].
  - rewrite (bad_served d request B1 Q) in *. cbn [fst snd] in *. split; [exact G|]. constructor; [cbn; congruence|exact F].
Qed.
Lemma replay_same p log1 : forall log2 d a b, map fst log1 = map fst log2 -> replay p d log1 a -> replay p d log2 b -> a = b /\ log1 = log2.
Proof.
  induction log1 as [|[r1 o1] l1 IH]; intros [|[r2 o2] l2] d a b M R1 R2; try discriminate M; cbn [replay] in *; [now subst|].
  cbn [map fst] in M. injection M as -> M. destruct R1 as [E1 R1], R2 as [E2 R2]. destruct (IH l2 _ _ _ M R1 R2) as [-> ->]. split; [reflexivity|]. congruence.
Qed.
Lemma map_filter_fst {A} (f : list Z -> bool) (l : list (list Z * A)) : map fst (filter (fun e => f (fst e)) l) = filter f (map fst l).
Proof. induction l as [|[x y] l IH]; [reflexivity|]. cbn. destruct (f x); cbn; now rewrite IH. Qed.

(** Two serial lines, [clean] carrying of the frames on [noisy] only the intact ones: after both the slaves are in the same state, the
    intact frames got the same answers, and the others none. *)
Theorem C117_rtu : forall n1 n2 d noisy clean d1 log1 d2 log2,
  (line_size noisy < n1)%nat -> (line_size clean < n2)%nat -> Forall bytes (requests_on [] noisy) ->
  requests_on [] clean = filter intact (requests_on [] noisy) ->
  rtu_turns n1 no_rtu_hooks (fun _ => false) d noisy = (d1, log1) -> rtu_turns n2 no_rtu_hooks (fun _ => false) d clean = (d2, log2) ->
  d1 = d2 /\ filter (fun e => intact (fst e)) log1 = log2 /\ Forall (fun e => intact (fst e) = false -> snd e = None) log1.
Proof.
  intros n1 n2 d noisy clean d1 log1 d2 log2 L1 L2 B Q R1 R2.
  pose proof (C48_all_requests _ _ _ _ _ _ L1 R1) as M1. pose proof (C48_all_requests _ _ _ _ _ _ L2 R2) as M2.
  destruct (C48_answers _ _ _ _ _ _ R1) as (f1 & P1 & _ & E1). rewrite E1 in P1 by reflexivity.
  destruct (C48_answers _ _ _ _ _ _ R2) as (f2 & P2 & _ & E2). rewrite E2 in P2 by reflexivity.
  destruct (replay_good log1 d d1) as [G F]; [now rewrite M1|exact P1|].
  destruct (replay_same RTU _ _ _ _ _ (eq_trans (map_filter_fst intact log1) ltac:(rewrite M1, <- Q, <- M2; reflexivity)) G P2) as [-> E]. auto.
Qed.
Example C117_rtu_ex : let good := on_wire None 9 (6 :: word 100 ++ word 7) in
  let noisy := [Burst [1; 2]; Burst [3]; Silence; Burst (firstn 4 good); Burst (skipn 4 good); Silence; Burst [255]; Silence; Burst (good ++ [1]); Silence] in
  Forall bytes (requests_on [] noisy) /\ requests_on [] [Burst good; Silence] = filter intact (requests_on [] noisy) /\
  map snd (snd (rtu_turns 40 no_rtu_hooks (fun _ => false) demo_db noisy)) = [None; Some good; None; None].
Proof.
  split; [|split; vm_compute; reflexivity]. apply Forall_forall. intros l I. apply bytes_compute. vm_compute in I. repeat (destruct I as [<-|I]; [reflexivity|]). destruct I.
Qed.

(** Not every disturbed frame is told from an intact one: zero bytes after the end of a frame (a break on the line) are never noticed. *)
Lemma clear_low c : Z.lxor c (c mod 256) = (c / 256) * 2 ^ Z.of_nat 8.
Proof.
  change 256 with (2 ^ 8). change (Z.of_nat 8) with 8. rewrite <- Z.shiftr_div_pow2, <- Z.shiftl_mul_pow2, <- Z.land_ones by lia. apply Z.bits_inj'. intros n N.
  rewrite Z.lxor_spec, Z.land_spec, Z.testbit_ones_nonneg, Z.shiftl_spec by lia. destruct (Z.ltb_spec n 8) as [L|L].
  - rewrite Bool.andb_true_r, Bool.xorb_nilpotent. symmetry. apply Z.testbit_neg_r. lia.
  - rewrite Bool.andb_false_r, Bool.xorb_false_r, Z.shiftr_spec by lia. f_equal. lia.
Qed.
Lemma sealed_zero l : bytes l -> sealed l ++ [0] = sealed (l ++ [crc16_modbus l mod 256]).
Proof.
  intros B. pose proof (crc16_w16 l B) as W. unfold w16 in W.
  assert (E : crc16_modbus (l ++ [crc16_modbus l mod 256]) = crc16_modbus l / 256).
  { unfold crc16_modbus at 1. rewrite fold_left_app. fold (crc16_modbus l). cbn [fold_left]. rewrite crc_step_shifts, clear_low. apply shifts_even. }
  assert (H : 0 <= crc16_modbus l / 256 < 256) by (split; [apply Z.div_pos; lia|apply Z.div_lt_upper_bound; lia]).
  unfold sealed, crc_bytes. rewrite E, (Z.mod_small _ _ H), (Z.div_small _ _ H), <- !app_assoc. reflexivity.
Qed.
Theorem C117_zero_bytes_refuted : forall k a pdu, bytes (a :: pdu) ->
  exists pdu', bytes pdu' /\ sealed (a :: pdu) ++ repeat 0 k = sealed (a :: pdu ++ pdu') /\ rtu_parse_request (sealed (a :: pdu) ++ repeat 0 k) = Ok (a, pdu ++ pdu') /\ length pdu' = k.
Proof.
  assert (G : forall k a pdu, bytes (a :: pdu) -> exists pdu', bytes pdu' /\ sealed (a :: pdu) ++ repeat 0 k = sealed (a :: pdu ++ pdu') /\ length pdu' = k).
  { induction k as [|k IH]; intros a pdu B; [exists []; split; [constructor|]; cbn [repeat]; now rewrite !app_nil_r|].
    change (repeat 0 (S k)) with ([0] ++ repeat 0 k). rewrite app_assoc, (sealed_zero _ B). set (lo := crc16_modbus (a :: pdu) mod 256).
    assert (Bl : is_byte lo) by (unfold is_byte, lo; pose proof (Z.mod_pos_bound (crc16_modbus (a :: pdu)) 256 ltac:(lia)); lia).
    cbn [app]. destruct (IH a (pdu ++ [lo])) as (q & Bq & E & L).
    - inversion_clear B. constructor; [assumption|]. apply Forall_app. split; [assumption|]. constructor; [exact Bl|constructor].
    - exists (lo :: q). split; [constructor; assumption|]. rewrite <- app_assoc in E. split; [exact E|]. cbn. now rewrite L. }
  intros k a pdu B. destruct (G k a pdu B) as (q & Bq & E & L). exists q. split; [exact Bq|]. split; [exact E|]. split; [|exact L].
  apply rtu_parse_request_sealed; [|exact E]. rewrite E. apply sealed_bytes. inversion_clear B. constructor; [assumption|]. apply Forall_app. split; assumption.
Qed.

(** TCP.  A header that announces more than its sender sends: what follows on this connection is taken for its rest.  *)
Definition header (tid unit announced : Z) : list Z := word tid ++ word 0 ++ word announced ++ [unit].
Lemma header_delimits tid unit l : 0 <= tid <= 65535 -> 0 <= unit <= 255 -> bytes l -> zlen l <= 65534 -> self_delimited (header tid unit (zlen l + 1) ++ l).
Proof.
  intros T U B L. pose proof (zlen_nonneg l). exists (tid / 256 mod 256), (tid mod 256), 0, 0, ((zlen l + 1) / 256 mod 256), ((zlen l + 1) mod 256), (unit :: l).
  split; [reflexivity|]. split; [rewrite zlen_cons; pose proof (Z.div_mod (zlen l + 1) 256 ltac:(lia)); assert ((zlen l + 1) / 256 mod 256 = (zlen l + 1) / 256) by (apply Z.mod_small; split; [apply Z.div_pos; lia|apply Z.div_lt_upper_bound; lia]); lia|].
  unfold header, word. cbn [app]. repeat (constructor; [unfold is_byte; try (apply Z.mod_pos_bound; lia); try lia; pose proof (Z.mod_pos_bound (tid / 256) 256 ltac:(lia)); pose proof (Z.mod_pos_bound tid 256 ltac:(lia)); pose proof (Z.mod_pos_bound ((zlen l + 1) / 256) 256 ltac:(lia)); pose proof (Z.mod_pos_bound (zlen l + 1) 256 ltac:(lia)); cbn; lia|]). exact B.
Qed.
(** The complete requests that follow the header are not handled: they are read as the body of one request. *)
Theorem C117_tcp_swallowed_refuted : forall d c tid unit frames rest, 0 <= tid <= 65535 -> 0 <= unit <= 255 ->
  Forall self_delimited frames -> zlen (concat frames) <= 65534 -> stream c = header tid unit (zlen (concat frames) + 1) ++ concat frames ++ rest ->
  exists c' d' out, serve_client no_tcp_hooks d c = Stays c' d' (Some (header tid unit (zlen (concat frames) + 1) ++ concat frames)) out /\ stream c' = rest.
Proof.
  intros d c tid unit frames rest T U F L S. rewrite app_assoc in S.
  assert (B : bytes (concat frames)). { clear - F. induction F as [|f l H _ IH]; [constructor|]. cbn [concat]. apply Forall_app. split; [|exact IH]. destruct H as (?&?&?&?&?&?&?&_&_&H). exact H. }
  pose proof (header_delimits tid unit (concat frames) T U B L) as D. pose proof (zlen_nonneg (concat frames)).
  destruct (C46_one_request d c _ rest D) as (c' & E & R & _); [rewrite zlen_app; change (zlen (header _ _ _)) with 7; lia|exact S|]. eauto.
Qed.
(** If less follows than announced, nothing is handled: the server waits a second and closes this connection; the others stay. *)
Theorem C117_tcp_dropped_partial : forall s id c tid unit announced l, assoc Z.eqb id (ts_conns s) = Some c -> c_end c = Stalled ->
  0 <= tid <= 65535 -> 0 <= unit <= 255 -> zlen l + 1 < announced <= 65535 -> bytes l -> stream c = header tid unit announced ++ l ->
  tcp_do_run no_tcp_hooks [ReadyClient id] s = ({| ts_listening := ts_listening s; ts_conns := assoc_del Z.eqb id (ts_conns s); ts_db := ts_db s |}, []).
Proof.
  intros s id c tid unit announced l A E T U N B S. cbn [tcp_do_run]. rewrite A.
  unfold serve_client. destruct (recv1_cons c _ _ S) as (c0 & E0 & _). rewrite E0. cbn [snd]. rewrite missing_nil.
  destruct (read_more_take (header tid unit announced) c [] l S) as (c1 & E1 & S1 & N1). change (length (header tid unit announced)) with 7%nat in E1. rewrite E1.
  cbn [app th_after_recv no_tcp_hooks]. change (replaced no_hook (header tid unit announced)) with (header tid unit announced).
  unfold get_request_length. change (zlen (header tid unit announced) <? 6) with false. cbn iota. unfold header at 1 2, word. cbn [app].
  match goal with |- context [py_slice ?x 0 6] => change (py_slice x 0 6) with [tid / 256 mod 256; tid mod 256; 0 / 256 mod 256; 0 mod 256; announced / 256 mod 256; announced mod 256] end.
  rewrite third_word_six.
  assert (Q : announced / 256 mod 256 * 256 + announced mod 256 = announced).
  { pose proof (zlen_nonneg l). pose proof (Z.div_mod announced 256 ltac:(lia)). assert (announced / 256 mod 256 = announced / 256) by (apply Z.mod_small; split; [apply Z.div_pos; lia|apply Z.div_lt_upper_bound; lia]). lia. }
  rewrite Q. match goal with |- context [read_more ?n c1 ?r] => destruct (read_more_short l n c1 r S1) as (c2 & E2 & _) end.
  { unfold missing. match goal with |- context [zlen ?x] => change (zlen x) with 7 end. unfold zlen in N. lia. }
  rewrite E2, N1, E. reflexivity.
Qed.
Example C117_tcp_ex : self_delimited demo_read /\
  exists c' d' out, serve_client no_tcp_hooks demo_db {| c_segs := [header 5 9 (zlen (concat [demo_read; demo_read]) + 1); demo_read; demo_read]; c_end := Stalled |}
    = Stays c' d' (Some (header 5 9 (zlen (concat [demo_read; demo_read]) + 1) ++ demo_read ++ demo_read)) out.
Proof.
  split; [|eexists _, _, _; vm_compute; reflexivity].
  eexists _, _, _, _, _, _, _. split; [reflexivity|]. split; [reflexivity|]. apply bytes_compute. reflexivity.
Qed.

Print Assumptions C117_rtu.
Print Assumptions C117_zero_bytes_refuted.
Print Assumptions C117_tcp_swallowed_refuted.
Print Assumptions C117_tcp_dropped_partial.
