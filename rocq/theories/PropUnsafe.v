(** C99: execute(..., threadsafe=False).
    Vocabulary: EndSpec.v (round_trip_args: what one call made alone does and returns) and the definitions below. *)
From Coq Require Import ZArith Lia ZifyBool ZifyNat.
Ltac Zify.zify_post_hook ::= Z.div_mod_to_equations.
From Verif Require Import Base BaseFacts Defines Spec StructFacts SlaveSpec SlaveModel FrameSpec QueryModel QueryProofs DatabankModel DbSpec MasterModel MasterSpec EndSpec ConcModel SharedModel PropDatabank PropConc PropSession UnsafeModel.
Open Scope string_scope.
Open Scope list_scope.
Open Scope Z_scope.

Definition in_range (n : Z) : Prop := 0 <= n <= 65535.

(** ** The number of a request does not matter *)
Lemma parse_frame t u pdu : in_range t -> is_byte u -> zlen pdu < 65535 ->
  tcp_parse_request (tcp_frame t 0 u pdu) = Ok ({| mb_tid := t; mb_pid := 0; mb_len := zlen pdu + 1; mb_uid := u |}, u, pdu).
Proof.
  intros T U L. pose proof (zlen_nonneg pdu). unfold in_range in T. unfold tcp_parse_request, tcp_frame, word. cbn [app].
  match goal with |- context [6 <? zlen ?l] => replace (6 <? zlen l) with true by (rewrite !zlen_cons; lia) end.
  match goal with |- context [py_from (?a :: ?b :: ?c :: ?d :: ?e :: ?g :: ?x :: ?q) 7] => destruct (tcp_slices a b c d e g x q) as [-> ->] end.
  unfold mbap_unpack. rewrite unpack_HHHB. cbn [bind]. unfold mbap_length_ok. cbn [mb_len mb_uid].
  replace ((t / 256) mod 256 * 256 + t mod 256) with t by lia. replace ((0 / 256) mod 256 * 256 + 0 mod 256) with 0 by lia.
  replace (((zlen pdu + 1) / 256) mod 256 * 256 + (zlen pdu + 1) mod 256) with (zlen pdu + 1) by lia. rewrite Z.eqb_refl. reflexivity.
Qed.
Lemma parse_reply t u q pdu : in_range t -> is_byte u -> zlen pdu < 65535 ->
  tcp_parse_response {| mb_tid := t; mb_pid := 0; mb_len := q; mb_uid := u |} (tcp_frame t 0 u pdu) = Ok pdu.
Proof.
  intros T U L. pose proof (zlen_nonneg pdu). unfold in_range in T. unfold tcp_parse_response, tcp_frame, word. cbn [app].
  match goal with |- context [6 <? zlen ?l] => replace (6 <? zlen l) with true by (rewrite !zlen_cons; lia) end.
  match goal with |- context [py_from (?a :: ?b :: ?c :: ?d :: ?e :: ?g :: ?x :: ?q) 7] => destruct (tcp_slices a b c d e g x q) as [-> ->] end.
  unfold mbap_unpack. rewrite unpack_HHHB. cbn [bind]. unfold mbap_check_response, mbap_ids_ok, mbap_length_ok. cbn [mb_tid mb_pid mb_len mb_uid].
  replace ((t / 256) mod 256 * 256 + t mod 256) with t by lia. replace ((0 / 256) mod 256 * 256 + 0 mod 256) with 0 by lia.
  replace (((zlen pdu + 1) / 256) mod 256 * 256 + (zlen pdu + 1) mod 256) with (zlen pdu + 1) by lia. rewrite !Z.eqb_refl. reflexivity.
Qed.
(** what a frame does and how it is answered, as the caller sees it *)
Definition heard (d : databank) (t u : Z) (pdu : list Z) : databank * res (list Z) :=
  (fst (db_handle_request d TCP (tcp_frame t 0 u pdu)),
   response <- answer d TCP (tcp_frame t 0 u pdu) ;; tcp_parse_response {| mb_tid := t; mb_pid := 0; mb_len := zlen pdu + 1; mb_uid := u |} response).
Lemma catch_same e r m m' :
  (response <- match db_catch e r with Ok x => match sent x with Some b => Ok b | None => Err SocketTimeout end | Err _ => Err SocketTimeout end ;; tcp_parse_response m response) =
  (response <- match db_catch e r with Ok x => match sent x with Some b => Ok b | None => Err SocketTimeout end | Err _ => Err SocketTimeout end ;; tcp_parse_response m' response).
Proof.
  assert (FR : forall m, (response <- match failure_response r with Ok x => match sent x with Some b => Ok b | None => Err SocketTimeout end | Err _ => Err SocketTimeout end ;; tcp_parse_response m response) =
      match failure_response r with Ok _ => Err ModbusInvalidResponseError | Err _ => Err SocketTimeout end).
  { clear. intros m. unfold failure_response. destruct (match r with [] => Ok 1 | _ => unpack_one ">B" (py_slice r 0 1) end) as [fc|e]; [cbn [bind]|reflexivity].
    destruct (pack ">BB" [fc + 128; SLAVE_DEVICE_FAILURE]) as [b|e] eqn:P; [cbn [bind]|reflexivity].
    assert (Lb : length b = 2%nat). { unfold pack in P. cbn [parse_fmt] in P. change (parse_items "BB" None) with (Ok [FInt 1 false; FInt 1 false]) in P. cbn [bind pf_little pf_items pack_items] in P.
      unfold pack_int in P. destruct (int_in_range 1 false (fc + 128)); [|discriminate]. cbn [bind] in P. destruct (int_in_range 1 false SLAVE_DEVICE_FAILURE); [|discriminate]. cbn in P. injection P as <-. reflexivity. }
    destruct b as [|b0 [|b1 [|]]]; try discriminate. reflexivity. }
  destruct e; cbn [db_catch sent bind]; try reflexivity; now rewrite !FR.
Qed.
Lemma heard_same d t t' u pdu : in_range t -> in_range t' -> is_byte u -> zlen pdu < 65535 -> heard d t u pdu = heard d t' u pdu.
Proof.
  intros T T' U L. unfold heard, answer, db_handle_request. cbn [parse_request]. rewrite !parse_frame by assumption. cbn [bind].
  destruct (u =? 0).
  - destruct (broadcast_loop (db_slaves d) pdu) as [l [x|e]]; cbn [fst snd]; [reflexivity|]. f_equal. apply catch_same.
  - destruct (get_slave d u) as [s|e].
    2: { destruct e; cbn [fst snd]; try (f_equal; apply catch_same). destruct (db_error_on_missing d); cbn [fst snd]; [f_equal; apply catch_same|reflexivity]. }
    destruct (handle_request s pdu false) as [s' [rp|e]]; cbn [bind]; [|cbn [fst snd]; f_equal; apply catch_same]. cbn [build_response].
    assert (RT : fits true t /\ fits true t' /\ fits true 0) by (unfold in_range, fits in *; lia). destruct RT as (F1 & F2 & F0).
    destruct (Z.ltb_spec (zlen rp) 65535) as [Lr|Lr].
    + rewrite !tcp_build_response_ok by assumption. cbn [fst snd mb_tid mb_pid mb_uid]. f_equal.
      assert (SF : forall tt, match sent (Some (tcp_frame tt 0 u rp)) with Some b => Ok b | None => Err SocketTimeout end = Ok (tcp_frame tt 0 u rp)) by reflexivity.
      rewrite !SF. cbn [bind]. now rewrite !parse_reply by assumption.
    + unfold tcp_build_response. rewrite !mbap_pack_long by lia. cbn [bind fst snd]. f_equal. apply catch_same.
Qed.
Theorem C99_numbers_do_not_matter : forall p d a last last', in_range last -> in_range last' ->
  fst (round_trip_args p last d a) = fst (round_trip_args p last' d a) /\ ex_result (snd (round_trip_args p last d a)) = ex_result (snd (round_trip_args p last' d a)).
Proof.
  intros p d a last last' T T'. unfold round_trip_args, execute. cbn [fst snd]. destruct (execute_build a) as [b|e]; [|split; reflexivity]. destruct p; cbn [build_request].
  - destruct (x <- rtu_build_request (bl_pdu b) (ea_slave a) ;; Ok (HRtu (ea_slave a), x)) as [[h q]|e]; split; reflexivity.
  - unfold tcp_build_request. destruct ((ea_slave a <? 0) || (255 <? ea_slave a)) eqn:U; [split; reflexivity|].
    assert (B : is_byte (ea_slave a)) by (unfold is_byte; lia).
    assert (R1 : in_range (next_transaction_id last)) by (unfold in_range in *; pose proof (tid_range last); lia).
    assert (R2 : in_range (next_transaction_id last')) by (unfold in_range in *; pose proof (tid_range last'); lia).
    destruct (Z.ltb_spec (zlen (bl_pdu b)) 65535) as [L|L].
    + assert (E : forall t, in_range t -> (mb <- (h <- mbap_pack {| mb_tid := t; mb_pid := 0; mb_len := zlen (bl_pdu b) + 1; mb_uid := ea_slave a |} ;;
          Ok ({| mb_tid := t; mb_pid := 0; mb_len := zlen (bl_pdu b) + 1; mb_uid := ea_slave a |}, h ++ bl_pdu b)) ;; Ok (HTcp (fst mb), snd mb)) =
          Ok (HTcp {| mb_tid := t; mb_pid := 0; mb_len := zlen (bl_pdu b) + 1; mb_uid := ea_slave a |}, tcp_frame t 0 (ea_slave a) (bl_pdu b))).
      { intros t Ht. pose proof (mbap_pack_ok t 0 (ea_slave a) (bl_pdu b) ltac:(unfold in_range, fits in *; lia) ltac:(unfold fits; lia) B L) as X.
        destruct (mbap_pack _); cbn [bind] in *; [|discriminate]. injection X as ->. reflexivity. }
      rewrite (E _ R1), (E _ R2). cbn [ex_sent ex_result ex_last parse_response].
      pose proof (heard_same d _ _ (ea_slave a) (bl_pdu b) R1 R2 B L) as H. unfold heard in H. injection H as H1 H2. rewrite H1, H2. split; reflexivity.
    + rewrite !mbap_pack_long by lia. cbn [bind ex_sent ex_result]. split; reflexivity.
Qed.

(** ** Code that only looks at the counter to number its request *)
Definition agree (x y : world * outcome) : Prop := w_db (fst x) = w_db (fst y) /\ snd x = snd y.
Inductive blind : code world outcome -> Prop :=
| blind_done r : blind (Done r)
| blind_micro f : (forall n n' l, in_range n -> in_range n' -> agree (run (Micro f) (view n l)) (run (Micro f) (view n' l))) ->
    (forall n l, in_range n -> in_range (w_last (fst (f (view n l)))) /\ blind (snd (f (view n l)))) -> blind (Micro f).
Lemma blind_agree c n n' l : blind c -> in_range n -> in_range n' -> agree (run c (view n l)) (run c (view n' l)).
Proof. intros [r|f H _] N N'; [split; reflexivity|now apply H]. Qed.
Lemma blind_then {A} (g : world -> world * A) (k : A -> code world outcome) (g' : link -> link * A) :
  (forall n l, g (view n l) = (view n (fst (g' l)), snd (g' l))) -> (forall x, blind (k x)) -> blind (LET x := act g IN k x).
Proof.
  intros G K. cbn [act andthen]. constructor.
  - intros n n' l N N'. cbn [run]. rewrite !G. cbn [andthen]. now apply blind_agree.
  - intros n l N. rewrite G. cbn [fst snd andthen view w_last]. split; [exact N|apply K].
Qed.
Lemma alone_run p a n l : run (m_execute p a) (view n l) = execute_alone p (view n l) a. Proof. apply run_execute. Qed.
Lemma execute_parts p a : m_execute p a =
  match execute_build a with
  | Err e => Done (Some (Err e))
  | Ok b => LET r := act (fun w => let '(last, r) := build_request p (w_last w) (bl_pdu b) (ea_slave a) in ({| w_db := w_db w; w_last := last; w_wire := w_wire w |}, r)) IN
      match r with
      | Err e => Done (Some (Err e))
      | Ok (hdr, request) =>
          LET _ := act (fun w => (flush_wire w, tt)) IN LET _ := act (fun w => (send_request p request w, tt)) IN LET response := act receive IN
          Done match (response <- response ;; parse_response hdr response) with Err e => Some (Err e) | Ok response_pdu => execute_decode (file_fuel response_pdu) a b response_pdu end
      end
  end.
Proof. reflexivity. Qed.
Lemma blind_tail p a b hdr request :
  blind (LET _ := act (fun w => (flush_wire w, tt)) IN LET _ := act (fun w => (send_request p request w, tt)) IN LET response := act receive IN
          Done match (response <- response ;; parse_response hdr response) with Err e => Some (Err e) | Ok response_pdu => execute_decode (file_fuel response_pdu) a b response_pdu end).
Proof.
  apply (blind_then _ _ (fun l => ({| ln_db := ln_db l; ln_wire := [] |}, tt))); [reflexivity|]. intros _.
  apply (blind_then _ _ (fun l => ({| ln_db := fst (db_handle_request (ln_db l) p request); ln_wire := ln_wire l ++ match answer (ln_db l) p request with Ok b => [b] | Err _ => [] end |}, tt))); [reflexivity|]. intros _.
  apply (blind_then _ _ (fun l => match ln_wire l with [] => (l, Err SocketTimeout) | x :: rest => ({| ln_db := ln_db l; ln_wire := rest |}, Ok x) end)); [|intros; constructor].
  intros n [d [|x rest]]; reflexivity.
Qed.
Lemma build_range p last pdu u : in_range last -> in_range (fst (build_request p last pdu u)).
Proof.
  intros T. destruct p; cbn [build_request fst]; [exact T|]. destruct (tcp_build_request last pdu u) as [l r] eqn:E. cbn [fst]. unfold in_range in *.
  assert (T' : 0 <= last < 65536) by lia. destruct (build_shape _ _ _ _ _ T' E) as [(-> & _)|[(-> & _)|(-> & _)]]; [exact T| |]; pose proof (tid_range last T'); lia.
Qed.
Lemma blind_execute p a : blind (m_execute p a).
Proof.
  assert (AG : forall n n' l, in_range n -> in_range n' -> agree (run (m_execute p a) (view n l)) (run (m_execute p a) (view n' l))).
  { intros n n' l N N'. rewrite !run_execute. unfold execute_alone, view. cbn [w_db w_last w_wire].
    destruct (C99_numbers_do_not_matter p (ln_db l) a n n' N N') as [A B]. destruct (round_trip_args p n (ln_db l) a), (round_trip_args p n' (ln_db l) a). split; [exact A|exact B]. }
  rewrite execute_parts in *. destruct (execute_build a) as [b|e]; [|constructor]. cbn [act andthen] in *. constructor; [exact AG|].
  intros n l N. cbn [view w_last w_db w_wire]. pose proof (build_range p n (bl_pdu b) (ea_slave a) N) as R. destruct (build_request p n (bl_pdu b) (ea_slave a)) as [last' [[hdr request]|e]]; cbn [fst snd w_last] in *; split; try exact R; [|constructor].
  cbn [andthen]. apply blind_tail.
Qed.

(** ** Spec *)
(** the calls of [h], made one after the other on a server with databank [d], return what [h] says and leave [d'] *)
Inductive alone (p : proto) : databank -> list (exec_args * outcome) -> databank -> Prop :=
| alone_nil d : alone p d [] d
| alone_snoc d h d1 a r d2 : alone p d h d1 ->
    (forall last, in_range last -> fst (round_trip_args p last d1 a) = d2 /\ ex_result (snd (round_trip_args p last d1 a)) = r) -> alone p d (h ++ [(a, r)]) d2.
Definition on_master (k : Z) (h : list (nat * ucall * outcome)) : list (exec_args * outcome) :=
  map (fun x => (uc_args (snd (fst x)), snd x)) (filter (fun x => uc_master (snd (fst x)) =? k) h).
Definition by_thread (i : nat) (h : list (nat * ucall * outcome)) : list (ucall * outcome) :=
  map (fun x => (snd (fst x), snd x)) (filter (fun x => Nat.eqb (fst (fst x)) i) h).
(** two threads that use the same master do so only with the lock *)
Definition separate (programs : list uprogram) : Prop :=
  forall i j p q b b' c c', i <> j -> nth_error programs i = Some p -> nth_error programs j = Some q -> p b = Some c -> q b' = Some c' ->
  uc_master c = uc_master c' -> uc_safe c = true /\ uc_safe c' = true.
(** the thread is in the middle of a call on master [k] *)
Definition busy (t : uthread) (k : Z) : Prop := exists c code, ut_now t = Some (c, code) /\ uc_master c = k.

Section Machine.
Variable proto_of : Z -> proto.
Variable links : Z -> link.
Variable programs : list uprogram.
Definition ends (p : proto) (d : databank) (a : exec_args) (code : code world outcome) (l : link) : Prop :=
  blind code /\ forall n last, in_range n -> in_range last ->
    w_db (fst (run code (view n l))) = fst (round_trip_args p last d a) /\ snd (run code (view n l)) = ex_result (snd (round_trip_args p last d a)).
Record uinv (s : usystem) : Prop := {
  ui_count : in_range (us_count s);
  ui_programs : map ut_program (us_threads s) = programs;
  ui_done : forall i t, nth_error (us_threads s) i = Some t -> ut_done t = by_thread i (us_done s) /\
              (forall n c r, nth_error (ut_done t) n = Some (c, r) -> ut_program t (firstn n (ut_done t)) = Some c);
  ui_now : forall i t c code, nth_error (us_threads s) i = Some t -> ut_now t = Some (c, code) -> ut_program t (ut_done t) = Some c /\ (uc_safe c = true -> us_lock s = Some i);
  ui_state : forall k, exists d, alone (proto_of k) (ln_db (links k)) (on_master k (us_done s)) d /\
     ((forall i t, nth_error (us_threads s) i = Some t -> ~ busy t k) -> ln_db (us_links s k) = d) /\
     (forall i t c code, nth_error (us_threads s) i = Some t -> ut_now t = Some (c, code) -> uc_master c = k -> ends (proto_of k) d (uc_args c) code (us_links s k)) }.
Lemma nth_program s i t : uinv s -> nth_error (us_threads s) i = Some t -> nth_error programs i = Some (ut_program t).
Proof. intros [] H. rewrite <- ui_programs0. now apply map_nth_error. Qed.
Lemma nth_list_upd {A} (l : list A) i x j y : nth_error (list_upd l i x) j = Some y -> (j = i /\ y = x) \/ (j <> i /\ nth_error l j = Some y).
Proof.
  intros H. destruct (Nat.eq_dec j i) as [->|N].
  - left. split; [reflexivity|]. assert (L : (i < length l)%nat) by (rewrite <- (list_upd_length l i x); apply nth_error_Some; congruence). rewrite list_upd_same in H by exact L. congruence.
  - right. split; [exact N|]. now rewrite list_upd_other in H by auto.
Qed.
Lemma same_programs (l : list uthread) i t t' : nth_error l i = Some t -> ut_program t' = ut_program t -> map ut_program (list_upd l i t') = map ut_program l.
Proof. intros H E. rewrite list_upd_map, E. apply list_upd_self. now apply map_nth_error. Qed.
Hypothesis SEP : separate programs.
Lemma only_one s i j ti tj c c' code' : uinv s -> i <> j -> nth_error (us_threads s) i = Some ti -> nth_error (us_threads s) j = Some tj ->
  ut_program ti (ut_done ti) = Some c -> ut_now tj = Some (c', code') -> uc_master c = uc_master c' -> uc_safe c = true /\ us_lock s = Some j.
Proof.
  intros I N Hi Hj Pc Nj M. pose proof (ui_now s I j tj c' code' Hj Nj) as [P' L']. 
  destruct (SEP i j _ _ _ _ c c' N (nth_program s i ti I Hi) (nth_program s j tj I Hj) Pc P' M) as [S1 S2]. auto.
Qed.
Lemma umove_inv s i : uinv s -> uinv (umove proto_of i s).
Proof.
  intros I. unfold umove. destruct (nth_error (us_threads s) i) as [t|] eqn:Hi; [|exact I]. destruct (ut_now t) as [[c [r|f]]|] eqn:Nw.
  - (* the call returns *)
    destruct (ui_now s I i t c _ Hi Nw) as [Pc Lc]. constructor; cbn [us_threads us_links us_count us_lock us_done].
    + apply I.
    + rewrite (same_programs _ _ t) by auto. apply I.
    + intros j t' H. apply nth_list_upd in H as [(-> & ->)|(N & H)]; cbn [ut_done ut_program].
      * destruct (ui_done s I i t Hi) as [D F]. unfold by_thread. rewrite filter_app, map_app. cbn [filter fst snd]. rewrite Nat.eqb_refl. cbn [map fst snd]. fold (by_thread i (us_done s)). rewrite <- D. split; [reflexivity|].
        intros n c' r' Hn. destruct (Nat.lt_ge_cases n (length (ut_done t))) as [L|L].
        -- rewrite nth_error_app1 in Hn by exact L. rewrite firstn_app. replace (n - length (ut_done t))%nat with O by lia. cbn [firstn]. rewrite app_nil_r. now apply F with r'.
        -- rewrite nth_error_app2 in Hn by exact L. destruct (n - length (ut_done t))%nat as [|m] eqn:Q; [|destruct m; discriminate]. injection Hn as -> ->. replace n with (length (ut_done t)) by lia.
           rewrite firstn_app, Nat.sub_diag, firstn_all. cbn [firstn]. now rewrite app_nil_r.
      * destruct (ui_done s I j t' H) as [D F]. split; [|exact F]. unfold by_thread. rewrite filter_app, map_app. cbn [filter fst snd]. replace (Nat.eqb i j) with false by (symmetry; apply Nat.eqb_neq; auto). cbn [map]. now rewrite app_nil_r.
    + intros j t' c' code' H N'. apply nth_list_upd in H as [(-> & ->)|(N & H)]; [discriminate|]. destruct (ui_now s I j t' c' code' H N') as [P' L']. split; [exact P'|].
      intros Sf. specialize (L' Sf). destruct (uc_safe c); [|exact L']. specialize (Lc eq_refl). congruence.
    + intros k. destruct (ui_state s I k) as (d & A & Idle & Act). unfold on_master. rewrite filter_app, map_app. fold (on_master k (us_done s)). cbn [filter fst snd].
      destruct (uc_master c =? k) eqn:K.
      * apply Z.eqb_eq in K. destruct (Act i t c _ Hi Nw K) as [_ E]. cbn [map fst snd run] in *. exists (ln_db (us_links s k)). split; [|split].
        -- eapply alone_snoc; [exact A|]. intros last HL. destruct (E 0 last ltac:(unfold in_range; lia) HL) as [E1 E2]. split; [symmetry; exact E1|symmetry; exact E2].
        -- reflexivity.
        -- intros j t' c' code' H N' K'. apply nth_list_upd in H as [(-> & ->)|(N & H)]; [discriminate|].
           destruct (only_one s i j t t' c c' code' I ltac:(auto) Hi H Pc N' ltac:(congruence)) as [S1 S2]. rewrite (Lc S1) in S2. congruence.
      * cbn [map]. rewrite app_nil_r. exists d. split; [exact A|]. split.
        -- intros NB. apply Idle. intros j t' H (c' & code' & N' & K'). destruct (Nat.eq_dec j i) as [->|N].
           ++ assert (t' = t) by congruence. subst t'. assert (c' = c) by congruence. subst c'. lia.
           ++ apply (NB j t'); [rewrite list_upd_other; auto|exists c', code'; auto].
        -- intros j t' c' code' H N' K'. apply nth_list_upd in H as [(-> & ->)|(N & H)]; [discriminate|]. now apply Act with j t'.
  - (* one access *)
    destruct (ui_now s I i t c _ Hi Nw) as [Pc Lc]. destruct (f (view (us_count s) (us_links s (uc_master c)))) as [w code'] eqn:F.
    destruct (ui_state s I (uc_master c)) as (d0 & _ & _ & Act0). pose proof (Act0 i t c _ Hi Nw eq_refl) as [B E]. inversion B as [|f' _ B2]; subst f'.
    destruct (B2 (us_count s) (us_links s (uc_master c)) (ui_count s I)) as [R BL]. rewrite F in R, BL. cbn [fst snd] in R, BL.
    assert (NOW : forall j t' c' x, nth_error (list_upd (us_threads s) i (now t (Some (c, code')))) j = Some t' -> ut_now t' = Some (c', x) -> (j = i /\ c' = c /\ x = code') \/ (j <> i /\ nth_error (us_threads s) j = Some t')).
    { intros j t' c' x H N'. apply nth_list_upd in H as [(-> & ->)|(N & H)]; [|auto]. cbn [now ut_now] in N'. left. injection N' as -> ->. auto. }
    constructor; cbn [us_threads us_links us_count us_lock us_done].
    + exact R.
    + rewrite (same_programs _ _ t) by auto. apply I.
    + intros j t' H. apply nth_list_upd in H as [(-> & ->)|(N & H)]; cbn [now ut_done ut_program]; [exact (ui_done s I i t Hi)|exact (ui_done s I j t' H)].
    + intros j t' c' x H N'. destruct (NOW _ _ _ _ H N') as [(-> & -> & ->)|(N & H')]; [|exact (ui_now s I j t' c' x H' N')].
      apply nth_list_upd in H as [(_ & ->)|(N & _)]; [|congruence]. cbn [now ut_program ut_done]. split; [exact Pc|exact Lc].
    + intros k. destruct (ui_state s I k) as (d & A & Idle & Act). exists d. split; [exact A|]. unfold put_link. destruct (k =? uc_master c) eqn:K.
      * apply Z.eqb_eq in K. split.
        -- intros NB. exfalso. apply (NB i (now t (Some (c, code')))); [apply list_upd_same; apply nth_error_Some; congruence|]. exists c, code'. auto.
        -- intros j t' c' x H N' K'. destruct (NOW _ _ _ _ H N') as [(-> & -> & ->)|(N & H')].
           ++ destruct (Act i t c _ Hi Nw (eq_sym K)) as [_ E']. split; [exact BL|]. intros n last Hn HL.
              pose proof (E' (us_count s) last (ui_count s I) HL) as E1. cbn [run] in E1. subst k. rewrite F in E1.
              pose proof (blind_agree code' n (w_last w) (link_of w) BL Hn R) as [G1 G2]. replace (view (w_last w) (link_of w)) with w in G1, G2 by (destruct w; reflexivity). rewrite G1, G2. exact E1.
           ++ destruct (only_one s i j t t' c c' x I ltac:(auto) Hi H' Pc N' ltac:(congruence)) as [S1 S2]. rewrite (Lc S1) in S2. congruence.
      * split.
        -- intros NB. apply Idle. intros j t' H (c' & x & N' & K'). destruct (Nat.eq_dec j i) as [->|N].
           ++ assert (t' = t) by congruence. subst t'. assert (c' = c) by congruence. subst c'. lia.
           ++ apply (NB j t'); [rewrite list_upd_other; auto|exists c', x; auto].
        -- intros j t' c' x H N' K'. destruct (NOW _ _ _ _ H N') as [(-> & -> & ->)|(N & H')]; [lia|]. now apply Act with j t'.
  - (* a call begins *)
    destruct (ut_program t (ut_done t)) as [c|] eqn:Pc; [|exact I].
    assert (G : forall lock, (uc_safe c = true -> us_lock s = None /\ lock = Some i) -> (uc_safe c = false -> lock = us_lock s) ->
      uinv {| us_threads := list_upd (us_threads s) i (now t (Some (c, m_execute (proto_of (uc_master c)) (uc_args c)))); us_links := us_links s; us_count := us_count s; us_lock := lock; us_done := us_done s |}).
    { intros lock LS LU.
      assert (ALONE : forall j t' c' x, nth_error (us_threads s) j = Some t' -> ut_now t' = Some (c', x) -> uc_master c' = uc_master c -> False).
      { intros j t' c' x H N' K'. assert (N : i <> j) by (intros ->; congruence). destruct (only_one s i j t t' c c' x I N Hi H Pc N' (eq_sym K')) as [S1 S2]. destruct (LS S1). congruence. }
      constructor; cbn [us_threads us_links us_count us_lock us_done].
      - apply I.
      - rewrite (same_programs _ _ t) by auto. apply I.
      - intros j t' H. apply nth_list_upd in H as [(-> & ->)|(N & H)]; cbn [now ut_done ut_program]; [exact (ui_done s I i t Hi)|exact (ui_done s I j t' H)].
      - intros j t' c' x H N'. apply nth_list_upd in H as [(-> & ->)|(N & H)]; cbn [now ut_now ut_program ut_done] in *.
        + injection N' as -> <-. split; [exact Pc|]. intros Sf. now apply LS.
        + destruct (ui_now s I j t' c' x H N') as [P' L']. split; [exact P'|]. intros Sf. specialize (L' Sf). destruct (uc_safe c) eqn:S1; [destruct (LS eq_refl); congruence|]. now rewrite (LU eq_refl).
      - intros k. destruct (ui_state s I k) as (d & A & Idle & Act). exists d. split; [exact A|]. split.
        + intros NB. apply Idle. intros j t' H (c' & x & N' & K'). apply (NB j t'); [|exists c', x; auto]. rewrite list_upd_other; [exact H|]. intros ->. congruence.
        + intros j t' c' x H N' K'. apply nth_list_upd in H as [(-> & ->)|(N & H)]; [|now apply Act with j t']. cbn [now ut_now] in N'. injection N' as -> <-. subst k.
          assert (D : ln_db (us_links s (uc_master c')) = d). { apply Idle. intros j t' H (c1 & x & N1 & K1). exact (ALONE j t' c1 x H N1 K1). }
          split; [apply blind_execute|]. intros n last Hn HL. rewrite run_execute. unfold execute_alone, view. cbn [w_db w_last w_wire]. rewrite D.
          destruct (C99_numbers_do_not_matter (proto_of (uc_master c')) d (uc_args c') n last Hn HL) as [E1 E2]. destruct (round_trip_args (proto_of (uc_master c')) n d (uc_args c')). split; [exact E1|exact E2]. }
    destruct (uc_safe c) eqn:Sf; [|apply G; [discriminate|reflexivity]]. destruct (us_lock s) eqn:L; [exact I|]. apply G; [intros _; split; reflexivity|discriminate].
Qed.
Lemma umoves_inv schedule : forall s, uinv s -> uinv (umoves proto_of schedule s).
Proof. unfold umoves. induction schedule as [|i l IH]; intros s H; [exact H|]. apply IH. now apply umove_inv. Qed.
Lemma start_inv count : in_range count -> uinv (ustart links count programs).
Proof.
  intros C. assert (TH : forall i t, nth_error (us_threads (ustart links count programs)) i = Some t -> ut_done t = [] /\ ut_now t = None).
  { intros i t H. apply nth_error_In in H. apply in_map_iff in H as (p & <- & _). split; reflexivity. }
  constructor.
  - exact C.
  - cbn. rewrite map_map. apply map_id.
  - intros i t H. destruct (TH i t H) as [-> _]. split; [reflexivity|]. intros [|n] c r Hn; discriminate.
  - intros i t c x H N. destruct (TH i t H) as [_ E]. congruence.
  - intros k. exists (ln_db (links k)). split; [constructor|]. split; [reflexivity|]. intros i t c x H N. destruct (TH i t H) as [_ E]. congruence.
Qed.
End Machine.

(** C99: threads make calls with and without the lock. If only one thread uses a master, or all calls on it are made with the lock, then under
    every schedule the calls on that master return - and do to the server - what they would if made one after the other, in the order in which
    they return, and every thread's calls are those its program makes, given the answers it got. *)
Theorem C99_own_answer : forall proto_of links count programs schedule,
  in_range count -> separate programs ->
  let s := umoves proto_of schedule (ustart links count programs) in
  (forall k, exists d, alone (proto_of k) (ln_db (links k)) (on_master k (us_done s)) d /\
     ((forall i t, nth_error (us_threads s) i = Some t -> ~ busy t k) -> ln_db (us_links s k) = d)) /\
  (forall i p, nth_error programs i = Some p -> forall n c r, nth_error (by_thread i (us_done s)) n = Some (c, r) -> p (firstn n (by_thread i (us_done s))) = Some c).
Proof.
  intros proto_of links count programs schedule C SEP s. assert (I : uinv proto_of links programs s) by (apply umoves_inv; [exact SEP|now apply start_inv]). split.
  - intros k. destruct (ui_state _ _ _ s I k) as (d & A & Idle & _). eauto.
  - intros i p Hp n c r Hn. rewrite <- (ui_programs _ _ _ s I) in Hp. rewrite nth_error_map in Hp. destruct (nth_error (us_threads s) i) as [t|] eqn:Ht; [|discriminate]. injection Hp as <-.
    destruct (ui_done _ _ _ s I i t Ht) as [D F]. rewrite <- D in *. now apply F with r.
Qed.

(** ** Waiting *)
Inductive within : nat -> code world outcome -> Prop :=
| within_done n r : within n (Done r)
| within_micro n f : (forall w, within n (snd (f w))) -> within (S n) (Micro f).
Lemma within_act {A} n (g : world -> world * A) (k : A -> code world outcome) : (forall x, within n (k x)) -> within (S n) (LET x := act g IN k x).
Proof. intros H. cbn [act andthen]. constructor. intros w. destruct (g w) as [w' x]. cbn [snd andthen]. apply H. Qed.
Lemma within_execute p a : within 4 (m_execute p a).
Proof.
  rewrite execute_parts. destruct (execute_build a) as [b|e]; [|constructor]. apply within_act. intros [[hdr request]|e]; [|constructor].
  do 3 (apply within_act; intros ?). constructor.
Qed.
Lemma done_grows proto_of j s : exists l, us_done (umove proto_of j s) = us_done s ++ l /\ (forall x, In x l -> fst (fst x) = j).
Proof.
  unfold umove. assert (E : exists l, us_done s = us_done s ++ l /\ (forall x : nat * ucall * outcome, In x l -> fst (fst x) = j)) by (exists []; rewrite app_nil_r; split; [reflexivity|intros x []]).
  destruct (nth_error (us_threads s) j) as [t|]; [|exact E]. destruct (ut_now t) as [[c [r|f]]|].
  - exists [(j, c, r)]. split; [reflexivity|]. intros x [<-|[]]. reflexivity.
  - destruct (f _) as [w code']. exact E.
  - destruct (ut_program t (ut_done t)) as [c|]; [|exact E]. destruct (uc_safe c); [destruct (us_lock s)|]; exact E.
Qed.
Lemma by_thread_app i h l : by_thread i (h ++ l) = by_thread i h ++ by_thread i l.
Proof. unfold by_thread. now rewrite filter_app, map_app. Qed.
Lemma grows_moves proto_of schedule i : forall s, exists rest, by_thread i (us_done (umoves proto_of schedule s)) = by_thread i (us_done s) ++ rest.
Proof.
  induction schedule as [|j l IH]; intros s; [exists []; now rewrite app_nil_r|]. destruct (IH (umove proto_of j s)) as [rest E]. destruct (done_grows proto_of j s) as (x & D & _).
  exists (by_thread i x ++ rest). change (umoves proto_of (j :: l) s) with (umoves proto_of l (umove proto_of j s)). now rewrite E, D, by_thread_app, app_assoc.
Qed.
Lemma other_moves proto_of i j s : i <> j -> nth_error (us_threads (umove proto_of j s)) i = nth_error (us_threads s) i /\ by_thread i (us_done (umove proto_of j s)) = by_thread i (us_done s).
Proof.
  intros N. split.
  - unfold umove. destruct (nth_error (us_threads s) j) as [t|]; [|reflexivity]. destruct (ut_now t) as [[c [r|f]]|].
    + apply list_upd_other. auto.
    + destruct (f _) as [w code']. apply list_upd_other. auto.
    + destruct (ut_program t (ut_done t)) as [c|]; [|reflexivity]. destruct (uc_safe c); [destruct (us_lock s)|]; try reflexivity; apply list_upd_other; auto.
  - destruct (done_grows proto_of j s) as (l & -> & F). rewrite by_thread_app. replace (by_thread i l) with (@nil (ucall * outcome)); [apply app_nil_r|].
    unfold by_thread. symmetry. induction l as [|x l IH]; [reflexivity|]. cbn [filter]. rewrite (proj2 (Nat.eqb_neq _ _)); [apply IH; intros y Hy; apply F; now right|]. rewrite (F x (or_introl eq_refl)). auto.
Qed.
Lemma returns_within proto_of i c schedule : forall n s t code, nth_error (us_threads s) i = Some t -> ut_now t = Some (c, code) -> within n code ->
  (n + 1 <= count_occ Nat.eq_dec schedule i)%nat -> exists r rest, by_thread i (us_done (umoves proto_of schedule s)) = by_thread i (us_done s) ++ (c, r) :: rest.
Proof.
  induction schedule as [|j l IH]; intros n s t code Ht Nw W C; [cbn in C; lia|]. change (umoves proto_of (j :: l) s) with (umoves proto_of l (umove proto_of j s)). cbn [count_occ] in C. destruct (Nat.eq_dec j i) as [->|N].
  - inversion W as [n' r|n' f F]; subst.
    + destruct (grows_moves proto_of l i (umove proto_of i s)) as [rest ->]. exists r, rest. unfold umove. rewrite Ht, Nw. cbn [us_done]. rewrite by_thread_app, <- app_assoc. f_equal. cbn. now rewrite Nat.eqb_refl.
    + destruct (f (view (us_count s) (us_links s (uc_master c)))) as [w code'] eqn:E.
      assert (U : us_done (umove proto_of i s) = us_done s /\ us_threads (umove proto_of i s) = list_upd (us_threads s) i (now t (Some (c, code')))) by (unfold umove; rewrite Ht, Nw, E; split; reflexivity).
      destruct U as [U1 U2]. rewrite <- U1. apply (IH n' _ (now t (Some (c, code'))) code').
      * rewrite U2. apply list_upd_same. apply nth_error_Some. congruence.
      * reflexivity.
      * pose proof (F (view (us_count s) (us_links s (uc_master c)))) as G. now rewrite E in G.
      * lia.
  - destruct (other_moves proto_of i j s) as [O1 O2]; [auto|]. rewrite <- O2. apply (IH n _ t code); auto. now rewrite O1.
Qed.

(** C99: a call with threadsafe=False returns after at most six moves of its own thread, from every state - whoever holds the lock - and
    whatever the other threads do meanwhile. *)
Theorem C99_never_waits : forall proto_of schedule s i t c,
  nth_error (us_threads s) i = Some t -> ut_now t = None -> ut_program t (ut_done t) = Some c -> uc_safe c = false ->
  (6 <= count_occ Nat.eq_dec schedule i)%nat ->
  exists r rest, by_thread i (us_done (umoves proto_of schedule s)) = by_thread i (us_done s) ++ (c, r) :: rest.
Proof.
  intros proto_of schedule. induction schedule as [|j l IH]; intros s i t c Ht Nw P U C; [cbn in C; lia|].
  change (umoves proto_of (j :: l) s) with (umoves proto_of l (umove proto_of j s)). cbn [count_occ] in C. destruct (Nat.eq_dec j i) as [->|N].
  - assert (V : us_done (umove proto_of i s) = us_done s /\ us_threads (umove proto_of i s) = list_upd (us_threads s) i (now t (Some (c, m_execute (proto_of (uc_master c)) (uc_args c)))))
      by (unfold umove; rewrite Ht, Nw, P, U; split; reflexivity). destruct V as [V1 V2].
    rewrite <- V1. eapply (returns_within proto_of i c l 4); [rewrite V2; apply list_upd_same; apply nth_error_Some; congruence|reflexivity|apply within_execute|lia].
  - destruct (other_moves proto_of i j s) as [O1 O2]; [auto|]. rewrite <- O2. apply (IH _ i t c); auto. now rewrite O1.
Qed.

(** only the holder of the lock is inside a call with the lock *)
Definition lock_ok (s : usystem) : Prop := forall k u x code, nth_error (us_threads s) k = Some u -> ut_now u = Some (x, code) -> uc_safe x = true -> us_lock s = Some k.
Lemma lock_ok_move proto_of i s : lock_ok s -> lock_ok (umove proto_of i s).
Proof.
  intros H. unfold umove. destruct (nth_error (us_threads s) i) as [u|] eqn:Hi; [|exact H]. destruct (ut_now u) as [[x [r|f]]|] eqn:Nu.
  - intros k u' y code Hk N' Y. cbn [us_threads us_lock] in *. apply nth_list_upd in Hk as [(-> & ->)|(N & Hk)]; [discriminate|]. pose proof (H k u' y code Hk N' Y) as E.
    destruct (uc_safe x) eqn:Sx; [|exact E]. pose proof (H i u x _ Hi Nu Sx) as E2. congruence.
  - destruct (f _) as [w code']. intros k u' y code Hk N' Y. cbn [us_threads us_lock] in *. apply nth_list_upd in Hk as [(-> & ->)|(N & Hk)]; [|exact (H k u' y code Hk N' Y)].
    cbn [now ut_now] in N'. injection N' as <- <-. exact (H i u x _ Hi Nu Y).
  - destruct (ut_program u (ut_done u)) as [x|]; [|exact H]. destruct (uc_safe x) eqn:Sx.
    + destruct (us_lock s) eqn:L; [intros k u' y code Hk N' Y; rewrite L; rewrite <- L; exact (H k u' y code Hk N' Y)|]. intros k u' y code Hk N' Y. cbn [us_threads us_lock] in *. apply nth_list_upd in Hk as [(-> & ->)|(N & Hk)]; [reflexivity|].
      pose proof (H k u' y code Hk N' Y). congruence.
    + intros k u' y code Hk N' Y. cbn [us_threads us_lock] in *. apply nth_list_upd in Hk as [(-> & ->)|(N & Hk)]; [|exact (H k u' y code Hk N' Y)]. cbn [now ut_now] in N'. injection N' as <- <-. congruence.
Qed.
Lemma lock_ok_moves proto_of schedule : forall s, lock_ok s -> lock_ok (umoves proto_of schedule s).
Proof. induction schedule as [|i l IH]; intros s H; [exact H|]. apply (IH (umove proto_of i s)). now apply lock_ok_move. Qed.
Lemma lock_ok_start links count programs : lock_ok (ustart links count programs).
Proof. intros k u x code H N. apply nth_error_In in H. apply in_map_iff in H as (p & <- & _). discriminate. Qed.

Lemma others_wait : forall proto_of schedule s i t c j,
  nth_error (us_threads s) i = Some t -> ut_now t = None -> ut_program t (ut_done t) = Some c -> uc_safe c = true ->
  (forall k u x code, nth_error (us_threads s) k = Some u -> ut_now u = Some (x, code) -> uc_safe x = true -> k = j) ->
  us_lock s = Some j -> ~ In j schedule ->
  nth_error (us_threads (umoves proto_of schedule s)) i = Some t /\ by_thread i (us_done (umoves proto_of schedule s)) = by_thread i (us_done s).
Proof.
  intros proto_of schedule. induction schedule as [|k l IH]; intros s i t c j Ht Nw P Sf Own L NI; [split; [exact Ht|reflexivity]|].
  change (umoves proto_of (k :: l) s) with (umoves proto_of l (umove proto_of k s)).
  assert (NK : k <> j) by (intros ->; apply NI; now left). assert (NL : ~ In j l) by (intros H; apply NI; now right).
  assert (ST : us_lock (umove proto_of k s) = Some j /\ (forall k' u x code, nth_error (us_threads (umove proto_of k s)) k' = Some u -> ut_now u = Some (x, code) -> uc_safe x = true -> k' = j)).
  { unfold umove. destruct (nth_error (us_threads s) k) as [u|] eqn:Hk; [|split; assumption]. destruct (ut_now u) as [[x [r|f]]|] eqn:Nu.
    - destruct (uc_safe x) eqn:Sx; [exfalso; apply NK; eapply Own; eauto|]. split; [exact L|]. cbn [us_threads]. intros k' u' y code H N' Y. apply nth_list_upd in H as [(-> & ->)|(_ & H)]; [discriminate|]. eapply Own; eauto.
    - destruct (f _) as [w code']. split; [exact L|]. cbn [us_threads]. intros k' u' y code H N' Y. apply nth_list_upd in H as [(-> & ->)|(_ & H)]; [|eapply Own; eauto]. cbn [now ut_now] in N'. injection N' as <- <-. eapply Own; eauto.
    - destruct (ut_program u (ut_done u)) as [x|]; [|split; assumption]. destruct (uc_safe x) eqn:Sx; [rewrite L; split; assumption|]. split; [exact L|]. cbn [us_threads]. intros k' u' y code H N' Y. apply nth_list_upd in H as [(-> & ->)|(_ & H)]; [|eapply Own; eauto].
      cbn [now ut_now] in N'. injection N' as <- <-. congruence. }
  destruct ST as [S1 S2]. destruct (Nat.eq_dec k i) as [->|N].
  - assert (E : umove proto_of i s = s) by (unfold umove; rewrite Ht, Nw, P, Sf, L; reflexivity). rewrite E. now apply (IH s i t c j).
  - destruct (other_moves proto_of i k s) as [O1 O2]; [auto|]. rewrite <- O2. apply (IH _ i t c j); auto. now rewrite O1.
Qed.

(** ... whereas a call with the lock - whichever master it is for - does not even begin as long as the thread that holds it makes no move. *)
Theorem C99_others_wait : forall proto_of links count programs before schedule i t c j,
  let s := umoves proto_of before (ustart links count programs) in
  nth_error (us_threads s) i = Some t -> ut_now t = None -> ut_program t (ut_done t) = Some c -> uc_safe c = true ->
  us_lock s = Some j -> ~ In j schedule ->
  nth_error (us_threads (umoves proto_of schedule s)) i = Some t /\ by_thread i (us_done (umoves proto_of schedule s)) = by_thread i (us_done s).
Proof.
  intros proto_of links count programs before schedule i t c j s Ht Nw P Sf L NI. apply (others_wait proto_of schedule s i t c j); auto.
  intros k u x code Hk Nu Sx. assert (OK : lock_ok s) by (apply lock_ok_moves, lock_ok_start). pose proof (OK k u x code Hk Nu Sx). congruence.
Qed.

(** the lock is held only by a thread that is inside a call with the lock *)
Definition held_ok (s : usystem) : Prop := forall j, us_lock s = Some j -> exists t c code, nth_error (us_threads s) j = Some t /\ ut_now t = Some (c, code) /\ uc_safe c = true /\ within 4 code.
Lemma within_more n c : within n c -> within (S n) c.
Proof. induction 1; constructor; auto. Qed.
Lemma within_step n f w : within n (Micro f) -> within n (snd (f w)).
Proof. intros H. inversion H; subst. now apply within_more. Qed.
Lemma held_ok_move proto_of i s : lock_ok s -> held_ok s -> held_ok (umove proto_of i s).
Proof.
  intros K H. unfold umove. destruct (nth_error (us_threads s) i) as [u|] eqn:Hi; [|exact H]. assert (LI : (i < length (us_threads s))%nat) by (apply nth_error_Some; congruence). destruct (ut_now u) as [[x [r|f]]|] eqn:Nu.
  - intros j L. cbn [us_lock us_threads] in *. destruct (uc_safe x) eqn:Sx; [discriminate|]. destruct (H j L) as (t & c & cd & A & B & C & W). exists t, c, cd. rewrite list_upd_other; [auto|]. intros ->. assert (t = u) by congruence. subst t. assert (c = x) by congruence. congruence.
  - pose proof (fun w => within_step 4 f w) as WS. destruct (f (view (us_count s) (us_links s (uc_master x)))) as [w code'] eqn:E. intros j L. cbn [us_lock us_threads] in *. destruct (H j L) as (t & c & cd & A & B & C & W). destruct (Nat.eq_dec j i) as [->|N].
    + assert (t = u) by congruence. subst t. assert (c = x /\ cd = Micro f) as [-> ->] by (rewrite Nu in B; injection B; auto). exists (now u (Some (x, code'))), x, code'. rewrite list_upd_same by exact LI. repeat split; auto.
      specialize (WS (view (us_count s) (us_links s (uc_master x))) W). now rewrite E in WS.
    + exists t, c, cd. rewrite list_upd_other by auto. auto.
  - destruct (ut_program u (ut_done u)) as [x|] eqn:P; [|exact H]. assert (G : forall j, us_lock s = Some j -> exists t c cd, nth_error (list_upd (us_threads s) i (now u (Some (x, m_execute (proto_of (uc_master x)) (uc_args x))))) j = Some t /\ ut_now t = Some (c, cd) /\ uc_safe c = true /\ within 4 cd).
    { intros j L. destruct (H j L) as (t & c & cd & A & B & C & W). exists t, c, cd. rewrite list_upd_other; [auto|]. intros ->. congruence. }
    destruct (uc_safe x) eqn:Sx; [destruct (us_lock s) eqn:L; [exact H|]|exact G].
    intros j E. cbn [us_lock us_threads] in *. injection E as <-. exists (now u (Some (x, m_execute (proto_of (uc_master x)) (uc_args x)))), x, (m_execute (proto_of (uc_master x)) (uc_args x)). rewrite list_upd_same by exact LI. repeat split; auto. apply within_execute.
Qed.
Lemma held_ok_moves proto_of schedule : forall s, lock_ok s -> held_ok s -> held_ok (umoves proto_of schedule s).
Proof. induction schedule as [|i l IH]; intros s K H; [exact H|]. apply (IH (umove proto_of i s)); [now apply lock_ok_move|now apply held_ok_move]. Qed.
Lemma gives_back proto_of j schedule : forall n s t c code, lock_ok s -> us_lock s = Some j -> nth_error (us_threads s) j = Some t -> ut_now t = Some (c, code) -> uc_safe c = true -> within n code ->
  (n + 1 <= count_occ Nat.eq_dec schedule j)%nat -> exists l1 l2, schedule = l1 ++ l2 /\ us_lock (umoves proto_of l1 s) = None.
Proof.
  induction schedule as [|i l IH]; intros n s t c code K L Ht Nw Sf W C; [cbn in C; lia|]. cbn [count_occ] in C. destruct (Nat.eq_dec i j) as [->|N].
  - inversion W as [n' r|n' f F]; subst.
    + exists [j], l. split; [reflexivity|]. cbn [umoves fold_left]. unfold umove. rewrite Ht, Nw. cbn [us_lock]. now rewrite Sf.
    + destruct (f (view (us_count s) (us_links s (uc_master c)))) as [w code'] eqn:E.
      assert (U : us_lock (umove proto_of j s) = Some j /\ us_threads (umove proto_of j s) = list_upd (us_threads s) j (now t (Some (c, code')))) by (unfold umove; rewrite Ht, Nw, E; split; [exact L|reflexivity]). destruct U as [U1 U2].
      destruct (IH n' (umove proto_of j s) (now t (Some (c, code'))) c code') as (l1 & l2 & El & R); auto.
      * now apply lock_ok_move.
      * rewrite U2. apply list_upd_same. apply nth_error_Some. congruence.
      * pose proof (F (view (us_count s) (us_links s (uc_master c)))) as G. now rewrite E in G.
      * lia.
      * exists (j :: l1), l2. split; [now rewrite El|exact R].
  - destruct (other_moves proto_of j i s) as [O1 _]; [auto|].
    assert (LL : us_lock (umove proto_of i s) = Some j).
    { unfold umove. destruct (nth_error (us_threads s) i) as [u|] eqn:Hi; [|exact L]. destruct (ut_now u) as [[x [r|f]]|] eqn:Nu.
      - cbn [us_lock]. destruct (uc_safe x) eqn:Sx; [|exact L]. pose proof (K i u x _ Hi Nu Sx). congruence.
      - destruct (f _). exact L.
      - destruct (ut_program u (ut_done u)) as [x|]; [|exact L]. destruct (uc_safe x); [now rewrite L|exact L]. }
    destruct (IH n (umove proto_of i s) t c code) as (l1 & l2 & El & R); auto; [now apply lock_ok_move|now rewrite O1|]. exists (i :: l1), l2. split; [now rewrite El|exact R].
Qed.
(** the lock is given back: within five moves of the thread that has it, whatever the others do *)
Theorem C99_lock_given_back : forall proto_of links count programs before schedule j,
  let s := umoves proto_of before (ustart links count programs) in
  us_lock s = Some j -> (5 <= count_occ Nat.eq_dec schedule j)%nat -> exists l1 l2, schedule = l1 ++ l2 /\ us_lock (umoves proto_of l1 s) = None.
Proof.
  intros proto_of links count programs before schedule j s L C. assert (K : lock_ok s) by (apply lock_ok_moves, lock_ok_start).
  assert (H : held_ok s) by (apply held_ok_moves; [apply lock_ok_start|intros k E; discriminate]). destruct (H j L) as (t & c & cd & A & B & Sf & W). now apply (gives_back proto_of j schedule 4 s t c cd).
Qed.

(** ** Examples and what threadsafe=False costs *)
Definition u_db : databank := db_run demo_db [DbCall 3 (OpSetValues "r" 100 (SvSeq [11; 22]))].
Definition u_links : Z -> link := fun _ => {| ln_db := u_db; ln_wire := [] |}.
Definition u_read (k a : Z) (safe : bool) : ucall := {| uc_master := k; uc_args := read_one a; uc_safe := safe |}.
Definition u_write (k a v : Z) (safe : bool) : ucall := {| uc_master := k; uc_args := args_of 3 (WriteReg a v); uc_safe := safe |}.
(** the calls [l], whatever they return *)
Definition calls (l : list ucall) : uprogram := fun h => nth_error l (length h).

(** two threads on one connection, both without the lock: each gets the other's answer *)
Theorem C99_shared_swaps :
  us_done (umoves (fun _ => RTU) [0; 1; 0; 1; 0; 1; 0; 1; 1; 0; 1; 0]%nat (ustart u_links 0 [calls [u_read 7 100 false]; calls [u_read 7 101 false]])) =
  [(1%nat, u_read 7 101 false, Some (Ok (RTuple [11]))); (0%nat, u_read 7 100 false, Some (Ok (RTuple [22])))].
Proof. vm_compute. reflexivity. Qed.
(** the lock of the one does not help while the other does without *)
Theorem C99_mixed_swaps :
  us_done (umoves (fun _ => RTU) [0; 1; 0; 1; 0; 1; 0; 1; 1; 0; 1; 0]%nat (ustart u_links 0 [calls [u_read 7 100 true]; calls [u_read 7 101 false]])) =
  [(1%nat, u_read 7 101 false, Some (Ok (RTuple [11]))); (0%nat, u_read 7 100 true, Some (Ok (RTuple [22])))].
Proof. vm_compute. reflexivity. Qed.

Definition u_programs : list uprogram := [calls [u_write 7 105 9 false; u_read 7 105 false]; calls [u_read 8 100 true]; calls [u_read 8 101 true]; calls [u_read 9 101 false]].
Example C99_ex_separate : separate u_programs.
Proof.
  intros i j p q b b' c c' N Hp Hq Pc Qc K. unfold u_programs, calls in *.
  do 4 (destruct i as [|i]; [injection Hp as <-; cbn in Pc;
     do 4 (destruct j as [|j]; [injection Hq as <-; cbn in Qc;
       try congruence;
       destruct (length b) as [|[|n]]; cbn in Pc; try (destruct n; discriminate); try discriminate; injection Pc as <-;
       destruct (length b') as [|[|n']]; cbn in Qc; try (destruct n'; discriminate); try discriminate; injection Qc as <-;
       cbn in K; try discriminate; split; reflexivity|]); destruct j; discriminate|]). destruct i; discriminate.
Qed.
(** three masters, interleaved; thread 2 waits for thread 1's lock *)
Example C99_ex :
  let s := umoves (fun k => if k =? 9 then TCP else RTU) ([0; 1; 3; 2; 0; 3; 1; 2; 0; 1; 3; 2; 0; 1; 3; 0; 2; 3; 1; 0; 3; 1] ++ repeat 2 6 ++ repeat 0 6)%nat (ustart u_links 65535 u_programs) in
  us_done s = [(0%nat, u_write 7 105 9 false, Some (Ok (RTuple [105; 9]))); (3%nat, u_read 9 101 false, Some (Ok (RTuple [22]))); (1%nat, u_read 8 100 true, Some (Ok (RTuple [11])));
               (2%nat, u_read 8 101 true, Some (Ok (RTuple [22]))); (0%nat, u_read 7 105 false, Some (Ok (RTuple [9])))].
Proof. vm_compute. reflexivity. Qed.
(** thread 1 holds the lock; thread 2 waits although it uses another master; thread 0 does not wait *)
Example C99_ex_waits :
  let s := umoves (fun _ => RTU) [1]%nat (ustart u_links 0 [calls [u_read 7 100 false]; calls [u_read 8 100 true]; calls [u_read 9 101 true]]) in
  us_lock s = Some 1%nat /\ us_done (umoves (fun _ => RTU) (repeat 2 9 ++ repeat 0 6)%nat s) = [(0%nat, u_read 7 100 false, Some (Ok (RTuple [11])))].
Proof. vm_compute. split; reflexivity. Qed.

Print Assumptions C99_numbers_do_not_matter.
Print Assumptions C99_own_answer.
Print Assumptions C99_never_waits.
Print Assumptions C99_others_wait.
Print Assumptions C99_lock_given_back.
Print Assumptions C99_shared_swaps.
Print Assumptions C99_mixed_swaps.
