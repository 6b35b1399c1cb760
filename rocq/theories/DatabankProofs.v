From Coq Require Import Lia ZifyBool ZifyNat.
From Verif Require Export TotalProofs.
From Verif Require Import QueryModel DatabankModel CrcSpec FrameSpec CrcProofs QueryProofs DbSpec.
Ltac Zify.zify_post_hook ::= Z.div_mod_to_equations.
Open Scope Z_scope.

(** ** Association lists keyed by integers *)
Lemma zassoc_put_same {V} k (v : V) l : assoc Z.eqb k (assoc_put Z.eqb k v l) = Some v.
Proof. induction l as [|[k' v'] t IH]; cbn; [now rewrite Z.eqb_refl|]. destruct (k =? k') eqn:E; cbn; rewrite E; [reflexivity|exact IH]. Qed.
Lemma zassoc_put_other {V} k k2 (v : V) l : k2 <> k -> assoc Z.eqb k2 (assoc_put Z.eqb k v l) = assoc Z.eqb k2 l.
Proof.
  intros H. induction l as [|[k' v'] t IH]; cbn.
  - destruct (k2 =? k) eqn:E; [lia|reflexivity].
  - destruct (k =? k') eqn:E; cbn; [|now rewrite IH]. destruct (k2 =? k') eqn:E2; [lia|reflexivity].
Qed.
Lemma zassoc_del_other {V} k k2 (l : list (Z * V)) : k2 <> k -> assoc Z.eqb k2 (assoc_del Z.eqb k l) = assoc Z.eqb k2 l.
Proof.
  intros H. induction l as [|[k' v'] t IH]; cbn; [reflexivity|].
  destruct (k =? k') eqn:E; cbn; [|now rewrite IH]. destruct (k2 =? k') eqn:E2; [lia|reflexivity].
Qed.
Lemma zassoc_in {V} k (v : V) l : assoc Z.eqb k l = Some v -> In (k, v) l.
Proof. induction l as [|[k' v'] t IH]; cbn; [discriminate|]. destruct (k =? k') eqn:E; intros H; [left; f_equal; [lia|congruence]|right; auto]. Qed.
Lemma zassoc_none {V} k (l : list (Z * V)) : assoc Z.eqb k l = None <-> ~ In k (map fst l).
Proof.
  induction l as [|[k' v'] t IH]; cbn; [tauto|]. destruct (k =? k') eqn:E.
  - split; [discriminate|]. intros H. exfalso. apply H. left. lia.
  - rewrite IH. split; [intros H [H2|H2]; [lia|tauto]|tauto].
Qed.
Lemma zassoc_nodup {V} k (v : V) l : NoDup (map fst l) -> In (k, v) l -> assoc Z.eqb k l = Some v.
Proof.
  induction l as [|[k' v'] t IH]; cbn; intros N H; [destruct H|]. destruct H as [H|H].
  - injection H as -> ->. now rewrite Z.eqb_refl.
  - inversion_clear N as [|? ? N1 N2]. destruct (k =? k') eqn:E; [|auto].
    exfalso. apply N1. replace k' with k by lia. now apply (in_map fst) in H.
Qed.
Lemma zput_keys {V} k (v : V) l : map fst (assoc_put Z.eqb k v l) = map fst l \/ (~ In k (map fst l) /\ map fst (assoc_put Z.eqb k v l) = map fst l ++ [k]).
Proof.
  induction l as [|[k' v'] t IH]; cbn; [right; auto|]. destruct (k =? k') eqn:E; cbn; [now left|].
  destruct IH as [IH|[IH1 IH2]]; [left; now rewrite IH|]. right. split; [|now rewrite IH2]. intros [H|H]; [lia|auto].
Qed.
Lemma zdel_keys {V} k (l : list (Z * V)) x : In x (map fst (assoc_del Z.eqb k l)) -> In x (map fst l).
Proof. induction l as [|[k' v'] t IH]; cbn; [tauto|]. destruct (k =? k'); cbn; tauto. Qed.
Lemma zdel_nodup {V} k (l : list (Z * V)) : NoDup (map fst l) -> NoDup (map fst (assoc_del Z.eqb k l)).
Proof.
  induction l as [|[k' v'] t IH]; cbn; intros N; [constructor|]. inversion_clear N as [|? ? N1 N2].
  destruct (k =? k'); [exact N2|]. cbn. constructor; [|auto]. intros H. now apply zdel_keys in H.
Qed.
Lemma zdel_gone {V} k (l : list (Z * V)) : NoDup (map fst l) -> assoc Z.eqb k (assoc_del Z.eqb k l) = None.
Proof.
  induction l as [|[k' v'] t IH]; cbn; intros N; [reflexivity|]. inversion_clear N as [|? ? N1 N2].
  destruct (k =? k') eqn:E; [apply zassoc_none; now replace k with k' by lia|]. cbn. rewrite E. auto.
Qed.
Lemma zput_in {V} k (v : V) l x : In x (assoc_put Z.eqb k v l) -> x = (k, v) \/ In x l \/ (fst x = k /\ snd x = v).
Proof.
  induction l as [|[k' v'] t IH]; cbn; [intuition|]. destruct (k =? k') eqn:E; cbn.
  - intros [<-|H]; [right; right; cbn; split; [lia|reflexivity]|auto].
  - intros [<-|H]; [auto|]. destruct (IH H) as [?|[?|?]]; auto.
Qed.

(** ** Frames *)
Definition hdr_of (i : ids) (u : Z) (pdu : list Z) : qhdr :=
  match i with
  | None => HRtu u
  | Some (t, p) => HTcp {| mb_tid := t; mb_pid := p; mb_len := zlen pdu + 1; mb_uid := u |}
  end.

Lemma on_wire_bytes i u pdu : is_byte u -> sendable i pdu -> bytes (on_wire i u pdu).
Proof.
  intros U [B _]. destruct i as [[t p]|]; cbn [on_wire]; [now apply tcp_frame_bytes|]. apply sealed_bytes. now constructor.
Qed.
Lemma on_wire_nonempty i u pdu : on_wire i u pdu <> [].
Proof. destruct i as [[t p]|]; cbn; [discriminate|]. unfold sealed. discriminate. Qed.

Lemma parse_on_wire i u pdu : is_byte u -> sendable i pdu ->
  parse_request (proto_of i) (on_wire i u pdu) = Ok (hdr_of i u pdu, u, pdu).
Proof.
  intros U S. pose proof (on_wire_bytes i u pdu U S) as B. destruct S as [Bp S].
  destruct i as [[t p]|]; cbn [proto_of on_wire hdr_of parse_request] in *.
  - erewrite (proj2 (tcp_parse_request_frame _ {| mb_tid := t; mb_pid := p; mb_len := zlen pdu + 1; mb_uid := u |} u pdu B)); [reflexivity|].
    cbn [mb_tid mb_pid mb_len mb_uid]. unfold fits. repeat split; auto; try lia; apply U.
  - erewrite (proj2 (rtu_parse_request_sealed _ u pdu B) eq_refl). reflexivity.
Qed.
Lemma build_on_wire i u pdu r : is_byte u -> sendable i r -> build_response (hdr_of i u pdu) r = Ok (on_wire i u r).
Proof.
  intros U [B S]. destruct i as [[t p]|]; cbn [hdr_of build_response on_wire].
  - apply tcp_build_response_ok; cbn; unfold fits; auto; lia.
  - now apply rtu_build_response_ok.
Qed.
(** the converse: whatever is accepted is such a frame *)
Lemma parse_inv p request h u pdu : bytes request -> parse_request p request = Ok (h, u, pdu) ->
  exists i, proto_of i = p /\ is_byte u /\ sendable i pdu /\ request = on_wire i u pdu /\ h = hdr_of i u pdu.
Proof.
  intros B E. destruct p; cbn [parse_request] in E.
  - destruct (rtu_parse_request request) as [[a q]|] eqn:R; [|discriminate]. cbn in E. injection E as <- <- <-.
    apply rtu_parse_request_sealed in R; [|exact B]. subst request.
    apply bytes_app_inv in B as [B _]. inversion_clear B as [|? ? Ba Bq].
    exists None. repeat split; auto; apply Ba.
  - destruct (tcp_parse_request request) as [[[m x] q]|] eqn:R; [|discriminate]. cbn in E. injection E as <- <- <-.
    apply tcp_parse_request_frame in R; [|exact B]. destruct R as (L & -> & Ln & T & P & U & Bq & ->).
    exists (Some (mb_tid m, mb_pid m)). unfold fits in *. cbn [proto_of sendable on_wire hdr_of].
    destruct m as [t pi n x]. cbn in *. subst n. split; [reflexivity|]. split; [exact U|]. split; [|split; reflexivity]. split; [exact Bq|lia].
Qed.

Lemma sendable_response i s pdu bc s' r : sendable i pdu -> handle_request s pdu bc = (s', Ok r) -> sendable i r.
Proof.
  intros [B S] H. destruct pdu as [|fc rest]; [discriminate H|].
  destruct (hr_small s fc rest bc s' r B H) as (Br & L & _). split; [exact Br|].
  destruct i as [[t p]|]; [|exact I]. lia.
Qed.

(** ** Non-broadcast requests *)
Lemma db_present d i u pdu s : sendable i pdu -> 1 <= u <= 255 -> get_slave d u = Ok s ->
  db_handle_request d (proto_of i) (on_wire i u pdu) =
  (put_slave d u (fst (handle_request s pdu false)),
   match snd (handle_request s pdu false) with
   | Ok r => Ok (Some (on_wire i u r))
   | Err e => db_catch e pdu
   end).
Proof.
  intros S U G. unfold db_handle_request. rewrite parse_on_wire by (auto; unfold is_byte; lia).
  destruct (u =? 0) eqn:E; [lia|]. rewrite G. destruct (handle_request s pdu false) as [s' [r|e]] eqn:H; cbn [fst snd bind]; [|reflexivity].
  rewrite build_on_wire; [reflexivity|unfold is_byte; lia|]. now apply (sendable_response i s pdu false s').
Qed.
Lemma db_absent d i u pdu : sendable i pdu -> 1 <= u <= 255 -> get_slave d u = Err MissingKeyError ->
  db_handle_request d (proto_of i) (on_wire i u pdu) = (d, Ok (Some [])).
Proof.
  intros S U G. unfold db_handle_request. rewrite parse_on_wire by (auto; unfold is_byte; lia).
  destruct (u =? 0) eqn:E; [lia|]. rewrite G. now destruct (db_error_on_missing d).
Qed.
Lemma get_slave_put_same d u s : get_slave (put_slave d u s) u = Ok s.
Proof. unfold get_slave, put_slave. cbn. now rewrite zassoc_put_same. Qed.
Lemma get_slave_put_other d u v s : v <> u -> get_slave (put_slave d u s) v = get_slave d v.
Proof. intros H. unfold get_slave, put_slave. cbn. now rewrite zassoc_put_other. Qed.
Lemma get_slave_err d u e : get_slave d u = Err e -> e = MissingKeyError.
Proof. unfold get_slave. destruct (assoc _ _ _); congruence. Qed.

(** ** Broadcasts *)
Lemma broadcast_all l pdu : (forall k s, In (k, s) l -> exists r, snd (handle_request s pdu true) = Ok r) ->
  broadcast_loop l pdu = (map (fun ks => (fst ks, fst (handle_request (snd ks) pdu true))) l, Ok tt).
Proof.
  induction l as [|[k s] t IH]; intros H; [reflexivity|]. cbn [broadcast_loop map fst snd].
  destruct (H k s (or_introl eq_refl)) as [r Hr]. destruct (handle_request s pdu true) as [s' r']. cbn in Hr. subst r'.
  rewrite IH; [reflexivity|]. intros k' s2 Hin. apply (H k'). now right.
Qed.
Lemma broadcast_first_err k s t pdu e : handle_request s pdu true = (s, Err e) -> broadcast_loop ((k, s) :: t) pdu = ((k, s) :: t, Err e).
Proof. intros H. cbn [broadcast_loop]. now rewrite H. Qed.
Lemma db_broadcast d i pdu : sendable i pdu ->
  db_handle_request d (proto_of i) (on_wire i 0 pdu) =
  (with_slaves d (fst (broadcast_loop (db_slaves d) pdu)),
   match snd (broadcast_loop (db_slaves d) pdu) with Ok _ => Ok None | Err e => db_catch e pdu end).
Proof.
  intros S. unfold db_handle_request. rewrite parse_on_wire by (auto; unfold is_byte; lia). cbn [Z.eqb].
  destruct (broadcast_loop _ _) as [l [r|e]]; reflexivity.
Qed.
Lemma zassoc_map {V W} (f : V -> W) k l : assoc Z.eqb k (map (fun ks : Z * V => (fst ks, f (snd ks))) l) = option_map f (assoc Z.eqb k l).
Proof. induction l as [|[k' v'] t IH]; cbn; [reflexivity|]. destruct (k =? k'); [reflexivity|exact IH]. Qed.
Lemma with_slaves_id d : with_slaves d (db_slaves d) = d.
Proof. now destruct d. Qed.

(** ** Invariant of reachable databanks *)
Definition dinv (d : databank) : Prop :=
  NoDup (map fst (db_slaves d)) /\ Forall (fun k => 1 <= k <= 255) (map fst (db_slaves d)) /\
  Forall (fun ks => reachable (snd ks)) (db_slaves d).

Lemma reachable_step s o : reachable s -> reachable (fst (slave_step s o)).
Proof.
  intros (s0 & ops & F & ->). exists s0, (ops ++ [o]). split; [exact F|]. unfold slave_run. now rewrite fold_left_app.
Qed.
Lemma reachable_request s pdu bc : reachable s -> reachable (fst (handle_request s pdu bc)).
Proof.
  intros H. pose proof (reachable_step s (OpRequest pdu bc) H) as R. cbn [slave_step] in R.
  destruct (handle_request s pdu bc); exact R.
Qed.

Lemma dinv_keys d l : (map fst l = map fst (db_slaves d)) -> Forall (fun ks => reachable (snd ks)) l -> dinv d -> dinv (with_slaves d l).
Proof. intros E F (A & B & _). unfold dinv. cbn [with_slaves db_slaves]. rewrite E. auto. Qed.
Lemma dinv_put d u s : dinv d -> (exists s0, get_slave d u = Ok s0) -> reachable s -> dinv (put_slave d u s).
Proof.
  intros D [s0 G] R. unfold get_slave in G. destruct (assoc Z.eqb u (db_slaves d)) eqn:A; [|discriminate].
  unfold put_slave. apply dinv_keys; [| |exact D].
  - destruct (zput_keys u s (db_slaves d)) as [E|[E _]]; [exact E|]. apply zassoc_none in E. congruence.
  - apply Forall_forall. intros x Hx. destruct D as (_ & _ & D). rewrite Forall_forall in D.
    apply zput_in in Hx as [->|[Hx|[_ Hx]]]; [exact R|now apply D|now rewrite Hx].
Qed.
Lemma broadcast_keys l pdu : map fst (fst (broadcast_loop l pdu)) = map fst l.
Proof.
  induction l as [|[k s] t IH]; [reflexivity|]. cbn [broadcast_loop]. destruct (handle_request s pdu true) as [s' [r|e]]; [|reflexivity].
  destruct (broadcast_loop t pdu) as [t' r']. cbn in *. now rewrite IH.
Qed.
Lemma broadcast_reachable l pdu : Forall (fun ks => reachable (snd ks)) l -> Forall (fun ks => reachable (snd ks)) (fst (broadcast_loop l pdu)).
Proof.
  induction 1 as [|[k s] t Hs Ht IH]; [constructor|]. cbn [broadcast_loop]. pose proof (reachable_request s pdu true Hs) as R.
  destruct (handle_request s pdu true) as [s' [r|e]]; cbn [fst] in *; [|now constructor].
  destruct (broadcast_loop t pdu) as [t' r']. cbn in *. now constructor.
Qed.
Lemma dinv_step d o : sane_op o -> dinv d -> dinv (db_step d o).
Proof.
  intros S D. destruct o as [id u m|id| |p r|id o]; cbn [db_step].
  - unfold add_slave. destruct ((id <=? 0) || (255 <? id)) eqn:E; [exact D|].
    destruct (assoc Z.eqb id (db_slaves d)) eqn:A; [exact D|]. cbn [fst].
    destruct D as (D1 & D2 & D3). unfold dinv. cbn [with_slaves db_slaves].
    assert (R : reachable (new_slave u m)).
    { exists (new_slave u m), []. split; [|reflexivity]. destruct m as [[al ls]|]; [now apply fresh_memory|apply fresh_default]. }
    apply zassoc_none in A. destruct (zput_keys id (new_slave u m) (db_slaves d)) as [K|[_ K]].
    + rewrite K. repeat split; auto. apply Forall_forall. intros x Hx. rewrite Forall_forall in D3.
      apply zput_in in Hx as [->|[Hx|[_ Hx]]]; [exact R|now apply D3|now rewrite Hx].
    + rewrite K. split; [|split].
      * apply Permutation.Permutation_NoDup with (l := id :: map fst (db_slaves d)); [apply Permutation.Permutation_cons_append|]. now constructor.
      * apply Forall_app. split; [exact D2|]. constructor; [lia|constructor].
      * apply Forall_forall. intros x Hx. rewrite Forall_forall in D3.
        apply zput_in in Hx as [->|[Hx|[_ Hx]]]; [exact R|now apply D3|now rewrite Hx].
  - unfold remove_slave. destruct (assoc Z.eqb id (db_slaves d)) eqn:A; [|exact D]. cbn [fst].
    destruct D as (D1 & D2 & D3). unfold dinv. cbn [with_slaves db_slaves]. split; [now apply zdel_nodup|]. split.
    + apply Forall_forall. intros x Hx. apply zdel_keys in Hx. rewrite Forall_forall in D2. now apply D2.
    + apply Forall_forall. intros x Hx. rewrite Forall_forall in D3. apply D3. clear -Hx.
      induction (db_slaves d) as [|[k v] t IH]; cbn in *; [tauto|]. destruct (id =? k); cbn in *; tauto.
  - unfold remove_all_slaves, dinv. cbn. repeat constructor.
  - unfold db_handle_request. destruct (parse_request p r) as [[[h u] pdu]|e]; [|exact D].
    destruct (u =? 0).
    + destruct (broadcast_loop (db_slaves d) pdu) as [l x] eqn:B.
      assert (H : dinv (with_slaves d l)).
      { apply dinv_keys; [|destruct D as (_ & _ & D)|exact D].
        - rewrite <- (broadcast_keys (db_slaves d) pdu). now rewrite B.
        - pose proof (broadcast_reachable _ pdu D) as R. now rewrite B in R. }
      destruct x; exact H.
    + destruct (get_slave d u) as [s|e] eqn:G.
      * destruct (handle_request s pdu false) as [s' x] eqn:H.
        assert (X : dinv (put_slave d u s')).
        { apply dinv_put; [exact D|eauto|]. unfold get_slave in G. destruct (assoc Z.eqb u (db_slaves d)) eqn:A; [|discriminate].
          injection G as ->. apply zassoc_in in A. destruct D as (_ & _ & D). rewrite Forall_forall in D. specialize (D _ A). cbn in D.
          pose proof (reachable_request s pdu false D) as R. now rewrite H in R. }
        destruct (_ <- x ;; _); exact X.
      * destruct e; try exact D. destruct (db_error_on_missing d); exact D.
  - destruct (get_slave d id) as [s|e] eqn:G; [|exact D].
    apply dinv_put; [exact D|eauto|]. apply reachable_step. unfold get_slave in G.
    destruct (assoc Z.eqb id (db_slaves d)) eqn:A; [|discriminate]. injection G as ->. apply zassoc_in in A.
    destruct D as (_ & _ & D). rewrite Forall_forall in D. apply (D _ A).
Qed.
Lemma db_reachable_inv d : db_reachable d -> dinv d.
Proof.
  intros (e & ops & S & ->). unfold db_run.
  assert (D : dinv (new_databank e)) by (unfold dinv; cbn; repeat constructor).
  revert D. generalize (new_databank e). induction S as [|o t So St IH]; intros d D; [exact D|].
  cbn [fold_left]. apply IH. now apply dinv_step.
Qed.
Lemma db_reachable_slave d u s : db_reachable d -> get_slave d u = Ok s -> reachable s /\ 1 <= u <= 255.
Proof.
  intros D G. apply db_reachable_inv in D as (_ & D2 & D3). unfold get_slave in G.
  destruct (assoc Z.eqb u (db_slaves d)) eqn:A; [|discriminate]. injection G as ->. apply zassoc_in in A.
  rewrite Forall_forall in D2, D3. split; [apply (D3 _ A)|]. apply D2. now apply (in_map fst) in A.
Qed.

(** ** Failure responses *)
Lemma failure_ok pdu : bytes pdu -> hd 0 pdu < 128 ->
  failure_response pdu = Ok (Some [(match pdu with [] => 1 | fc :: _ => fc end) + 128; 4]).
Proof.
  intros B H. unfold failure_response. destruct pdu as [|fc rest].
  - reflexivity.
  - cbn [hd] in H. rewrite head_slice. unfold unpack_one. rewrite unpack_B. cbn [bind]. rewrite pack_BB.
    inversion_clear B as [|? ? Bf _]. unfold is_byte in Bf.
    replace (byte_b (fc + 128)) with true by (unfold byte_b; lia). reflexivity.
Qed.
Lemma failure_err pdu fc rest : pdu = fc :: rest -> 128 <= fc -> failure_response pdu = Err StructError.
Proof.
  intros -> H. unfold failure_response. rewrite head_slice. unfold unpack_one. rewrite unpack_B. cbn [bind]. rewrite pack_BB.
  replace (byte_b (fc + 128)) with false by (unfold byte_b; lia). reflexivity.
Qed.
Lemma db_catch_ok e pdu : bytes pdu -> hd 0 pdu < 128 -> exists r, db_catch e pdu = Ok r.
Proof. intros B H. unfold db_catch. destruct e; try (eexists; reflexivity); rewrite failure_ok by assumption; eexists; reflexivity. Qed.

Lemma db_total d p request : bytes request ->
  (forall i u pdu, request = on_wire i u pdu -> proto_of i = p -> hd 0 pdu < 128) ->
  exists r, snd (db_handle_request d p request) = Ok r.
Proof.
  intros B H. unfold db_handle_request. destruct (parse_request p request) as [[[h u] pdu]|e] eqn:P.
  2:{ cbn [snd]. apply db_catch_ok; [constructor|]. cbn. lia. }
  destruct (parse_inv p request h u pdu B P) as (i & Hp & Hu & [Bp _] & -> & _).
  assert (L : hd 0 pdu < 128) by (eapply H; [reflexivity|exact Hp]).
  destruct (u =? 0).
  - destruct (broadcast_loop _ _) as [l [r|e]]; cbn [snd]; [eexists; reflexivity|now apply db_catch_ok].
  - destruct (get_slave d u) as [s|e].
    + destruct (handle_request s pdu false) as [s' r]. destruct (_ <- r ;; _); cbn [snd]; [eexists; reflexivity|now apply db_catch_ok].
    + destruct e; try (now apply db_catch_ok). destruct (db_error_on_missing d); eexists; reflexivity.
Qed.

(** ** The master's side of a frame *)
Lemma build_request_on_wire p last pdu slave : bytes pdu -> zlen pdu <= 65534 -> 0 <= last <= 65535 -> 0 <= slave <= 255 ->
  exists i h last', build_request p last pdu slave = (last', Ok (h, on_wire i slave pdu)) /\ proto_of i = p /\
    sendable i pdu /\ 0 <= last' <= 65535 /\ forall r, sendable i r -> parse_response h (on_wire i slave r) = Ok r.
Proof.
  intros B L T U. assert (Ub : is_byte slave) by (unfold is_byte; lia). destruct p; cbn [build_request].
  - exists None, (HRtu slave), last. rewrite rtu_build_request_ok by assumption. cbn [bind on_wire].
    split; [reflexivity|]. split; [reflexivity|]. split; [split; [exact B|exact I]|]. split; [exact T|].
    intros r [Br _]. cbn [parse_response]. apply rtu_parse_response_sealed; [|reflexivity]. apply sealed_bytes. now constructor.
  - set (t := next_transaction_id last). assert (Ft : 0 <= t <= 65535) by (unfold t; rewrite next_tid by lia; lia).
    exists (Some (t, 0)), (HTcp {| mb_tid := t; mb_pid := 0; mb_len := zlen pdu + 1; mb_uid := slave |}), t.
    rewrite tcp_build_request_ok by (auto; lia). cbn [bind fst snd on_wire].
    split; [reflexivity|]. split; [reflexivity|]. split; [split; [exact B|lia]|]. split; [exact Ft|].
    intros r [Br Sr]. cbn [parse_response]. apply tcp_parse_response_frame.
    + now apply tcp_frame_bytes.
    + cbn. lia.
    + cbn. lia.
    + cbn [mb_tid mb_pid mb_uid]. split; [lia|reflexivity].
Qed.
Lemma build_request_inv p last pdu slave last' h frame : bytes pdu -> 0 <= last <= 65535 ->
  build_request p last pdu slave = (last', Ok (h, frame)) -> zlen pdu <= 65534 \/ p = RTU.
Proof.
  intros B T E. destruct p; [now right|left]. cbn [build_request] in E. unfold tcp_build_request in E.
  destruct ((slave <? 0) || (255 <? slave)); [discriminate|]. injection E as _ E.
  destruct (Z.le_gt_cases (zlen pdu) 65534) as [L|L]; [exact L|]. rewrite mbap_pack_long in E by lia. discriminate.
Qed.

(** deciding [bytes] by computation *)
Lemma bytes_compute l : forallb (fun b => (0 <=? b) && (b <? 256)) l = true -> bytes l.
Proof. intros H. apply Forall_forall. intros b Hb. rewrite forallb_forall in H. specialize (H b Hb). unfold is_byte. lia. Qed.
