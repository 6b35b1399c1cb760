(** Properties C24-C29 and C61: databanks.  Vocabulary: Spec.v, SlaveSpec.v, BlockSpec.v, DbSpec.v. *)
From Coq Require Import Lia ZifyBool ZifyNat.
From Verif Require Import DatabankProofs.
From Verif Require Import QueryModel DatabankModel CrcSpec FrameSpec DbSpec PropSlave.
Ltac Zify.zify_post_hook ::= Z.div_mod_to_equations.
Open Scope string_scope.
Open Scope list_scope.
Open Scope Z_scope.

(** Units 3 and 9 with the same blocks; unit 12 has no blocks at all. *)
Definition demo_db : databank :=
  db_run (new_databank true)
    [DbAdd 3 true None; DbAdd 9 false None; DbAdd 12 true None;
     DbCall 3 (OpAddBlock "r" 3 100 10); DbCall 9 (OpAddBlock "r" 3 100 10);
     DbCall 3 (OpAddBlock "c" 1 0 20); DbCall 9 (OpAddBlock "c" 1 0 20)].
Lemma demo_db_reachable : db_reachable demo_db.
Proof. eexists true, _. split; [|reflexivity]. repeat constructor. Qed.

(* ------------------------------------------------------------------ C24 *)
Theorem C24_routed : forall d i u pdu s, sendable i pdu -> 1 <= u <= 255 -> get_slave d u = Ok s ->
  let d' := fst (db_handle_request d (proto_of i) (on_wire i u pdu)) in
  let out := snd (db_handle_request d (proto_of i) (on_wire i u pdu)) in
  (** only slave u may change, and it does what it does when given the PDU *)
  get_slave d' u = Ok (fst (handle_request s pdu false)) /\
  (forall v, v <> u -> get_slave d' v = get_slave d v) /\
  (** the response is slave u's response, framed for u *)
  (forall rpdu, snd (handle_request s pdu false) = Ok rpdu -> out = Ok (Some (on_wire i u rpdu))).
Proof.
  intros d i u pdu s S U G d' out. unfold d', out. rewrite (db_present d i u pdu s S U G). cbn [fst snd].
  split; [apply get_slave_put_same|]. split; [intros v Hv; now apply get_slave_put_other|]. intros r ->. reflexivity.
Qed.
(** Whatever bytes arrive: if a slave changes, the bytes are a frame for it or a broadcast. *)
Theorem C24_nobody_else : forall d p request u, bytes request ->
  get_slave (fst (db_handle_request d p request)) u <> get_slave d u ->
  exists i pdu, request = on_wire i u pdu \/ request = on_wire i 0 pdu.
Proof.
  intros d p request u B H. unfold db_handle_request in H. destruct (parse_request p request) as [[[h v] pdu]|e] eqn:P.
  2:{ cbn in H. congruence. }
  destruct (parse_inv p request h v pdu B P) as (i & _ & _ & _ & E & _). exists i, pdu.
  destruct (v =? 0) eqn:V; [right; rewrite E; f_equal; lia|left]. rewrite E. f_equal.
  destruct (Z.eq_dec v u) as [->|Hv]; [reflexivity|exfalso]. apply H.
  destruct (get_slave d v) as [s|e].
  - destruct (handle_request s pdu false) as [s' r]. destruct (_ <- r ;; _); cbn [fst]; apply get_slave_put_other; congruence.
  - destruct e; try reflexivity. now destruct (db_error_on_missing d).
Qed.
Example C24_ex : exists s, get_slave demo_db 9 = Ok s /\
  snd (db_handle_request demo_db RTU (on_wire None 9 (6 :: word 100 ++ word 7))) = Ok (Some (on_wire None 9 (6 :: word 100 ++ word 7))) /\
  get_slave (fst (db_handle_request demo_db RTU (on_wire None 9 (6 :: word 100 ++ word 7)))) 9 <> Ok s.
Proof. eexists. split; [vm_compute; reflexivity|]. split; [vm_compute; reflexivity|]. vm_compute. discriminate. Qed.

(* ------------------------------------------------------------------ C25 *)
Theorem C25_absent : forall d i u pdu, sendable i pdu -> 1 <= u <= 255 -> get_slave d u = Err MissingKeyError ->
  db_handle_request d (proto_of i) (on_wire i u pdu) = (d, Ok (Some [])) /\ sent (Some []) = None.
Proof. intros d i u pdu S U G. split; [now apply db_absent|reflexivity]. Qed.
(** error_on_missing_slave changes nothing at all *)
Theorem C25_flag_irrelevant : forall l p request,
  let a := db_handle_request {| db_slaves := l; db_error_on_missing := true |} p request in
  let b := db_handle_request {| db_slaves := l; db_error_on_missing := false |} p request in
  snd a = snd b /\ forall u, get_slave (fst a) u = get_slave (fst b) u.
Proof.
  intros l p request. unfold db_handle_request. destruct (parse_request p request) as [[[h v] pdu]|e]; [|split; reflexivity].
  destruct (v =? 0).
  - cbn [db_slaves]. destruct (broadcast_loop l pdu) as [l' [r|e]]; split; reflexivity.
  - assert (G : forall b, get_slave {| db_slaves := l; db_error_on_missing := b |} v =
                 match assoc Z.eqb v l with Some s => Ok s | None => Err MissingKeyError end) by reflexivity.
    rewrite !G. destruct (assoc Z.eqb v l) as [s|].
    + destruct (handle_request s pdu false) as [s' r]. destruct (_ <- r ;; _); split; reflexivity.
    + split; reflexivity.
Qed.
Example C25_ex : get_slave demo_db 4 = Err MissingKeyError.
Proof. reflexivity. Qed.

(* ------------------------------------------------------------------ C26 *)
(** Well-formed requests other than the plain reads: every slave executes, nobody answers. *)
Theorem C26_broadcast_partial : forall d i pdu,
  db_reachable d -> sendable i pdu -> well_formed pdu -> ~ In (hd 0 pdu) [1; 2; 3; 4] ->
  (forall u s, get_slave d u = Ok s -> all_tables s /\ (hd 0 pdu = 23 -> all_fit s)) ->
  snd (db_handle_request d (proto_of i) (on_wire i 0 pdu)) = Ok None /\
  forall u, get_slave (fst (db_handle_request d (proto_of i) (on_wire i 0 pdu))) u =
            match get_slave d u with
            | Ok s => Ok (fst (handle_request s pdu false))
            | Err e => Err e
            end.
Proof.
  intros d i pdu D S W N H. rewrite db_broadcast by exact S.
  assert (A : forall k s, In (k, s) (db_slaves d) -> exists r, snd (handle_request s pdu true) = Ok r).
  { intros k s Hin. apply db_reachable_inv in D as (D1 & D2 & D3).
    assert (G : get_slave d k = Ok s) by (unfold get_slave; now rewrite (zassoc_nodup k s)).
    destruct (H k s G) as [T F]. rewrite Forall_forall in D3.
    destruct (hr_total s pdu true) as [R|(_ & R & _)]; auto; [now apply reachable_wf, (D3 (k, s))| |now apply N in R].
    intros Hfc. apply F. cbn in Hfc, N. lia. }
  rewrite broadcast_all by exact A. cbn [fst snd]. split; [reflexivity|]. intros u.
  unfold get_slave. cbn [with_slaves db_slaves]. rewrite (zassoc_map (fun s => fst (handle_request s pdu true))). destruct (assoc Z.eqb u (db_slaves d)) as [s|] eqn:E; [|reflexivity].
  cbn [option_map]. f_equal. unfold handle_request. destruct (unpack1 _ _) as [fc|] eqn:Efc; [|reflexivity].
  destruct (fn_code_map fc) as [f|]; [|reflexivity].
  assert (C : cant_be_broadcasted fc = false).
  { destruct pdu as [|x rest]; [discriminate Efc|]. rewrite unpack_fc in Efc. injection Efc as ->. cbn [hd In] in N.
    unfold cant_be_broadcasted, READ_COILS, READ_DISCRETE_INPUTS, READ_INPUT_REGISTERS, READ_HOLDING_REGISTERS. lia. }
  rewrite C. cbn [andb]. destruct (f s pdu) as [s' [[|x r]|e]]; reflexivity.
Qed.
(** Plain reads: nothing happens, nothing is sent. *)
Theorem C26_broadcast_reads : forall d i pdu, sendable i pdu -> In (hd 0 pdu) [1; 2; 3; 4] ->
  exists r, db_handle_request d (proto_of i) (on_wire i 0 pdu) = (d, Ok r) /\ sent r = None.
Proof.
  intros d i pdu S H. rewrite db_broadcast by exact S.
  assert (E : forall s, handle_request s pdu true = (s, Err ModbusInvalidRequestError)).
  { intros s. destruct pdu as [|fc rest]; [cbn in H; lia|]. cbn [hd] in H. unfold handle_request. rewrite unpack_fc.
    assert (C : cant_be_broadcasted fc = true).
    { cbn [In] in H. unfold cant_be_broadcasted, READ_COILS, READ_DISCRETE_INPUTS, READ_INPUT_REGISTERS, READ_HOLDING_REGISTERS. lia. }
    destruct (fn_code_map fc) as [f|] eqn:F; [now rewrite C|]. exfalso. apply fn_none_iff in F. apply F. unfold supported. cbn [In] in *. tauto. }
  destruct (db_slaves d) as [|[k s] t] eqn:L.
  - exists None. cbn [broadcast_loop fst snd]. rewrite <- L, with_slaves_id. split; reflexivity.
  - rewrite (broadcast_first_err _ _ _ _ _ (E s)). cbn [fst snd db_catch]. exists (Some []). rewrite <- L, with_slaves_id. split; reflexivity.
Qed.
(** "Never answered" is false: a truncated write gets two raw bytes. *)
Theorem C26_refuted :
  ~ (forall d i pdu r, db_reachable d -> sendable i pdu ->
     snd (db_handle_request d (proto_of i) (on_wire i 0 pdu)) = Ok r -> sent r = None).
Proof.
  intros H. specialize (H demo_db None [16; 0; 100] (Some [144; 4]) demo_db_reachable).
  assert (B : sendable None [16; 0; 100]) by (split; [repeat constructor; unfold is_byte; lia|exact I]).
  specialize (H B). vm_compute in H. specialize (H eq_refl). discriminate.
Qed.
(** "Reaches every slave" is false: a slave that cannot serve the table stops the loop. *)
Definition stopping_db : databank :=
  db_run (new_databank true)
    [DbAdd 1 true (Some ({| v_co := None; v_di := None; v_hr := Some Defines.HOLDING_REGISTERS; v_ai := None |}, no_blocks));
     DbAdd 2 true None; DbCall 2 (OpAddBlock "c" 1 0 8)].
Theorem C26_every_slave_refuted :
  ~ (forall d i pdu u s s', db_reachable d -> sendable i pdu -> well_formed pdu -> ~ In (hd 0 pdu) [1; 2; 3; 4] ->
     get_slave d u = Ok s -> get_slave (fst (db_handle_request d (proto_of i) (on_wire i 0 pdu))) u = Ok s' ->
     s' = fst (handle_request s pdu false)).
Proof.
  intros H.
  assert (R : db_reachable stopping_db).
  { eexists true, _. split; [|reflexivity]. repeat constructor. intros []; constructor. }
  pose proof (fun s s' => H stopping_db None (5 :: word 3 ++ word 65280) 2 s s' R) as K.
  assert (B : bytes (5 :: word 3 ++ word 65280)) by (apply bytes_compute; reflexivity).
  assert (S : sendable None (5 :: word 3 ++ word 65280)) by (split; [exact B|exact I]).
  assert (W : well_formed (5 :: word 3 ++ word 65280)).
  { split; [exact B|]. split; [discriminate|]. split; [reflexivity|]. split; [vm_compute; congruence|exact I]. }
  assert (N : ~ In (hd 0 (5 :: word 3 ++ word 65280)) [1; 2; 3; 4]) by (cbn; lia).
  assert (G : exists s, get_slave stopping_db 2 = Ok s /\
    get_slave (fst (db_handle_request stopping_db RTU (on_wire None 0 (5 :: word 3 ++ word 65280)))) 2 = Ok s /\
    s <> fst (handle_request s (5 :: word 3 ++ word 65280) false)).
  { eexists. split; [vm_compute; reflexivity|]. split; vm_compute; [reflexivity|discriminate]. }
  destruct G as (s & G1 & G2 & G3). apply G3. exact (K s s S W N G1 G2).
Qed.
Example C26_ex : well_formed (6 :: word 100 ++ word 7) /\
  (forall u s, get_slave demo_db u = Ok s -> all_tables s /\ (hd 0 (6 :: word 100 ++ word 7) = 23 -> all_fit s)) /\
  (exists s, get_slave (fst (db_handle_request demo_db RTU (on_wire None 0 (6 :: word 100 ++ word 7)))) 9 = Ok s /\
             get_values s "r" 100 1 = Ok [7]) /\
  (exists s, get_slave (fst (db_handle_request demo_db RTU (on_wire None 0 (6 :: word 100 ++ word 7)))) 3 = Ok s /\
             get_values s "r" 100 1 = Ok [7]).
Proof.
  split; [|split; [|split]].
  - split; [apply bytes_compute; reflexivity|]. split; [discriminate|]. split; [reflexivity|]. split; [vm_compute; congruence|exact I].
  - intros u s G. split; [|cbn; lia]. unfold get_slave in G.
    destruct (assoc Z.eqb u (db_slaves demo_db)) eqn:A; [|discriminate]. injection G as ->. apply zassoc_in in A.
    vm_compute in A. destruct A as [A|[A|[A|[]]]]; injection A as _ <-; intros []; vm_compute; discriminate.
  - eexists. split; vm_compute; reflexivity.
  - eexists. split; vm_compute; reflexivity.
Qed.

(* ------------------------------------------------------------------ C27 *)
Theorem C27_add : forall d id unsigned memory,
  let d' := fst (add_slave d id unsigned memory) in
  let r := snd (add_slave d id unsigned memory) in
  ((1 <= id <= 255 /\ get_slave d id = Err MissingKeyError) ->
     r = Ok tt /\ get_slave d' id = Ok (new_slave unsigned memory) /\
     forall other, other <> id -> get_slave d' other = get_slave d other) /\
  (~ (1 <= id <= 255) -> r = Err GenericException /\ d' = d) /\
  (1 <= id <= 255 -> get_slave d id <> Err MissingKeyError -> r = Err DuplicatedKeyError /\ d' = d).
Proof.
  intros d id u m d' r. unfold d', r, add_slave, get_slave.
  destruct ((id <=? 0) || (255 <? id)) eqn:E.
  - split; [intros [H _]; lia|]. split; [split; reflexivity|]. intros H; lia.
  - split; [|split].
    + intros [_ H]. destruct (assoc Z.eqb id (db_slaves d)) eqn:A; [discriminate|]. cbn [fst snd with_slaves db_slaves].
      rewrite zassoc_put_same. split; [reflexivity|]. split; [reflexivity|]. intros o Ho. now rewrite zassoc_put_other.
    + intros H; lia.
    + intros _ H. destruct (assoc Z.eqb id (db_slaves d)) eqn:A; [split; reflexivity|congruence].
Qed.
(** The new slave: signed or unsigned as asked; no block; with the default memory four separate, empty tables, with a given memory the
    tables of that memory. *)
Theorem C27_new_slave : forall d id unsigned memory, 1 <= id <= 255 -> get_slave d id = Err MissingKeyError ->
  exists s, get_slave (fst (add_slave d id unsigned memory)) id = Ok s /\ sl_unsigned s = unsigned /\
  (forall name, ~ registered s name) /\
  match memory with
  | None => (forall t, has_table s t /\ blocks s t = []) /\ (forall t t', same_table s t t' -> t = t')
  | Some (alias, lists) => forall t, (has_table s t <-> get4 alias t <> None) /\ (forall r, get4 alias t = Some r -> blocks s t = get4 lists r) /\
                                     (forall t', same_table s t t' <-> get4 alias t = get4 alias t')
  end.
Proof.
  intros d id u m H G. destruct (proj1 (C27_add d id u m) (conj H G)) as (_ & A & _). exists (new_slave u m). split; [exact A|].
  destruct m as [[al ls]|]; cbn [new_slave sl_unsigned]; (split; [reflexivity|]).
  - split; [intros name K; apply K; reflexivity|]. intros t. unfold has_table, blocks, same_table. cbn [new_slave sl_alias sl_lists].
    split; [tauto|]. split; [intros r ->; reflexivity|tauto].
  - split; [intros name K; apply K; reflexivity|]. split; [intros []; (split; [discriminate|reflexivity])|].
    intros [] []; unfold same_table; cbn; congruence.
Qed.
(** ... and stays signed or unsigned whatever is done to it. *)
Lemma step_signedness s o : reachable s -> sl_unsigned (fst (slave_step s o)) = sl_unsigned s.
Proof.
  intros R. destruct o as [n z a sz|n| |n a v|n a sz|p bc]; cbn [slave_step].
  - unfold add_block. destruct (sz <=? 0); [reflexivity|]. destruct (a <? 0); [reflexivity|]. destruct (assoc _ n _); [reflexivity|].
    destruct (btype_of_Z z) as [t|]; [|reflexivity]. destruct (mem_get s t) as [l|]; [|reflexivity]. destruct (add_block_scan l 0 a sz); [|reflexivity].
    cbn [fst]. etransitivity; [apply mem_set_unsigned|reflexivity].
  - unfold remove_block. destruct (get_block s n) as [[[t i] b]|]; [|reflexivity]. cbn zeta.
    destruct (mem_get _ t); cbn [fst]; [etransitivity; [apply mem_set_unsigned|reflexivity]|reflexivity].
  - reflexivity.
  - assert (P : forall t i b d, sl_unsigned (put_block_data s t i b d) = sl_unsigned s).
    { intros t i b d. unfold put_block_data. destruct (mem_get s t); [apply mem_set_unsigned|reflexivity]. }
    unfold set_values. destruct (get_block s n) as [[[t i] b]|]; [|reflexivity]. cbn zeta. destruct (_ || _); [reflexivity|].
    destruct v; [apply P|]. destruct (py_set _ _ _); [apply P|reflexivity].
  - reflexivity.
  - pose proof (hr_layout s p bc (reachable_wf _ R)) as H. destruct (handle_request s p bc). exact (proj1 H).
Qed.
Lemma broadcast_signedness l pdu id : Forall (fun ks => reachable (snd ks)) l -> forall s s',
  assoc Z.eqb id l = Some s -> assoc Z.eqb id (fst (broadcast_loop l pdu)) = Some s' -> sl_unsigned s' = sl_unsigned s.
Proof.
  induction 1 as [|[k x] t Hx _ IH]; intros s s' A B; [discriminate|]. cbn [snd] in Hx. cbn [broadcast_loop] in B.
  pose proof (proj1 (hr_layout x pdu true (reachable_wf _ Hx))) as U. destruct (handle_request x pdu true) as [x' [r|e]].
  - destruct (broadcast_loop t pdu) as [t' r'] eqn:E. cbn [fst assoc] in *. destruct (Z.eqb id k); [congruence|]. eapply IH; eassumption.
  - cbn [fst assoc] in *. destruct (Z.eqb id k); congruence.
Qed.
Theorem C27_signedness : forall d o id s s', db_reachable d -> get_slave d id = Ok s -> get_slave (db_step d o) id = Ok s' ->
  sl_unsigned s' = sl_unsigned s.
Proof.
  intros d o id s s' D G G'. pose proof (db_reachable_slave d id s D G) as [R U].
  destruct o as [i u m|i| |p r|i op]; cbn [db_step] in G'.
  - destruct (Z.eq_dec i id) as [->|N].
    + destruct (C27_add d id u m) as (_ & _ & K). rewrite (proj2 (K U ltac:(congruence))) in G'. congruence.
    + unfold add_slave in G'. destruct (_ || _); [cbn in G'; congruence|]. destruct (assoc Z.eqb i (db_slaves d)); [cbn in G'; congruence|].
      unfold get_slave in G, G'. cbn [fst with_slaves db_slaves] in G'. rewrite zassoc_put_other in G' by congruence. congruence.
  - unfold remove_slave, get_slave in *. destruct (assoc Z.eqb i (db_slaves d)) eqn:A; [|cbn in G'; congruence]. cbn [fst with_slaves db_slaves] in G'.
    pose proof (db_reachable_inv d D) as (D1 & _).
    destruct (Z.eq_dec i id) as [->|N]; [rewrite zdel_gone in G' by exact D1; discriminate|]. rewrite zassoc_del_other in G' by congruence. congruence.
  - discriminate.
  - unfold db_handle_request in G'. destruct (parse_request p r) as [[[h v] pdu]|e]; [|cbn in G'; congruence].
    destruct (v =? 0).
    + pose proof (db_reachable_inv d D) as DI. destruct (broadcast_loop (db_slaves d) pdu) as [l x] eqn:B.
      assert (K : get_slave (with_slaves d l) id = Ok s') by (destruct x; exact G'). unfold get_slave in K, G. cbn [with_slaves db_slaves] in K.
      destruct (assoc Z.eqb id (db_slaves d)) as [a|] eqn:A; [|discriminate]. destruct (assoc Z.eqb id l) as [a'|] eqn:A'; [|discriminate].
      injection G as ->. injection K as ->. apply (broadcast_signedness (db_slaves d) pdu id) with (s := s); [|exact A|rewrite B; exact A'].
      apply DI.
    + destruct (get_slave d v) as [y|e] eqn:Gv.
      * pose proof (fun R => proj1 (hr_layout y pdu false R)) as HL. destruct (handle_request y pdu false) as [y' x].
        assert (K : get_slave (put_slave d v y') id = Ok s') by (destruct (_ <- x ;; _); exact G'). clear G'.
        destruct (Z.eq_dec id v) as [->|N]; [rewrite get_slave_put_same in K|rewrite get_slave_put_other in K by exact N; congruence].
        injection K as <-. rewrite Gv in G. injection G as ->. apply HL, reachable_wf, R.
      * destruct e; try (cbn in G'; congruence). destruct (db_error_on_missing d); cbn in G'; congruence.
  - destruct (get_slave d i) as [y|e] eqn:Gi; [|congruence].
    destruct (Z.eq_dec id i) as [->|N]; [rewrite get_slave_put_same in G'|rewrite get_slave_put_other in G' by exact N; congruence].
    injection G' as <-. rewrite Gi in G. injection G as ->. apply step_signedness, R.
Qed.
Theorem C27_remove : forall d id, db_reachable d ->
  let d' := fst (remove_slave d id) in
  let r := snd (remove_slave d id) in
  (get_slave d id <> Err MissingKeyError ->
     r = Ok tt /\ get_slave d' id = Err MissingKeyError /\
     forall other, other <> id -> get_slave d' other = get_slave d other) /\
  (get_slave d id = Err MissingKeyError -> r = Err MissingKeyError /\ d' = d).
Proof.
  intros d id D d' r. apply db_reachable_inv in D as (D1 & _). unfold d', r, remove_slave, get_slave.
  destruct (assoc Z.eqb id (db_slaves d)) eqn:A.
  - split; [|discriminate]. intros _. cbn [fst snd with_slaves db_slaves]. split; [reflexivity|].
    rewrite zdel_gone by exact D1. split; [reflexivity|]. intros o Ho. now rewrite zassoc_del_other.
  - split; [congruence|split; reflexivity].
Qed.
Theorem C27_remove_all : forall d id, get_slave (remove_all_slaves d) id = Err MissingKeyError.
Proof. reflexivity. Qed.
(** only ids 1..255 are ever present; calls on a slave and requests neither add nor remove slaves *)
Theorem C27_ids : forall d id s, db_reachable d -> get_slave d id = Ok s -> 1 <= id <= 255.
Proof. intros d id s D G. now apply (db_reachable_slave d id s). Qed.
Theorem C27_requests_keep_slaves : forall d p request id,
  is_ok (get_slave (fst (db_handle_request d p request)) id) = is_ok (get_slave d id).
Proof.
  intros d p request id. unfold db_handle_request. destruct (parse_request p request) as [[[h v] pdu]|e]; [|reflexivity].
  destruct (v =? 0).
  - pose proof (broadcast_keys (db_slaves d) pdu) as K. destruct (broadcast_loop (db_slaves d) pdu) as [l r]. cbn [fst] in K.
    assert (E : is_ok (get_slave (with_slaves d l) id) = is_ok (get_slave d id)).
    { unfold get_slave. cbn [with_slaves db_slaves].
      destruct (assoc Z.eqb id l) eqn:A1, (assoc Z.eqb id (db_slaves d)) eqn:A2; try reflexivity; exfalso.
      - apply zassoc_none in A2. rewrite <- K in A2. apply zassoc_none in A2. congruence.
      - apply zassoc_none in A1. rewrite K in A1. apply zassoc_none in A1. congruence. }
    destruct r; exact E.
  - destruct (get_slave d v) as [s|e] eqn:G.
    + destruct (handle_request s pdu false) as [s' r].
      assert (E : is_ok (get_slave (put_slave d v s') id) = is_ok (get_slave d id)).
      { destruct (Z.eq_dec id v) as [->|N]; [now rewrite get_slave_put_same, G|now rewrite get_slave_put_other]. }
      destruct (_ <- r ;; _); exact E.
    + destruct e; try reflexivity. now destruct (db_error_on_missing d).
Qed.
Example C27_ex : snd (add_slave demo_db 9 true None) = Err DuplicatedKeyError /\ snd (add_slave demo_db 255 true None) = Ok tt /\
  snd (add_slave demo_db 0 true None) = Err GenericException /\ get_slave (fst (remove_slave demo_db 3)) 3 = Err MissingKeyError.
Proof. repeat split. Qed.

(* ------------------------------------------------------------------ C28 *)
(** Requests built by a master, well-formed, for a slave whose tables exist and whose registers are
    storable: the answer is accepted by the master's query and carries the slave's response. *)
Theorem C28_response_parsable_partial : forall d p last pdu u last' h frame s,
  db_reachable d -> 0 <= last <= 65535 -> 1 <= u <= 255 -> well_formed pdu ->
  build_request p last pdu u = (last', Ok (h, frame)) -> get_slave d u = Ok s -> all_tables s -> all_fit s ->
  exists resp rpdu, snd (db_handle_request d p frame) = Ok (Some resp) /\ resp <> [] /\
    parse_response h resp = Ok rpdu /\ snd (handle_request s pdu false) = Ok rpdu.
Proof.
  intros d p last pdu u last' h frame s D T U W E G A F.
  destruct (db_reachable_slave d u s D G) as [R _]. pose proof W as (B & _).
  destruct (hr_total s pdu false (reachable_wf s R) A ltac:(auto) W) as [[r Hr]|[X _]]; [|discriminate].
  destruct (build_request_inv p last pdu u last' h frame B T E) as [L|RT]; [|subst p].
  - destruct (build_request_on_wire p last pdu u B L T ltac:(lia)) as (i & h' & l' & E' & <- & S & _ & P).
    rewrite E in E'. injection E' as <- <- ->.
    exists (on_wire i u r), r. rewrite (db_present d i u pdu s S U G). cbn [snd]. rewrite Hr.
    split; [reflexivity|]. split; [apply on_wire_nonempty|]. split; [|reflexivity]. apply P.
    apply (sendable_response i s pdu false (fst (handle_request s pdu false))); [exact S|]. rewrite <- Hr. now destruct (handle_request s pdu false).
  - cbn [build_request] in E. rewrite QueryProofs.rtu_build_request_ok in E by (auto; unfold is_byte; lia). cbn [bind] in E. injection E as _ <- <-.
    assert (S : sendable None pdu) by (split; [exact B|exact I]).
    assert (Sr : sendable None r).
    { apply (sendable_response None s pdu false (fst (handle_request s pdu false))); [exact S|]. rewrite <- Hr. now destruct (handle_request s pdu false). }
    exists (on_wire None u r), r. change RTU with (proto_of None). change (sealed (u :: pdu)) with (on_wire None u pdu).
    rewrite (db_present d None u pdu s S U G). cbn [snd]. rewrite Hr.
    split; [reflexivity|]. split; [apply on_wire_nonempty|]. split; [|reflexivity]. cbn [parse_response on_wire].
    apply QueryProofs.rtu_parse_response_sealed; [|reflexivity]. destruct Sr as [Br _]. apply QueryProofs.sealed_bytes. constructor; [unfold is_byte; lia|exact Br].
Qed.
(** Without these conditions the answer may be two bytes without any frame, which no master accepts. *)
Theorem C28_refuted :
  ~ (forall d p last pdu u last' h frame resp,
     db_reachable d -> 0 <= last <= 65535 -> 1 <= u <= 255 -> bytes pdu ->
     build_request p last pdu u = (last', Ok (h, frame)) ->
     snd (db_handle_request d p frame) = Ok (Some resp) -> resp <> [] ->
     exists rpdu, parse_response h resp = Ok rpdu).
Proof.
  intros H.
  assert (G : exists last' h frame, build_request TCP 0 [16; 0; 100] 9 = (last', Ok (h, frame)) /\
    snd (db_handle_request demo_db TCP frame) = Ok (Some [144; 4]) /\ parse_response h [144; 4] = Err ModbusInvalidResponseError).
  { eexists _, _, _. split; [vm_compute; reflexivity|]. split; vm_compute; reflexivity. }
  destruct G as (l & h & f & G1 & G2 & G3).
  assert (B : bytes [16; 0; 100]) by (apply bytes_compute; reflexivity).
  destruct (H demo_db TCP 0 [16; 0; 100] 9 l h f [144; 4] demo_db_reachable ltac:(lia) ltac:(lia) B G1 G2 ltac:(discriminate)) as [r E].
  rewrite G3 in E. discriminate E.
Qed.
Example C28_ex : well_formed (3 :: word 100 ++ word 2) /\ exists s, get_slave demo_db 9 = Ok s /\ all_tables s /\ all_fit s.
Proof.
  split.
  - split; [apply bytes_compute; reflexivity|]. split; [discriminate|]. split; [reflexivity|]. split; [vm_compute; congruence|exact I].
  - eexists. split; [vm_compute; reflexivity|]. split; [intros []; vm_compute; discriminate|].
    intros t b v Hb Hv. destruct t; vm_compute in Hb; try (destruct Hb; fail); destruct Hb as [<-|[]]; vm_compute in Hv;
      repeat (destruct Hv as [<-|Hv]; [unfold fits; vm_compute; split; congruence|]); destruct Hv.
Qed.

(* ------------------------------------------------------------------ C29 *)
(** Whatever bytes arrive, unless they are a frame whose function code is 128 or more. *)
Theorem C29_never_raises_partial : forall d p request, bytes request ->
  (forall i u pdu, request = on_wire i u pdu -> proto_of i = p -> hd 0 pdu < 128) ->
  exists r, snd (db_handle_request d p request) = Ok r.
Proof. exact db_total. Qed.
(** Those make handle_request raise struct.error (for a present slave). *)
Theorem C29_refuted : forall d i u fc rest s, sendable i (fc :: rest) -> 1 <= u <= 255 -> get_slave d u = Ok s ->
  128 <= fc -> exists d', db_handle_request d (proto_of i) (on_wire i u (fc :: rest)) = (d', Err StructError).
Proof.
  intros d i u fc rest s S U G H. rewrite (db_present d i u _ s S U G). destruct S as [B _]. inversion_clear B as [|? ? Bf _].
  unfold is_byte in Bf. rewrite (C16_refuted s fc rest false) by lia. cbn [fst snd db_catch].
  rewrite (failure_err _ fc rest eq_refl H). eexists; reflexivity.
Qed.
Example C29_ex : snd (db_handle_request demo_db RTU (on_wire None 9 [200; 1])) = Err StructError /\
  snd (db_handle_request demo_db RTU [1; 2]) = Ok (Some []) /\
  snd (db_handle_request demo_db TCP [0; 1; 0; 0; 0; 99; 9; 3]) = Ok (Some [129; 4]).
Proof. repeat split. Qed.

(* ------------------------------------------------------------------ C61 *)
(** Slave level: a well-formed request is always answered, positively or with an exception response. *)
Theorem C61_always_answered : forall s pdu, reachable s -> all_tables s -> all_fit s -> well_formed pdu ->
  exists fc resp, snd (handle_request s pdu false) = Ok (fc :: resp) /\
    (fc = hd 0 pdu \/ (fc = hd 0 pdu + 128 /\ exists c, resp = [c] /\ 1 <= c <= 3)).
Proof.
  intros s pdu R A F W. destruct (hr_total s pdu false (reachable_wf s R) A ltac:(auto) W) as [[r Hr]|[X _]]; [|discriminate].
  pose proof W as (B & Ne & Hf & _). destruct pdu as [|fc rest]; [congruence|]. cbn [hd] in *.
  assert (Bf : is_byte fc) by now inversion B. unfold is_byte in Bf.
  destruct (handle_request s (fc :: rest) false) as [s' r'] eqn:E. cbn [snd] in Hr. subst r'.
  destruct (C23_response_shape s fc rest false s' r B E) as (_ & _ & [[_ X]|[X|X]]); [discriminate| |].
  - destruct r as [|x resp]; cbn [hd] in X.
    + exfalso. assert (E0 : fc = 0) by lia. subst fc.
      rewrite C16_unsupported_partial in E by (unfold supported; cbn; lia). discriminate.
    + subst x. exists fc, resp. split; [reflexivity|]. now left.
  - destruct r as [|x resp]; cbn [hd] in X; [lia|]. subst x. exists (fc + 128), resp. split; [reflexivity|]. right. split; [reflexivity|].
    destruct (C17_exception_means_unchanged s _ false s' (fc + 128) resp R E ltac:(lia)) as (_ & fc' & r' & c & _ & _ & -> & Hc).
    exists c. split; [reflexivity|]. lia.
Qed.
Example C61_ex : well_formed [43] /\ all_tables (demo true) /\ all_fit (demo true).
Proof.
  split.
  - split; [repeat constructor; unfold is_byte; lia|]. split; [discriminate|]. split; [reflexivity|]. split; [vm_compute; congruence|exact I].
  - split; [intros []; vm_compute; discriminate|]. storable.
Qed.

Print Assumptions C24_routed.
Print Assumptions C24_nobody_else.
Print Assumptions C25_absent.
Print Assumptions C25_flag_irrelevant.
Print Assumptions C26_broadcast_partial.
Print Assumptions C26_broadcast_reads.
Print Assumptions C26_refuted.
Print Assumptions C26_every_slave_refuted.
Print Assumptions C27_add.
Print Assumptions C27_new_slave.
Print Assumptions C27_signedness.
Print Assumptions C27_remove.
Print Assumptions C27_remove_all.
Print Assumptions C27_ids.
Print Assumptions C27_requests_keep_slaves.
Print Assumptions C28_response_parsable_partial.
Print Assumptions C28_refuted.
Print Assumptions C29_never_raises_partial.
Print Assumptions C29_refuted.
Print Assumptions C61_always_answered.
