(** Further theorems of C36, C46, C48 and C67, stated on the calls and the bytes themselves. *)
From Verif Require Import Base BaseFacts Spec StructFacts PyStruct SlaveModel SlaveSpec QueryModel FrameSpec QueryProofs DatabankModel DbSpec DatabankProofs PropDatabank PropFrame
  MasterModel MasterSpec MasterProofs EndSpec EndProofs PropMaster TransportModel TransportSpec TransportProofs PropTransport NetProofs LinkSpec PropSlave AtomicProofs DecodeProofs.
From Coq Require Import Lia ZifyBool ZifyNat.
Ltac Zify.zify_post_hook ::= Z.div_mod_to_equations.
Open Scope string_scope. Open Scope list_scope. Open Scope Z_scope.

(* ------------------------------------------------------------------ C36 *)
(** The frames that a row of calls of execute sends: any arguments, any responses. *)
Fixpoint frames_sent (last : Z) (calls : list (exec_args * (list Z -> Z -> res (list Z)))) : list (list Z) :=
  match calls with
  | [] => []
  | (a, exchange) :: t =>
      let e := execute TCP last a exchange in
      match ex_sent e with Some (frame, _) => [frame] | None => [] end ++ frames_sent (ex_last e) t
  end.
Lemma tcp_sent_tid last pdu u last' m frame : 0 <= last <= 65535 -> tcp_build_request last pdu u = (last', Ok (m, frame)) ->
  last' = (last + 1) mod 65536 /\ firstn 2 frame = word last'.
Proof.
  intros T. unfold tcp_build_request. destruct ((u <? 0) || (255 <? u)); [discriminate|]. rewrite next_tid by lia. unfold mbap_pack, pack. cbn [parse_fmt mb_tid mb_pid mb_len mb_uid].
  intros E. apply pair_equal_spec in E. destruct E as [E1 E2]. split; [now symmetry|]. subst last'.
  change (parse_items "HHHB" None) with (Ok [FInt 2 false; FInt 2 false; FInt 2 false; FInt 1 false]) in E2. cbn [bind pf_items pf_little pack_items] in E2.
  unfold pack_int in E2. destruct (int_in_range 2 false ((last + 1) mod 65536)); [|discriminate]. cbn [bind] in E2.
  destruct (int_in_range 2 false 0); [|discriminate]. cbn [bind] in E2. destruct (int_in_range 2 false (zlen pdu + 1)); [|discriminate]. cbn [bind] in E2.
  destruct (int_in_range 1 false u); [|discriminate]. cbn [bind] in E2. injection E2 as _ <-. cbn [be_bytes app firstn]. unfold word.
  change (256 ^ Z.of_nat 1) with 256. change (256 ^ Z.of_nat 0) with 1. now rewrite Z.div_1_r.
Qed.
Lemma frames_tids calls : forall last, 0 <= last <= 65535 -> forall f, In f (frames_sent last calls) -> exists k, 1 <= k <= zlen calls /\ firstn 2 f = word ((last + k) mod 65536).
Proof.
  induction calls as [|[a x] t IH]; intros last T f H; [destruct H|]. cbn [frames_sent] in H. rewrite zlen_cons. unfold execute in H.
  destruct (execute_build a) as [b|]; cbn [build_request ex_sent ex_last app] in H; [|destruct (IH last T f H) as (k & Hk & E); exists k; split; [lia|exact E]].
  assert (N : forall last', last' = last \/ last' = (last + 1) mod 65536 -> In f (frames_sent last' t) -> exists k, 1 <= k <= 1 + zlen t /\ firstn 2 f = word ((last + k) mod 65536)).
  { intros last' [-> | ->] I.
    - destruct (IH last T f I) as (k & Hk & E). exists k. split; [lia|exact E].
    - destruct (IH ((last + 1) mod 65536) ltac:(lia) f I) as (k & Hk & E). exists (k + 1). split; [lia|]. rewrite E. f_equal. rewrite Zplus_mod_idemp_l. f_equal. lia. }
  destruct (tcp_build_request last (bl_pdu b) (ea_slave a)) as [last' [[m frame]|e]] eqn:B; cbn [bind fst snd ex_sent ex_last app] in H.
  - apply tcp_sent_tid in B as [-> F]; [|lia]. destruct H as [<-|H]; [exists 1; split; [pose proof (zlen_nonneg t); lia|exact F]|]. eauto.
  - apply (N last'); [|exact H]. revert B. unfold tcp_build_request. destruct (_ || _); [intros B; left; congruence|]. intros B. right. rewrite next_tid in B by lia. congruence.
Qed.
Lemma word_inj16 x y : 0 <= x <= 65535 -> 0 <= y <= 65535 -> word x = word y -> x = y.
Proof. unfold word. intros Hx Hy E. assert (E1 : (x / 256) mod 256 = (y / 256) mod 256) by congruence. assert (E2 : x mod 256 = y mod 256) by congruence. clear E. lia. Qed.
(** Up to 65536 calls in a row send frames that all begin with different transaction ids. *)
Theorem C36_calls : forall last calls, 0 <= last <= 65535 -> zlen calls <= 65536 -> NoDup (map (firstn 2) (frames_sent last calls)).
Proof.
  intros last calls. revert last. induction calls as [|[a x] t IH]; intros last T L; [constructor|]. rewrite zlen_cons in L. pose proof (Z.mod_pos_bound (last + 1) 65536 ltac:(lia)) as MB. pose proof (zlen_nonneg t) as ZN. cbn [frames_sent]. unfold execute.
  destruct (execute_build a) as [b|]; cbn [build_request ex_sent ex_last app]; [|apply IH; lia].
  destruct (tcp_build_request last (bl_pdu b) (ea_slave a)) as [last' [[m frame]|e]] eqn:B; cbn [bind fst snd ex_sent ex_last app map].
  - apply tcp_sent_tid in B as [-> F]; [|lia]. constructor; [|apply IH; clear - MB L ZN; lia]. rewrite F. intros I. apply in_map_iff in I. destruct I as (f & E & I).
    apply frames_tids in I; [|lia]. destruct I as (k & Hk & E'). rewrite E' in E. apply word_inj16 in E; lia.
  - apply IH; [|lia]. revert B. unfold tcp_build_request. destruct (_ || _); [intros B; assert (last' = last) by congruence; lia|]. intros B. rewrite next_tid in B by lia.
    assert (last' = (last + 1) mod 65536) by congruence. lia.
Qed.
(** ... and each call that gets past its arguments takes a new one, also when the exchange fails. *)
Theorem C36_advances : forall last a exchange frame n, 0 <= last <= 65535 -> ex_sent (execute TCP last a exchange) = Some (frame, n) ->
  ex_last (execute TCP last a exchange) = (last + 1) mod 65536 /\ firstn 2 frame = word ((last + 1) mod 65536).
Proof.
  intros last a exchange frame n T. unfold execute. destruct (execute_build a) as [b|]; [|discriminate]. cbn [build_request].
  destruct (tcp_build_request last (bl_pdu b) (ea_slave a)) as [last' [[m fr]|e]] eqn:B; [|discriminate]. cbn [bind fst snd ex_sent ex_last]. intros E. injection E as <- _.
  apply tcp_sent_tid in B as [-> F]; [|lia]. auto.
Qed.
Example C36_calls_ex : map (firstn 2) (frames_sent 65534 [(args_of 1 (ReadRegs true 0 1), fun _ _ => Err SocketTimeout); (args_of 300 (ReadRegs true 0 1), fun _ _ => Err SocketTimeout);
  (args_of 1 (WriteReg 0 1), fun _ _ => Ok [])]) = [[255; 255]; [0; 0]].
Proof. vm_compute. reflexivity. Qed.

(* ------------------------------------------------------------------ C46, C48 *)
(** What goes out for a complete request to a slave that answers it: the frame of the answer, whole. *)
Theorem C46_response : forall d c rest tid u pdu s r, 0 <= tid <= 65535 -> bytes pdu -> zlen pdu <= 65534 -> 1 <= u <= 255 -> get_slave d u = Ok s ->
  snd (handle_request s pdu false) = Ok r -> stream c = tcp_frame tid 0 u pdu ++ rest ->
  exists c', serve_client no_tcp_hooks d c = Stays c' (put_slave d u (fst (handle_request s pdu false))) (Some (tcp_frame tid 0 u pdu)) (Some (tcp_frame tid 0 u r)) /\ stream c' = rest.
Proof.
  intros d c rest tid u pdu s r T B L U G H S.
  assert (Sd : sendable (Some (tid, 0)) pdu) by (split; [exact B|cbn; lia]).
  destruct (NetProofs.frame_delimited tid u pdu) as [D Z7]; auto; [lia|unfold is_byte; lia|lia|].
  destruct (C46_one_request d c _ rest D Z7 S) as (c' & SV & R & _). exists c'. split; [|exact R]. rewrite SV. unfold served_request.
  pose proof (db_present d (Some (tid, 0)) u pdu s Sd U G) as P. cbn [proto_of on_wire] in P. rewrite H in P. rewrite P. reflexivity.
Qed.
Theorem C48_response : forall d pieces rest u pdu s r, bytes pdu -> 1 <= u <= 255 -> get_slave d u = Ok s ->
  snd (handle_request s pdu false) = Ok r -> cut_into (on_wire None u pdu) pieces ->
  rtu_do_run no_rtu_hooks true false d (map Burst pieces ++ Silence :: rest) =
  Some {| rt_line := rest; rt_db := put_slave d u (fst (handle_request s pdu false)); rt_handled := Some (on_wire None u pdu); rt_written := Some (on_wire None u r) |}.
Proof.
  intros d pieces rest u pdu s r B U G H C.
  rewrite (C48_one_request false d pieces (on_wire None u pdu) rest); [|discriminate|exact C]. unfold served_request.
  pose proof (db_present d None u pdu s (conj B Logic.I) U G) as P. cbn [proto_of] in P. rewrite H in P. rewrite P. reflexivity.
Qed.

(* ------------------------------------------------------------------ C67 *)
Lemma response_length_two c n : encodable c -> response_length c = Some n -> 2 <= n.
Proof.
  assert (Fs : forall l : list (Z * Z * Z), Forall (fun s => 0 <= snd s) l -> 0 <= fold_right (fun s acc => 2 + 2 * snd s + acc) 0 l).
  { induction l as [|s l IH]; intros H; cbn [fold_right]; [lia|]. inversion_clear H. apply IH in H1. lia. }
  intros E H. destruct c; cbn [response_length] in H; try discriminate H; cbn [encodable] in E; unfold fits in E; cbn iota in E; try (apply some_inj in H; subst n; lia).
  - apply some_inj in H; subst n. destruct E as [_ E]. unfold bytes_for_bits. lia.
  - apply some_inj in H; subst n. destruct E as [_ E]. assert (G : Forall (fun s : Z * Z * Z => 0 <= snd s) subs) by (eapply Forall_impl; [|exact E]; cbn; intros; lia).
    apply Fs in G. lia.
  - destruct data; [discriminate H|]. apply some_inj in H; subst n. rewrite zlen_cons. pose proof (zlen_nonneg data). lia.
Qed.
(** The exception answer of a slave reaches an RtuOverTcpMaster exactly when the normal answer to the call would have no more than its two
    bytes; otherwise the call ends in the timeout. *)
Theorem C67_exact : forall fuel cut_resp last d u c pdu s x code,
  cutting cut_resp -> can_send RTU last u c -> prescribed c pdu -> (255 <= fuel)%nat ->
  db_reachable d -> get_slave d u = Ok s -> snd (handle_request s pdu false) = Ok [x; code] -> 128 < x ->
  ex_result (snd (over_rtu_tcp fuel cut_resp last d u c)) =
    Some (Err (match response_length c with Some 2 => ModbusError code | _ => SocketTimeout end)).
Proof.
  intros fuel cut_resp last d u c pdu s x code C2 (E & T & _ & F) P FU D G H HD. specialize (F _ P).
  destruct (db_reachable_slave d u s D G) as [Rs U]. apply reachable_wf in Rs.
  destruct (execute_exact RTU last u c pdu E P F T ltac:(lia)) as (h & last' & _ & S & PR & X).
  unfold over_rtu_tcp. rewrite X. cbn [snd ex_result]. set (w := on_wire (ids_for RTU last) u pdu) in *.
  assert (DB : db_handle_request d RTU w = (put_slave d u (fst (handle_request s pdu false)), Ok (Some (on_wire (ids_for RTU last) u [x; code])))).
  { unfold w. change RTU with (proto_of (ids_for RTU last)) at 1. rewrite (db_present d (ids_for RTU last) u pdu s S U G), H. reflexivity. }
  set (wr := on_wire (ids_for RTU last) u [x; code]) in *.
  assert (SE : sent (Some wr) = Some wr) by reflexivity.
  unfold rtu_tcp_exchange, served_request. rewrite DB. cbn [fst snd]. rewrite SE.
  assert (ZW : zlen wr = 5) by reflexivity.
  assert (ST : stream {| c_segs := cut_resp wr; c_end := Stalled |} = wr) by (apply C2).
  assert (Case : expected_call c = 5 /\ response_length c = Some 2 \/
    (5 < expected_call c \/ expected_call c < 0) /\ match response_length c with Some 2 => ModbusError code | _ => SocketTimeout end = SocketTimeout).
  { unfold expected_call. destruct (response_length c) as [n|] eqn:RL; [|right; split; [lia|reflexivity]]. pose proof (response_length_two c n E RL).
    destruct (Z.eq_dec n 2) as [-> | N]; [left; auto|right]. split; [lia|]. destruct n as [|[p|[p|p|]|]|]; try reflexivity; lia. }
  destruct Case as [[-> ->]|[B ->]].
  - rewrite <- ZW. destruct (C49_complete_partial {| c_segs := cut_resp wr; c_end := Stalled |} wr [] fuel) as (c' & RV & _).
    + apply on_wire_nonempty.
    + lia.
    + now rewrite app_nil_r.
    + unfold zlen in ZW. lia.
    + rewrite RV. cbn [bind].
      assert (BW : bytes wr). { destruct pdu as [|fc rest]; [discriminate H|]. assert (HB : bytes [x; code]) by (apply (C23_response_shape s fc rest false (fst (handle_request s (fc :: rest) false))); [apply S|rewrite <- H; now destruct (handle_request s (fc :: rest) false)]).
        apply sealed_bytes. constructor; [unfold is_byte; lia|exact HB]. }
      assert (Q : parse_response h wr = Ok [x; code]) by (apply PR; [exact BW|]; split; [exact I|reflexivity]).
      rewrite Q. now apply decode_exception.
  - destruct (C49_timeout_partial {| c_segs := cut_resp wr; c_end := Stalled |} (expected_call c) fuel) as (c' & RV); rewrite ?ST.
    + reflexivity.
    + lia.
    + lia.
    + unfold zlen in ZW. lia.
    + rewrite RV. reflexivity.
Qed.

Example C67_exact_ex : exists s, get_slave demo_db 3 = Ok s /\ snd (handle_request s [1; 0; 0; 0; 0] false) = Ok [129; 3] /\ snd (handle_request s [3; 0; 0; 0; 2] false) = Ok [131; 2] /\
  ex_result (snd (over_rtu_tcp 255 one_by_one 0 demo_db 3 (ReadBits true 0 0))) = Some (Err (ModbusError 3)) /\
  ex_result (snd (over_rtu_tcp 255 one_by_one 0 demo_db 3 (ReadRegs true 0 2))) = Some (Err SocketTimeout).
Proof. eexists. split; [vm_compute; reflexivity|]. split; [vm_compute; reflexivity|]. split; [vm_compute; reflexivity|]. split; vm_compute; reflexivity. Qed.

Print Assumptions C36_calls.
Print Assumptions C36_advances.
Print Assumptions C46_response.
Print Assumptions C48_response.
Print Assumptions C67_exact.
