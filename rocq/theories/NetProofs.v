(** Proofs about the network of masters and a server. *)
From Verif Require Import Base BaseFacts Spec StructFacts StructMore PyStruct SlaveModel UtilsModel QueryModel DatabankModel MasterModel MasterSpec MasterProofs FrameSpec QueryProofs
  DbSpec DatabankProofs TransportModel TransportSpec TransportProofs LinkSpec PropTransport SessionModel PropSession ConcProofs NetModel NetSpec.

(** ** A call sends one frame or nothing *)
Lemma Forall_decide {A} (P : A -> Prop) l : (forall x, P x \/ ~ P x) -> Forall P l \/ ~ Forall P l.
Proof.
  intros D. induction l as [|x t [I|I]]; [left; constructor| |right; intros H; inversion H; auto].
  destruct (D x) as [H|H]; [left; now constructor|right; intros Q; inversion Q; auto].
Qed.
Lemma and_decide (P Q : Prop) : P \/ ~ P -> Q \/ ~ Q -> (P /\ Q) \/ ~ (P /\ Q).
Proof. tauto. Qed.
Lemma encodable_decide c : encodable c \/ ~ encodable c.
Proof.
  destruct c; cbn [encodable]; repeat apply and_decide; try apply Forall_decide; intros; repeat apply and_decide; try apply Forall_decide; intros;
    unfold fits, reg_value, is_byte, bytes; try lia; auto.
Qed.
Lemma call_bytes u c b : (forall pdu, c = Raw pdu -> bytes pdu) -> execute_build (args_of u c) = Ok b -> bytes (bl_pdu b).
Proof.
  intros R H. destruct (encodable_decide c) as [E|E].
  - destruct (build_call u c E) as (pdu & _ & B & X). rewrite X in H. injection H as <-. exact B.
  - destruct c; try (destruct (build_err u _ E ltac:(discriminate)) as [e X]; congruence). exfalso. apply E. cbn. now apply R.
Qed.
Lemma frame_delimited t u pdu : 0 <= t < 65536 -> is_byte u -> bytes pdu -> zlen pdu < 65535 ->
  self_delimited (tcp_frame t 0 u pdu) /\ 7 <= zlen (tcp_frame t 0 u pdu).
Proof.
  intros T U B L. pose proof (zlen_nonneg pdu). assert (By : bytes (tcp_frame t 0 u pdu)) by (apply tcp_frame_bytes; auto; lia).
  unfold tcp_frame, word in *. cbn [app] in *. split; [|rewrite !zlen_cons; lia].
  do 7 eexists. split; [reflexivity|]. split; [|exact By]. rewrite zlen_cons. lia.
Qed.
(** What a call does before it waits for an answer does not depend on the answer. *)
Lemma execute_before last a ex ex' : ex_last (execute TCP last a ex) = ex_last (execute TCP last a ex') /\
  ex_sent (execute TCP last a ex) = ex_sent (execute TCP last a ex').
Proof.
  unfold execute. destruct (execute_build a); [|auto]. cbn [build_request]. destruct (tcp_build_request last _ _) as [l [[h r]|e]]; auto.
Qed.
Lemma execute_nothing last a ex ex' : ex_sent (execute TCP last a ex) = None -> execute TCP last a ex' = execute TCP last a ex.
Proof.
  unfold execute. destruct (execute_build a); [|auto]. cbn [build_request]. destruct (tcp_build_request last _ _) as [l [[h r]|e]]; auto. discriminate.
Qed.
Lemma execute_congr last a ex ex' w n : ex_sent (execute TCP last a ex) = Some (w, n) -> ex w n = ex' w n ->
  execute TCP last a ex = execute TCP last a ex'.
Proof.
  unfold execute. destruct (execute_build a); [|auto]. cbn [build_request]. destruct (tcp_build_request last _ _) as [l [[h r]|e]]; auto.
  cbn [bind fst snd ex_sent]. intros [= <- <-] ->. reflexivity.
Qed.
Lemma last_range last a ex : 0 <= last <= 65535 -> 0 <= ex_last (execute TCP last a ex) <= 65535.
Proof.
  intros T. unfold execute. destruct (execute_build a); [|exact T]. cbn [build_request]. unfold tcp_build_request.
  destruct (_ || _); cbn [ex_last]; [exact T|]. destruct (bind _ _) as [[h r]|e]; cbn [ex_last]; rewrite next_tid by lia; lia.
Qed.
Lemma sent_frame last u c ex w n : 0 <= last <= 65535 -> (forall pdu, c = Raw pdu -> bytes pdu) ->
  ex_sent (execute TCP last (args_of u c) ex) = Some (w, n) -> self_delimited w /\ 7 <= zlen w.
Proof.
  intros T R S. assert (T' : 0 <= last < 65536) by lia.
  destruct (execute_sent last _ ex _ w n T' eq_refl S) as (b & EB & _ & U & L & _ & -> & _).
  apply frame_delimited; auto; [rewrite next_tid by lia; lia|]. eapply call_bytes; eauto.
Qed.

(** ** The connection *)
Lemma end_of_silence segs : concat segs = [] -> tcp_master_recv no_hook {| c_segs := segs; c_end := Stalled |} =
  Some ({| c_segs := segs; c_end := Stalled |}, Err SocketTimeout).
Proof.
  intros H. unfold tcp_master_recv. destruct tcp_recv_fuel eqn:F; [apply (f_equal Z.of_nat) in F; unfold tcp_recv_fuel in F; rewrite Z2Nat.id in F; lia|].
  cbn [tcp_recv_loop]. rewrite recv_nil by exact H. reflexivity.
Qed.
Lemma served_bytes d t u pdu out : 0 <= t < 65536 -> is_byte u -> bytes pdu -> zlen pdu < 65535 ->
  snd (served_request d TCP (tcp_frame t 0 u pdu)) = Some out -> bytes out.
Proof.
  intros T U B L. assert (Sd : sendable (Some (t, 0)) pdu) by (split; [exact B|lia]). unfold is_byte in U.
  assert (CB : forall e p r, db_catch e p = Ok (Some r) -> bytes r).
  { assert (FB : forall p r, failure_response p = Ok (Some r) -> bytes r).
    { intros p r. unfold failure_response. repeat match goal with |- context [bind ?x _] => destruct x eqn:?; cbn [bind]; [|discriminate] end.
      intros [= <-]. eauto using pack_bytes_ok. }
    intros e p r. unfold db_catch. destruct e; try (intros [= <-]; constructor); apply FB. }
  assert (SB : forall r : response, match r with Some r => bytes r | None => True end -> sent r = Some out -> bytes out).
  { intros [[|b r]|] H; try discriminate. intros [= <-]. exact H. }
  unfold served_request. change (tcp_frame t 0 u pdu) with (on_wire (Some (t, 0)) u pdu). change TCP with (proto_of (Some (t, 0))).
  destruct (Z.eq_dec u 0) as [->|Nu].
  - rewrite (db_broadcast d (Some (t, 0)) pdu Sd). cbn [snd]. destruct (snd (broadcast_loop _ _)); [discriminate|].
    destruct (db_catch e pdu) as [r|] eqn:C; [|discriminate]. apply SB. destruct r; [eapply CB; eauto|exact I].
  - assert (U1 : 1 <= u <= 255) by lia. destruct (get_slave d u) as [s|e] eqn:G.
    + rewrite (db_present d (Some (t, 0)) u pdu s Sd U1 G). cbn [snd]. destruct (handle_request s pdu false) as [s' [r|e]] eqn:H; cbn [snd].
      * apply SB. apply on_wire_bytes; [unfold is_byte; lia|]. eapply sendable_response; eauto.
      * destruct (db_catch e pdu) as [r|] eqn:C; [|discriminate]. apply SB. destruct r; [eapply CB; eauto|exact I].
    + rewrite (get_slave_err _ _ _ G) in G. rewrite (db_absent d (Some (t, 0)) u pdu Sd U1 G). discriminate.
Qed.

(** ** One call alone *)
Lemma one_piece_cutting : cutting in_one_piece.
Proof. intros [|x l]; (split; [cbn; now rewrite ?app_nil_r|]); repeat constructor. discriminate. Qed.
Lemma cut_stream cut l : cutting cut -> concat (cut l) = l.
Proof. intros C. apply C. Qed.

Lemma alone_nothing last d u c ex : ex_sent (execute TCP last (args_of u c) ex) = None ->
  over_tcp in_one_piece in_one_piece last d u c = (d, execute TCP last (args_of u c) ex).
Proof.
  intros N. unfold over_tcp. rewrite (execute_nothing _ _ ex _ N). rewrite N. reflexivity.
Qed.
Definition reply_stream (out : option (list Z)) : list Z := match out with Some b => b | None => [] end.
Lemma alone_sent last d u c w n segs kk r : (forall ex, ex_sent (execute TCP last (args_of u c) ex) = Some (w, n)) -> self_delimited w -> 7 <= zlen w ->
  concat segs = reply_stream (snd (served_request d TCP w)) ->
  tcp_master_recv no_hook {| c_segs := segs; c_end := Stalled |} = Some (kk, r) ->
  over_tcp in_one_piece in_one_piece last d u c = (fst (served_request d TCP w), execute TCP last (args_of u c) (fun _ _ => r)).
Proof.
  intros Sx D L C R. unfold over_tcp. rewrite Sx.
  destruct (C46_one_request d {| c_segs := in_one_piece w; c_end := Stalled |} w [] D L) as (c' & SV & _).
  { unfold stream. cbn [c_segs]. rewrite app_nil_r. apply cut_stream, one_piece_cutting. }
  rewrite SV. f_equal. apply (execute_congr last _ _ _ w n); [apply Sx|]. unfold tcp_exchange. rewrite SV.
  destruct (snd (served_request d TCP w)) as [out|]; cbn [reply_stream] in C.
  - pose proof (C45_segmentation {| c_segs := in_one_piece out; c_end := Stalled |} {| c_segs := segs; c_end := Stalled |}) as G.
    rewrite R in G. destruct (tcp_master_recv no_hook {| c_segs := in_one_piece out; c_end := Stalled |}) as [[k0 r0]|].
    + apply G. split; [|reflexivity]. unfold stream. cbn [c_segs]. rewrite C. apply cut_stream, one_piece_cutting.
    + exfalso. apply G. split; [|reflexivity]. unfold stream. cbn [c_segs]. rewrite C. apply cut_stream, one_piece_cutting.
  - rewrite end_of_silence in R by exact C. congruence.
Qed.

(** ** The invariant *)
Definition peer_inv (last_i : Z) (program calls : list (Z * call)) (results : list (option (res exec_result))) (k : peer) : Prop :=
  0 <= k_last k <= 65535 /\ exists returned, length returned = length (k_done k) /\
  match k_phase k with
  | Idle => program = returned ++ k_todo k /\ concat (c_segs (k_up k)) = [] /\ last_i = k_last k /\ calls = returned /\ results = k_done k
  | Asked u c => program = returned ++ (u, c) :: k_todo k /\ last_i = k_last k /\ calls = returned /\ results = k_done k /\
      c_end (k_up k) = Stalled /\ c_end (k_down k) = Stalled /\ concat (c_segs (k_down k)) = [] /\
      exists w n, (forall ex, ex_sent (execute TCP (k_last k) (args_of u c) ex) = Some (w, n)) /\ stream (k_up k) = w
  | Handled u c => program = returned ++ (u, c) :: k_todo k /\ calls = returned ++ [(u, c)] /\ concat (c_segs (k_up k)) = [] /\
      exists kk r, tcp_master_recv no_hook (k_down k) = Some (kk, r) /\
        last_i = ex_last (execute TCP (k_last k) (args_of u c) (fun _ _ => r)) /\
        results = k_done k ++ [ex_result (execute TCP (k_last k) (args_of u c) (fun _ _ => r))]
  end.

Lemma calls_by_app i h h' : calls_by i (h ++ h') = calls_by i h ++ calls_by i h'.
Proof. induction h as [|[j u c r|o] t IH]; cbn; [reflexivity| |exact IH]. destruct (Nat.eqb i j); cbn; now rewrite IH. Qed.
Lemma results_of_app i h h' : results_of i (h ++ h') = results_of i h ++ results_of i h'.
Proof. induction h as [|[j u c r|o] t IH]; cbn; [reflexivity| |exact IH]. destruct (Nat.eqb i j); cbn; now rewrite IH. Qed.
Lemma direct_ops_app h h' : direct_ops (h ++ h') = direct_ops h ++ direct_ops h'.
Proof. induction h as [|[j u c r|o] t IH]; cbn; [reflexivity|exact IH|now rewrite IH]. Qed.
Lemma direct_actions_app h h' : direct_actions (h ++ h') = direct_actions h ++ direct_actions h'.
Proof. induction h as [|[? ?|? ?|?|o] t IH]; cbn; try exact IH; [reflexivity|now rewrite IH]. Qed.

Definition raw_ok (program : list (Z * call)) : Prop := forall u pdu, In (u, Raw pdu) program -> bytes pdu.

(** What the steps of one master do to its part of the invariant. *)
Lemma send_inv cut last_i program calls results k : cutting cut -> raw_ok program -> peer_inv last_i program calls results k ->
  (peer_inv last_i program calls results (peer_send cut k)) \/
  (exists u c e, (forall d, over_tcp in_one_piece in_one_piece last_i d u c = (d, e)) /\
     peer_inv (ex_last e) program (calls ++ [(u, c)]) (results ++ [ex_result e]) (peer_send cut k)).
Proof.
  intros C RO (T & ret & Lr & H). unfold peer_send. destruct (k_phase k) as [|u c|u c] eqn:P; try (left; split; [exact T|]; exists ret; rewrite P; tauto).
  destruct (k_todo k) as [|[u c] rest] eqn:TD; [left; split; [exact T|]; exists ret; rewrite P, TD; tauto|].
  destruct H as (Hp & Hu & -> & -> & ->). set (ex0 := fun (_ : list Z) (_ : Z) => @Err (list Z) NotModelled).
  destruct (ex_sent (execute TCP (k_last k) (args_of u c) ex0)) as [[w n]|] eqn:S.
  - left. destruct (tcp_master_send no_hook _ (Ok tt) w) as [[[b|] out]|e] eqn:M.
    + destruct (C66_no_stale_bytes _ _ _ _ _ M) as [-> [Hb _]]. split; [exact T|]. exists ret. cbn [k_done k_phase k_todo k_last k_up k_down c_end c_segs].
      split; [exact Lr|]. repeat (split; [tauto || reflexivity || (cbn; now rewrite Hb) || auto|]).
      exists w, n. split; [intros ex; rewrite <- S; apply execute_before|]. unfold stream. cbn [c_segs]. rewrite concat_app, Hu. now apply cut_stream.
    + destruct (C66_no_stale_bytes _ _ _ _ _ M) as [-> _]. split; [exact T|]. exists ret. cbn [k_done k_phase k_todo k_last k_up k_down c_end c_segs].
      split; [exact Lr|]. repeat (split; [tauto || reflexivity || auto|]).
      exists w, n. split; [intros ex; rewrite <- S; apply execute_before|]. unfold stream. cbn [c_segs]. now apply cut_stream.
    + exfalso. unfold tcp_master_send in M. destruct (flush_socket _ 3) as [? [?|?]]; discriminate M.
  - right. exists u, c, (execute TCP (k_last k) (args_of u c) ex0). split; [intros d; apply alone_nothing; exact S|].
    split; [cbn [k_last]; now apply last_range|]. exists (ret ++ [(u, c)]). cbn [k_done k_phase k_todo k_last k_up k_down].
    split; [rewrite !app_length; cbn; lia|]. split; [rewrite <- app_assoc; exact Hp|]. auto.
Qed.
Lemma serve_inv cut d last_i program calls results k : cutting cut -> raw_ok program -> peer_inv last_i program calls results k ->
  (peer_serve cut d k = (d, k) /\ forall u c, k_phase k <> Asked u c) \/
  (exists u c d' e k', peer_serve cut d k = (d', k') /\ over_tcp in_one_piece in_one_piece last_i d u c = (d', e) /\
     peer_inv (ex_last e) program (calls ++ [(u, c)]) (results ++ [ex_result e]) k').
Proof.
  intros C RO (T & ret & Lr & H). unfold peer_serve. destruct (k_phase k) as [|u c|u c] eqn:P; try (left; split; [reflexivity|discriminate]). right.
  destruct H as (Hp & -> & -> & -> & Eu & Ed & Hd & w & n & Sx & Hw).
  assert (RC : forall pdu, c = Raw pdu -> bytes pdu) by (intros pdu ->; apply (RO u); rewrite Hp; apply in_or_app; right; now left).
  destruct (sent_frame (k_last k) u c (fun _ _ => Err NotModelled) w n T RC (Sx _)) as [D L].
  destruct (C46_one_request d (k_up k) w [] D L) as (up & SV & Su & _); [now rewrite app_nil_r|]. rewrite SV.
  set (out := snd (served_request d TCP w)) in *.
  set (down := {| c_segs := c_segs (k_down k) ++ match out with Some b => cut b | None => [] end; c_end := Stalled |}).
  assert (Sd : stream down = reply_stream out).
  { unfold stream, down. cbn [c_segs]. rewrite concat_app, Hd. destruct out; [now apply cut_stream|reflexivity]. }
  assert (TR : tcp_master_recv no_hook down <> None).
  { apply C45_terminates. rewrite Sd. destruct out as [b|] eqn:O; [|constructor]. cbn [reply_stream]. unfold out in O.
    destruct (execute_sent (k_last k) _ (fun _ _ => Err NotModelled) _ w n ltac:(lia) eq_refl (Sx _)) as (bl & EB & _ & U & Lp & _ & Ew & _).
    rewrite Ew in O. eapply served_bytes; [| | | |exact O]; auto; [rewrite next_tid by lia; lia|]. eapply call_bytes; eauto. }
  destruct (tcp_master_recv no_hook down) as [[kk r]|] eqn:R; [|congruence].
  exists u, c, (fst (served_request d TCP w)), (execute TCP (k_last k) (args_of u c) (fun _ _ => r)). eexists. split; [reflexivity|]. split.
  - apply (alone_sent (k_last k) d u c w n (c_segs down) kk r Sx D L); [exact Sd|]. exact R.
  - split; [exact T|]. exists ret. cbn [k_done k_phase k_todo k_last k_up k_down]. split; [exact Lr|]. split; [exact Hp|]. split; [reflexivity|].
    split; [exact Su|]. exists kk, r. auto.
Qed.
Lemma recv_inv last_i program calls results k : peer_inv last_i program calls results k ->
  peer_inv last_i program calls results (peer_recv k).
Proof.
  intros (T & ret & Lr & H). unfold peer_recv. destruct (k_phase k) as [|u c|u c] eqn:P; try (split; [exact T|]; exists ret; rewrite P; tauto).
  destruct H as (Hp & -> & Hu & kk & r & R & -> & ->). rewrite R. split; [cbn [k_last]; now apply last_range|]. exists (ret ++ [(u, c)]).
  cbn [k_done k_phase k_todo k_last k_up k_down]. split; [rewrite !app_length; cbn; lia|]. split; [rewrite <- app_assoc; exact Hp|]. auto.
Qed.

(** ** The network *)
Definition net_inv (d0 : databank) (programs : list (list (Z * call))) (w : network) (h : list happening) : Prop :=
  exists lasts, one_by_one d0 h (net_db w) lasts /\ length (net_peers w) = length programs /\
  (forall i u c r, In (Called i u c r) h -> (i < length programs)%nat) /\
  forall i program k, nth_error programs i = Some program -> nth_error (net_peers w) i = Some k ->
    peer_inv (lasts i) program (calls_by i h) (results_of i h) k.
Definition upd_last (lasts : nat -> Z) (i : nat) (v : Z) : nat -> Z := fun j => if Nat.eqb j i then v else lasts j.

Lemma net_quiet d0 programs w h i k k' :
  net_inv d0 programs w h -> nth_error (net_peers w) i = Some k ->
  (forall last_i program calls results, nth_error programs i = Some program -> peer_inv last_i program calls results k -> peer_inv last_i program calls results k') ->
  net_inv d0 programs {| net_db := net_db w; net_peers := list_upd (net_peers w) i k' |} h.
Proof.
  intros (lasts & O & L & B & P) N K. exists lasts. split; [exact O|]. split; [cbn [net_peers]; now rewrite list_upd_length|]. split; [exact B|].
  intros j program kj Np Nk. cbn [net_peers] in Nk. destruct (nth_upd _ _ _ _ _ _ N Nk) as [[-> ->]|[D Nk']]; eauto.
Qed.
Lemma net_called d0 programs w h i k k' u c d' e lasts :
  one_by_one d0 h (net_db w) lasts -> length (net_peers w) = length programs ->
  (forall i u c r, In (Called i u c r) h -> (i < length programs)%nat) ->
  (forall i program k, nth_error programs i = Some program -> nth_error (net_peers w) i = Some k ->
    peer_inv (lasts i) program (calls_by i h) (results_of i h) k) ->
  nth_error (net_peers w) i = Some k ->
  over_tcp in_one_piece in_one_piece (lasts i) (net_db w) u c = (d', e) ->
  (forall program, nth_error programs i = Some program ->
     peer_inv (ex_last e) program (calls_by i h ++ [(u, c)]) (results_of i h ++ [ex_result e]) k') ->
  net_inv d0 programs {| net_db := d'; net_peers := list_upd (net_peers w) i k' |} (h ++ [Called i u c (ex_result e)]).
Proof.
  intros O L B P N A K. exists (upd_last lasts i (ex_last e)). split.
  { cbn [net_db]. eapply ob_call; eauto; unfold upd_last; [now rewrite Nat.eqb_refl|]. intros j D. destruct (Nat.eqb_spec j i); [contradiction|reflexivity]. }
  split; [cbn [net_peers]; now rewrite list_upd_length|]. split.
  { intros j u0 c0 r0 I. apply in_app_or in I. destruct I as [I|[I|[]]]; [eauto|]. injection I as -> _ _ _. rewrite <- L. apply nth_error_Some. congruence. }
  intros j program kj Np Nk. cbn [net_peers] in Nk. rewrite calls_by_app, results_of_app. cbn [calls_by results_of]. unfold upd_last.
  destruct (nth_upd _ _ _ _ _ _ N Nk) as [[-> ->]|[D Nk']].
  - rewrite Nat.eqb_refl. auto.
  - destruct (Nat.eqb_spec j i); [contradiction|]. rewrite !app_nil_r. eauto.
Qed.
Definition new_ops (a : action) : list db_op := match a with Direct o => [o] | _ => [] end.
Lemma net_step_inv d0 programs w h a : byte_strings programs -> fair_cuts [a] -> net_inv d0 programs w h ->
  exists h', net_inv d0 programs (net_step w a) (h ++ h') /\ direct_ops h' = new_ops a.
Proof.
  intros RB F V. inversion F as [|? ? Fa _]; subst. assert (RO : forall i program, nth_error programs i = Some program -> raw_ok program).
  { intros i program N u pdu I. eapply RB; eauto using nth_error_In. }
  destruct a as [i cut|i cut|i|o]; cbn [net_step new_ops].
  - destruct (nth_error (net_peers w) i) as [k|] eqn:N; [|exists []; rewrite app_nil_r; auto].
    pose proof V as (lasts & O & L & B & P).
    destruct (nth_error programs i) as [program|] eqn:Np; [|exfalso; apply nth_error_None in Np; rewrite <- L in Np; apply nth_error_None in Np; congruence].
    destruct (send_inv cut _ _ _ _ _ Fa (RO _ _ Np) (P _ _ _ Np N)) as [K|(u & c & e & A & K)].
    + exists []. rewrite app_nil_r. split; [|reflexivity]. exists lasts. split; [exact O|]. split; [cbn [net_peers]; now rewrite list_upd_length|]. split; [exact B|].
      intros j program' kj Np' Nk. cbn [net_peers] in Nk. destruct (nth_upd _ _ _ _ _ _ N Nk) as [[-> ->]|[D Nk']]; [|eauto]. rewrite Np in Np'. injection Np' as <-. exact K.
    + exists [Called i u c (ex_result e)]. split; [|reflexivity]. eapply net_called; eauto. intros program' Np'. rewrite Np in Np'. injection Np' as <-. exact K.
  - destruct (nth_error (net_peers w) i) as [k|] eqn:N; [|exists []; rewrite app_nil_r; auto].
    pose proof V as (lasts & O & L & B & P).
    destruct (nth_error programs i) as [program|] eqn:Np; [|exfalso; apply nth_error_None in Np; rewrite <- L in Np; apply nth_error_None in Np; congruence].
    destruct (serve_inv cut (net_db w) _ _ _ _ _ Fa (RO _ _ Np) (P _ _ _ Np N)) as [[K _]|(u & c & d' & e & k' & E & A & K)].
    + rewrite K. exists []. rewrite app_nil_r. split; [|reflexivity]. eapply net_quiet; eauto.
    + rewrite E. exists [Called i u c (ex_result e)]. split; [|reflexivity]. eapply net_called; eauto. intros program' Np'. rewrite Np in Np'. injection Np' as <-. exact K.
  - exists []. rewrite app_nil_r. split; [|reflexivity]. destruct (nth_error (net_peers w) i) as [k|] eqn:N; [|exact V].
    eapply net_quiet; eauto using recv_inv.
  - exists [Did o]. split; [|reflexivity]. destruct V as (lasts & O & L & B & P). exists lasts. split; [now apply ob_did|]. split; [exact L|]. split.
    + intros i u c r I. apply in_app_or in I. destruct I as [I|[I|[]]]; [eauto|discriminate I].
    + intros i program k Np N. rewrite calls_by_app, results_of_app. cbn [calls_by results_of]. rewrite !app_nil_r. eauto.
Qed.
Lemma net_run_inv d0 programs schedule : forall w h, byte_strings programs -> fair_cuts schedule -> net_inv d0 programs w h ->
  exists h', net_inv d0 programs (net_run w schedule) (h ++ h') /\ direct_ops h' = direct_actions schedule.
Proof.
  induction schedule as [|a t IH]; intros w h RB F V; [exists []; rewrite app_nil_r; auto|].
  inversion F; subst. destruct (net_step_inv d0 programs w h a RB) as (h1 & V1 & D1); [now repeat constructor|exact V|].
  destruct (IH _ _ RB ltac:(eassumption) V1) as (h2 & V2 & D2). exists (h1 ++ h2). rewrite app_assoc. split; [exact V2|].
  rewrite direct_ops_app, D1, D2. now destruct a.
Qed.
Lemma net_start_inv d0 programs : net_inv d0 programs (network_of d0 programs) [].
Proof.
  exists (fun _ => 0). split; [constructor; reflexivity|]. split; [apply map_length|]. split; [intros i u c r []|].
  intros i program k Np N. cbn [network_of net_peers] in N. rewrite nth_error_map, Np in N. injection N as <-.
  split; [cbn; lia|]. exists []. cbn. repeat split; reflexivity.
Qed.
Lemma inv_explains d0 programs schedule w h : net_inv d0 programs w h -> direct_ops h = direct_actions schedule -> explains d0 programs schedule w h.
Proof.
  intros (lasts & O & L & B & P) D. split; [eauto|]. split; [exact D|]. split; [exact L|]. split; [exact B|].
  intros i program k Np N. destruct (P _ _ _ Np N) as (T & ret & Lr & H). exists ret. destruct (k_phase k) as [|u c|u c].
  - destruct H as (Hp & _ & _ & Hc & Hr). split; [exact Hp|]. split; [exact Lr|]. left. auto.
  - destruct H as (Hp & _ & Hc & Hr & _). split; [exact Hp|]. split; [exact Lr|]. left. auto.
  - destruct H as (Hp & Hc & _ & kk & r & _ & _ & Hr). split; [exact Hp|]. split; [exact Lr|]. right. do 3 eexists. split; [right; reflexivity|]. split; [exact Hc|exact Hr].
Qed.

(** ** Progress *)
Definition rank (k : peer) : nat :=
  (3 * length (k_todo k) + match k_phase k with Idle => 0 | Asked _ _ => 2 | Handled _ _ => 1 end)%nat.
Lemma rank_send cut k : (rank (peer_send cut k) <= rank k /\ (rank k = 3 * length (k_todo k) -> 0 < rank k -> rank (peer_send cut k) < rank k))%nat.
Proof.
  unfold peer_send, rank. destruct (k_phase k) as [|u c|u c] eqn:P; [|cbn [k_phase k_todo]; rewrite P; lia|rewrite P; lia].
  destruct (k_todo k) as [|[u c] rest] eqn:TD; [rewrite P, TD; cbn [length]; lia|].
  destruct (ex_sent _) as [[w n]|]; [|cbn [k_phase k_todo length]; lia].
  destruct (tcp_master_send no_hook _ (Ok tt) w) as [[[b|] out]|e] eqn:M; cbn [k_phase k_todo length]; try lia.
  unfold tcp_master_send in M. destruct (flush_socket _ 3) as [? [?|?]]; discriminate M.
Qed.
Lemma rank_serve cut d k : (rank (snd (peer_serve cut d k)) <= rank k)%nat.
Proof. unfold peer_serve, rank. destruct (k_phase k) eqn:P; cbn [snd]; rewrite ?P; try lia. destruct (serve_client _ _ _); cbn [snd k_phase k_todo]; rewrite ?P; lia. Qed.
Lemma rank_recv k : (rank (peer_recv k) <= rank k)%nat.
Proof. unfold peer_recv, rank. destruct (k_phase k) eqn:P; cbn [snd]; rewrite ?P; try lia. destruct (tcp_master_recv _ _) as [[? ?]|]; cbn [snd k_phase k_todo]; rewrite ?P; lia. Qed.
Lemma serve_moves cut d last_i program calls results k u c : cutting cut -> raw_ok program -> peer_inv last_i program calls results k ->
  k_phase k = Asked u c -> (rank (snd (peer_serve cut d k)) < rank k)%nat.
Proof.
  intros C R V P. destruct (serve_inv cut d _ _ _ _ _ C R V) as [[_ N]|(u' & c' & d' & e & k' & E & _ & _)]; [now apply N in P|].
  unfold peer_serve in *. rewrite P in *. unfold rank. rewrite P. destruct (serve_client no_tcp_hooks d (k_up k)) eqn:S; cbn [snd k_phase k_todo]; try lia.
  all: exfalso; destruct V as (T & ret & Lr & H); rewrite P in H; destruct H as (Hp & _ & _ & _ & _ & _ & _ & w & n & Sx & Hw);
    assert (RC : forall pdu, c = Raw pdu -> bytes pdu) by (intros pdu ->; apply (R u); rewrite Hp; apply in_or_app; right; now left);
    destruct (sent_frame (k_last k) u c (fun _ _ => Err NotModelled) w n T RC (Sx _)) as [D L];
    destruct (C46_one_request d (k_up k) w [] D L) as (up & SV & _); [now rewrite app_nil_r|congruence].
Qed.
Lemma recv_moves last_i program calls results k u c : peer_inv last_i program calls results k ->
  k_phase k = Handled u c -> (rank (peer_recv k) < rank k)%nat.
Proof.
  intros (T & ret & Lr & H) P. unfold peer_recv, rank. rewrite P in *. destruct H as (_ & _ & _ & kk & r & R & _). rewrite R. cbn [k_phase k_todo]. lia.
Qed.
Definition rank_at (w : network) (i : nat) : nat := match nth_error (net_peers w) i with Some k => rank k | None => 0 end.
Lemma rank_step w a i : (rank_at (net_step w a) i <= rank_at w i)%nat.
Proof.
  unfold rank_at. destruct a as [j cut|j cut|j|o]; cbn [net_step net_peers]; try lia; destruct (nth_error (net_peers w) j) as [k|] eqn:N; try lia;
    try (destruct (peer_serve cut (net_db w) k) as [d k'] eqn:E); cbn [net_peers].
  all: destruct (Nat.eq_dec j i) as [->|D]; [erewrite nth_upd_same, N by exact N|rewrite list_upd_other by exact D; lia].
  - apply rank_send.
  - pose proof (rank_serve cut (net_db w) k) as Q. rewrite E in Q. exact Q.
  - apply rank_recv.
Qed.
Lemma rank_run schedule : forall w i, (rank_at (net_run w schedule) i <= rank_at w i)%nat.
Proof.
  induction schedule as [|a t IH]; intros w i; [cbn; lia|]. cbn [net_run fold_left]. fold (net_run (net_step w a) t). etransitivity; [apply IH|apply rank_step].
Qed.
Lemma net_run_app w s t : net_run w (s ++ t) = net_run (net_run w s) t.
Proof. unfold net_run. apply fold_left_app. Qed.
(** A round: master i writes if it can, the server serves it if it can, it reads if it can. *)
Lemma round_step d0 programs w h i q : byte_strings programs -> net_inv d0 programs w h -> (rank_at w i <= 3 * S q)%nat ->
  forall s1 s2 s3 s4 cut cut', fair_cuts (s1 ++ Send i cut :: s2 ++ Serve i cut' :: s3 ++ Receive i :: s4) ->
  (rank_at (net_run w (s1 ++ Send i cut :: s2 ++ Serve i cut' :: s3 ++ Receive i :: s4)) i <= 3 * q)%nat.
Proof.
  intros RB V R s1 s2 s3 s4 cut cut' F.
  assert (RO : forall i program, nth_error programs i = Some program -> raw_ok program) by (intros j program N u pdu I; eapply RB; eauto using nth_error_In).
  unfold fair_cuts in F. rewrite !Forall_app in F. destruct F as [F1 F]. inversion F as [|? ? C1 F']; subst. rewrite Forall_app in F'. destruct F' as [F2 F'].
  inversion F' as [|? ? C2 F'']; subst. rewrite Forall_app in F''. destruct F'' as [F3 F''].
  rewrite net_run_app. destruct (net_run_inv _ _ s1 w h RB F1 V) as (h1 & V1 & _). pose proof (rank_run s1 w i) as R1. set (w1 := net_run w s1) in *.
  change (Send i cut :: ?t) with ([Send i cut] ++ t). rewrite net_run_app. change (net_run w1 [Send i cut]) with (net_step w1 (Send i cut)).
  assert (R2 : (rank_at (net_step w1 (Send i cut)) i <= 3 * q + 2)%nat).
  { cbn [net_step]. unfold rank_at in *. destruct (nth_error (net_peers w1) i) as [k|] eqn:N; [|rewrite N; lia]. cbn [net_peers]. erewrite nth_upd_same by exact N.
    destruct (rank_send cut k) as [A B]. destruct (Nat.eq_dec (rank k) (3 * length (k_todo k))) as [X|X]; [|unfold rank in *; destruct (k_phase k); lia]. specialize (B X). lia. }
  destruct (net_step_inv _ _ w1 _ (Send i cut) RB ltac:(constructor; [exact C1|constructor]) V1) as (h2 & V2 & _). set (w2 := net_step w1 (Send i cut)) in *.
  rewrite net_run_app. destruct (net_run_inv _ _ s2 w2 _ RB F2 V2) as (h3 & V3 & _). pose proof (rank_run s2 w2 i) as R3. set (w3 := net_run w2 s2) in *.
  change (Serve i cut' :: ?t) with ([Serve i cut'] ++ t). rewrite net_run_app. change (net_run w3 [Serve i cut']) with (net_step w3 (Serve i cut')).
  assert (R4 : (rank_at (net_step w3 (Serve i cut')) i <= 3 * q + 1)%nat).
  { pose proof (rank_step w3 (Serve i cut') i) as M. unfold rank_at in *. cbn [net_step] in *. destruct (nth_error (net_peers w3) i) as [k|] eqn:N; [|rewrite N; lia].
    destruct (k_phase k) as [|u c|u c] eqn:P; try (unfold rank in *; rewrite P in *; lia).
    destruct V3 as (lasts & O & L & B & PI).
    destruct (nth_error programs i) as [program|] eqn:Np; [|exfalso; apply nth_error_None in Np; rewrite <- L in Np; apply nth_error_None in Np; congruence].
    pose proof (serve_moves cut' (net_db w3) _ _ _ _ _ _ _ C2 (RO _ _ Np) (PI _ _ _ Np N) P) as Q.
    destruct (peer_serve cut' (net_db w3) k) as [d k'] eqn:E. cbn [net_peers snd] in *. erewrite nth_upd_same in * by exact N. lia. }
  destruct (net_step_inv _ _ w3 _ (Serve i cut') RB ltac:(constructor; [exact C2|constructor]) V3) as (h4 & V4 & _). set (w4 := net_step w3 (Serve i cut')) in *.
  rewrite net_run_app. destruct (net_run_inv _ _ s3 w4 _ RB F3 V4) as (h5 & V5 & _). pose proof (rank_run s3 w4 i) as R5. set (w5 := net_run w4 s3) in *.
  change (Receive i :: s4) with ([Receive i] ++ s4). rewrite net_run_app. change (net_run w5 [Receive i]) with (net_step w5 (Receive i)).
  etransitivity; [apply rank_run|]. pose proof (rank_step w5 (Receive i) i) as M. unfold rank_at in *. cbn [net_step] in *.
  destruct (nth_error (net_peers w5) i) as [k|] eqn:N; [|rewrite N; lia]. cbn [net_peers] in *. erewrite nth_upd_same in * by exact N.
  destruct (k_phase k) as [|u c|u c] eqn:P; try (unfold rank in *; rewrite P in *; lia).
  destruct V5 as (lasts & O & L & B & PI).
  destruct (nth_error programs i) as [program|] eqn:Np; [|exfalso; apply nth_error_None in Np; rewrite <- L in Np; apply nth_error_None in Np; congruence].
  pose proof (recv_moves _ _ _ _ _ _ _ (PI _ _ _ Np N) P). lia.
Qed.
