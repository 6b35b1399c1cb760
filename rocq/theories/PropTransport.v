(** Properties C45-C49, C64-C67: sockets and serial lines.
    Vocabulary: Spec.v, DbSpec.v, MasterSpec.v, EndSpec.v, TransportSpec.v, LinkSpec.v. *)
From Coq Require Import Lia ZifyBool ZifyNat.
From Verif Require Import PropDatabank.
From Verif Require Import Base BaseFacts PyStruct Spec StructFacts StructMore Defines SlaveModel SlaveSpec BlockSpec HandlerProofs RequestProofs SlaveInv SlaveMore AtomicProofs.
From Verif Require Import FrameSpec CrcSpec QueryModel QueryProofs DatabankModel MasterModel MasterSpec DbSpec DatabankProofs MasterProofs DecodeProofs EndSpec EndProofs.
From Verif Require Import TransportModel TransportSpec TransportProofs LinkSpec ResponseProofs.
Ltac Zify.zify_post_hook ::= Z.div_mod_to_equations.
Open Scope string_scope.
Open Scope list_scope.
Open Scope Z_scope.

Lemma self_delimited_small : forall frame, self_delimited frame -> (length frame < tcp_recv_fuel)%nat.
Proof.
  intros frame (a & b & c & d & n1 & n2 & body & -> & L & B). repeat match goal with H : bytes (_ :: _) |- _ => inversion_clear H end.
  repeat match goal with H : Forall is_byte (_ :: _) |- _ => inversion_clear H end. unfold is_byte in *. unfold tcp_recv_fuel. cbn [length]. unfold zlen in L. lia.
Qed.

(* ------------------------------------------------------------------ C45 *)
(** However the stream is cut, exactly the first frame is returned, the rest is left. *)
Theorem C45_one_frame : forall c frame rest, self_delimited frame -> stream c = frame ++ rest ->
  exists c', tcp_master_recv no_hook c = Some (c', Ok frame) /\ stream c' = rest /\ c_end c' = c_end c.
Proof.
  intros c frame rest D H. destruct (tcp_loop_whole tcp_recv_fuel c frame rest D (self_delimited_small _ D) H) as (c' & E & R).
  exists c'. split; [|exact R]. unfold tcp_master_recv. rewrite E. reflexivity.
Qed.
(** The way the stream is cut has no influence at all, on any stream. *)
Theorem C45_segmentation : forall c c', same_stream c c' ->
  match tcp_master_recv no_hook c, tcp_master_recv no_hook c' with
  | Some (k, r), Some (k', r') => r = r' /\ same_stream k k'
  | None, None => True
  | _, _ => False
  end.
Proof.
  intros c c' S. pose proof (tcp_loop_same tcp_recv_fuel c c' [] 255 S) as L. unfold tcp_master_recv.
  destruct (tcp_recv_loop tcp_recv_fuel c [] 255) as [[k [r|e]]|], (tcp_recv_loop tcp_recv_fuel c' [] 255) as [[k' [r'|e']]|]; cbn in L; try tauto;
    destruct L as [L S']; try discriminate; injection L as <-; auto.
Qed.
(** The peer closes before the end of the frame: what came is returned, and no query accepts it. *)
Theorem C45_closed_early : forall c part more, self_delimited (part ++ more) -> more <> [] -> stream c = part -> c_end c = Closed ->
  (exists c', tcp_master_recv no_hook c = Some (c', Ok part)) /\
  forall hdr, exists e, tcp_parse_response hdr part = Err e.
Proof.
  intros c part more D M H E. split.
  - assert (F : (length part < tcp_recv_fuel)%nat) by (apply self_delimited_small in D; rewrite app_length in D; lia).
    destruct (tcp_loop_cut tcp_recv_fuel c part more D M F H) as (c' & R). exists c'. unfold tcp_master_recv. rewrite R, E. reflexivity.
  - intros hdr. destruct D as (a & b & x & d & n1 & n2 & body & Q & L & B). unfold tcp_parse_response.
    destruct (6 <? zlen part) eqn:Z6; [|eauto]. destruct part as [|p0 [|p1 [|p2 [|p3 [|p4 [|p5 [|p6 part]]]]]]]; try (cbn in Z6; lia). destruct (tcp_slices p0 p1 p2 p3 p4 p5 p6 part) as [Q1 Q2]. rewrite Q1, Q2.
    cbn [app] in Q. injection Q as -> -> -> -> -> -> <-.
    unfold mbap_unpack. rewrite unpack_HHHB. cbn [bind]. unfold mbap_check_response, mbap_length_ok. cbn [mb_len].
    replace (n1 * 256 + n2 =? zlen part + 1) with false; [rewrite andb_false_r; eexists; reflexivity|]. symmetry.
    rewrite zlen_cons, zlen_app in L. destruct more; [congruence|]. rewrite zlen_cons in L. pose proof (zlen_nonneg more). lia.
Qed.
(** Nothing more comes within the timeout: the timeout exception. *)
Theorem C45_stalled : forall c part more, self_delimited (part ++ more) -> more <> [] -> stream c = part -> c_end c = Stalled ->
  exists c', tcp_master_recv no_hook c = Some (c', Err SocketTimeout).
Proof.
  intros c part more D M H E.
  assert (F : (length part < tcp_recv_fuel)%nat) by (apply self_delimited_small in D; rewrite app_length in D; lia).
  destruct (tcp_loop_cut tcp_recv_fuel c part more D M F H) as (c' & R). exists c'. unfold tcp_master_recv. rewrite R, E. reflexivity.
Qed.
(** It ends whatever bytes come. *)
Theorem C45_terminates : forall c, bytes (stream c) -> tcp_master_recv no_hook c <> None.
Proof.
  intros c B. assert (E : tcp_recv_loop tcp_recv_fuel c [] 255 <> None).
  { apply tcp_loop_ends; [exact B|constructor|now right|lia|cbn; lia|]. unfold tcp_recv_fuel. change (zlen []) with 0. lia. }
  unfold tcp_master_recv. destruct (tcp_recv_loop tcp_recv_fuel c [] 255) as [[c' [r|e]]|]; [discriminate|discriminate|congruence].
Qed.
Definition demo_response : list Z := tcp_frame 7 0 1 [3; 2; 0; 17].
Example C45_ex : self_delimited demo_response /\
  tcp_recv_loop 40 {| c_segs := [[0; 7]; []; [0; 0; 0; 5; 1; 3]; [2; 0; 17; 0; 8]]; c_end := Stalled |} [] 255
  = Some ({| c_segs := [[0; 8]]; c_end := Stalled |}, Ok demo_response) /\
  tcp_recv_loop 40 {| c_segs := [[0; 7; 0]; [0; 0; 5; 1; 3]]; c_end := Closed |} [] 255
  = Some ({| c_segs := [[]]; c_end := Closed |}, Ok [0; 7; 0; 0; 0; 5; 1; 3]).
Proof.
  split; [|split; vm_compute; reflexivity]. exists 0, 7, 0, 0, 0, 5, [1; 3; 2; 0; 17]. split; [reflexivity|]. split; [reflexivity|].
  apply bytes_compute. reflexivity.
Qed.

(* ------------------------------------------------------------------ C46 *)
(** One turn on a connection that starts with a complete request, however cut: that request is
    handled, its answer sent, and the following bytes are left. *)
Theorem C46_one_request : forall d c frame rest, self_delimited frame -> 7 <= zlen frame -> stream c = frame ++ rest ->
  exists c', serve_client no_tcp_hooks d c = Stays c' (fst (served_request d TCP frame)) (Some frame) (snd (served_request d TCP frame)) /\
    stream c' = rest /\ c_end c' = c_end c.
Proof.
  intros d c frame rest D L H. destruct (serve_one no_tcp_hooks d c frame rest eq_refl D L H) as (c' & E & R). exists c'. split; [|exact R].
  rewrite E. cbn [no_tcp_hooks th_server th_before_send]. rewrite server_handle_plain. unfold served_request. cbn [fst snd]. f_equal.
  destruct (snd (db_handle_request d TCP frame)) as [r|]; [|reflexivity]. now destruct (sent r).
Qed.
(** Whatever the schedule and the other clients, a client whose connection carries complete requests
    gets exactly them handled, in order, once: after any number of turns, a first part of them was
    handed to the databank and the rest is still waiting; every turn that begins with this client
    handles at least one more. *)
Theorem C46_requests_in_order : forall id turns s s' log c frames,
  NoDup (map fst (ts_conns s) ++ flat_map accepted_ids turns) -> ~ In id (flat_map accepted_ids turns) ->
  Forall (fun f => self_delimited f /\ 7 <= zlen f) frames ->
  assoc Z.eqb id (ts_conns s) = Some c -> stream c = concat frames ->
  tcp_turns no_tcp_hooks turns s = (s', log) ->
  exists k, of_client id log = firstn k frames /\ (Nat.min (begins_with id turns) (length frames) <= k)%nat /\
    ((exists c', assoc Z.eqb id (ts_conns s') = Some c' /\ stream c' = concat (skipn k frames)) \/ skipn k frames = []).
Proof.
  intros id turns s s' log c frames ND NI FF A S R.
  destruct (turns_client id turns s s' log frames ND NI FF (or_introl (ex_intro _ c (conj A S))) R) as (k & K1 & [K2|[K2 _]] & K3); exists k; auto.
Qed.
Definition demo_write : list Z := tcp_frame 1 0 3 (6 :: word 101 ++ word 17).
Definition demo_read : list Z := tcp_frame 2 0 3 (3 :: word 101 ++ word 1).
Definition demo_server : tcp_server :=
  {| ts_listening := true;
     ts_conns := [(1, {| c_segs := [firstn 5 demo_write; skipn 5 demo_write ++ firstn 3 demo_read; skipn 3 demo_read]; c_end := Stalled |});
                  (2, {| c_segs := [[1; 2]]; c_end := Closed |})];
     ts_db := demo_db |}.
Example C46_ex :
  (self_delimited demo_write /\ 7 <= zlen demo_write) /\ (self_delimited demo_read /\ 7 <= zlen demo_read) /\
  let '(s', log) := tcp_turns no_tcp_hooks [[ReadyClient 2; ReadyClient 1]; [ReadyClient 1]; [ReadyListen (Ok (5, {| c_segs := []; c_end := Closed |}))]] demo_server in
  of_client 1 log = [demo_write; demo_read] /\ map snd log = [Some demo_write; Some (tcp_frame 2 0 3 [3; 2; 0; 17])].
Proof.
  split; [|split; [|vm_compute; split; reflexivity]]; (split; [|cbn; lia]);
    do 7 eexists; (split; [reflexivity|]); (split; [reflexivity|]); apply bytes_compute; reflexivity.
Qed.

(* ------------------------------------------------------------------ C65 *)
(** Over any schedule and any bytes on any connection, the databank goes through exactly the
    logged requests, one at a time, and each logged answer is the databank's answer to its request. *)
Theorem C65_serial_history : forall turns s s' log, tcp_turns no_tcp_hooks turns s = (s', log) ->
  replay TCP (ts_db s) (anonymous log) (ts_db s').
Proof. intros. eapply turns_replay; eauto. Qed.
(** A connection that closes or stalls in the middle of a request changes nothing: no request is
    handled for it. *)
Theorem C65_partial_request : forall d c part more, self_delimited (part ++ more) -> more <> [] -> stream c = part -> 7 <= zlen (part ++ more) ->
  match serve_client no_tcp_hooks d c with
  | Stays _ d' handled out => d' = d /\ handled = None /\ out = None
  | Gone => part = [] /\ c_end c = Closed
  | Failed e => e = SocketTimeout
  end.
Proof.
  intros d c part more (a & b & x & e & n1 & n2 & body & Q & L & B) M H Z7. unfold serve_client.
  assert (ML : 0 < zlen more) by (destruct more; [congruence|rewrite zlen_cons; pose proof (zlen_nonneg more); lia]).
  destruct part as [|p0 part]; [rewrite recv_nil by exact H; cbn [snd]; destruct (c_end c); auto|].
  destruct (recv1_cons c p0 part H) as (c0 & E0 & _). rewrite E0. cbn [snd]. rewrite missing_nil.
  destruct (Nat.lt_ge_cases (length (p0 :: part)) 7) as [L7|L7].
  - destruct (read_more_short (p0 :: part) 7 c [] H L7) as (c1 & E1 & _). rewrite E1. destruct (c_end c); cbn [app]; auto.
  - destruct part as [|p1 [|p2 [|p3 [|p4 [|p5 [|p6 part]]]]]]; try (cbn in L7; lia). cbn [app] in Q. injection Q as -> -> -> -> -> -> <-.
    destruct (read_more_take [a; b; x; e; n1; n2; p6] c [] part H) as (c1 & E1 & S1 & N1).
    change (length [a; b; x; e; n1; n2; p6]) with 7%nat in E1. rewrite E1. cbn [app th_after_recv no_tcp_hooks].
    change (replaced no_hook [a; b; x; e; n1; n2; p6]) with [a; b; x; e; n1; n2; p6].
    unfold get_request_length. change (zlen [a; b; x; e; n1; n2; p6] <? 6) with false. cbn iota.
    change (py_slice [a; b; x; e; n1; n2; p6] 0 6) with [a; b; x; e; n1; n2]. rewrite third_word_six.
    rewrite zlen_cons, zlen_app in L.
    destruct (read_more_short part (missing (n1 * 256 + n2 + 6) [a; b; x; e; n1; n2; p6]) c1 [a; b; x; e; n1; n2; p6] S1) as (c2 & E2 & _).
    { unfold missing. change (zlen [a; b; x; e; n1; n2; p6]) with 7. unfold zlen in *. lia. }
    rewrite E2. destruct (c_end c1); auto.
Qed.
Example C65_ex : serve_client no_tcp_hooks demo_db {| c_segs := [firstn 9 demo_read]; c_end := Closed |}
  = Stays {| c_segs := [[]]; c_end := Closed |} demo_db None None.
Proof. vm_compute. reflexivity. Qed.

(* ------------------------------------------------------------------ C66 *)
(** When the request is written, the connection it is written on holds no byte that was in the
    receive buffer before: either all was flushed, or the connection is a new one. *)
Theorem C66_no_stale_bytes : forall b reopen request on out,
  tcp_master_send no_hook b reopen request = Ok (on, out) ->
  out = request /\ match on with SameConnection b' => rb_data b' = [] /\ rb_closed b' = false | NewConnection => reopen = Ok tt end.
Proof.
  intros b reopen request on out. unfold tcp_master_send, flush_socket. cbn [flush_loop].
  assert (K : forall r : res unit, match r with Ok _ => Ok (NewConnection, replaced no_hook request) | Err e => Err e end = Ok (on, out) -> out = request /\ match on with SameConnection b' => rb_data b' = [] /\ rb_closed b' = false | NewConnection => r = Ok tt end).
  { intros [[]|e]; [|discriminate]. intros [= <- <-]. auto. }
  remember 1024%nat as k eqn:Ek. clear Ek. destruct b as [[|x d] [|]]; cbn [rb_data rb_closed].
  - rewrite skipn_nil. apply K.
  - intros [= <- <-]. auto.
  - destruct (skipn k (x :: d)) as [|y d']; cbn [rb_data rb_closed]; [|destruct (skipn k (y :: d')) as [|z d'']; cbn [rb_data rb_closed]]; try rewrite skipn_nil; apply K.
  - destruct (skipn k (x :: d)) as [|y d'] eqn:D; cbn [rb_data rb_closed]; [intros [= <- <-]; auto|].
    destruct (skipn k (y :: d')) as [|z d''] eqn:D2; cbn [rb_data rb_closed]; [intros [= <- <-]; auto|apply K].
Qed.
(** The connection is kept exactly when the peer did not close it and at most 2048 bytes were
    waiting. *)
Theorem C66_reconnects_iff : forall b reopen request, reopen = Ok tt ->
  (exists b', tcp_master_send no_hook b reopen request = Ok (SameConnection b', request)) <->
  (rb_closed b = false /\ zlen (rb_data b) <= 2048).
Proof.
  intros b reopen request ->. unfold tcp_master_send, flush_socket. cbn [flush_loop]. remember 1024%nat as k eqn:Ek. destruct b as [d [|]]; cbn [rb_data rb_closed].
  - split; [|intros [? _]; discriminate]. destruct d as [|x d]; cbn [rb_data rb_closed]; intros (b' & Q); rewrite ?skipn_nil in Q; [discriminate|].
    destruct (skipn k (x :: d)) as [|y d']; cbn [rb_data rb_closed] in Q; [rewrite ?skipn_nil in Q; discriminate|].
    destruct (skipn k (y :: d')) as [|z d'']; discriminate.
  - pose proof (skipn_length k d) as L. destruct d as [|x d]; cbn [rb_data rb_closed]; [split; [intros _; split; [reflexivity|cbn; lia]|intros _; eexists; reflexivity]|].
    destruct (skipn k (x :: d)) as [|y d'] eqn:D; cbn [rb_data rb_closed].
    + split; [intros _; split; [reflexivity|]|intros _; eexists; reflexivity]. unfold zlen. cbn [length] in *. lia.
    + pose proof (skipn_length k (y :: d')) as M.
      destruct (skipn k (y :: d')) as [|z d''] eqn:D2; cbn [rb_data rb_closed].
      * split; [intros _; split; [reflexivity|]|intros _; eexists; reflexivity]. unfold zlen. cbn [length] in *. lia.
      * split; [intros (b' & Q); discriminate|]. intros [_ Q]. exfalso. unfold zlen in Q. cbn [length] in *. lia.
Qed.
Example C66_ex : tcp_master_send no_hook {| rb_data := [1; 2; 3]; rb_closed := false |} (Err GenericException) [9] = Ok (SameConnection {| rb_data := []; rb_closed := false |}, [9]) /\
  tcp_master_send no_hook {| rb_data := []; rb_closed := true |} (Ok tt) [9] = Ok (NewConnection, [9]).
Proof. split; vm_compute; reflexivity. Qed.

(* ------------------------------------------------------------------ C47 *)
(** A response of the expected length, in any pieces (the last one may contain bytes that follow it):
    exactly that response is returned and not a byte more is taken. *)
Theorem C47_exact : forall pieces resp extra rest,
  resp <> [] -> Forall (fun b => b <> []) pieces -> concat pieces = resp ++ extra ->
  exists left, cut_into extra left /\
    rtu_master_recv no_hook TPositive [] (zlen resp) (map Burst pieces ++ rest) = Some (map Burst left ++ rest, Ok resp).
Proof.
  intros pieces resp extra rest N F C.
  destruct (rtu_loop_exact (zlen resp) (S (line_size (bursts_of pieces ++ rest))) pieces resp extra rest [] F C N) as (lf & L1 & L2 & L3); [change (zlen []) with 0; lia| |].
  - pose proof (line_size_bursts pieces rest) as L. rewrite C, app_length in L. lia.
  - exists lf. split; [split; assumption|]. unfold rtu_master_recv. change (map Burst pieces) with (bursts_of pieces). change (zlen (@nil Z)) with 0 in L3. rewrite L3. reflexivity.
Qed.
(** A shorter response followed by a silence, or a response of unknown length: returned whole. *)
Theorem C47_shorter : forall pieces rest expected,
  Forall (fun b => b <> []) pieces -> zlen (concat pieces) < expected \/ expected < 0 ->
  rtu_master_recv no_hook TPositive [] expected (map Burst pieces ++ Silence :: rest) = Some (rest, Ok (concat pieces)).
Proof.
  intros pieces rest expected F L. unfold rtu_master_recv. change (map Burst pieces) with (bursts_of pieces).
  rewrite (rtu_loop_until_silence expected _ pieces rest [] 0 F).
  - reflexivity.
  - change (zlen []) with 0. lia.
  - reflexivity.
  - pose proof (line_size_bursts pieces (Silence :: rest)). lia.
Qed.
(** The port fails before the response is complete: the exception reaches the caller, nothing is returned. *)
Theorem C47_fault : forall pieces reopens rest expected,
  Forall (fun b => b <> []) pieces -> zlen (concat pieces) < expected \/ expected < 0 ->
  rtu_master_recv no_hook TPositive [] expected (map Burst pieces ++ Fault reopens :: rest) = Some (rest, Err GenericException).
Proof.
  intros pieces re rest expected F L. unfold rtu_master_recv. change (map Burst pieces) with (bursts_of pieces).
  rewrite (rtu_loop_until_fault expected _ re pieces rest [] 0 F).
  - reflexivity.
  - change (zlen []) with 0. lia.
  - reflexivity.
  - pose proof (line_size_bursts pieces (Fault re :: rest)). lia.
Qed.
(** It always ends, whatever arrives and whatever the timeout. *)
Theorem C47_terminates : forall tmo late expected p, rtu_master_recv no_hook tmo late expected p <> None.
Proof.
  intros tmo late expected p. pose proof (rtu_loop_ends (S (line_size p)) tmo late expected p [] 0 ltac:(lia)) as E.
  unfold rtu_master_recv. destruct (rtu_recv_loop _ _ _ _ _ _ _) as [[p' [r|e]]|]; [discriminate|discriminate|congruence].
Qed.
(** A port whose timeout is None (set_timeout(None)): any response ends in a TypeError. *)
Theorem C47_no_timeout_refuted : forall late expected b t rest,
  exists p', rtu_master_recv no_hook TNone late expected (Burst (b :: t) :: rest) = Some (p', Err PyTypeError).
Proof.
  intros. unfold rtu_master_recv. cbn [rtu_recv_loop]. set (n := Z.to_nat _). assert (Np : (0 < n)%nat) by (unfold n; destruct (_ <? _) eqn:Q; lia).
  rewrite serial_read_burst by (discriminate || exact Np). destruct (firstn_nonempty n (b :: t) ltac:(discriminate) Np) as (x & l & Fx). rewrite Fx. eexists. reflexivity.
Qed.
(** With the software timeout, bytes read by a call that comes back late are dropped. *)
Theorem C47_late_bytes_dropped : rtu_master_recv no_hook TPositive [false; true] 5 [Burst [1; 2]; Burst [3; 4; 5]] = Some ([], Ok [1; 2]).
Proof. vm_compute. reflexivity. Qed.
(** the bytes that are still to come *)
Definition coming (p : line) : list Z := flat_map (fun e => match e with Burst l => l | _ => [] end) p.
Lemma coming_read n : forall p, match serial_read n p with (p', Got b) => coming p = b ++ coming p' | (p', Raised _) => coming p = coming p' end.
Proof.
  induction p as [|[[|x b]| |r] p IH]; cbn [serial_read]; [reflexivity| | |reflexivity|reflexivity].
  - exact IH.
  - rewrite <- (firstn_skipn n (x :: b)) at 1. unfold coming. cbn [flat_map]. fold (coming p). rewrite (firstn_skipn n (x :: b)).
    rewrite <- (firstn_skipn n (x :: b)) at 1. destruct (skipn n (x :: b)) as [|y r].
    + now rewrite app_nil_r.
    + cbn [flat_map]. fold (coming p). now rewrite <- app_assoc.
Qed.
Lemma coming_loop tmo : forall fuel late n p acc k p' out, rtu_recv_loop fuel tmo late n p acc k = Some (p', Ok out) ->
  exists got lost, out = acc ++ got /\ coming p = got ++ lost ++ coming p' /\ (Forall (fun b => b = false) late -> lost = []).
Proof.
  induction fuel as [|f IH]; intros late n p acc k p' out H; cbn [rtu_recv_loop] in H; [discriminate|].
  set (m := match tmo with TPositive => _ | _ => _ end) in H. clearbody m. pose proof (coming_read (Z.to_nat m) p) as CR.
  destruct (serial_read (Z.to_nat m) p) as [p1 [[|x b]|r]]; [| |discriminate].
  - injection H as <- <-. exists [], []. rewrite app_nil_r. now split.
  - destruct tmo; [discriminate| |].
    all: destruct (hd false late) eqn:L; [injection H as <- <-; exists [], (x :: b); rewrite app_nil_r; split; [reflexivity|]; split; [exact CR|]; intros F; destruct late as [|l0 late]; [discriminate|]; inversion F; subst; discriminate|].
    all: destruct ((0 <=? n) && (n <=? zlen (acc ++ x :: b))); [injection H as <- <-; exists (x :: b), []; split; [reflexivity|]; split; [exact CR|reflexivity]|].
    all: apply IH in H; destruct H as (got & lost & -> & C & Q); exists (x :: b ++ got), lost; rewrite <- app_assoc; split; [reflexivity|]; split; [rewrite CR, C; cbn; now rewrite !app_assoc|].
    all: intros F; apply Q; destruct late; [constructor|now inversion F].
Qed.
(** The RTU master returns the bytes that arrived, in order, from the first one: what it read after them and did not return is lost for every later call,
    and only a call of read() that came back late loses anything. *)
Theorem C47_bytes_in_order : forall tmo late n p p' out, rtu_master_recv no_hook tmo late n p = Some (p', Ok out) ->
  exists lost, coming p = out ++ lost ++ coming p' /\ (Forall (fun b => b = false) late -> lost = []).
Proof.
  intros tmo late n p p' out H. unfold rtu_master_recv in H. destruct (rtu_recv_loop _ tmo late n p [] 0) as [[p1 [r|e]]|] eqn:E; [|discriminate|discriminate].
  cbn [replaced no_hook] in H. injection H as <- <-. apply coming_loop in E. destruct E as (got & lost & -> & C & Q). exists lost. now split.
Qed.
Example C47_bytes_in_order_ex : rtu_master_recv no_hook TPositive [] 3 [Burst [1; 2]; Burst [3; 4; 5]] = Some ([Burst [4; 5]], Ok [1; 2; 3]).
Proof. vm_compute. reflexivity. Qed.
(** ... it loses all it has read: here the first call of read() comes back late, with the first [n] bytes of the burst. *)
Theorem C47_late_lost : forall late n b rest, 0 < n -> b <> [] -> exists p',
  rtu_master_recv no_hook TPositive (true :: late) n (Burst b :: rest) = Some (p', Ok []) /\ coming p' = skipn (Z.to_nat n) b ++ coming rest.
Proof.
  intros late n b rest N B. destruct b as [|x b]; [congruence|]. unfold rtu_master_recv. cbn [rtu_recv_loop]. replace (n - 0) with n by lia.
  replace (0 <? n) with true by lia. cbn [serial_read hd]. destruct (Z.to_nat n) as [|k] eqn:K; [lia|]. cbn [firstn skipn]. eexists. split; [reflexivity|].
  destruct (skipn k b); reflexivity.
Qed.
Example C47_late_lost_ex : rtu_master_recv no_hook TPositive [true] 3 [Burst [1; 2; 3; 4]] = Some ([Burst [4]], Ok []).
Proof. vm_compute. reflexivity. Qed.
Example C47_ex :
  rtu_master_recv no_hook TPositive [] 7 [Burst [1]; Burst [3; 2]; Burst [0; 17; 8; 9; 77]; Silence] = Some ([Burst [77]; Silence], Ok [1; 3; 2; 0; 17; 8; 9]) /\
  rtu_master_recv no_hook TPositive [] 7 [Burst [1; 131]; Burst [2; 8; 9]; Silence; Burst [6]] = Some ([Burst [6]], Ok [1; 131; 2; 8; 9]).
Proof. split; vm_compute; reflexivity. Qed.

(* ------------------------------------------------------------------ C48 *)
(** One turn: the bytes up to the silence, in any pieces, are handled as one request; the answer is
    written unless new bytes are already waiting. *)
Theorem C48_one_request : forall pending d pieces request rest, request <> [] -> cut_into request pieces ->
  rtu_do_run no_rtu_hooks true pending d (map Burst pieces ++ Silence :: rest) =
  Some {| rt_line := rest; rt_db := fst (served_request d RTU request); rt_handled := Some request;
          rt_written := if pending then None else snd (served_request d RTU request) |}.
Proof.
  intros pending d pieces request rest N [C F]. subst request. apply (rtu_one_request pending d pieces rest F). intros ->. now apply N.
Qed.
(** Any line, with any bursts, silences and faults: running until the line is empty handles
    exactly the requests on it, in order, each once. *)
Theorem C48_all_requests : forall n pending d p d' log, (line_size p < n)%nat ->
  rtu_turns n no_rtu_hooks pending d p = (d', log) -> map fst log = requests_on [] p.
Proof. intros. eapply rtu_turns_spec; eauto. Qed.
(** The databank goes through those requests one at a time; what is written for a request is the
    databank's answer to it, or nothing when new bytes were waiting. *)
Theorem C48_answers : forall n pending d p d' log, rtu_turns n no_rtu_hooks pending d p = (d', log) ->
  exists full, replay RTU d full d' /\
    Forall2 (fun got should => fst got = fst should /\ (snd got = snd should \/ snd got = None)) log full /\
    ((forall i, pending i = false) -> full = log).
Proof. intros. eapply rtu_turns_replay; eauto. Qed.
Definition rtu_write : list Z := on_wire None 9 (6 :: word 100 ++ word 7).
Example C48_ex :
  snd (rtu_turns 30 no_rtu_hooks (fun _ => false) demo_db
    ([Silence; Burst (firstn 3 rtu_write); Burst (skipn 3 rtu_write); Silence; Burst [1; 2]; Fault false; Burst [3]; Silence; Silence; Burst rtu_write; Fault true]))
  = [(rtu_write, Some rtu_write); ([3], None); (rtu_write, Some rtu_write)].
Proof. vm_compute. reflexivity. Qed.

(* ------------------------------------------------------------------ C49 *)
(** Refuted: when the peer closes before the response is complete, the loop never ends. *)
Theorem C49_refuted : forall c expected, c_end c = Closed -> zlen (stream c) < expected \/ expected < 0 -> zlen (stream c) < 255 ->
  forall fuel, rtu_tcp_master_recv fuel no_hook expected c = None.
Proof. intros c expected E A L fuel. unfold rtu_tcp_master_recv. rewrite rtu_tcp_spin_all; auto; lia. Qed.
(** What holds: a complete response of the expected length is returned, whatever the cuts, and the
    rest is left. *)
Theorem C49_complete_partial : forall c frame rest fuel, frame <> [] -> zlen frame <= 255 -> stream c = frame ++ rest -> (length frame <= fuel)%nat ->
  exists c', rtu_tcp_master_recv fuel no_hook (zlen frame) c = Some (c', Ok frame) /\ stream c' = rest /\ c_end c' = c_end c.
Proof.
  intros c frame rest fuel N L H F. destruct (rtu_tcp_exact c frame rest fuel N L H F) as (c' & E & R). exists c'. split; [|exact R].
  unfold rtu_tcp_master_recv. rewrite E. reflexivity.
Qed.
(** And an incomplete response on a connection that stays open ends in the timeout exception. *)
Theorem C49_timeout_partial : forall c expected fuel, c_end c = Stalled -> zlen (stream c) < expected \/ expected < 0 -> zlen (stream c) < 255 -> (length (stream c) < fuel)%nat ->
  exists c', rtu_tcp_master_recv fuel no_hook expected c = Some (c', Err SocketTimeout).
Proof.
  intros c expected fuel E A L F. destruct (rtu_tcp_timeout c expected fuel E L ltac:(lia) F) as (c' & R). exists c'. unfold rtu_tcp_master_recv. now rewrite R.
Qed.
Example C49_ex : rtu_tcp_master_recv 1000 no_hook 7 {| c_segs := [[1; 3]]; c_end := Closed |} = None /\
  rtu_tcp_master_recv 10 no_hook 5 {| c_segs := [[1; 3]; [2]; [8; 9; 7]]; c_end := Closed |} = Some ({| c_segs := [[7]]; c_end := Closed |}, Ok [1; 3; 2; 8; 9]).
Proof. split; vm_compute; reflexivity. Qed.

(* ------------------------------------------------------------------ C67 *)
(** Refuted: an exception response over RtuOverTcpMaster.  The call of a register read waits for the
    normal length, so the five bytes of an exception response are not delivered: timeout. *)
Theorem C67_refuted : forall u code fuel segs, 0 <= u <= 255 -> 0 <= code <= 255 -> concat segs = on_wire None u [131; code] -> (10 <= fuel)%nat ->
  forall n, 1 <= n -> forall rp, zlen rp = 2 + 2 * n ->
  exists c', rtu_tcp_master_recv fuel no_hook (zlen (on_wire None u rp)) {| c_segs := segs; c_end := Stalled |} = Some (c', Err SocketTimeout).
Proof.
  intros u code fuel segs U C H F n N rp L. assert (S5 : zlen (stream {| c_segs := segs; c_end := Stalled |}) = 5).
  { unfold stream. cbn [c_segs]. rewrite H. reflexivity. }
  apply C49_timeout_partial; [reflexivity| |lia|unfold zlen in S5; lia]. left. rewrite S5. cbn [on_wire]. unfold sealed. rewrite zlen_app, zlen_cons. change (zlen (crc_bytes _)) with 2. lia.
Qed.
(** What holds: if the peer also closes nothing and the call does not know the length of the response
    (fewer than 255 bytes), it is a timeout as well; exception responses are delivered when the normal
    response is five bytes long. *)
Theorem C67_five_bytes_partial : forall u code fuel segs rest, 0 <= u <= 255 -> 0 <= code <= 255 -> concat segs = on_wire None u [131; code] ++ rest -> (10 <= fuel)%nat ->
  exists c', rtu_tcp_master_recv fuel no_hook 5 {| c_segs := segs; c_end := Stalled |} = Some (c', Ok (on_wire None u [131; code])).
Proof.
  intros u code fuel segs rest U C H F. destruct (C49_complete_partial {| c_segs := segs; c_end := Stalled |} (on_wire None u [131; code]) rest fuel) as (c' & E & _).
  - apply on_wire_nonempty.
  - cbn. lia.
  - exact H.
  - cbn. lia.
  - exists c'. exact E.
Qed.
Example C67_ex : rtu_tcp_master_recv 10 no_hook 7 {| c_segs := [on_wire None 1 [131; 2]]; c_end := Stalled |} = Some ({| c_segs := [[]]; c_end := Stalled |}, Err SocketTimeout).
Proof. vm_compute. reflexivity. Qed.

(* ------------------------------------------------------------------ C63 *)
(** The length computed by the master is the length of the response of a slave of this library. *)
Theorem C63_server_agrees : forall s c pdu s' r, reachable s -> encodable c -> prescribed c pdu -> (forall raw, c <> Raw raw) ->
  handle_request s pdu false = (s', Ok r) -> (exists code, r = [fc_of c + 128; code]) \/ response_length c = Some (zlen r).
Proof. intros s c pdu s' r R. apply hr_length, reachable_wf, R. Qed.

(* ------------------------------------------------------------------ C64 *)
(** A call over a TCP connection, requests and responses cut in any way: the same result and the same
    databank as if the server had been called directly. *)
Theorem C64_tcp : forall cut_req cut_resp last d u c pdu s r,
  cutting cut_req -> cutting cut_resp -> can_send TCP last u c -> prescribed c pdu -> 1 <= u <= 255 ->
  get_slave d u = Ok s -> snd (handle_request s pdu false) = Ok r ->
  over_tcp cut_req cut_resp last d u c = round_trip TCP last d u c.
Proof.
  intros cut_req cut_resp last d u c pdu s r C1 C2 (E & T & _ & F) P U G H. specialize (F _ P).
  destruct (execute_exact TCP last u c pdu E P F T ltac:(lia)) as (h & last' & _ & S & _ & X).
  unfold over_tcp, round_trip, round_trip_args. rewrite !X. cbn [ex_sent]. set (w := on_wire (ids_for TCP last) u pdu) in *.
  assert (DB : db_handle_request d TCP w = (put_slave d u (fst (handle_request s pdu false)), Ok (Some (on_wire (ids_for TCP last) u r)))).
  { unfold w. change TCP with (proto_of (ids_for TCP last)) at 1. rewrite (db_present d (ids_for TCP last) u pdu s S U G), H. reflexivity. }
  assert (Sr : sendable (ids_for TCP last) r).
  { apply (sendable_response _ s pdu false (fst (handle_request s pdu false))); [exact S|]. rewrite <- H. now destruct (handle_request s pdu false). }
  assert (SD : forall x, sendable (ids_for TCP last) x -> self_delimited (on_wire (ids_for TCP last) u x) /\ 7 <= zlen (on_wire (ids_for TCP last) u x)).
  { intros x Sx. assert (B : bytes (on_wire (ids_for TCP last) u x)) by (apply on_wire_bytes; [unfold is_byte; lia|exact Sx]). destruct Sx as [Bx Lx]. cbn [ids_for on_wire] in *.
    unfold tcp_frame, word in *. cbn [app] in *. pose proof (zlen_nonneg x). split; [|rewrite !zlen_cons; lia].
    do 7 eexists. split; [reflexivity|]. split; [|exact B]. rewrite zlen_cons. lia. }
  destruct (SD pdu S) as [Sq Lq]. destruct (SD r Sr) as [Sp Lp]. fold w in Sq, Lq.
  destruct (C46_one_request d {| c_segs := cut_req w; c_end := Stalled |} w [] Sq Lq) as (c' & SV & _ & _).
  { unfold stream. cbn [c_segs]. rewrite app_nil_r. apply C1. }
  unfold served_request in SV. rewrite DB in SV. cbn [fst snd] in SV.
  assert (SE : sent (Some (on_wire (ids_for TCP last) u r)) = Some (on_wire (ids_for TCP last) u r)).
  { destruct (on_wire (ids_for TCP last) u r) eqn:Q; [now apply on_wire_nonempty in Q|reflexivity]. }
  rewrite SE in SV. rewrite SV. rewrite DB. cbn [fst]. f_equal. f_equal.
  unfold tcp_exchange, answer. rewrite SV, DB. cbn [snd]. rewrite SE.
  destruct (C45_one_frame {| c_segs := cut_resp (on_wire (ids_for TCP last) u r); c_end := Stalled |} (on_wire (ids_for TCP last) u r) [] Sp) as (k & RV & _).
  { unfold stream. cbn [c_segs]. rewrite app_nil_r. apply C2. }
  rewrite RV. reflexivity.
Qed.
Lemma some_inj {A} (x y : A) : Some x = Some y -> x = y.
Proof. congruence. Qed.
(** The same over a serial line. *)
Theorem C64_serial : forall cut_req cut_resp last d u c pdu s r,
  cutting cut_req -> cutting cut_resp -> can_send RTU last u c -> prescribed c pdu -> (forall raw, c <> Raw raw) ->
  db_reachable d -> get_slave d u = Ok s -> snd (handle_request s pdu false) = Ok r ->
  over_serial cut_req cut_resp last d u c = round_trip RTU last d u c.
Proof.
  intros cut_req cut_resp last d u c pdu s r C1 C2 (E & T & _ & F) P NR D G H. specialize (F _ P).
  destruct (db_reachable_slave d u s D G) as [Rs U]. apply reachable_wf in Rs.
  destruct (execute_exact RTU last u c pdu E P F T ltac:(lia)) as (h & last' & _ & S & _ & X).
  unfold over_serial, round_trip, round_trip_args. rewrite !X. cbn [ex_sent]. set (w := on_wire (ids_for RTU last) u pdu) in *.
  assert (DB : db_handle_request d RTU w = (put_slave d u (fst (handle_request s pdu false)), Ok (Some (on_wire (ids_for RTU last) u r)))).
  { unfold w. change RTU with (proto_of (ids_for RTU last)) at 1. rewrite (db_present d (ids_for RTU last) u pdu s S U G), H. reflexivity. }
  assert (SE : sent (Some (on_wire (ids_for RTU last) u r)) = Some (on_wire (ids_for RTU last) u r)).
  { destruct (on_wire (ids_for RTU last) u r) eqn:Q; [now apply on_wire_nonempty in Q|reflexivity]. }
  pose proof (C48_one_request false d (cut_req w) w [] ltac:(apply on_wire_nonempty) (C1 w)) as SV.
  unfold served_request in SV. rewrite DB in SV. cbn [fst snd] in SV. rewrite SE in SV. rewrite SV, DB. cbn [fst rt_db]. f_equal. f_equal.
  unfold serial_exchange, answer. rewrite SV, DB. cbn [snd rt_written]. rewrite SE. set (wr := on_wire (ids_for RTU last) u r).
  assert (RV : exists k, rtu_master_recv no_hook TPositive [] (expected_call c) (map Burst (cut_resp wr) ++ [Silence]) = Some (k, Ok wr)).
  { destruct (C2 wr) as [Cw Fw].
    assert (ZW : zlen wr = zlen r + 3). { unfold wr. cbn [ids_for on_wire]. unfold sealed. rewrite zlen_app, zlen_cons. change (zlen (crc_bytes _)) with 2. lia. }
    assert (EX : expected_call c = zlen wr \/ zlen wr < expected_call c \/ expected_call c < 0).
    { unfold expected_call. assert (HR : handle_request s pdu false = (fst (handle_request s pdu false), Ok r)) by (rewrite <- H; now destruct (handle_request s pdu false)).
      destruct (hr_length s c pdu _ r Rs E P NR HR) as [(code & ->)|HL].
      - change (zlen [fc_of c + 128; code]) with 2 in ZW. destruct (response_length c) as [n|] eqn:RL; [|right; right; lia].
        enough (2 <= n) by lia. destruct c as [coils a m|holding a m|subs|a v|a v|a am om|a vals|a vals| |sub data|a m wa vals|code' object|raw]; cbn [response_length encodable] in RL, E; try discriminate; try (apply some_inj in RL; lia).
        + apply some_inj in RL. destruct E as [_ E]. unfold fits in E. assert (0 <= bytes_for_bits m) by (unfold bytes_for_bits; apply Z.div_pos; lia). lia.
        + apply some_inj in RL. destruct E as [_ E]. unfold fits in E. lia.
        + apply some_inj in RL. destruct E as [_ E]. enough (0 <= fold_right (fun s acc => 2 + 2 * snd s + acc) 0 (subs : list (Z * Z * Z))) by lia.
          clear - E. induction E as [|x l Hx _ IH]; cbn [fold_right]; [lia|]. unfold fits in Hx. cbn beta in *. lia.
        + destruct data as [|y data]; [discriminate|]. apply some_inj in RL. pose proof (zlen_nonneg (y :: data)). lia.
        + apply some_inj in RL. destruct E as (_ & E & _). unfold fits in E. lia.
      - left. rewrite HL. lia. }
    destruct EX as [EX|EX].
    - destruct (C47_exact (cut_resp wr) wr [] [Silence] ltac:(apply on_wire_nonempty) Fw) as (lf & _ & RV); [now rewrite app_nil_r|]. rewrite <- EX in RV. eauto.
    - pose proof (C47_shorter (cut_resp wr) [] (expected_call c) Fw) as RV. rewrite Cw in RV. eexists. apply RV. lia. }
  destruct RV as (k & RV). rewrite RV. reflexivity.
Qed.
(** RtuOverTcpMaster and a gateway, the response cut in any way: as a direct call, when the slave gives the normal response (exception
    responses: C67) and the length of the response is known in advance and at most 255. *)
Theorem C49_call_partial : forall fuel cut_resp last d u c pdu s r n,
  cutting cut_resp -> can_send RTU last u c -> prescribed c pdu -> (forall raw, c <> Raw raw) -> (255 <= fuel)%nat ->
  db_reachable d -> get_slave d u = Ok s -> snd (handle_request s pdu false) = Ok r -> hd 0 r < 128 ->
  response_length c = Some n -> n <= 252 ->
  over_rtu_tcp fuel cut_resp last d u c = round_trip RTU last d u c.
Proof.
  intros fuel cut_resp last d u c pdu s r n C2 (E & T & _ & F) P NR FU D G H HD RL LE. specialize (F _ P).
  destruct (db_reachable_slave d u s D G) as [Rs U]. apply reachable_wf in Rs.
  destruct (execute_exact RTU last u c pdu E P F T ltac:(lia)) as (h & last' & _ & S & _ & X).
  unfold over_rtu_tcp, round_trip, round_trip_args. rewrite !X. cbn [ex_sent]. set (w := on_wire (ids_for RTU last) u pdu) in *.
  assert (DB : db_handle_request d RTU w = (put_slave d u (fst (handle_request s pdu false)), Ok (Some (on_wire (ids_for RTU last) u r)))).
  { unfold w. change RTU with (proto_of (ids_for RTU last)) at 1. rewrite (db_present d (ids_for RTU last) u pdu s S U G), H. reflexivity. }
  assert (SE : sent (Some (on_wire (ids_for RTU last) u r)) = Some (on_wire (ids_for RTU last) u r)).
  { destruct (on_wire (ids_for RTU last) u r) eqn:Q; [now apply on_wire_nonempty in Q|reflexivity]. }
  unfold rtu_tcp_exchange, answer, served_request. rewrite DB. cbn [fst snd]. rewrite SE. f_equal. f_equal.
  set (wr := on_wire (ids_for RTU last) u r).
  assert (ZW : zlen wr = zlen r + 3). { unfold wr. cbn [ids_for on_wire]. unfold sealed. rewrite zlen_app, zlen_cons. change (zlen (crc_bytes _)) with 2. lia. }
  assert (HR : handle_request s pdu false = (fst (handle_request s pdu false), Ok r)) by (rewrite <- H; now destruct (handle_request s pdu false)).
  destruct (hr_length s c pdu _ r Rs E P NR HR) as [(code & Q)|HL].
  { exfalso. rewrite Q in HD. cbn [hd] in HD. assert (0 <= fc_of c) by (destruct c; cbn; try lia; match goal with |- context [if ?b then _ else _] => destruct b end; lia). lia. }
  assert (EX : expected_call c = zlen wr) by (unfold expected_call; rewrite HL; lia). rewrite EX. rewrite RL in HL. apply some_inj in HL.
  destruct (C49_complete_partial {| c_segs := cut_resp wr; c_end := Stalled |} wr [] fuel) as (c' & RV & _).
  - apply on_wire_nonempty.
  - lia.
  - unfold stream. cbn [c_segs]. rewrite app_nil_r. apply C2.
  - unfold zlen in *. lia.
  - rewrite RV. reflexivity.
Qed.
Definition one_by_one (l : list Z) : list (list Z) := map (fun x => [x]) l.
Lemma one_by_one_cuts : cutting one_by_one.
Proof. intros l. split; induction l as [|x l IH]; cbn; try constructor; try discriminate; try assumption; try reflexivity. now f_equal. Qed.
Example C49_call_ex : exists s, get_slave demo_db 3 = Ok s /\ response_length (WriteRegs 101 [7; 8]) = Some 5 /\
  ex_result (snd (over_rtu_tcp 255 one_by_one 0 demo_db 3 (WriteRegs 101 [7; 8]))) = Some (Ok (RTuple [101; 2])).
Proof. eexists. split; [vm_compute; reflexivity|]. split; vm_compute; reflexivity. Qed.
Example C64_ex : cutting one_by_one /\ can_send RTU 0 3 (WriteRegs 101 [7; 8]) /\
  exists s, get_slave demo_db 3 = Ok s /\ snd (handle_request s (16 :: word 101 ++ word 2 ++ 4 :: words [7; 8]) false) = Ok [16; 0; 101; 0; 2] /\
  ex_result (snd (over_serial one_by_one one_by_one 0 demo_db 3 (WriteRegs 101 [7; 8]))) = Some (Ok (RTuple [101; 2])).
Proof.
  split; [exact one_by_one_cuts|]. split.
  - split; [|split; [lia|split; [lia|intros; exact I]]]. cbn. unfold fits, reg_value. split; [lia|]. split; [cbn; lia|]. repeat constructor; unfold reg_value; lia.
  - eexists. split; [vm_compute; reflexivity|]. split; vm_compute; reflexivity.
Qed.

Print Assumptions C45_one_frame.
Print Assumptions C45_segmentation.
Print Assumptions C45_closed_early.
Print Assumptions C45_stalled.
Print Assumptions C45_terminates.
Print Assumptions C46_one_request.
Print Assumptions C46_requests_in_order.
Print Assumptions C65_serial_history.
Print Assumptions C65_partial_request.
Print Assumptions C66_no_stale_bytes.
Print Assumptions C66_reconnects_iff.
Print Assumptions C47_exact.
Print Assumptions C47_shorter.
Print Assumptions C47_fault.
Print Assumptions C47_terminates.
Print Assumptions C47_no_timeout_refuted.
Print Assumptions C47_late_bytes_dropped.
Print Assumptions C47_bytes_in_order.
Print Assumptions C47_late_lost.
Print Assumptions C48_one_request.
Print Assumptions C48_all_requests.
Print Assumptions C48_answers.
Print Assumptions C49_refuted.
Print Assumptions C49_complete_partial.
Print Assumptions C49_timeout_partial.
Print Assumptions C67_refuted.
Print Assumptions C67_five_bytes_partial.
Print Assumptions C63_server_agrees.
Print Assumptions C64_tcp.
Print Assumptions C64_serial.
Print Assumptions C49_call_partial.
