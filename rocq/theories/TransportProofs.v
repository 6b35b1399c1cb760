(** Lemmas about the transports. *)
From Coq Require Import Lia ZifyBool ZifyNat.
From Verif Require Import Base BaseFacts PyStruct Spec StructFacts StructMore FrameSpec CrcSpec QueryModel QueryProofs DatabankModel DbSpec DatabankProofs TransportModel TransportSpec.
Ltac Zify.zify_post_hook ::= Z.div_mod_to_equations.
Open Scope string_scope.
Open Scope list_scope.
Open Scope Z_scope.

(** ** recv *)
Lemma recv_segs_some n segs : (0 < n)%nat -> concat segs <> [] ->
  exists segs' b, recv_segs n segs = Some (segs', b) /\ b <> [] /\ (length b <= n)%nat /\ concat segs = b ++ concat segs'.
Proof.
  intros N. induction segs as [|[|x s] t IH]; intros H; [now destruct H|exact (IH H)|]. cbn [recv_segs].
  eexists _, _. split; [reflexivity|]. destruct n as [|n]; [lia|]. cbn [firstn skipn]. split; [discriminate|]. split.
  - cbn [length]. rewrite firstn_length. lia.
  - cbn [concat app]. now rewrite app_assoc, firstn_skipn.
Qed.
Lemma recv_segs_none n segs : concat segs = [] -> recv_segs n segs = None.
Proof. induction segs as [|[|x s] t IH]; intros H; [reflexivity|exact (IH H)|discriminate]. Qed.
Lemma recv1_cons c b t : stream c = b :: t -> exists c', recv 1 c = (c', Ok [b]) /\ stream c' = t /\ c_end c' = c_end c.
Proof.
  intros H. unfold stream in H. destruct (recv_segs_some 1 (c_segs c) ltac:(lia)) as (segs' & l & E & N & L & C); [congruence|].
  unfold recv. rewrite E. destruct l as [|x [|y l]]; [congruence| |cbn in L; lia]. rewrite H in C. injection C as <- ->.
  eexists. split; [reflexivity|]. split; reflexivity.
Qed.
Lemma recv_nil n c : stream c = [] -> recv n c = (c, match c_end c with Closed => Ok [] | Stalled => Err SocketTimeout end).
Proof. intros H. unfold recv. now rewrite recv_segs_none. Qed.

(** ** read_more *)
Lemma read_more_take l : forall c r t, stream c = l ++ t ->
  exists c', read_more (length l) c r = (c', Ok (r ++ l, true)) /\ stream c' = t /\ c_end c' = c_end c.
Proof.
  induction l as [|x l IH]; intros c r t H.
  - exists c. rewrite app_nil_r. auto.
  - cbn [length read_more]. destruct (recv1_cons c x (l ++ t) H) as (c1 & E & S & N). rewrite E.
    destruct (IH c1 (r ++ [x]) t S) as (c' & E' & S' & N'). exists c'. rewrite E', <- app_assoc. repeat split; congruence.
Qed.
Lemma read_more_short l : forall n c r, stream c = l -> (length l < n)%nat ->
  exists c', read_more n c r = (c', match c_end c with Closed => Ok (r ++ l, false) | Stalled => Err SocketTimeout end) /\ stream c' = [] /\ c_end c' = c_end c.
Proof.
  induction l as [|x l IH]; intros n c r H L; (destruct n as [|n]; [cbn in L; lia|]); cbn [read_more].
  - rewrite recv_nil by exact H. exists c. rewrite app_nil_r. destruct (c_end c); auto.
  - destruct (recv1_cons c x l H) as (c1 & E & S & N). rewrite E.
    destruct (IH n c1 (r ++ [x]) S ltac:(cbn in L; lia)) as (c' & E' & S' & N'). exists c'. rewrite E', <- app_assoc, N. repeat split; congruence.
Qed.

Lemma third_word_six a b c d n1 n2 : third_word [a; b; c; d; n1; n2] = Ok (n1 * 256 + n2).
Proof. unfold third_word. rewrite unpack_HHH. reflexivity. Qed.

(** ** TcpMaster._recv *)
Lemma tcp_loop_take l : forall c r t fuel len, stream c = l ++ t -> zlen r + zlen l <= len -> (6 <= zlen r \/ zlen r + zlen l < 6) ->
  exists c', tcp_recv_loop (length l + fuel) c r len = tcp_recv_loop fuel c' (r ++ l) len /\ stream c' = t /\ c_end c' = c_end c.
Proof.
  induction l as [|x l IH]; intros c r t fuel len H L A.
  - exists c. rewrite app_nil_r. auto.
  - rewrite zlen_cons in *. pose proof (zlen_nonneg l). cbn [length Nat.add tcp_recv_loop]. replace (zlen r <? len) with true by lia.
    destruct (recv1_cons c x (l ++ t) H) as (c1 & E & S & N). rewrite E.
    assert (R6 : zlen (r ++ [x]) = zlen r + 1) by (now rewrite zlen_app). rewrite R6.
    replace (zlen r + 1 =? 6) with false by lia.
    destruct (IH c1 (r ++ [x]) t fuel len S ltac:(lia) ltac:(lia)) as (c' & E' & S' & N'). exists c'. rewrite E', <- app_assoc. repeat split; congruence.
Qed.
Lemma tcp_loop_end fuel c r len : stream c = [] -> zlen r < len ->
  tcp_recv_loop (S fuel) c r len = Some (c, match c_end c with Closed => Ok r | Stalled => Err SocketTimeout end).
Proof. intros H L. cbn [tcp_recv_loop]. replace (zlen r <? len) with true by lia. rewrite recv_nil by exact H. now destruct (c_end c). Qed.
Lemma tcp_loop_done fuel c r len : len <= zlen r -> tcp_recv_loop (S fuel) c r len = Some (c, Ok r).
Proof. intros L. cbn [tcp_recv_loop]. now replace (zlen r <? len) with false by lia. Qed.
(** the first six bytes *)
Lemma tcp_loop_header a b x d n1 n2 t c fuel : stream c = a :: b :: x :: d :: n1 :: n2 :: t ->
  exists c', tcp_recv_loop (6 + fuel) c [] 255 = tcp_recv_loop fuel c' [a; b; x; d; n1; n2] (n1 * 256 + n2 + 6) /\ stream c' = t /\ c_end c' = c_end c.
Proof.
  intros H. destruct (tcp_loop_take [a; b; x; d; n1] c [] (n2 :: t) (S fuel) 255 H ltac:(cbn; lia) ltac:(cbn; lia)) as (c1 & E & S & N).
  change (6 + fuel)%nat with (length [a; b; x; d; n1] + Datatypes.S fuel)%nat. rewrite E. cbn [app tcp_recv_loop].
  change (zlen [a; b; x; d; n1] <? 255) with true. cbn iota. destruct (recv1_cons c1 n2 t S) as (c2 & E2 & S2 & N2). rewrite E2.
  cbn [app]. change (zlen [a; b; x; d; n1; n2] =? 6) with true. cbn iota. rewrite third_word_six. exists c2. repeat split; congruence.
Qed.
(** enough fuel: [k] more bytes are all that can be wanted *)
Definition wanted (frame : list Z) : Z := match frame with _ :: _ :: _ :: _ :: n1 :: n2 :: _ => n1 * 256 + n2 + 6 | _ => 255 end.
Lemma tcp_loop_whole fuel c frame rest : self_delimited frame -> (length frame < fuel)%nat -> stream c = frame ++ rest ->
  exists c', tcp_recv_loop fuel c [] 255 = Some (c', Ok frame) /\ stream c' = rest /\ c_end c' = c_end c.
Proof.
  intros (a & b & x & d & n1 & n2 & body & -> & L & _) F H. cbn [app] in H. cbn [length] in F.
  remember (fuel - 6 - length body - 1)%nat as k. replace fuel with (6 + (length body + S k))%nat by lia.
  destruct (tcp_loop_header _ _ _ _ _ _ _ c (length body + S k) H) as (c1 & E & S1 & N1). rewrite E.
  destruct (tcp_loop_take body c1 [a; b; x; d; n1; n2] rest (S k) (n1 * 256 + n2 + 6) S1) as (c2 & E2 & S2 & N2).
  - rewrite L. change (zlen [a; b; x; d; n1; n2]) with 6. lia.
  - left. change (zlen [a; b; x; d; n1; n2]) with 6. lia.
  - rewrite E2. cbn [app]. rewrite tcp_loop_done; [exists c2; repeat split; congruence|]. rewrite !zlen_cons, L. lia.
Qed.
Lemma tcp_loop_cut fuel c part more : self_delimited (part ++ more) -> more <> [] -> (length part < fuel)%nat -> stream c = part ->
  exists c', tcp_recv_loop fuel c [] 255 = Some (c', match c_end c with Closed => Ok part | Stalled => Err SocketTimeout end).
Proof.
  intros D M F H. destruct (Nat.lt_ge_cases (length part) 6) as [L|L].
  - remember (fuel - length part - 1)%nat as k. replace fuel with (length part + S k)%nat by lia. rewrite <- (app_nil_r part) in H.
    destruct (tcp_loop_take part c [] [] (S k) 255 H) as (c1 & E & S1 & N1); [change (zlen []) with 0; unfold zlen; lia|right; change (zlen []) with 0; unfold zlen; lia|].
    rewrite E. cbn [app]. exists c1. rewrite <- N1. apply tcp_loop_end; [exact S1|]. unfold zlen. lia.
  - destruct D as (a & b & x & d & n1 & n2 & body & E0 & Lb & _).
    destruct part as [|a' [|b' [|x' [|d' [|n1' [|n2' part]]]]]]; try (cbn in L; lia). cbn [app] in E0. injection E0 as -> -> -> -> -> -> <-.
    cbn [length] in F. remember (fuel - 6 - length part - 1)%nat as k. replace fuel with (6 + (length part + S k))%nat by lia.
    destruct (tcp_loop_header _ _ _ _ _ _ _ c (length part + S k) H) as (c1 & E & S1 & N1). rewrite E.
    rewrite zlen_app in Lb. assert (0 < zlen more) by (destruct more; [congruence|rewrite zlen_cons; pose proof (zlen_nonneg more); lia]).
    rewrite <- (app_nil_r part) in S1.
    destruct (tcp_loop_take part c1 [a; b; x; d; n1; n2] [] (S k) (n1 * 256 + n2 + 6) S1) as (c2 & E2 & S2 & N2).
    + change (zlen [a; b; x; d; n1; n2]) with 6. lia.
    + left. change (zlen [a; b; x; d; n1; n2]) with 6. lia.
    + rewrite E2. exists c2. rewrite <- N1, <- N2. apply tcp_loop_end; [exact S2|]. cbn [app]. rewrite !zlen_cons. lia.
Qed.
(** it always ends *)
Lemma tcp_loop_ends fuel : forall c r len, bytes (stream c) -> bytes r -> (6 <= zlen r \/ len = 255) -> len <= 65541 -> zlen r <= 65541 -> 65541 < zlen r + Z.of_nat fuel ->
  tcp_recv_loop fuel c r len <> None.
Proof.
  induction fuel as [|fuel IH]; intros c r len B Br A L Lr F; cbn [tcp_recv_loop].
  - lia.
  - destruct (zlen r <? len) eqn:Q; [|discriminate]. destruct (stream c) as [|x t] eqn:S.
    + rewrite recv_nil by exact S. destruct (c_end c); discriminate.
    + destruct (recv1_cons c x t S) as (c1 & E & S1 & _). rewrite E. inversion_clear B as [|? ? Bx Bt].
      assert (Br' : bytes (r ++ [x])) by (apply Forall_app; split; [exact Br|constructor; [exact Bx|constructor]]).
      assert (R6 : zlen (r ++ [x]) = zlen r + 1) by (now rewrite zlen_app).
      destruct (zlen (r ++ [x]) =? 6) eqn:Q6.
      * remember (r ++ [x]) as r'. assert (L6 : length r' = 6%nat) by (unfold zlen in Q6; lia).
        destruct r' as [|y1 [|y2 [|y3 [|y4 [|y5 [|y6 [|y7 r']]]]]]]; try discriminate. rewrite third_word_six.
        apply IH; [now rewrite S1|exact Br'|left; cbn; lia| |cbn; lia|cbn [zlen length] in *; lia].
        repeat match goal with H : bytes (_ :: _) |- _ => inversion_clear H end. repeat match goal with H : Forall is_byte (_ :: _) |- _ => inversion_clear H end.
        unfold is_byte in *. lia.
      * apply IH; [now rewrite S1|exact Br'| |exact L|lia|lia]. destruct A as [A|A]; [left; lia|right; exact A].
Qed.

Lemma recv1_same c c' : same_stream c c' ->
  exists d d' r, recv 1 c = (d, r) /\ recv 1 c' = (d', r) /\ same_stream d d' /\ (r = Ok [] \/ (exists e, r = Err e) \/ exists x, r = Ok [x]).
Proof.
  intros [S E]. destruct (stream c) as [|x t] eqn:Sc.
  - rewrite !recv_nil by congruence. rewrite <- E. eexists _, _, _. split; [reflexivity|]. split; [reflexivity|]. split; [split; congruence|].
    destruct (c_end c); [auto|right; left; eauto].
  - destruct (recv1_cons c x t Sc) as (d & R & Sd & Ed). destruct (recv1_cons c' x t) as (d' & R' & Sd' & Ed'); [congruence|].
    exists d, d', (Ok [x]). split; [exact R|]. split; [exact R'|]. split; [split; congruence|]. right; right; eauto.
Qed.
Definition same_outcome {A} (a b : option (conn * A)) : Prop :=
  match a, b with
  | Some (c, r), Some (c', r') => r = r' /\ same_stream c c'
  | None, None => True
  | _, _ => False
  end.
Lemma tcp_loop_same fuel : forall c c' r len, same_stream c c' -> same_outcome (tcp_recv_loop fuel c r len) (tcp_recv_loop fuel c' r len).
Proof.
  induction fuel as [|fuel IH]; intros c c' r len S; cbn [tcp_recv_loop]; [exact I|].
  destruct (zlen r <? len); [|split; [reflexivity|exact S]].
  destruct (recv1_same c c' S) as (d & d' & v & R & R' & S' & [->|[[e ->]|[x ->]]]); rewrite R, R'; try (split; [reflexivity|exact S']).
  destruct (zlen (r ++ [x]) =? 6); [|now apply IH]. destruct (third_word (r ++ [x])); [now apply IH|split; [reflexivity|exact S']].
Qed.

(** ** The TCP server *)
Lemma missing_nil : missing 7 [] = 7%nat. Proof. reflexivity. Qed.
Lemma serve_one h d c frame rest : th_after_recv h = no_hook -> self_delimited frame -> 7 <= zlen frame -> stream c = frame ++ rest ->
  exists c', serve_client h d c =
    Stays c' (fst (server_handle (th_server h) d TCP frame)) (Some frame)
      (match snd (server_handle (th_server h) d TCP frame) with
       | Ok resp => match sent resp with Some b => Some (replaced (th_before_send h) b) | None => None end
       | Err _ => None end) /\ stream c' = rest /\ c_end c' = c_end c.
Proof.
  intros Hk (a & b & x & e & n1 & n2 & body & -> & L & B) Z7 H.
  destruct body as [|u body]; [cbn in Z7; lia|]. cbn [app] in H. unfold serve_client. rewrite missing_nil, Hk.
  destruct (recv1_cons c _ _ H) as (c0 & E0 & _). rewrite E0. cbn [snd].
  destruct (read_more_take [a; b; x; e; n1; n2; u] c [] (body ++ rest) H) as (c1 & E1 & S1 & N1).
  change (length [a; b; x; e; n1; n2; u]) with 7%nat in E1. rewrite E1. cbn [app]. unfold replaced at 1, no_hook at 1.
  unfold get_request_length. change (zlen [a; b; x; e; n1; n2; u] <? 6) with false. cbn iota.
  change (py_slice [a; b; x; e; n1; n2; u] 0 6) with [a; b; x; e; n1; n2]. rewrite third_word_six.
  replace (missing (n1 * 256 + n2 + 6) (replaced no_hook [a; b; x; e; n1; n2; u])) with (length body).
  2: { unfold missing, replaced, no_hook. change (zlen [a; b; x; e; n1; n2; u]) with 7. rewrite zlen_cons in L. unfold zlen in L. lia. }
  change (replaced no_hook [a; b; x; e; n1; n2; u]) with [a; b; x; e; n1; n2; u].
  destruct (read_more_take body c1 [a; b; x; e; n1; n2; u] rest S1) as (c2 & E2 & S2 & N2). rewrite E2. cbn [app].
  exists c2. destruct (server_handle (th_server h) d TCP _) as [d' r]. cbn [fst snd]. split; [reflexivity|]. split; congruence.
Qed.
Lemma server_handle_plain d p r : server_handle no_server_hooks d p r = db_handle_request d p r.
Proof. unfold server_handle. cbn. destruct (db_handle_request d p r) as [d' [x|e]]; reflexivity. Qed.
(** without hooks, only a complete request changes the databank *)
Lemma serve_plain d c c' d' handled out : serve_client no_tcp_hooks d c = Stays c' d' handled out ->
  match handled with Some r => served_request d TCP r = (d', out) | None => d' = d end.
Proof.
  unfold serve_client. destruct (snd (recv 1 c)) as [[|x l]|]; try discriminate.
  destruct (read_more (missing 7 []) c []) as [c1 [[rq ok]|]]; [|discriminate]. destruct ok.
  2: { intros [= <- <- <- <-]. reflexivity. }
  destruct (get_request_length _); [|discriminate]. destruct (read_more _ c1 _) as [c2 [[rq2 ok2]|]]; [|discriminate]. destruct ok2.
  2: { intros [= <- <- <- <-]. reflexivity. }
  cbn [no_tcp_hooks th_server th_before_send]. rewrite server_handle_plain. destruct (db_handle_request d TCP rq2) as [d2 r2] eqn:Q.
  intros [= <- <- <- <-]. unfold served_request. rewrite Q. cbn [fst snd]. f_equal. destruct r2 as [x2|]; [|reflexivity]. now destruct (sent x2).
Qed.
Lemma replay_app p l1 : forall d l2 d1 d2, replay p d l1 d1 -> replay p d1 l2 d2 -> replay p d (l1 ++ l2) d2.
Proof. induction l1 as [|[r o] l1 IH]; cbn; intros d l2 d1 d2 H1 H2; [now subst|]. destruct H1 as [H1 H1']. split; [exact H1|]. now apply (IH _ _ d1). Qed.
Lemma do_run_replay ready : forall s s' ev, tcp_do_run no_tcp_hooks ready s = (s', ev) -> replay TCP (ts_db s) (anonymous ev) (ts_db s').
Proof.
  induction ready as [|[[[i c]|e]|i] t IH]; intros s s' ev; cbn [tcp_do_run].
  - now intros [= <- <-].
  - destruct (ts_listening s); intros H; now apply IH in H.
  - destruct (ts_listening s); intros H; now apply IH in H.
  - destruct (assoc Z.eqb i (ts_conns s)) as [c|]; [|apply IH]. destruct (serve_client no_tcp_hooks (ts_db s) c) as [|e|c' d' handled out] eqn:S.
    + now intros [= <- <-].
    + intros H. now apply IH in H.
    + apply serve_plain in S. destruct (tcp_do_run no_tcp_hooks t _) as [s2 ev2] eqn:R. apply IH in R. cbn [ts_db] in R. intros [= <- <-].
      destruct handled as [r|]; [|now subst]. cbn [anonymous map fst snd]. cbn [replay]. rewrite S. cbn [fst snd]. split; [reflexivity|exact R].
Qed.
Lemma turns_replay turns : forall s s' ev, tcp_turns no_tcp_hooks turns s = (s', ev) -> replay TCP (ts_db s) (anonymous ev) (ts_db s').
Proof.
  induction turns as [|ready t IH]; intros s s' ev; cbn [tcp_turns]; [now intros [= <- <-]|].
  destruct (tcp_do_run no_tcp_hooks ready s) as [s1 e1] eqn:R. destruct (tcp_turns no_tcp_hooks t s1) as [s2 e2] eqn:R2. intros [= <- <-].
  unfold anonymous. rewrite map_app. apply replay_app with (ts_db s1); [now apply do_run_replay in R|now apply IH in R2].
Qed.

(** a client whose connection carries complete requests *)
Definition request_frame (f : list Z) : Prop := self_delimited f /\ 7 <= zlen f.
Definition waiting (s : tcp_server) (id : Z) (frames : list (list Z)) : Prop :=
  (exists c, assoc Z.eqb id (ts_conns s) = Some c /\ stream c = concat frames) \/
  (frames = [] /\ assoc Z.eqb id (ts_conns s) = None).
Lemma request_frame_cons f : request_frame f -> exists x t, f = x :: t.
Proof. intros [(a & b & c & d & e & g & t & -> & _) _]. eauto. Qed.
Lemma serve_empty h d c : stream c = [] -> serve_client h d c = match c_end c with Closed => Gone | Stalled => Failed SocketTimeout end.
Proof. intros H. unfold serve_client. rewrite recv_nil by exact H. now destruct (c_end c). Qed.
Lemma do_run_client id ready : forall s s' ev frames,
  NoDup (map fst (ts_conns s) ++ accepted_ids ready) -> ~ In id (accepted_ids ready) -> Forall request_frame frames ->
  waiting s id frames -> tcp_do_run no_tcp_hooks ready s = (s', ev) ->
  exists k, of_client id ev = firstn k frames /\ waiting s' id (skipn k frames) /\
    (forall t, ready = ReadyClient id :: t -> (1 <= k)%nat \/ frames = []) /\
    NoDup (map fst (ts_conns s')) /\ incl (map fst (ts_conns s')) (map fst (ts_conns s) ++ accepted_ids ready).
Proof.
  induction ready as [|[[[i c]|e]|i] t IH]; intros s s' ev frames ND NI FF W; cbn [tcp_do_run accepted_ids] in *.
  - intros [= <- <-]. exists 0%nat. rewrite app_nil_r in ND. repeat split; auto; [discriminate|]. rewrite app_nil_r. apply incl_refl.
  - assert (W1 : waiting {| ts_listening := true; ts_conns := ts_conns s ++ [(i, c)]; ts_db := ts_db s |} id frames).
    { assert (Ni : i <> id) by (intros ->; apply NI; now left). unfold waiting in *. cbn [ts_conns].
      assert (A : assoc Z.eqb id (ts_conns s ++ [(i, c)]) = assoc Z.eqb id (ts_conns s)).
      { clear - Ni. induction (ts_conns s) as [|[k v] l IHl]; cbn; [now replace (id =? i) with false by lia|]. destruct (id =? k); [reflexivity|].
        apply IHl. }
      now rewrite A. }
    destruct (ts_listening s) eqn:Li; intros H.
    + destruct (fun A B C D => IH _ _ _ frames A B C D H) as (k & K1 & K2 & K3 & K4 & K5); [| |exact FF|exact W1|].
      * cbn [ts_conns]. rewrite map_app, <- app_assoc. exact ND.
      * intros Q. apply NI. now right.
      * exists k. split; [exact K1|]. split; [exact K2|]. split; [discriminate|]. split; [exact K4|]. cbn [ts_conns] in K5. rewrite map_app, <- app_assoc in K5. exact K5.
    + apply NoDup_remove_1 in ND as ND'. destruct (fun A B C D => IH _ _ _ frames A B C D H) as (k & K1 & K2 & K3 & K4 & K5); [exact ND'| |exact FF|exact W|].
      * intros Q. apply NI. now right.
      * exists k. split; [exact K1|]. split; [exact K2|]. split; [discriminate|]. split; [exact K4|]. intros z Hz. apply K5 in Hz. rewrite in_app_iff in *. cbn [In]. tauto.
  - destruct (ts_listening s); intros H.
    + destruct (fun A B C D => IH _ _ _ frames A B C D H) as (k & K1 & K2 & K3 & K4 & K5); [exact ND|exact NI|exact FF|exact W|].
      exists k. split; [exact K1|]. split; [exact K2|]. split; [discriminate|]. split; [exact K4|]. exact K5.
    + destruct (fun A B C D => IH _ _ _ frames A B C D H) as (k & K1 & K2 & K3 & K4 & K5); [exact ND|exact NI|exact FF|exact W|].
      exists k. split; [exact K1|]. split; [exact K2|]. split; [discriminate|]. split; [exact K4|]. exact K5.
  - assert (NDs : NoDup (map fst (ts_conns s))).
    { clear -ND. induction (map fst (ts_conns s)) as [|z l IHl]; [constructor|]. cbn in ND. inversion_clear ND as [|? ? Nz Nl]. constructor; [|now apply IHl].
      intros Q. apply Nz. apply in_app_iff. now left. }
    assert (DEL : NoDup (map fst (assoc_del Z.eqb i (ts_conns s)) ++ accepted_ids t) /\ incl (map fst (assoc_del Z.eqb i (ts_conns s))) (map fst (ts_conns s))).
    { split; [|intros z; apply zdel_keys]. clear -ND. revert ND. induction (ts_conns s) as [|[k v] l IHl]; cbn; intros ND; [exact ND|].
      inversion_clear ND as [|? ? Nz Nl]. destruct (i =? k); [exact Nl|]. cbn. constructor; [|now apply IHl].
      intros Q. apply Nz. rewrite in_app_iff in *. destruct Q as [Q|Q]; [left; now apply zdel_keys in Q|now right]. }
    destruct (assoc Z.eqb i (ts_conns s)) as [c|] eqn:A.
    + destruct (Z.eq_dec i id) as [->|Ni].
      * destruct W as [(c0 & A0 & St)|(-> & A0)]; [|congruence]. assert (c0 = c) by congruence. subst c0.
        destruct frames as [|f frames].
        -- cbn [concat] in St. rewrite serve_empty by exact St. destruct DEL as [D1 D2]. destruct (c_end c).
           ++ intros [= <- <-]. exists 0%nat. cbn [ts_conns of_client filter map firstn skipn]. split; [reflexivity|]. split; [right; split; [reflexivity|now apply zdel_gone]|].
              split; [now right|]. split; [now apply zdel_nodup|]. intros z Hz. apply in_app_iff. left. now apply D2.
           ++ intros H. destruct (fun A B C D => IH _ _ _ (@nil (list Z)) A B C D H) as (k & K1 & K2 & K3 & K4 & K5); [exact D1|exact NI|constructor|right; split; [reflexivity|now apply zdel_gone]|].
              exists k. split; [exact K1|]. split; [exact K2|]. split; [now right|]. split; [exact K4|]. intros z Hz. apply K5 in Hz. cbn [ts_conns] in Hz. rewrite in_app_iff in *. destruct Hz; [left; now apply D2|now right].
        -- inversion_clear FF as [|? ? [F1 F2] FF']. cbn [concat] in St.
           destruct (serve_one no_tcp_hooks (ts_db s) c f (concat frames) eq_refl F1 F2 St) as (c' & E & St' & _). rewrite E.
           set (s1 := {| ts_listening := _; ts_conns := assoc_put Z.eqb id c' _; ts_db := _ |}). destruct (tcp_do_run no_tcp_hooks t s1) as [s2 ev2] eqn:R. intros [= <- <-].
           assert (KP : map fst (ts_conns s1) = map fst (ts_conns s)).
           { unfold s1. cbn [ts_conns]. destruct (zput_keys id c' (ts_conns s)) as [Q|[Q _]]; [exact Q|]. apply zassoc_none in Q. congruence. }
           destruct (fun A B C D => IH s1 s2 ev2 frames A B C D R) as (k & K1 & K2 & K3 & K4 & K5); [now rewrite KP|exact NI|exact FF'| |].
           ++ left. exists c'. split; [apply zassoc_put_same|exact St'].
           ++ exists (S k). unfold of_client in *. cbn [filter fst snd]. rewrite Z.eqb_refl. cbn [map fst snd firstn skipn]. split; [now rewrite K1|]. split; [exact K2|].
              split; [intros; left; lia|]. split; [exact K4|]. rewrite KP in K5. exact K5.
      * assert (Wdel : waiting {| ts_listening := ts_listening s; ts_conns := assoc_del Z.eqb i (ts_conns s); ts_db := ts_db s |} id frames).
        { unfold waiting in *. cbn [ts_conns]. now rewrite zassoc_del_other by congruence. }
        destruct (serve_client no_tcp_hooks (ts_db s) c) as [|e|c' d' handled out].
        -- intros [= <- <-]. exists 0%nat. cbn [ts_conns of_client filter map firstn skipn]. split; [reflexivity|]. split; [exact Wdel|].
           split; [intros ? [= -> ->]; congruence|]. split; [now apply zdel_nodup|]. intros z Hz. apply in_app_iff. left. now apply DEL.
        -- intros H. destruct (fun A B C D => IH _ _ _ frames A B C D H) as (k & K1 & K2 & K3 & K4 & K5); [exact (proj1 DEL)|exact NI|exact FF|exact Wdel|].
           exists k. split; [exact K1|]. split; [exact K2|]. split; [intros ? [= -> ->]; congruence|]. split; [exact K4|]. intros z Hz. apply K5 in Hz. cbn [ts_conns] in Hz. rewrite in_app_iff in *. destruct Hz; [left; now apply (proj2 DEL)|now right].
        -- set (s1 := {| ts_listening := _; ts_conns := assoc_put Z.eqb i c' _; ts_db := _ |}). destruct (tcp_do_run no_tcp_hooks t s1) as [s2 ev2] eqn:R. intros [= <- <-].
           assert (KP : map fst (ts_conns s1) = map fst (ts_conns s)).
           { unfold s1. cbn [ts_conns]. destruct (zput_keys i c' (ts_conns s)) as [Q|[Q _]]; [exact Q|]. apply zassoc_none in Q. congruence. }
           destruct (fun A B C D => IH s1 s2 ev2 frames A B C D R) as (k & K1 & K2 & K3 & K4 & K5); [now rewrite KP|exact NI|exact FF| |].
           ++ unfold waiting in *. unfold s1. cbn [ts_conns]. now rewrite zassoc_put_other by congruence.
           ++ exists k. split.
              { destruct handled as [r|]; [|exact K1]. unfold of_client in *. cbn [filter fst snd]. replace (i =? id) with false by lia. exact K1. }
              split; [exact K2|]. split; [intros ? [= -> ->]; congruence|]. split; [exact K4|]. rewrite KP in K5. exact K5.
    + intros H. destruct (fun A B C D => IH _ _ _ frames A B C D H) as (k & K1 & K2 & K3 & K4 & K5); [exact ND|exact NI|exact FF|exact W|].
      exists k. split; [exact K1|]. split; [exact K2|]. split; [|split; [exact K4|exact K5]].
      intros ? [= -> ->]. right. destruct W as [(c0 & A0 & _)|(-> & _)]; [congruence|reflexivity].
Qed.

Lemma of_client_app id a b : of_client id (a ++ b) = of_client id a ++ of_client id b.
Proof. unfold of_client. now rewrite filter_app, map_app. Qed.
Lemma nodup_incl_app {A} (l l' m : list A) (n : list A) : NoDup (l ++ m ++ n) -> NoDup l' -> incl l' (l ++ m) -> NoDup (l' ++ n).
Proof.
  intros H N I. induction l' as [|x l' IH]; cbn.
  - rewrite app_assoc in H. clear -H. induction (l ++ m) as [|y k IHk]; [exact H|]. inversion_clear H. now apply IHk.
  - inversion_clear N as [|? ? Nx Nl]. constructor; [|apply IH; [exact Nl|intros z Hz; apply I; now right]].
    rewrite in_app_iff. intros [Q|Q]; [now apply Nx|]. assert (J : In x (l ++ m)) by (apply I; now left). rewrite app_assoc in H.
    clear -H J Q. induction (l ++ m) as [|y k IHk]; [destruct J|]. inversion_clear H as [|? ? Ny Nk]. destruct J as [->|J]; [|now apply IHk].
    apply Ny. apply in_app_iff. now right.
Qed.
Lemma turns_client id turns : forall s s' ev frames,
  NoDup (map fst (ts_conns s) ++ flat_map accepted_ids turns) -> ~ In id (flat_map accepted_ids turns) -> Forall request_frame frames ->
  waiting s id frames -> tcp_turns no_tcp_hooks turns s = (s', ev) ->
  exists k, of_client id ev = firstn k frames /\ waiting s' id (skipn k frames) /\ (Nat.min (begins_with id turns) (length frames) <= k)%nat.
Proof.
  induction turns as [|ready t IH]; intros s s' ev frames ND NI FF W; cbn [tcp_turns flat_map] in *.
  - intros [= <- <-]. exists 0%nat. cbn. repeat split; auto.
  - destruct (tcp_do_run no_tcp_hooks ready s) as [s1 e1] eqn:R. destruct (tcp_turns no_tcp_hooks t s1) as [s2 e2] eqn:R2. intros [= <- <-].
    assert (ND1 : NoDup (map fst (ts_conns s) ++ accepted_ids ready)).
    { rewrite app_assoc in ND. clear -ND. induction (map fst (ts_conns s) ++ accepted_ids ready) as [|y k IHk]; [constructor|].
      inversion_clear ND as [|? ? Ny Nk]. constructor; [|now apply IHk]. intros Q. apply Ny. apply in_app_iff. now left. }
    assert (NI1 : ~ In id (accepted_ids ready)) by (intros Q; apply NI; apply in_app_iff; now left).
    assert (NI2 : ~ In id (flat_map accepted_ids t)) by (intros Q; apply NI; apply in_app_iff; now right).
    destruct (do_run_client id ready s s1 e1 frames ND1 NI1 FF W R) as (k & K1 & K2 & K3 & K4 & K5).
    assert (FF2 : Forall request_frame (skipn k frames)).
    { rewrite <- (firstn_skipn k frames) in FF. apply Forall_app in FF. apply FF. }
    destruct (IH s1 s2 e2 (skipn k frames) (nodup_incl_app _ _ _ _ ND K4 K5) NI2 FF2 K2 R2) as (k2 & J1 & J2 & J3).
    exists (k + k2)%nat. rewrite of_client_app, K1, J1, firstn_add, skipn_add. split; [reflexivity|]. split; [exact J2|].
    rewrite skipn_length in J3.
    assert (B : (begins_with id (ready :: t) <= begins_with id t)%nat \/ ((1 <= k)%nat \/ frames = []) /\ (begins_with id (ready :: t) <= S (begins_with id t))%nat).
    { destruct ready as [|[a|i] r]; cbn [begins_with]; [left; lia|left; lia|]. destruct (i =? id) eqn:Q; [|left; lia]. apply Z.eqb_eq in Q. subst i.
      right. split; [now apply (K3 r)|lia]. }
    destruct B as [B|[[B| ->] B']]; [lia|lia|cbn; lia].
Qed.

(** ** Serial ports *)
Definition bursts_of (pieces : list (list Z)) : line := map Burst pieces.
Lemma serial_read_burst n b p : b <> [] -> (0 < n)%nat ->
  serial_read n (Burst b :: p) = (match skipn n b with [] => p | r => Burst r :: p end, Got (firstn n b)).
Proof. intros B N. destruct b as [|x b]; [congruence|]. destruct n; [lia|]. reflexivity. Qed.
Lemma firstn_nonempty {A} n (l : list A) : l <> [] -> (0 < n)%nat -> exists x t, firstn n l = x :: t.
Proof. destruct l, n; cbn; try congruence; try lia; eauto. Qed.

(** expected length known: exactly those bytes are taken *)
Lemma rtu_loop_exact expected : forall fuel pieces resp extra rest r,
  Forall (fun b => b <> []) pieces -> concat pieces = resp ++ extra -> resp <> [] -> zlen r + zlen resp = expected -> (length resp <= fuel)%nat ->
  exists left, Forall (fun b => b <> []) left /\ concat left = extra /\
    rtu_recv_loop fuel TPositive [] expected (bursts_of pieces ++ rest) r (zlen r) = Some (bursts_of left ++ rest, Ok (r ++ resp)).
Proof.
  induction fuel as [|fuel IH]; intros pieces resp extra rest r F C N L Fu; [destruct resp; cbn in Fu; [congruence|lia]|].
  assert (Lp : 0 < zlen resp) by (destruct resp; [congruence|rewrite zlen_cons; pose proof (zlen_nonneg resp); lia]). pose proof (zlen_nonneg r).
  destruct pieces as [|b pieces]; [destruct resp; [congruence|discriminate]|]. inversion_clear F as [|? ? Fb Fp]. cbn [bursts_of map app rtu_recv_loop].
  replace (0 <? expected - zlen r) with true by lia. replace (expected - zlen r) with (zlen resp) by lia.
  assert (Nn : Z.to_nat (zlen resp) = length resp) by (unfold zlen; lia). rewrite Nn.
  rewrite serial_read_burst; [|exact Fb|unfold zlen in Lp; lia].
  destruct (firstn_nonempty (length resp) b Fb ltac:(unfold zlen in Lp; lia)) as (x & t & Fx). rewrite Fx. cbn [hd tl].
  replace (0 <=? expected) with true by lia. cbn [andb].
  cbn [concat] in C. destruct (Nat.le_gt_cases (length resp) (length b)) as [Lb|Lb].
  - (* the burst finishes the response *)
    assert (E : firstn (length resp) b = resp).
    { apply (f_equal (firstn (length resp))) in C. rewrite firstn_app, firstn_app, firstn_all, Nat.sub_diag, !firstn_O, app_nil_r in C.
      replace (length resp - length b)%nat with 0%nat in C by lia. rewrite firstn_O, app_nil_r in C. exact C. }
    rewrite <- Fx, E. rewrite zlen_app. replace (expected <=? zlen r + zlen resp) with true by lia.
    assert (E2 : skipn (length resp) b ++ concat pieces = extra).
    { apply (f_equal (skipn (length resp))) in C. rewrite skipn_app, skipn_app, skipn_all, Nat.sub_diag in C.
      replace (length resp - length b)%nat with 0%nat in C by lia. exact C. }
    destruct (skipn (length resp) b) as [|y s] eqn:Sk.
    + exists pieces. repeat split; auto.
    + exists ((y :: s) :: pieces). split; [constructor; [discriminate|exact Fp]|]. split; [exact E2|reflexivity].
  - assert (E : firstn (length resp) b = b) by (apply firstn_all2; lia). assert (Sk : skipn (length resp) b = []) by (apply skipn_all2; lia).
    rewrite <- Fx, E, Sk. assert (Rb : resp = b ++ skipn (length b) resp).
    { apply (f_equal (firstn (length b))) in C. rewrite firstn_app, firstn_all, Nat.sub_diag, firstn_O, app_nil_r, firstn_app in C.
      replace (length b - length resp)%nat with 0%nat in C by lia. rewrite firstn_O, app_nil_r in C. rewrite C at 1. now rewrite firstn_skipn. }
    set (resp' := skipn (length b) resp) in *. assert (Zr : zlen resp = zlen b + zlen resp') by (rewrite Rb; apply zlen_app).
    assert (Lb' : zlen b < zlen resp) by (unfold zlen; lia). replace (expected <=? zlen (r ++ b)) with false by (rewrite zlen_app; lia).
    assert (Zb : 0 < zlen b) by (destruct b; [congruence|rewrite zlen_cons; pose proof (zlen_nonneg b); lia]).
    destruct (IH pieces resp' extra rest (r ++ b) Fp) as (lf & G1 & G2 & G3).
    + rewrite Rb, <- app_assoc in C. now apply app_inv_head in C.
    + intros Q. rewrite Q in Zr. cbn in Zr. lia.
    + rewrite zlen_app. lia.
    + unfold zlen in *. lia.
    + exists lf. split; [exact G1|]. split; [exact G2|]. rewrite zlen_app in G3. fold (bursts_of pieces). rewrite G3, <- app_assoc, <- Rb. reflexivity.
Qed.
(** shorter than expected, or length unknown: everything up to the silence *)
Lemma rtu_loop_until_silence expected : forall fuel pieces rest r k,
  Forall (fun b => b <> []) pieces -> (expected < 0 \/ zlen r + zlen (concat pieces) < expected) -> k = zlen r -> (length (concat pieces) < fuel)%nat ->
  rtu_recv_loop fuel TPositive [] expected (bursts_of pieces ++ Silence :: rest) r k = Some (rest, Ok (r ++ concat pieces)).
Proof.
  induction fuel as [|fuel IH]; intros pieces rest r k F L -> Fu; [lia|].
  pose proof (zlen_nonneg r). destruct pieces as [|b pieces].
  - cbn [bursts_of map app concat rtu_recv_loop serial_read]. now rewrite app_nil_r.
  - inversion_clear F as [|? ? Fb Fp]. cbn [bursts_of map app rtu_recv_loop concat] in *. rewrite app_length in Fu.
    assert (Zb : 0 < zlen b) by (destruct b; [congruence|rewrite zlen_cons; pose proof (zlen_nonneg b); lia]).
    assert (IHb : forall b1 b2, b1 ++ b2 = b -> b1 <> [] ->
      rtu_recv_loop fuel TPositive [] expected (match b2 with [] => bursts_of pieces ++ Silence :: rest | _ => Burst b2 :: bursts_of pieces ++ Silence :: rest end) (r ++ b1) (zlen r + zlen b1)
      = Some (rest, Ok (r ++ b ++ concat pieces))).
    { intros b1 b2 E N1. assert (Z1 : 0 < zlen b1) by (destruct b1; [congruence|rewrite zlen_cons; pose proof (zlen_nonneg b1); lia]).
      assert (Zs : zlen b1 + zlen b2 = zlen b) by (rewrite <- E; symmetry; apply zlen_app). rewrite <- E, <- app_assoc.
      destruct b2 as [|y b2].
      - change (zlen []) with 0 in Zs. rewrite (IH pieces rest (r ++ b1) _ Fp); [now rewrite <- app_assoc|rewrite !zlen_app in *; lia|now rewrite zlen_app|unfold zlen in *; lia].
      - change (Burst (y :: b2) :: bursts_of pieces ++ Silence :: rest) with (bursts_of ((y :: b2) :: pieces) ++ Silence :: rest).
        rewrite (IH ((y :: b2) :: pieces) rest (r ++ b1)).
        + cbn [concat]. now rewrite <- app_assoc.
        + constructor; [discriminate|exact Fp].
        + cbn [concat]. rewrite !zlen_app in *. lia.
        + now rewrite zlen_app.
        + cbn [concat]. rewrite app_length. unfold zlen in *. lia. }
    set (n := if 0 <? expected - zlen r then expected - zlen r else 1). assert (Np : (0 < Z.to_nat n)%nat) by (unfold n; destruct (_ <? _) eqn:Q; lia).
    rewrite serial_read_burst by (exact Fb || exact Np). destruct (firstn_nonempty (Z.to_nat n) b Fb Np) as (x & t & Fx). rewrite Fx. rewrite <- Fx. cbn [hd tl].
    replace ((0 <=? expected) && (expected <=? zlen (r ++ firstn (Z.to_nat n) b))) with false.
    + specialize (IHb (firstn (Z.to_nat n) b) (skipn (Z.to_nat n) b) (firstn_skipn _ _) ltac:(rewrite Fx; discriminate)).
      destruct (skipn (Z.to_nat n) b); exact IHb.
    + symmetry. destruct L as [L|L]; [replace (0 <=? expected) with false by lia; reflexivity|]. rewrite zlen_app in *.
      assert (zlen (firstn (Z.to_nat n) b) <= zlen b) by (unfold zlen; rewrite firstn_length; lia). pose proof (zlen_nonneg (concat pieces)).
      replace (expected <=? zlen r + zlen (firstn (Z.to_nat n) b)) with false by lia. apply andb_false_r.
Qed.

Lemma rtu_loop_until_fault expected : forall fuel re pieces rest r k,
  Forall (fun b => b <> []) pieces -> (expected < 0 \/ zlen r + zlen (concat pieces) < expected) -> k = zlen r -> (length (concat pieces) < fuel)%nat ->
  rtu_recv_loop fuel TPositive [] expected (bursts_of pieces ++ Fault re :: rest) r k = Some (rest, Err GenericException).
Proof.
  induction fuel as [|fuel IH]; intros re pieces rest r k F L -> Fu; [lia|].
  pose proof (zlen_nonneg r). destruct pieces as [|b pieces].
  - cbn [bursts_of map app concat rtu_recv_loop serial_read]. reflexivity.
  - inversion_clear F as [|? ? Fb Fp]. cbn [bursts_of map app rtu_recv_loop concat] in *. rewrite app_length in Fu.
    assert (Zb : 0 < zlen b) by (destruct b; [congruence|rewrite zlen_cons; pose proof (zlen_nonneg b); lia]).
    assert (IHb : forall b1 b2, b1 ++ b2 = b -> b1 <> [] ->
      rtu_recv_loop fuel TPositive [] expected (match b2 with [] => bursts_of pieces ++ Fault re :: rest | _ => Burst b2 :: bursts_of pieces ++ Fault re :: rest end) (r ++ b1) (zlen r + zlen b1)
      = Some (rest, Err GenericException)).
    { intros b1 b2 E N1. assert (Z1 : 0 < zlen b1) by (destruct b1; [congruence|rewrite zlen_cons; pose proof (zlen_nonneg b1); lia]).
      assert (Zs : zlen b1 + zlen b2 = zlen b) by (rewrite <- E; symmetry; apply zlen_app). 
      destruct b2 as [|y b2].
      - change (zlen []) with 0 in Zs. rewrite (IH re pieces rest (r ++ b1) _ Fp); [reflexivity|rewrite !zlen_app in *; lia|now rewrite zlen_app|unfold zlen in *; lia].
      - change (Burst (y :: b2) :: bursts_of pieces ++ Fault re :: rest) with (bursts_of ((y :: b2) :: pieces) ++ Fault re :: rest).
        rewrite (IH re ((y :: b2) :: pieces) rest (r ++ b1)).
        + reflexivity.
        + constructor; [discriminate|exact Fp].
        + cbn [concat]. rewrite !zlen_app in *. lia.
        + now rewrite zlen_app.
        + cbn [concat]. rewrite app_length. unfold zlen in *. lia. }
    set (n := if 0 <? expected - zlen r then expected - zlen r else 1). assert (Np : (0 < Z.to_nat n)%nat) by (unfold n; destruct (_ <? _) eqn:Q; lia).
    rewrite serial_read_burst by (exact Fb || exact Np). destruct (firstn_nonempty (Z.to_nat n) b Fb Np) as (x & t & Fx). rewrite Fx. rewrite <- Fx. cbn [hd tl].
    replace ((0 <=? expected) && (expected <=? zlen (r ++ firstn (Z.to_nat n) b))) with false.
    + specialize (IHb (firstn (Z.to_nat n) b) (skipn (Z.to_nat n) b) (firstn_skipn _ _) ltac:(rewrite Fx; discriminate)).
      destruct (skipn (Z.to_nat n) b); exact IHb.
    + symmetry. destruct L as [L|L]; [replace (0 <=? expected) with false by lia; reflexivity|]. rewrite zlen_app in *.
      assert (zlen (firstn (Z.to_nat n) b) <= zlen b) by (unfold zlen; rewrite firstn_length; lia). pose proof (zlen_nonneg (concat pieces)).
      replace (expected <=? zlen r + zlen (firstn (Z.to_nat n) b)) with false by lia. apply andb_false_r.
Qed.

(** RtuMaster._recv always ends *)
Lemma line_size_app a b : line_size (a ++ b) = (line_size a + line_size b)%nat.
Proof. induction a as [|[l| |r] a IH]; cbn; [reflexivity| | |]; unfold line_size in *; cbn in *; lia. Qed.
Lemma serial_read_size n : (0 < n)%nat -> forall p p' x t, serial_read n p = (p', Got (x :: t)) -> (line_size p' < line_size p)%nat.
Proof.
  intros N. induction p as [|[[|y b]| |r] p IH]; intros p' x t; cbn [serial_read]; try discriminate.
  - intros H. apply IH in H. cbn. unfold line_size in *. cbn. lia.
  - destruct n as [|n]; [lia|]. cbn [skipn firstn]. intros [= <- _ _]. assert (L : (length (skipn n b) <= length b)%nat) by (rewrite skipn_length; lia).
    destruct (skipn n b); unfold line_size; cbn in *; lia.
Qed.
Lemma rtu_loop_ends fuel tmo : forall late expected p r k, (line_size p < fuel)%nat -> rtu_recv_loop fuel tmo late expected p r k <> None.
Proof.
  induction fuel as [|fuel IH]; intros late expected p r k L; [lia|]. cbn [rtu_recv_loop].
  set (n := match tmo with TPositive => _ | _ => _ end). assert (Np : (0 < Z.to_nat n)%nat) by (unfold n; destruct tmo; destruct (_ <? _) eqn:Q; lia).
  destruct (serial_read (Z.to_nat n) p) as [p' [[|x t]|]] eqn:R; try discriminate. apply serial_read_size in R; [|exact Np].
  destruct tmo; [discriminate| |]; (destruct (hd false late); [discriminate|]; destruct (_ && _); [discriminate|]; apply IH; lia).
Qed.

(** ** RtuServer._do_run *)
Lemma read_rest_spec fuel : forall p request, (line_size p < fuel)%nat ->
  exists p' r, rtu_read_rest fuel p request = Some (p', r) /\ (line_size p' <= line_size p)%nat /\
    requests_on request p = (match r with Ok q => emit q | Err _ => [] end) ++ requests_on [] p'.
Proof.
  induction fuel as [|fuel IH]; intros p request L; [lia|]. cbn [rtu_read_rest].
  revert L. induction p as [|[[|x b]| |r] p IHp]; intros L.
  - cbn. exists [], (Ok request). cbn. rewrite app_nil_r. auto.
  - destruct IHp as (p' & r & E & Ls & Rq); [cbn in L; unfold line_size in *; cbn in L; lia|]. exists p', r. split; [exact E|].
    split; [unfold line_size in *; cbn; lia|]. cbn [requests_on]. now rewrite app_nil_r.
  - cbn [serial_read]. change (firstn 128 (x :: b)) with (x :: firstn 127 b). change (skipn 128 (x :: b)) with (skipn 127 b).
    assert (Ln : (length (skipn 127 b) <= length b)%nat) by (rewrite skipn_length; lia).
    set (p1 := match skipn 127 b with [] => p | r => Burst r :: p end).
    assert (L1 : (line_size p1 < line_size (Burst (x :: b) :: p))%nat) by (unfold p1; destruct (skipn 127 b); unfold line_size; cbn in *; lia).
    destruct (IH p1 (request ++ x :: firstn 127 b) ltac:(lia)) as (p' & r & E & Ls & Rq). exists p', r. split; [exact E|]. split; [lia|].
    rewrite <- Rq. cbn [requests_on]. unfold p1. rewrite <- (firstn_skipn 127 b) at 1. destruct (skipn 127 b) as [|y s]; [now rewrite app_nil_r|].
    cbn [requests_on]. now rewrite <- app_assoc.
  - cbn. exists p, (Ok request). split; [reflexivity|]. split; [unfold line_size; cbn; lia|]. reflexivity.
  - cbn. destruct r; [exists p, (Ok request)|exists p, (Err GenericException)]; (split; [reflexivity|]); (split; [unfold line_size; cbn; lia|]); reflexivity.
Qed.
Lemma blocking_spec p : match serial_read_blocking p with
  | None => requests_on [] p = []
  | Some (p', Got b) => exists x, b = [x] /\ (line_size p' < line_size p)%nat /\ requests_on [] p = requests_on b p'
  | Some (p', Raised _) => (line_size p' < line_size p)%nat /\ requests_on [] p = requests_on [] p'
  end.
Proof.
  induction p as [|[[|x b]| |r] p IH]; cbn [serial_read_blocking requests_on].
  - reflexivity.
  - destruct (serial_read_blocking p) as [[p' [b|r]]|]; [|destruct IH; split; [unfold line_size in *; cbn; lia|assumption]|exact IH].
    destruct IH as (x & -> & L & R). exists x. split; [reflexivity|]. split; [unfold line_size in *; cbn; lia|exact R].
  - cbn [skipn firstn]. exists x. split; [reflexivity|]. destruct b as [|y b]; (split; [unfold line_size; cbn; lia|reflexivity]).
  - cbn [emit app]. destruct (serial_read_blocking p) as [[p' [b|r]]|]; [|destruct IH; split; [unfold line_size in *; cbn; lia|assumption]|exact IH].
    destruct IH as (x & -> & L & R). exists x. split; [reflexivity|]. split; [unfold line_size in *; cbn; lia|exact R].
  - split; [unfold line_size; cbn; lia|]. now destruct r.
Qed.
Definition held (t : rtu_turn) : list (list Z) := match rt_handled t with Some r => [r] | None => [] end.
Lemma rtu_turn_spec pending d p : match rtu_do_run no_rtu_hooks true pending d p with
  | None => requests_on [] p = []
  | Some t => (line_size (rt_line t) < line_size p)%nat /\ requests_on [] p = held t ++ requests_on [] (rt_line t) /\
      match rt_handled t with
      | Some r => rt_db t = fst (served_request d RTU r) /\ rt_written t = (if pending then None else snd (served_request d RTU r))
      | None => rt_db t = d /\ rt_written t = None
      end
  end.
Proof.
  unfold rtu_do_run.
  assert (K : forall p1 request, (line_size p1 < line_size p)%nat -> requests_on [] p = requests_on request p1 ->
    exists t, rtu_rest no_rtu_hooks pending d p1 request = Some t /\ (line_size (rt_line t) < line_size p)%nat /\ requests_on [] p = held t ++ requests_on [] (rt_line t) /\
      match rt_handled t with
      | Some r => rt_db t = fst (served_request d RTU r) /\ rt_written t = (if pending then None else snd (served_request d RTU r))
      | None => rt_db t = d /\ rt_written t = None
      end).
  { intros p1 request L1 R1. unfold rtu_rest. destruct (read_rest_spec (S (line_size p1)) p1 request ltac:(lia)) as (p' & r & E & Ls & Rq). rewrite E.
    destruct r as [[|x q]|e]; try (eexists; split; [reflexivity|]; cbn [rt_line rt_handled rt_db rt_written held]; split; [lia|]; split; [now rewrite R1, Rq|auto]).
    cbn [no_rtu_hooks rh_after_read rh_server rh_before_write replaced no_hook]. rewrite server_handle_plain. unfold replaced, no_hook. unfold served_request.
    destruct (db_handle_request d RTU (x :: q)) as [d' [resp|e]] eqn:DB; (eexists; split; [reflexivity|]; cbn [rt_line rt_handled rt_db rt_written held]; split; [lia|]; split; [now rewrite R1, Rq|]; rewrite DB; cbn [fst snd]; split; [reflexivity|]); [reflexivity|now destruct pending]. }
  pose proof (blocking_spec p) as B. destruct (serial_read_blocking p) as [[p' [b|[|]]]|]; [| | |exact B].
  - destruct B as (x & -> & L & R). destruct (K p' [x] L R) as (t & -> & Kt). exact Kt.
  - destruct B as (L & R). destruct (K p' [] L R) as (t & -> & Kt). exact Kt.
  - destruct B as (L & R). cbn. auto.
Qed.
Lemma rtu_turns_spec n : forall pending d p d' log, (line_size p < n)%nat -> rtu_turns n no_rtu_hooks pending d p = (d', log) ->
  map fst log = requests_on [] p.
Proof.
  induction n as [|n IH]; intros pending d p d' log L; [lia|]. cbn [rtu_turns]. pose proof (rtu_turn_spec (pending (S n)) d p) as T.
  destruct (rtu_do_run no_rtu_hooks true (pending (S n)) d p) as [t|]; [|now intros [= <- <-]]. destruct T as (Lt & Rq & _).
  destruct (rtu_turns n no_rtu_hooks pending (rt_db t) (rt_line t)) as [d1 log1] eqn:R. apply IH in R; [|lia]. intros [= <- <-].
  rewrite Rq, <- R. unfold held. now destruct (rt_handled t).
Qed.
Lemma rtu_turns_replay n : forall pending d p d' log, rtu_turns n no_rtu_hooks pending d p = (d', log) ->
  exists full, replay RTU d full d' /\ Forall2 (fun got should => fst got = fst should /\ (snd got = snd should \/ snd got = None)) log full /\
    ((forall i, pending i = false) -> full = log).
Proof.
  induction n as [|n IH]; intros pending d p d' log; cbn [rtu_turns].
  - intros [= <- <-]. exists []. repeat split; auto.
  - pose proof (rtu_turn_spec (pending (S n)) d p) as T. destruct (rtu_do_run no_rtu_hooks true (pending (S n)) d p) as [t|].
    2: { intros [= <- <-]. exists []. repeat split; auto. }
    destruct T as (_ & _ & T). destruct (rtu_turns n no_rtu_hooks pending (rt_db t) (rt_line t)) as [d1 log1] eqn:R. intros [= <- <-].
    apply IH in R as (full & F1 & F2 & F3). destruct (rt_handled t) as [r|].
    + destruct T as [Td Tw]. exists ((r, snd (served_request d RTU r)) :: full). split; [cbn [replay]; split; [reflexivity|now rewrite <- Td]|]. split.
      * constructor; [|exact F2]. cbn [fst snd]. split; [reflexivity|]. rewrite Tw. destruct (pending (S n)); auto.
      * intros P. now rewrite Tw, P, F3.
    + destruct T as [Td Tw]. rewrite Td in F1. exists full. auto.
Qed.

(** ** RtuOverTcpMaster._recv *)
Lemma rtu_tcp_take l : forall c r t fuel e, stream c = l ++ t -> zlen r + zlen l <= 255 -> (e < 0 \/ zlen r + zlen l < e) ->
  exists c', rtu_tcp_recv_loop (length l + fuel) c r e = rtu_tcp_recv_loop fuel c' (r ++ l) e /\ stream c' = t /\ c_end c' = c_end c.
Proof.
  induction l as [|x l IH]; intros c r t fuel e H L A.
  - exists c. rewrite app_nil_r. auto.
  - rewrite zlen_cons in *. pose proof (zlen_nonneg l). cbn [length Nat.add rtu_tcp_recv_loop]. replace (zlen r <? 255) with true by lia.
    destruct (recv1_cons c x (l ++ t) H) as (c1 & E & S & N). rewrite E.
    assert (R6 : zlen (r ++ [x]) = zlen r + 1) by (now rewrite zlen_app). rewrite R6.
    replace ((0 <=? e) && (e <=? zlen r + 1)) with false by lia.
    destruct (IH c1 (r ++ [x]) t fuel e S ltac:(lia) ltac:(lia)) as (c' & E' & S' & N'). exists c'. rewrite E', <- app_assoc. repeat split; congruence.
Qed.
Lemma rtu_tcp_exact c frame rest fuel : frame <> [] -> zlen frame <= 255 -> stream c = frame ++ rest -> (length frame <= fuel)%nat ->
  exists c', rtu_tcp_recv_loop fuel c [] (zlen frame) = Some (c', Ok frame) /\ stream c' = rest /\ c_end c' = c_end c.
Proof.
  intros N L H F. destruct (exists_last N) as (l & x & ->). rewrite zlen_app in *. change (zlen [x]) with 1 in *. rewrite app_length in F. cbn in F.
  pose proof (zlen_nonneg l). rewrite <- app_assoc in H. remember (fuel - length l - 1)%nat as k. replace fuel with (length l + S k)%nat by lia.
  destruct (rtu_tcp_take l c [] ([x] ++ rest) (S k) (zlen l + 1) H) as (c1 & E & S1 & N1); [change (zlen []) with 0; lia|right; change (zlen []) with 0; lia|].
  rewrite E. cbn [app rtu_tcp_recv_loop]. replace (zlen l <? 255) with true by lia. destruct (recv1_cons c1 x rest S1) as (c2 & E2 & S2 & N2). rewrite E2.
  rewrite zlen_app. change (zlen [x]) with 1. replace ((0 <=? zlen l + 1) && (zlen l + 1 <=? zlen l + 1)) with true by lia.
  exists c2. repeat split; congruence.
Qed.
Lemma rtu_tcp_spin fuel : forall c r e, stream c = [] -> c_end c = Closed -> zlen r < 255 -> (e < 0 \/ zlen r < e) -> rtu_tcp_recv_loop fuel c r e = None.
Proof.
  induction fuel as [|fuel IH]; intros c r e S C L A; [reflexivity|]. cbn [rtu_tcp_recv_loop]. replace (zlen r <? 255) with true by lia.
  rewrite recv_nil by exact S. rewrite C. replace ((0 <=? e) && (e <=? zlen r)) with false by lia. now apply IH.
Qed.
Lemma rtu_tcp_spin_all c e fuel : c_end c = Closed -> zlen (stream c) < 255 -> (e < 0 \/ zlen (stream c) < e) -> rtu_tcp_recv_loop fuel c [] e = None.
Proof.
  intros C L A. assert (G : forall l c r fuel, stream c = l -> c_end c = Closed -> zlen r + zlen l < 255 -> (e < 0 \/ zlen r + zlen l < e) -> rtu_tcp_recv_loop fuel c r e = None).
  { clear. induction l as [|x l IH]; intros c r fuel S C L A.
    - change (zlen []) with 0 in *. apply rtu_tcp_spin; auto; lia.
    - destruct fuel as [|fuel]; [reflexivity|]. rewrite zlen_cons in *. pose proof (zlen_nonneg l). cbn [rtu_tcp_recv_loop]. replace (zlen r <? 255) with true by lia.
      destruct (recv1_cons c x l S) as (c1 & E & S1 & N). rewrite E. rewrite zlen_app. change (zlen [x]) with 1.
      replace ((0 <=? e) && (e <=? zlen r + 1)) with false by lia. apply IH; [exact S1|congruence|rewrite zlen_app; change (zlen [x]) with 1; lia|rewrite zlen_app; change (zlen [x]) with 1; lia]. }
  now apply (G (stream c)).
Qed.
Lemma rtu_tcp_timeout c e fuel : c_end c = Stalled -> zlen (stream c) < 255 -> (e < 0 \/ zlen (stream c) < e) -> (length (stream c) < fuel)%nat ->
  exists c', rtu_tcp_recv_loop fuel c [] e = Some (c', Err SocketTimeout).
Proof.
  intros C L A F. remember (fuel - length (stream c) - 1)%nat as k. replace fuel with (length (stream c) + S k)%nat by lia.
  destruct (rtu_tcp_take (stream c) c [] [] (S k) e) as (c1 & E & S1 & N1); [now rewrite app_nil_r|change (zlen []) with 0; lia|change (zlen []) with 0; lia|].
  rewrite E. cbn [app rtu_tcp_recv_loop]. replace (zlen (stream c) <? 255) with true by lia. rewrite recv_nil by exact S1. rewrite N1, C. eauto.
Qed.

Lemma read_rest_bursts : forall fuel pieces rest r, Forall (fun b => b <> []) pieces -> (length (concat pieces) < fuel)%nat ->
  rtu_read_rest fuel (bursts_of pieces ++ Silence :: rest) r = Some (rest, Ok (r ++ concat pieces)).
Proof.
  induction fuel as [|fuel IH]; intros pieces rest r F L; [lia|]. destruct pieces as [|b pieces]; [cbn; now rewrite app_nil_r|].
  inversion_clear F as [|? ? Fb Fp]. destruct b as [|x b]; [congruence|]. cbn [bursts_of map app rtu_read_rest concat] in *.
  rewrite serial_read_burst by (discriminate || lia). change (firstn 128 (x :: b)) with (x :: firstn 127 b). change (skipn 128 (x :: b)) with (skipn 127 b).
  assert (Ln : (length (skipn 127 b) <= length b)%nat) by (rewrite skipn_length; lia). cbn [length] in L. rewrite app_length in L.
  destruct (skipn 127 b) as [|y s] eqn:Sk.
  - fold (bursts_of pieces). rewrite IH; [|exact Fp|lia]. assert (Q : firstn 127 b = b) by (rewrite <- (firstn_skipn 127 b) at 2; rewrite Sk; now rewrite app_nil_r).
    rewrite Q. now rewrite <- app_assoc.
  - change (Burst (y :: s) :: map Burst pieces ++ Silence :: rest) with (bursts_of ((y :: s) :: pieces) ++ Silence :: rest).
    rewrite IH; [|constructor; [discriminate|exact Fp]|cbn [concat]; rewrite app_length; lia].
    cbn [concat]. rewrite <- Sk, <- app_assoc. do 4 f_equal. cbn [app]. f_equal. now rewrite app_assoc, firstn_skipn.
Qed.
Lemma line_size_bursts pieces p : (length (concat pieces) <= line_size (bursts_of pieces ++ p))%nat.
Proof. induction pieces as [|b l IH]; cbn; [lia|]. rewrite app_length. unfold line_size in *. cbn. unfold bursts_of in IH. lia. Qed.
Lemma rtu_one_request pending d pieces rest : Forall (fun b => b <> []) pieces -> pieces <> [] ->
  rtu_do_run no_rtu_hooks true pending d (bursts_of pieces ++ Silence :: rest) =
  Some {| rt_line := rest; rt_db := fst (served_request d RTU (concat pieces)); rt_handled := Some (concat pieces);
          rt_written := if pending then None else snd (served_request d RTU (concat pieces)) |}.
Proof.
  intros F N. destruct pieces as [|[|x b] pieces]; [congruence|inversion_clear F; congruence|]. inversion_clear F as [|? ? _ Fp].
  unfold rtu_do_run. cbn [bursts_of map app serial_read_blocking skipn firstn].
  assert (K : forall p, p = bursts_of pieces ++ Silence :: rest \/ True -> True) by auto. clear K.
  set (q := match b with [] => _ | _ => _ end). set (more := match b with [] => pieces | _ => b :: pieces end).
  assert (Q : q = bursts_of more ++ Silence :: rest) by (unfold q, more; now destruct b). rewrite Q.
  assert (Fm : Forall (fun b => b <> []) more) by (unfold more; destruct b; [exact Fp|constructor; [discriminate|exact Fp]]).
  assert (C : concat ((x :: b) :: pieces) = [x] ++ concat more) by (unfold more; now destruct b). rewrite C.
  unfold rtu_rest. rewrite read_rest_bursts; [|exact Fm|pose proof (line_size_bursts more (Silence :: rest)); lia].
  cbn [app no_rtu_hooks rh_after_read rh_server rh_before_write]. rewrite server_handle_plain. unfold replaced, no_hook, served_request.
  destruct (db_handle_request d RTU (x :: concat more)) as [d' [resp|e]] eqn:DB; cbn [fst snd]; [reflexivity|now destruct pending].
Qed.
