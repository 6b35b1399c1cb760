(** C90: functions installed at the hooks of the TCP server's loop that raise. *)
From Verif Require Import Base BaseFacts Spec SlaveModel QueryModel DatabankModel DbSpec FrameSpec PropDatabank TransportModel TransportSpec TransportProofs PropTransport AvailModel PropAvail HookedTcpModel.
Open Scope string_scope. Open Scope list_scope. Open Scope Z_scope.

(** What a client gets when the hooks before and after sending may raise or replace: everything as without hooks, but the response. *)
Definition through_before_send (h : loop_hooks) (id : Z) (out : option (list Z)) : option (list Z) :=
  match out with Some b => match lh_before_send h id b with Ok r => Some (instead r b) | Err _ => None end | None => None end.
Lemma serve_hooked_as h id d c : (forall l, lh_after_recv h id l = Ok None) ->
  serve_hooked h id d c = match serve_client no_tcp_hooks d c with Stays c' d' handled out => Stays c' d' handled (through_before_send h id out) | x => x end.
Proof.
  intros A. unfold serve_hooked, serve_client. destruct (snd (recv 1 c)) as [[|x l]|e]; [reflexivity| |reflexivity].
  destruct (read_more (missing 7 []) c []) as [c1 [[request is_ok]|e]]; [|reflexivity]. rewrite A. cbn [instead].
  change (replaced (th_after_recv no_tcp_hooks) request) with request. destruct is_ok; [|reflexivity].
  destruct (get_request_length request) as [n|e]; [|reflexivity]. destruct (read_more (missing (n + 6) request) c1 request) as [c2 [[request2 [|]]|e]]; try reflexivity.
  change (th_server no_tcp_hooks) with no_server_hooks. destruct (server_handle no_server_hooks d TCP request2) as [d' [resp|e]]; [|reflexivity].
  destruct (sent resp); reflexivity.
Qed.
Lemma hooked_reaches h id c frame rest tail : (forall k e, lh_error h k e = None) -> (forall l, lh_after_recv h id l = Ok None) ->
  self_delimited frame -> 7 <= zlen frame -> stream c = frame ++ rest ->
  forall ids pre post listening d s' log alive,
  NoDup (map fst pre) -> ~ In id (map fst pre) -> NoDup ids -> (forall j, In j ids -> In j (map fst pre)) ->
  hooked_run h (map ReadyClient ids ++ ReadyClient id :: tail) {| ts_listening := listening; ts_conns := pre ++ (id, c) :: post; ts_db := d |} = (s', log, alive) ->
  (exists t, of_client id log = frame :: t) \/
  (of_client id log = [] /\ exists pre' post', ts_conns s' = pre' ++ (id, c) :: post' /\ (length pre' < length pre)%nat /\ ~ In id (map fst pre') /\ NoDup (map fst pre')).
Proof.
  intros HE HA D L S. induction ids as [|j ids IH]; intros pre post listening d s' log alive ND NI NJ Sub H.
  - left. cbn [map app hooked_run ts_conns ts_db ts_listening] in H. rewrite assoc_right in H by (now apply assoc_fresh). cbn [assoc] in H. rewrite Z.eqb_refl in H.
    destruct (C46_one_request d c frame rest D L S) as (c' & SV & _). rewrite serve_hooked_as, SV in H by exact HA.
    destruct (hooked_run _ tail _) as [[s2 ev] al]. injection H as <- <- <-. unfold of_client. cbn [filter fst snd]. rewrite Z.eqb_refl. cbn [map fst snd]. eauto.
  - cbn [map app hooked_run ts_conns ts_db ts_listening] in H. inversion NJ as [|? ? Nj NJ']; subst.
    assert (Ij : In j (map fst pre)) by (apply Sub; now left). assert (J : j <> id) by congruence.
    destruct (assoc_in j pre Ij) as [cj A]. rewrite (assoc_left _ _ _ _ A) in H.
    assert (Rest : forall x, In x ids -> In x (map fst (assoc_del Z.eqb j pre))) by (intros x Hx; apply assoc_del_keeps; [congruence|apply Sub; now right]).
    assert (NI' : ~ In id (map fst (assoc_del Z.eqb j pre))) by (intros X; apply assoc_del_incl in X; contradiction).
    pose proof (assoc_del_length j pre cj A) as LD. pose proof (assoc_del_nodup j pre ND) as ND'.
    assert (EX : hooked_run h (map ReadyClient ids ++ ReadyClient id :: tail) {| ts_listening := listening; ts_conns := assoc_del Z.eqb j (pre ++ (id, c) :: post); ts_db := d |} = (s', log, alive) ->
      (exists t, of_client id log = frame :: t) \/ (of_client id log = [] /\ exists pre' post', ts_conns s' = pre' ++ (id, c) :: post' /\ (length pre' < length pre)%nat /\ ~ In id (map fst pre') /\ NoDup (map fst pre'))).
    { rewrite (assoc_del_left _ _ _ _ A). intros X. destruct (IH _ _ _ _ _ _ _ ND' NI' NJ' Rest X) as [G|(G & pre' & post' & E & Lp & N' & ND'')]; [now left|].
      right. split; [exact G|]. exists pre', post'. repeat split; auto. lia. }
    destruct (serve_hooked h j d cj) as [|e|c' d' handled out].
    + destruct (lh_disconnect h j) as [e|]; [rewrite HE in H; exact (EX H)|].
      right. injection H as <- <- <-. split; [reflexivity|]. rewrite (assoc_del_left _ _ _ _ A). cbn [ts_conns]. exists (assoc_del Z.eqb j pre), post. auto.
    + rewrite HE in H. exact (EX H).
    + destruct (assoc_put_left j pre ((id, c) :: post) cj c' A) as [E M]. rewrite E in H.
      destruct (hooked_run h (map ReadyClient ids ++ ReadyClient id :: tail) _) as [[s2 ev] al] eqn:R. injection H as <- Hl <-.
      assert (OC : of_client id log = of_client id ev).
      { rewrite <- Hl. destruct handled; [|reflexivity]. unfold of_client. cbn [filter fst snd]. destruct (Z.eqb_spec j id); [contradiction|reflexivity]. }
      rewrite OC. assert (LP : length (assoc_put Z.eqb j c' pre) = length pre) by (rewrite <- (map_length fst), M; apply map_length).
      destruct (IH (assoc_put Z.eqb j c' pre) post listening d' s2 ev al) as [G|(G & pre' & post' & E' & Lp & N' & ND'')]; auto; try (rewrite M; auto).
      * intros x Hx. apply Sub. now right.
      * right. split; [exact G|]. exists pre', post'. repeat split; auto. lia.
Qed.
Lemma hooked_run_alive h : (forall k e, lh_error h k e = None) -> forall ready s, snd (hooked_run h ready s) = true.
Proof.
  intros HE. induction ready as [|[[[k ck]|e]|j] t IH]; intros s; cbn [hooked_run].
  - reflexivity.
  - destruct (ts_listening s); [|apply IH]. destruct (lh_connect h k); [rewrite HE|]; apply IH.
  - destruct (ts_listening s); [rewrite HE|]; apply IH.
  - destruct (assoc Z.eqb j (ts_conns s)) as [c|]; [|apply IH]. destruct (serve_hooked h j (ts_db s) c) as [|e|c' d' handled out].
    + destruct (lh_disconnect h j); [rewrite HE; apply IH|reflexivity].
    + rewrite HE. apply IH.
    + specialize (IH {| ts_listening := ts_listening s; ts_conns := assoc_put Z.eqb j c' (ts_conns s); ts_db := d' |}).
      destruct (hooked_run h t _) as [[s2 ev] al]. exact IH.
Qed.
(* ------------------------------------------------------------------ C90 *)
(** As long as on_error does not raise, the server thread goes on, whatever the other hooks raise. *)
Theorem C90_alive : forall h turns s, (forall k e, lh_error h k e = None) -> snd (hooked_life h turns s) = true.
Proof.
  intros h turns. induction turns as [|b t IH]; intros s HE; [reflexivity|]. cbn [hooked_life]. unfold hooked_turn. set (s0 := {| ts_listening := _ |}).
  pose proof (hooked_run_alive h HE (selected s0 (bt_knock b)) s0) as A. destruct (hooked_run h _ s0) as [[s1 ev1] [|]]; [|discriminate A].
  specialize (IH s1 HE). destruct (hooked_life h t s1) as [[s2 ev2] al]. exact IH.
Qed.
(** A complete request that waits on a connection is handled, as the next of its connection, within as many turns as there are clients
    accepted before it plus one - whatever the hooks do when called for the other clients, and whatever on_connect, on_disconnect,
    before_send and after_send do at all. *)
Theorem C90_served : forall h turns s s' log alive earlier id c later frame rest,
  (forall k e, lh_error h k e = None) -> (forall l, lh_after_recv h id l = Ok None) ->
  ts_conns s = earlier ++ (id, c) :: later -> NoDup (map fst earlier) -> ~ In id (map fst earlier) ->
  self_delimited frame -> 7 <= zlen frame -> stream c = frame ++ rest ->
  (length earlier < length turns)%nat -> hooked_life h turns s = (s', log, alive) ->
  exists t, of_client id log = frame :: t.
Proof.
  intros h turns. induction turns as [|b turns IH]; intros s s' log alive earlier id c later frame rest HE HA Ec ND NI D L S Len H; [cbn in Len; lia|].
  cbn [hooked_life] in H. destruct (hooked_turn h b s) as [[s1 ev1] al1] eqn:T.
  assert (AL : al1 = true). { unfold hooked_turn in T. match type of T with hooked_run h ?r ?x = _ => pose proof (hooked_run_alive h HE r x) as AA; rewrite T in AA; exact AA end. }
  subst al1. destruct (hooked_life h turns s1) as [[s2 ev2] al2] eqn:R. injection H as <- <- <-.
  assert (OA : of_client id (ev1 ++ ev2) = of_client id ev1 ++ of_client id ev2) by (unfold of_client; now rewrite filter_app, map_app). rewrite OA.
  unfold hooked_turn in T. rewrite Ec in T. destruct (arrive_split (bt_arrivals b) earlier id c later) as (pre & c1 & post & more & E & M & S1). rewrite E in T.
  rewrite S, <- app_assoc in S1. unfold selected in T. cbn [ts_listening ts_conns] in T. rewrite filter_app in T. cbn [filter snd] in T.
  assert (Rd : readable c1 = true).
  { unfold readable. unfold stream in S1. rewrite S1. destruct frame; [cbn in L; lia|reflexivity]. }
  rewrite Rd in T. rewrite map_app in T. cbn [map fst] in T.
  assert (Mr : map (fun kc : Z * conn => ReadyClient (fst kc)) (filter (fun kc => readable (snd kc)) pre) = map ReadyClient (map fst (filter (fun kc => readable (snd kc)) pre))) by (now rewrite map_map).
  rewrite Mr in T. set (ids := map fst (filter (fun kc => readable (snd kc)) pre)) in *.
  assert (NDp : NoDup (map fst pre)) by (now rewrite M). assert (NIp : ~ In id (map fst pre)) by (now rewrite M).
  assert (NDi : NoDup ids).
  { unfold ids. clear - NDp. induction pre as [|[j x] t IH]; cbn in *; [constructor|]. inversion NDp; subst. destruct (readable x); cbn; [|auto]. constructor; [|auto].
    intros X. apply H1. apply in_map_iff in X. destruct X as (y & <- & Y). apply filter_In in Y. apply in_map. apply Y. }
  assert (Sub : forall j, In j ids -> In j (map fst pre)).
  { intros j X. unfold ids in X. apply in_map_iff in X. destruct X as (y & <- & Y). apply filter_In in Y. apply in_map. apply Y. }
  assert (LP : length pre = length earlier) by (rewrite <- (map_length fst), M; apply map_length).
  assert (K : forall s0 post0, s0 = {| ts_listening := ts_listening s0; ts_conns := pre ++ (id, c1) :: post0; ts_db := ts_db s0 |} -> forall tl,
    hooked_run h (map ReadyClient ids ++ ReadyClient id :: tl) s0 = (s1, ev1, true) -> exists t, of_client id ev1 ++ of_client id ev2 = frame :: t).
  { intros s0 post0 -> tl X. destruct (hooked_reaches h id c1 frame (rest ++ more) tl HE HA D L S1 _ _ _ _ _ _ _ _ NDp NIp NDi Sub X) as [[t ->]|(-> & pre' & post' & E' & Lp & N' & ND')]; [cbn; eauto|].
    cbn [app]. eapply (IH s1 s2 ev2 al2 pre' id c1 post' frame (rest ++ more)); eauto. cbn [length] in Len. lia. }
  destruct (bt_knock b) as [[[k ck]|e]|]; [| |cbn [app] in T; eapply K; [|exact T]; reflexivity]; destruct (ts_listening s) eqn:Ls; cbn [app] in T;
    cbn [hooked_run ts_listening ts_conns ts_db] in T; rewrite <- ?app_assoc in T; cbn [app] in T; rewrite ?HE in T;
    try (destruct (lh_connect h k); rewrite ?HE in T); (eapply K; [|exact T]); reflexivity.
Qed.
(** A complete request is carried out whatever before_send and after_send do; before_send can replace the response, and if it raises only
    this response is lost: the connection stays, and what follows on it is what follows without hooks. *)
Theorem C90_response : forall h id d c frame rest, (forall l, lh_after_recv h id l = Ok None) ->
  self_delimited frame -> 7 <= zlen frame -> stream c = frame ++ rest ->
  exists c', stream c' = rest /\ serve_hooked h id d c =
    Stays c' (fst (db_handle_request d TCP frame)) (Some frame)
      (match snd (db_handle_request d TCP frame) with
       | Ok r => match sent r with
                 | Some b => match lh_before_send h id b with Ok None => Some b | Ok (Some b') => Some b' | Err _ => None end
                 | None => None
                 end
       | Err _ => None
       end).
Proof.
  intros h id d c frame rest A D L S. destruct (C46_one_request d c frame rest D L S) as (c' & SV & Sc & _). exists c'. split; [exact Sc|].
  rewrite serve_hooked_as, SV by exact A. unfold served_request. f_equal. unfold through_before_send.
  destruct (snd (db_handle_request d TCP frame)) as [r|]; [|reflexivity]. destruct (sent r) as [b|]; [|reflexivity]. cbn [snd]. destruct (lh_before_send h id b) as [[b'|]|]; reflexivity.
Qed.
(** Without functions that raise or replace, this is the server of C86. *)
Lemma quiet_run ready : forall s, hooked_run quiet_hooks ready s = (tcp_do_run no_tcp_hooks ready s, true).
Proof.
  induction ready as [|[[[k ck]|e]|j] t IH]; intros s; cbn [hooked_run tcp_do_run].
  - reflexivity.
  - destruct (ts_listening s); apply IH.
  - destruct (ts_listening s); apply IH.
  - destruct (assoc Z.eqb j (ts_conns s)) as [c|]; [|apply IH]. rewrite serve_hooked_as by reflexivity.
    destruct (serve_client no_tcp_hooks (ts_db s) c) as [|e|c' d' handled out]; [reflexivity|apply IH|]. rewrite IH.
    destruct (tcp_do_run no_tcp_hooks t _) as [s2 ev]. unfold through_before_send. cbn. destruct out; reflexivity.
Qed.
Theorem C90_as_without : forall turns s, hooked_life quiet_hooks turns s = (tcp_life no_tcp_hooks turns s, true).
Proof.
  induction turns as [|b t IH]; intros s; [reflexivity|]. cbn [hooked_life tcp_life]. unfold hooked_turn, tcp_turn. rewrite quiet_run.
  destruct (tcp_do_run no_tcp_hooks _ _) as [s1 ev1]. rewrite IH. destruct (tcp_life no_tcp_hooks t s1) as [s2 ev2]. reflexivity.
Qed.
(** An exception of after_recv is handed to on_error; nothing of the request is handled and its client is removed; on_disconnect is not called. *)
Theorem C90_after_recv_raises : forall h id s c head rest e,
  assoc Z.eqb id (ts_conns s) = Some c -> stream c = head ++ rest -> length head = 7%nat -> lh_after_recv h id head = Err e ->
  hooked_run h [ReadyClient id] s =
  match lh_error h (Some id) e with
  | None => ({| ts_listening := ts_listening s; ts_conns := assoc_del Z.eqb id (ts_conns s); ts_db := ts_db s |}, [], true)
  | Some _ => (s, [], false)
  end.
Proof.
  intros h id s c head rest e A S L R. cbn [hooked_run]. rewrite A.
  assert (E : serve_hooked h id (ts_db s) c = Failed e).
  { unfold serve_hooked. destruct head as [|x head]; [discriminate L|]. destruct (recv1_cons c x (head ++ rest) S) as (c1 & E1 & _). rewrite E1. cbn [snd].
    destruct (read_more_take (x :: head) c [] rest S) as (c2 & E2 & _). rewrite L in E2. change (missing 7 []) with 7%nat. rewrite E2. cbn [app]. now rewrite R. }
  rewrite E. destruct (lh_error h (Some id) e); reflexivity.
Qed.
(** The server goes on listening as long as neither accept() nor on_connect raises. *)
Lemma hooked_run_listening h : (forall k e, lh_error h k e = None) -> (forall k, lh_connect h k = None) -> forall ready s, (forall e, ~ In (ReadyListen (Err e)) ready) ->
  ts_listening (fst (fst (hooked_run h ready s))) = ts_listening s.
Proof.
  intros HE HC. induction ready as [|[[[k ck]|e]|j] t IH]; intros s N; cbn [hooked_run].
  - reflexivity.
  - assert (N' : forall e, ~ In (ReadyListen (Err e)) t) by (intros e X; apply (N e); now right). destruct (ts_listening s) eqn:Ls; [|now rewrite IH]. rewrite HC. now rewrite IH.
  - exfalso. apply (N e). now left.
  - assert (N' : forall e, ~ In (ReadyListen (Err e)) t) by (intros e X; apply (N e); now right).
    destruct (assoc Z.eqb j (ts_conns s)) as [c|]; [|now apply IH]. destruct (serve_hooked h j (ts_db s) c) as [|e|c' d' handled out].
    + destruct (lh_disconnect h j); [rewrite HE; now rewrite IH|reflexivity].
    + rewrite HE. now rewrite IH.
    + specialize (IH {| ts_listening := ts_listening s; ts_conns := assoc_put Z.eqb j c' (ts_conns s); ts_db := d' |} N').
      destruct (hooked_run h t _) as [[s2 ev] al]. exact IH.
Qed.
Theorem C90_listens_partial : forall h turns s, (forall k e, lh_error h k e = None) -> (forall k, lh_connect h k = None) ->
  (forall b e, In b turns -> bt_knock b <> Some (Err e)) -> ts_listening (fst (fst (hooked_life h turns s))) = ts_listening s.
Proof.
  intros h turns. induction turns as [|b t IH]; intros s HE HC N; [reflexivity|]. cbn [hooked_life]. unfold hooked_turn. set (s0 := {| ts_listening := _ |}).
  pose proof (hooked_run_alive h HE (selected s0 (bt_knock b)) s0) as A.
  pose proof (hooked_run_listening h HE HC (selected s0 (bt_knock b)) s0 (fun e => selected_no_error s0 (bt_knock b) e (fun e' => N b e' (or_introl eq_refl)))) as Ls.
  destruct (hooked_run h _ s0) as [[s1 ev1] [|]]; [|discriminate A]. specialize (IH s1 HE HC (fun b' e I => N b' e (or_intror I))).
  destruct (hooked_life h t s1) as [[s2 ev2] al]. cbn [fst] in *. now rewrite IH, Ls.
Qed.
(** Refuted: one on_connect that raises makes the server close its listening socket: it goes on running but accepts nobody any more. *)
Lemma deaf_run h ready : forall s, ts_listening s = false -> ts_listening (fst (fst (hooked_run h ready s))) = false /\
  (forall id, In id (map fst (ts_conns (fst (fst (hooked_run h ready s))))) -> In id (map fst (ts_conns s))).
Proof.
  induction ready as [|[a|j] t IH]; intros s Ls; cbn [hooked_run]; [auto|rewrite Ls; now apply IH|].
  destruct (assoc Z.eqb j (ts_conns s)) as [c|] eqn:A; [|now apply IH].
  assert (X : forall e, ts_listening (fst (fst (match lh_error h (Some j) e with None => hooked_run h t {| ts_listening := ts_listening s; ts_conns := assoc_del Z.eqb j (ts_conns s); ts_db := ts_db s |} | Some _ => (s, [], false) end))) = false /\
    (forall id, In id (map fst (ts_conns (fst (fst (match lh_error h (Some j) e with None => hooked_run h t {| ts_listening := ts_listening s; ts_conns := assoc_del Z.eqb j (ts_conns s); ts_db := ts_db s |} | Some _ => (s, [], false) end))))) -> In id (map fst (ts_conns s)))).
  { intros e. destruct (lh_error h (Some j) e); [auto|]. destruct (IH {| ts_listening := ts_listening s; ts_conns := assoc_del Z.eqb j (ts_conns s); ts_db := ts_db s |} Ls) as [P Q].
    split; [exact P|]. intros id I. apply Q in I. cbn [ts_conns] in I. now apply assoc_del_incl in I. }
  destruct (serve_hooked h j (ts_db s) c) as [|e|c' d' handled out].
  - destruct (lh_disconnect h j) as [e|]; [apply X|]. cbn [fst ts_listening ts_conns]. split; [exact Ls|]. intros id I. now apply assoc_del_incl in I.
  - apply X.
  - clear X. destruct (IH {| ts_listening := ts_listening s; ts_conns := assoc_put Z.eqb j c' (ts_conns s); ts_db := d' |} Ls) as [P Q].
    destruct (hooked_run h t _) as [[s2 ev] al]. cbn [fst ts_conns] in *. split; [exact P|]. intros id I. apply Q in I.
    destruct (assoc_put_left j (ts_conns s) [] c c' A) as [_ M]. now rewrite M in I.
Qed.
Lemma deaf_life h turns : forall s, ts_listening s = false -> ts_listening (fst (fst (hooked_life h turns s))) = false /\
  (forall id, In id (map fst (ts_conns (fst (fst (hooked_life h turns s))))) -> In id (map fst (ts_conns s))).
Proof.
  induction turns as [|b t IH]; intros s Ls; [auto|]. cbn [hooked_life]. unfold hooked_turn. set (s0 := {| ts_listening := _ |}).
  assert (K : forall a (kc : Z * conn), fst (arrive1 a kc) = fst kc) by (intros a [k [sg [|]]]; unfold arrive1; cbn; destruct a as [j l|j]; cbn; try reflexivity; destruct (j =? k); reflexivity).
  assert (M : map fst (ts_conns s0) = map fst (ts_conns s)).
  { unfold s0. cbn [ts_conns]. generalize (ts_conns s). induction (bt_arrivals b) as [|a l IHl]; intros cs; [reflexivity|]. cbn [arrive fold_left]. unfold arrive in IHl. rewrite IHl, map_map. apply map_ext, K. }
  destruct (deaf_run h (selected s0 (bt_knock b)) s0 Ls) as [P Q]. rewrite M in Q. destruct (hooked_run h _ s0) as [[s1 ev1] [|]]; cbn [fst] in *; [|auto].
  destruct (IH s1 P) as [P2 Q2]. destruct (hooked_life h t s1) as [[s2 ev2] al]. cbn [fst] in *. auto.
Qed.
Theorem C90_connect_refuted : exists h first s, (forall k e, lh_error h k e = None) /\ ts_listening s = true /\ bt_knock first = Some (Ok (1, {| c_segs := []; c_end := Stalled |})) /\
  forall turns newcomer c, newcomer <> 1 -> (forall b, In b turns -> bt_knock b = Some (Ok (newcomer, c))) ->
  let '(s', _, alive) := hooked_life h (first :: turns) s in alive = true /\ ts_listening s' = false /\ ~ In newcomer (map fst (ts_conns s')).
Proof.
  exists {| lh_connect := fun k => if k =? 1 then Some PyValueError else None; lh_disconnect := fun _ => None; lh_after_recv := fun _ _ => Ok None; lh_before_send := fun _ _ => Ok None;
            lh_after_send := fun _ _ => None; lh_error := fun _ _ => None |}, {| bt_arrivals := []; bt_knock := Some (Ok (1, {| c_segs := []; c_end := Stalled |})) |},
         {| ts_listening := true; ts_conns := []; ts_db := demo_db |}.
  split; [reflexivity|]. split; [reflexivity|]. split; [reflexivity|]. intros turns newcomer c Nn _. cbn [hooked_life hooked_turn]. set (h := {| lh_connect := _ |}).
  unfold hooked_turn. cbn [bt_arrivals arrive fold_left ts_conns ts_listening ts_db bt_knock selected filter map app hooked_run].
  change (lh_connect h 1) with (Some PyValueError). cbn iota. change (lh_error h None PyValueError) with (@None exn). cbn iota.
  set (s1 := {| ts_listening := false; ts_conns := _; ts_db := _ |}). destruct (deaf_life h turns s1 eq_refl) as [P Q]. pose proof (C90_alive h turns s1 (fun _ _ => eq_refl)) as A.
  destruct (hooked_life h turns s1) as [[s2 ev2] al]. cbn [fst snd] in *. split; [exact A|]. split; [exact P|]. intros I. apply Q in I. cbn in I. destruct I as [I|[]]. now apply Nn.
Qed.
(** Refuted: an on_error that raises ends the server thread with everything left open, and no later start() gets it going again. *)
Fixpoint starts (n : nat) (s : tcp_server) : tcp_server * bool := match n with O => start_again s | Datatypes.S m => starts m (fst (start_again s)) end.
Theorem C90_error_refuted : exists h b s, (forall k, lh_connect h k = None) /\ ts_listening s = true /\ bt_knock b = None /\
  (exists id, bt_arrivals b = [Arrives id [0; 1; 0; 0; 0]]) /\
  let '(s', log, alive) := hooked_life h [b] s in alive = false /\ log = [] /\ (forall n, starts n s' = (s', false)).
Proof.
  exists {| lh_connect := fun _ => None; lh_disconnect := fun _ => None; lh_after_recv := fun _ _ => Ok None; lh_before_send := fun _ _ => Ok None;
            lh_after_send := fun _ _ => None; lh_error := fun _ e => Some e |}, {| bt_arrivals := [Arrives 4 [0; 1; 0; 0; 0]]; bt_knock := None |},
         {| ts_listening := true; ts_conns := [(4, {| c_segs := []; c_end := Stalled |})]; ts_db := demo_db |}.
  split; [reflexivity|]. split; [reflexivity|]. split; [reflexivity|]. split; [exists 4; reflexivity|].
  set (r := hooked_life _ _ _). vm_compute in r. subst r. cbv beta iota. split; [reflexivity|]. split; [reflexivity|].
  intros n. induction n as [|n IH]; [reflexivity|exact IH].
Qed.
Example C90_ex : let h := {| lh_connect := fun _ => Some PyValueError; lh_disconnect := fun _ => Some PyValueError; lh_after_recv := fun k _ => if k =? 2 then Ok None else Err PyValueError;
    lh_before_send := fun _ _ => Ok None; lh_after_send := fun _ _ => Some PyValueError; lh_error := fun _ _ => None |} in
  let request := [0; 5; 0; 0; 0; 6; 9; 3; 0; 100; 0; 1] in
  let s := {| ts_listening := true; ts_conns := [(1, {| c_segs := [request]; c_end := Stalled |}); (2, {| c_segs := [request]; c_end := Stalled |})]; ts_db := demo_db |} in
  match hooked_life h [{| bt_arrivals := []; bt_knock := Some (Ok (3, {| c_segs := []; c_end := Stalled |})) |}] s with
  | (s', log, alive) => alive = true /\ log = [(2, request, Some [0; 5; 0; 0; 0; 5; 9; 3; 2; 0; 0])] /\ map fst (ts_conns s') = [2; 3]
  end.
Proof. vm_compute. auto. Qed.

(** start() works exactly if no listening socket is left open; it opens one. *)
Theorem C90_start_again : forall s, (snd (start_again s) = true <-> ts_listening s = false) /\ ts_listening (fst (start_again s)) = true /\ forall n, snd (starts (Datatypes.S n) s) = false.
Proof.
  intros s. assert (T : ts_listening (fst (start_again s)) = true) by (unfold start_again; destruct (ts_listening s) eqn:E; [exact E|reflexivity]).
  split; [unfold start_again; destruct (ts_listening s); split; try reflexivity; discriminate|]. split; [exact T|]. intros n. cbn [starts]. revert T. generalize (fst (start_again s)). clear s.
  induction n as [|n IH]; intros s T; cbn [starts]; [unfold start_again; now rewrite T|]. apply IH. unfold start_again. now rewrite T.
Qed.
Print Assumptions C90_alive.
Print Assumptions C90_served.
Print Assumptions C90_response.
Print Assumptions C90_as_without.
Print Assumptions C90_after_recv_raises.
Print Assumptions C90_listens_partial.
Print Assumptions C90_connect_refuted.
Print Assumptions C90_error_refuted.
Print Assumptions C90_start_again.
