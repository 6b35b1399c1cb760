(** C86: what a client of the TCP server can rely on whatever the other clients do. *)
From Verif Require Import Base BaseFacts Spec SlaveModel QueryModel DatabankModel DbSpec FrameSpec PropDatabank TransportModel TransportSpec TransportProofs PropTransport AvailModel.
Open Scope string_scope. Open Scope list_scope. Open Scope Z_scope.

(** ** Arrivals *)
Lemma arrive_split l : forall pre id c post, exists pre' c' post' more,
  arrive l (pre ++ (id, c) :: post) = pre' ++ (id, c') :: post' /\ map fst pre' = map fst pre /\ stream c' = stream c ++ more.
Proof.
  induction l as [|a t IH]; intros pre id c post; [exists pre, c, post, []; rewrite app_nil_r; auto|].
  cbn [arrive fold_left]. rewrite map_app. cbn [map].
  assert (K : forall kc, fst (arrive1 a kc) = fst kc) by (intros [k [s [|]]]; unfold arrive1; cbn; destruct a as [j b|j]; cbn; try reflexivity; destruct (j =? k); reflexivity).
  assert (S1 : exists c1 m1, arrive1 a (id, c) = (id, c1) /\ stream c1 = stream c ++ m1).
  { destruct c as [s [|]]; unfold arrive1; cbn [snd fst c_end c_segs].
    - exists {| c_segs := s; c_end := Closed |}, []. rewrite app_nil_r. destruct a; auto.
    - destruct a as [j b|j]; destruct (j =? id).
      + exists {| c_segs := s ++ [b]; c_end := Stalled |}, b. split; [reflexivity|]. unfold stream. cbn [c_segs]. rewrite concat_app. cbn. now rewrite app_nil_r.
      + exists {| c_segs := s; c_end := Stalled |}, []. rewrite app_nil_r. auto.
      + exists {| c_segs := s; c_end := Closed |}, []. rewrite app_nil_r. auto.
      + exists {| c_segs := s; c_end := Stalled |}, []. rewrite app_nil_r. auto. }
  destruct S1 as (c1 & m1 & -> & S1). destruct (IH (map (arrive1 a) pre) id c1 (map (arrive1 a) post)) as (pre' & c' & post' & m & E & M & S).
  exists pre', c', post', (m1 ++ m). split; [exact E|]. split; [rewrite M, map_map; apply map_ext, K|]. now rewrite S, S1, app_assoc.
Qed.

(** ** One pass over the ready sockets *)
Lemma assoc_del_length {V} k (l : list (Z * V)) v : assoc Z.eqb k l = Some v -> (length (assoc_del Z.eqb k l) < length l)%nat.
Proof. induction l as [|[j x] t IH]; cbn; [discriminate|]. destruct (k =? j); cbn; [lia|]. intros H. apply IH in H. lia. Qed.
Lemma assoc_del_incl {V} k (l : list (Z * V)) j : In j (map fst (assoc_del Z.eqb k l)) -> In j (map fst l).
Proof. induction l as [|[i x] t IH]; cbn; [auto|]. destruct (k =? i); cbn; tauto. Qed.
Lemma assoc_del_left {V} k (l m : list (Z * V)) v : assoc Z.eqb k l = Some v -> assoc_del Z.eqb k (l ++ m) = assoc_del Z.eqb k l ++ m.
Proof. induction l as [|[j x] t IH]; cbn; [discriminate|]. destruct (k =? j); [reflexivity|]. intros H. cbn. now rewrite IH. Qed.
Lemma assoc_put_left {V} k (l m : list (Z * V)) v w : assoc Z.eqb k l = Some v ->
  assoc_put Z.eqb k w (l ++ m) = assoc_put Z.eqb k w l ++ m /\ map fst (assoc_put Z.eqb k w l) = map fst l.
Proof. induction l as [|[j x] t IH]; cbn; [discriminate|]. destruct (k =? j) eqn:E; [cbn; auto|]. intros H. destruct (IH H) as [-> M]. cbn. now rewrite M. Qed.
Lemma assoc_left {V} k (l m : list (Z * V)) v : assoc Z.eqb k l = Some v -> assoc Z.eqb k (l ++ m) = Some v.
Proof. induction l as [|[j x] t IH]; cbn; [discriminate|]. destruct (k =? j); auto. Qed.
Lemma assoc_right {V} k (l m : list (Z * V)) : assoc Z.eqb k l = None -> assoc Z.eqb k (l ++ m) = assoc Z.eqb k m.
Proof. induction l as [|[j x] t IH]; cbn; [auto|]. destruct (k =? j); [discriminate|auto]. Qed.
Lemma assoc_fresh {V} k (l : list (Z * V)) : ~ In k (map fst l) -> assoc Z.eqb k l = None.
Proof. induction l as [|[j x] t IH]; cbn; [auto|]. intros H. destruct (k =? j) eqn:E; [apply Z.eqb_eq in E; subst; tauto|]. apply IH. tauto. Qed.
Lemma assoc_known {V} k (l : list (Z * V)) v : assoc Z.eqb k l = Some v -> In k (map fst l).
Proof. induction l as [|[j x] t IH]; cbn; [discriminate|]. destruct (k =? j) eqn:E; [apply Z.eqb_eq in E; auto|auto]. Qed.

Lemma assoc_del_nodup {V} k (l : list (Z * V)) : NoDup (map fst l) -> NoDup (map fst (assoc_del Z.eqb k l)).
Proof.
  induction l as [|[j x] t IH]; cbn; [auto|]. intros H. inversion H; subst. destruct (k =? j); [assumption|]. cbn. constructor; [|auto].
  intros X. apply assoc_del_incl in X. contradiction.
Qed.
Lemma assoc_del_keeps {V} k (l : list (Z * V)) j : j <> k -> In j (map fst l) -> In j (map fst (assoc_del Z.eqb k l)).
Proof.
  induction l as [|[i x] t IH]; cbn; [auto|]. intros N. destruct (Z.eqb_spec k i); cbn; intros [<-|H]; try tauto. congruence.
Qed.
Lemma assoc_in {V} k (l : list (Z * V)) : In k (map fst l) -> exists v, assoc Z.eqb k l = Some v.
Proof. induction l as [|[j x] t IH]; cbn; [tauto|]. destruct (Z.eqb_spec k j); [eauto|]. intros [H|H]; [congruence|auto]. Qed.

Lemma pass_reaches id c frame rest tail : self_delimited frame -> 7 <= zlen frame -> stream c = frame ++ rest ->
  forall ids pre post listening d s' log,
  NoDup (map fst pre) -> ~ In id (map fst pre) -> NoDup ids -> (forall j, In j ids -> In j (map fst pre)) ->
  tcp_do_run no_tcp_hooks (map ReadyClient ids ++ ReadyClient id :: tail) {| ts_listening := listening; ts_conns := pre ++ (id, c) :: post; ts_db := d |} = (s', log) ->
  (exists t, of_client id log = frame :: t) \/
  (of_client id log = [] /\ exists pre' post', ts_conns s' = pre' ++ (id, c) :: post' /\ (length pre' < length pre)%nat /\ ~ In id (map fst pre') /\ NoDup (map fst pre')).
Proof.
  intros D L S. induction ids as [|j ids IH]; intros pre post listening d s' log ND NI NJ Sub H.
  - left. cbn [map app tcp_do_run ts_conns ts_db ts_listening] in H. rewrite assoc_right in H by (now apply assoc_fresh). cbn [assoc] in H. rewrite Z.eqb_refl in H.
    destruct (C46_one_request d c frame rest D L S) as (c' & SV & _). rewrite SV in H.
    destruct (tcp_do_run _ tail _) as [s2 ev]. injection H as <- <-. unfold of_client. cbn [filter fst snd]. rewrite Z.eqb_refl. cbn [map fst snd]. eauto.
  - cbn [map app tcp_do_run ts_conns ts_db ts_listening] in H. inversion NJ as [|? ? Nj NJ']; subst.
    assert (Ij : In j (map fst pre)) by (apply Sub; now left). assert (J : j <> id) by congruence.
    destruct (assoc_in j pre Ij) as [cj A]. rewrite (assoc_left _ _ _ _ A) in H.
    assert (Rest : forall x, In x ids -> In x (map fst (assoc_del Z.eqb j pre))) by (intros x Hx; apply assoc_del_keeps; [congruence|apply Sub; now right]).
    assert (NI' : ~ In id (map fst (assoc_del Z.eqb j pre))) by (intros X; apply assoc_del_incl in X; contradiction).
    pose proof (assoc_del_length j pre cj A) as LD. pose proof (assoc_del_nodup j pre ND) as ND'.
    destruct (serve_client no_tcp_hooks d cj) as [|e|c' d' handled out].
    + right. injection H as <- <-. split; [reflexivity|]. rewrite (assoc_del_left _ _ _ _ A). cbn [ts_conns]. exists (assoc_del Z.eqb j pre), post. auto.
    + rewrite (assoc_del_left _ _ _ _ A) in H. destruct (IH _ _ _ _ _ _ ND' NI' NJ' Rest H) as [G|(G & pre' & post' & E & Lp & N' & ND'')]; [now left|].
      right. split; [exact G|]. exists pre', post'. repeat split; auto. lia.
    + destruct (assoc_put_left j pre ((id, c) :: post) cj c' A) as [E M]. rewrite E in H.
      destruct (tcp_do_run no_tcp_hooks (map ReadyClient ids ++ ReadyClient id :: tail) _) as [s2 ev] eqn:R. injection H as <- Hl.
      assert (OC : of_client id log = of_client id ev).
      { rewrite <- Hl. destruct handled; [|reflexivity]. unfold of_client. cbn [filter fst snd]. destruct (Z.eqb_spec j id); [contradiction|reflexivity]. }
      rewrite OC. assert (LP : length (assoc_put Z.eqb j c' pre) = length pre) by (rewrite <- (map_length fst), M; apply map_length).
      destruct (IH (assoc_put Z.eqb j c' pre) post listening d' s2 ev) as [G|(G & pre' & post' & E' & Lp & N' & ND'')]; auto; try (rewrite M; auto).
      * intros x Hx. apply Sub. now right.
      * right. split; [exact G|]. exists pre', post'. repeat split; auto. lia.
Qed.

(* ------------------------------------------------------------------ C86 *)
(** A complete request that waits on a connection is handled, as the next request of this connection, within as many turns as there
    are clients that were accepted before it, plus one - whatever the other clients send, whenever they come, stall or hang up, and
    whatever else arrives. *)
Theorem C86_served : forall turns s s' log earlier id c later frame rest,
  ts_conns s = earlier ++ (id, c) :: later -> NoDup (map fst earlier) -> ~ In id (map fst earlier) ->
  self_delimited frame -> 7 <= zlen frame -> stream c = frame ++ rest ->
  (length earlier < length turns)%nat -> tcp_life no_tcp_hooks turns s = (s', log) ->
  exists t, of_client id log = frame :: t.
Proof.
  induction turns as [|b turns IH]; intros s s' log earlier id c later frame rest Ec ND NI D L S Len H; [cbn in Len; lia|].
  cbn [tcp_life] in H. destruct (tcp_turn no_tcp_hooks b s) as [s1 ev1] eqn:T. destruct (tcp_life no_tcp_hooks turns s1) as [s2 ev2] eqn:R. injection H as <- <-.
  assert (OA : of_client id (ev1 ++ ev2) = of_client id ev1 ++ of_client id ev2) by (unfold of_client; now rewrite filter_app, map_app). rewrite OA.
  unfold tcp_turn in T. rewrite Ec in T. destruct (arrive_split (bt_arrivals b) earlier id c later) as (pre & c1 & post & more & E & M & S1). rewrite E in T.
  rewrite S, <- app_assoc in S1. unfold selected in T. cbn [ts_listening ts_conns] in T. rewrite filter_app in T. cbn [filter snd] in T.
  assert (Rd : readable c1 = true).
  { unfold readable. unfold stream in S1. rewrite S1. destruct frame; [cbn in L; lia|reflexivity]. }
  rewrite Rd in T. rewrite map_app in T. cbn [map fst] in T.
  assert (Mr : map (fun kc : Z * conn => ReadyClient (fst kc)) (filter (fun kc => readable (snd kc)) pre) = map ReadyClient (map fst (filter (fun kc => readable (snd kc)) pre))) by (now rewrite map_map).
  rewrite Mr in T. set (ids := map fst (filter (fun kc => readable (snd kc)) pre)) in *.
  assert (NDp : NoDup (map fst pre)) by (now rewrite M). assert (NIp : ~ In id (map fst pre)) by (now rewrite M).
  assert (NDi : NoDup ids).
  { unfold ids. clear - NDp. induction pre as [|[j x] t IH]; cbn in *; [constructor|]. inversion NDp; subst. destruct (readable x); cbn; [|auto]. constructor; [|auto].
    intros X. apply H1. apply in_map_iff in X. destruct X as (y & <- & Y). apply filter_In in Y. apply in_map. apply Y. }
  assert (Sub : forall j, In j ids -> In j (map fst pre)).
  { intros j X. unfold ids in X. apply in_map_iff in X. destruct X as (y & <- & Y). apply filter_In in Y. apply in_map. apply Y. }
  assert (LP : length pre = length earlier) by (rewrite <- (map_length fst), M; apply map_length).
  assert (K : forall s0 post0, s0 = {| ts_listening := ts_listening s0; ts_conns := pre ++ (id, c1) :: post0; ts_db := ts_db s0 |} -> forall tl,
    tcp_do_run no_tcp_hooks (map ReadyClient ids ++ ReadyClient id :: tl) s0 = (s1, ev1) -> exists t, of_client id ev1 ++ of_client id ev2 = frame :: t).
  { intros s0 post0 -> tl X. destruct (pass_reaches id c1 frame (rest ++ more) tl D L S1 _ _ _ _ _ _ _ NDp NIp NDi Sub X) as [[t ->]|(-> & pre' & post' & E' & Lp & N' & ND')]; [cbn; eauto|].
    cbn [app]. eapply (IH s1 s2 ev2 pre' id c1 post' frame (rest ++ more)); eauto. cbn [length] in Len. lia. }
  destruct (bt_knock b) as [[[k ck]|e]|]; [| |cbn [app] in T; eapply K; [|exact T]; reflexivity]; destruct (ts_listening s) eqn:Ls; cbn [app] in T;
    cbn [tcp_do_run ts_listening ts_conns ts_db] in T; rewrite <- ?app_assoc in T; cbn [app] in T; (eapply K; [|exact T]); reflexivity.
Qed.
Lemma run_listening ready : forall s s' log, (forall e, ~ In (ReadyListen (Err e)) ready) ->
  tcp_do_run no_tcp_hooks ready s = (s', log) -> ts_listening s' = ts_listening s.
Proof.
  induction ready as [|[[[k ck]|e]|j] t IH]; intros s s' log N H; cbn [tcp_do_run] in H.
  - now injection H as <- _.
  - assert (N' : forall e, ~ In (ReadyListen (Err e)) t) by (intros e X; apply (N e); now right). destruct (ts_listening s) eqn:L; apply IH in H; auto. now rewrite H.
  - exfalso. apply (N e). now left.
  - assert (N' : forall e, ~ In (ReadyListen (Err e)) t) by (intros e X; apply (N e); now right).
    destruct (assoc _ _ _); [|eauto]. destruct (serve_client _ _ _) as [|e|c' d' handled out]; [now injection H as <- _|apply IH in H; auto|].
    destruct (tcp_do_run no_tcp_hooks t _) as [s2 ev] eqn:R. injection H as <- _. apply IH in R; auto.
Qed.
Lemma selected_no_error s knock e : (forall e, knock <> Some (Err e)) -> ~ In (ReadyListen (Err e)) (selected s knock).
Proof.
  intros N X. unfold selected in X. apply in_app_or in X. destruct X as [X|X].
  - destruct knock as [r|]; [|destruct X]. destruct (ts_listening s); [|destruct X]. destruct X as [X|[]]. injection X as ->. now apply (N e).
  - apply in_map_iff in X. destruct X as (y & X & _). discriminate X.
Qed.
(** As long as accept() does not fail, the server goes on listening: no client can make it stop. *)
Theorem C86_listens_partial : forall turns s s' log, (forall b e, In b turns -> bt_knock b <> Some (Err e)) ->
  tcp_life no_tcp_hooks turns s = (s', log) -> ts_listening s' = ts_listening s.
Proof.
  induction turns as [|b t IH]; intros s s' log N H; cbn [tcp_life] in H; [now injection H as <- _|].
  destruct (tcp_turn no_tcp_hooks b s) as [s1 ev1] eqn:T. destruct (tcp_life no_tcp_hooks t s1) as [s2 ev2] eqn:R. injection H as <- _.
  apply IH in R; [|intros b' e I; apply N; now right]. rewrite R. unfold tcp_turn in T. apply run_listening in T; [exact T|].
  intros e. apply selected_no_error. intros e' X. apply (N b e'); [now left|exact X].
Qed.
Lemma pass_keeps id c : forall ids pre post listening d s' log,
  NoDup (map fst pre) -> ~ In id (map fst pre) -> NoDup ids -> (forall j, In j ids -> In j (map fst pre)) ->
  tcp_do_run no_tcp_hooks (map ReadyClient ids) {| ts_listening := listening; ts_conns := pre ++ (id, c) :: post; ts_db := d |} = (s', log) ->
  of_client id log = [] /\ exists pre', ts_conns s' = pre' ++ (id, c) :: post /\ (length pre' <= length pre)%nat /\ ~ In id (map fst pre') /\ NoDup (map fst pre').
Proof.
  induction ids as [|j ids IH]; intros pre post listening d s' log ND NI NJ Sub H.
  - injection H as <- <-. split; [reflexivity|]. exists pre. auto.
  - cbn [map app tcp_do_run ts_conns ts_db ts_listening] in H. inversion NJ as [|? ? Nj NJ']; subst.
    assert (Ij : In j (map fst pre)) by (apply Sub; now left). assert (J : j <> id) by congruence.
    destruct (assoc_in j pre Ij) as [cj A]. rewrite (assoc_left _ _ _ _ A) in H.
    assert (Rest : forall x, In x ids -> In x (map fst (assoc_del Z.eqb j pre))) by (intros x Hx; apply assoc_del_keeps; [congruence|apply Sub; now right]).
    assert (NI' : ~ In id (map fst (assoc_del Z.eqb j pre))) by (intros X; apply assoc_del_incl in X; contradiction).
    pose proof (assoc_del_length j pre cj A) as LD. pose proof (assoc_del_nodup j pre ND) as ND'.
    destruct (serve_client no_tcp_hooks d cj) as [|e|c' d' handled out].
    + injection H as <- <-. split; [reflexivity|]. rewrite (assoc_del_left _ _ _ _ A). cbn [ts_conns]. exists (assoc_del Z.eqb j pre). repeat split; auto. lia.
    + rewrite (assoc_del_left _ _ _ _ A) in H. destruct (IH _ _ _ _ _ _ ND' NI' NJ' Rest H) as (G & pre' & E & Lp & N' & ND'').
      split; [exact G|]. exists pre'. repeat split; auto. lia.
    + destruct (assoc_put_left j pre ((id, c) :: post) cj c' A) as [E M]. rewrite E in H.
      destruct (tcp_do_run no_tcp_hooks (map ReadyClient ids) _) as [s2 ev] eqn:R. injection H as <- Hl.
      assert (OC : of_client id log = of_client id ev).
      { rewrite <- Hl. destruct handled; [|reflexivity]. unfold of_client. cbn [filter fst snd]. destruct (Z.eqb_spec j id); [contradiction|reflexivity]. }
      rewrite OC. assert (LP : length (assoc_put Z.eqb j c' pre) = length pre) by (rewrite <- (map_length fst), M; apply map_length).
      destruct (IH (assoc_put Z.eqb j c' pre) post listening d' s2 ev) as (G & pre' & E' & Lp & N' & ND''); auto; try (rewrite M; auto).
      * intros x Hx. apply Sub. now right.
      * split; [exact G|]. exists pre'. repeat split; auto. lia.
Qed.
Lemma arrive_ids l : forall conns, map fst (arrive l conns) = map fst conns.
Proof.
  induction l as [|a t IH]; intros conns; [reflexivity|]. cbn [arrive fold_left]. fold (arrive t (map (arrive1 a) conns)). rewrite IH, map_map. apply map_ext.
  intros [k [s [|]]]; unfold arrive1; cbn; destruct a as [j b|j]; cbn; try reflexivity; destruct (j =? k); reflexivity.
Qed.
Lemma readable_ids conns : NoDup (map fst conns) ->
  exists ids, map (fun kc : Z * conn => ReadyClient (fst kc)) (filter (fun kc => readable (snd kc)) conns) = map ReadyClient ids /\
    NoDup ids /\ forall j, In j ids -> In j (map fst conns).
Proof.
  intros ND. exists (map fst (filter (fun kc => readable (snd kc)) conns)). split; [now rewrite map_map|]. split.
  - induction conns as [|[j x] t IH]; cbn in *; [constructor|]. inversion ND; subst. destruct (readable x); cbn; [|auto]. constructor; [|auto].
    intros X. apply H1. apply in_map_iff in X. destruct X as (y & <- & Y). apply filter_In in Y. apply in_map. apply Y.
  - intros j X. apply in_map_iff in X. destruct X as (y & <- & Y). apply filter_In in Y. apply in_map. apply Y.
Qed.
(** A client that knocks while the server listens is accepted in that turn whatever the others do, and stands behind those that are
    already there: C86_served holds for it from then on. *)
Theorem C86_newcomer : forall b s s' log id c, ts_listening s = true -> bt_knock b = Some (Ok (id, c)) ->
  NoDup (map fst (ts_conns s)) -> ~ In id (map fst (ts_conns s)) -> tcp_turn no_tcp_hooks b s = (s', log) ->
  exists earlier, ts_conns s' = earlier ++ [(id, c)] /\ (length earlier <= length (ts_conns s))%nat /\ NoDup (map fst earlier) /\ ~ In id (map fst earlier).
Proof.
  intros b s s' log id c L K ND NI H. unfold tcp_turn, selected in H. rewrite K in H. cbn [ts_listening ts_conns] in H. rewrite L in H.
  cbn [app tcp_do_run ts_listening ts_conns ts_db] in H. pose proof (arrive_ids (bt_arrivals b) (ts_conns s)) as A. set (conns := arrive (bt_arrivals b) (ts_conns s)) in *.
  assert (ND' : NoDup (map fst conns)) by (now rewrite A). destruct (readable_ids conns ND') as (ids & E & NDi & Sub). rewrite E in H.
  destruct (pass_keeps id c ids conns [] _ _ _ _ ND' ltac:(now rewrite A) NDi Sub H) as (_ & pre & E' & Lp & N' & ND'').
  exists pre. repeat split; auto. rewrite <- (map_length fst (ts_conns s)), <- A, map_length. exact Lp.
Qed.

(** Refuted: one accept() that raises - too many open files, a client that went away before it was accepted - and the server closes
    its listening socket: it goes on running, but nobody can connect any more, for ever. *)
Lemma run_deaf ready : forall s s' log, ts_listening s = false -> tcp_do_run no_tcp_hooks ready s = (s', log) ->
  ts_listening s' = false /\ incl (map fst (ts_conns s')) (map fst (ts_conns s)).
Proof.
  induction ready as [|[a|j] t IH]; intros s s' log L H; cbn [tcp_do_run] in H.
  - injection H as <- _. split; [exact L|apply incl_refl].
  - rewrite L in H. eauto.
  - destruct (assoc Z.eqb j (ts_conns s)) as [cj|] eqn:A; [|eauto]. destruct (serve_client _ _ _) as [|e|c' d' handled out].
    + injection H as <- _. split; [exact L|]. cbn [ts_conns]. intros x X. now apply assoc_del_incl in X.
    + apply IH in H; [|exact L]. destruct H as [L' H]. split; [exact L'|]. intros x X. apply H in X. cbn [ts_conns] in X. now apply assoc_del_incl in X.
    + destruct (tcp_do_run no_tcp_hooks t _) as [s2 ev] eqn:R. injection H as <- _. apply IH in R; [|exact L]. destruct R as [L' R]. split; [exact L'|].
      cbn [ts_conns] in R. pose proof (assoc_put_left j (ts_conns s) [] cj c' A) as [_ M]. now rewrite M in R.
Qed.
Lemma life_deaf turns : forall s s' log, ts_listening s = false -> tcp_life no_tcp_hooks turns s = (s', log) ->
  ts_listening s' = false /\ incl (map fst (ts_conns s')) (map fst (ts_conns s)).
Proof.
  induction turns as [|b t IH]; intros s s' log L H; cbn [tcp_life] in H; [injection H as <- _; split; [exact L|apply incl_refl]|].
  destruct (tcp_turn no_tcp_hooks b s) as [s1 ev1] eqn:T. destruct (tcp_life no_tcp_hooks t s1) as [s2 ev2] eqn:R. injection H as <- _.
  unfold tcp_turn in T. apply run_deaf in T; [|exact L]. destruct T as [L1 I1]. apply IH in R; [|exact L1]. destruct R as [L2 I2]. split; [exact L2|].
  intros x X. apply I2, I1 in X. cbn [ts_conns] in X. now rewrite arrive_ids in X.
Qed.
Theorem C86_deaf_refuted : forall b e turns s s' log, ts_listening s = true -> bt_knock b = Some (Err e) ->
  tcp_life no_tcp_hooks (b :: turns) s = (s', log) ->
  ts_listening s' = false /\ incl (map fst (ts_conns s')) (map fst (ts_conns s)).
Proof.
  intros b e turns s s' log L K H. cbn [tcp_life] in H.
  destruct (tcp_turn no_tcp_hooks b s) as [s1 ev1] eqn:T. destruct (tcp_life no_tcp_hooks turns s1) as [s2 ev2] eqn:R. injection H as <- _.
  unfold tcp_turn, selected in T. rewrite K in T. cbn [ts_listening] in T. rewrite L in T. cbn [app tcp_do_run ts_listening ts_conns ts_db] in T.
  apply run_deaf in T; [|reflexivity]. destruct T as [L1 I1]. apply life_deaf in R; [|exact L1]. destruct R as [L2 I2]. split; [exact L2|].
  intros x X. apply I2, I1 in X. cbn [ts_conns] in X. now rewrite arrive_ids in X.
Qed.

(** The demo server: client 2 hangs up in front of client 7, whose request waits one turn longer; client 8 knocks. *)
Definition crowd : tcp_server :=
  {| ts_listening := true;
     ts_conns := [(2, {| c_segs := []; c_end := Stalled |}); (7, {| c_segs := [firstn 4 demo_write]; c_end := Stalled |})]; ts_db := demo_db |}.
Definition a_day : list before_turn :=
  [{| bt_arrivals := [HangsUp 2; Arrives 7 (skipn 4 demo_write)]; bt_knock := Some (Ok (8, {| c_segs := [demo_read]; c_end := Closed |})) |};
   {| bt_arrivals := []; bt_knock := None |}].
Example C86_ex : let '(s, log) := tcp_life no_tcp_hooks a_day crowd in
  log = [(7, demo_write, Some demo_write); (8, demo_read, Some (tcp_frame 2 0 3 [3; 2; 0; 17]))] /\ map fst (ts_conns s) = [7; 8] /\ ts_listening s = true.
Proof. vm_compute. repeat split; reflexivity. Qed.

Print Assumptions C86_served.
Print Assumptions C86_listens_partial.
Print Assumptions C86_newcomer.
Print Assumptions C86_deaf_refuted.
