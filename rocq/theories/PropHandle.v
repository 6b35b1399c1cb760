(** C126: what a slave object that the application holds is good for. *)
From Verif Require Import Base PyStruct Defines SlaveModel BaseFacts QueryModel DatabankModel DbSpec DatabankProofs PropUnits HandleModel.
From Coq Require Import Lia.
Open Scope string_scope. Open Scope list_scope. Open Scope Z_scope.

(** ** Specification *)
Definition hreachable (w : hworld) : Prop := exists e l, w = fst (hruns (new_world e) l).
(** The act is a call of a method of object [h]. *)
Definition on (h : nat) (x : hact) : bool := match x with HOn k _ => Nat.eqb k h | _ => false end.
(** The calls made on object [h], and what the acts of a history other than these calls got. *)
Definition calls (h : nat) (l : list hact) : list slave_op := flat_map (fun x => match x with HOn k o => if Nat.eqb k h then [o] else [] | _ => [] end) l.
Definition others (h : nat) (l : list hact) : list hact := filter (fun x => negb (on h x)) l.
Definition got_others (h : nat) (l : list hact) (gs : list hgot) : list hgot := map snd (filter (fun p => negb (on h (fst p))) (combine l gs)).
Definition got_calls (h : nat) (l : list hact) (gs : list hgot) : list hgot := map snd (filter (fun p => on h (fst p)) (combine l gs)).
(** A slave alone, and what its calls return. *)
Fixpoint outs (s : slave) (l : list slave_op) : list slave_out :=
  match l with [] => [] | o :: l => snd (slave_step s o) :: outs (fst (slave_step s o)) l end.
(** The history takes no unit [u] out of the databank. *)
Definition stays (u : Z) (l : list hact) : Prop := ~ In (HRemove u) l /\ ~ In HRemoveAll l.

(** ** Proofs *)
Definition hinv (w : hworld) : Prop :=
  NoDup (map fst (hw_units w)) /\ NoDup (map snd (hw_units w)) /\ Forall (fun h => (h < length (hw_objects w))%nat) (map snd (hw_units w)).

Lemma nth_upd {A} (l : list A) h k x d : nth k (list_upd l h x) d = if Nat.eqb k h then (if Nat.ltb h (length l) then x else nth k l d) else nth k l d.
Proof.
  revert h k. induction l as [|y l IH]; intros [|h] [|k]; cbn [list_upd nth Nat.eqb length]; try reflexivity.
  - now destruct (Nat.eqb k h).
  - rewrite IH. reflexivity.
Qed.
Lemma write_back_len units : forall rows objs, length (write_back units rows objs) = length objs.
Proof.
  induction units as [|[u h] units IH]; intros [|[k s] rows] objs; try reflexivity. cbn [write_back]. now rewrite IH, list_upd_length.
Qed.
Lemma write_back_other units d : forall rows objs k, ~ In k (map snd units) -> nth k (write_back units rows objs) d = nth k objs d.
Proof.
  induction units as [|[u h] units IH]; intros [|[v s] rows] objs k N; try reflexivity. cbn [write_back map snd In] in *.
  rewrite IH by tauto. rewrite nth_upd. destruct (Nat.eqb k h) eqn:Q; [apply Nat.eqb_eq in Q; subst; tauto|reflexivity].
Qed.
Lemma write_back_rows units d : forall rows objs, NoDup (map snd units) -> Forall (fun h => (h < length objs)%nat) (map snd units) -> map fst rows = map fst units ->
  map (fun x => (fst x, nth (snd x) (write_back units rows objs) d)) units = rows.
Proof.
  induction units as [|[u h] units IH]; intros [|[v s] rows] objs N F E; try discriminate E; [reflexivity|]. cbn [write_back map fst snd] in *.
  injection E as -> E. inversion_clear N as [|? ? N1 N2]. inversion_clear F as [|? ? F1 F2]. rewrite IH by (try assumption; now rewrite list_upd_length).
  f_equal. f_equal. rewrite write_back_other by assumption. rewrite nth_upd, Nat.eqb_refl. apply Nat.ltb_lt in F1. now rewrite F1.
Qed.
Lemma handle_keys d p request : map fst (db_slaves (fst (db_handle_request d p request))) = map fst (db_slaves d).
Proof.
  unfold db_handle_request. destruct (parse_request p request) as [[[hdr v] pdu]|e]; [|reflexivity]. destruct (v =? 0).
  - pose proof (broadcast_keys (db_slaves d) pdu) as K. destruct (broadcast_loop (db_slaves d) pdu) as [l [r|e]]; exact K.
  - destruct (get_slave d v) as [s|e] eqn:G; [|destruct e; try reflexivity; now destruct (db_error_on_missing d)].
    assert (K : forall s', map fst (db_slaves (put_slave d v s')) = map fst (db_slaves d)).
    { intros s'. cbn. destruct (zput_keys v s' (db_slaves d)) as [K|[N _]]; [exact K|]. exfalso. apply N. unfold get_slave in G.
      destruct (assoc Z.eqb v (db_slaves d)) eqn:A; [|discriminate]. apply zassoc_in in A. now apply (in_map fst) in A. }
    destruct (SlaveModel.handle_request s pdu false) as [s' r]. destruct (response_pdu <- r ;; build_response hdr response_pdu); apply K.
Qed.
Lemma handle_eom d p request : db_error_on_missing (fst (db_handle_request d p request)) = db_error_on_missing d.
Proof.
  unfold db_handle_request. destruct (parse_request p request) as [[[hdr v] pdu]|e]; [|reflexivity]. destruct (v =? 0).
  - destruct (broadcast_loop (db_slaves d) pdu) as [l [r|e]]; reflexivity.
  - destruct (get_slave d v) as [s|e]; [|destruct e; try reflexivity; destruct (db_error_on_missing d) eqn:EM; exact EM || (cbn [fst]; congruence)].
    destruct (SlaveModel.handle_request s pdu false) as [s' r]. now destruct (response_pdu <- r ;; build_response hdr response_pdu).
Qed.
Lemma frame_view w p request : hinv w -> view (fst (hstep w (HFrame p request))) = fst (db_handle_request (view w) p request).
Proof.
  intros (_ & I2 & I3). cbn [hstep]. pose proof (handle_keys (view w) p request) as K. pose proof (handle_eom (view w) p request) as E.
  destruct (db_handle_request (view w) p request) as [[l e] r]. cbn [fst db_slaves db_error_on_missing] in *. subst e. unfold view, object, with_objects. cbn. f_equal.
  apply write_back_rows; [exact I2|exact I3|]. rewrite K. unfold view. cbn. rewrite map_map. reflexivity.
Qed.
Lemma assoc_view u (f : nat -> slave) l : assoc Z.eqb u (map (fun x => (fst x, f (snd x))) l) = option_map f (assoc Z.eqb u l).
Proof. induction l as [|[k h] l IH]; [reflexivity|]. cbn. destruct (u =? k); [reflexivity|exact IH]. Qed.
Lemma del_snd {V} u (l : list (Z * V)) x : In x (map snd (assoc_del Z.eqb u l)) -> In x (map snd l).
Proof. induction l as [|[k v] l IH]; [auto|]. cbn. destruct (u =? k); cbn; tauto. Qed.
Lemma del_nodup_snd {V} u (l : list (Z * V)) : NoDup (map snd l) -> NoDup (map snd (assoc_del Z.eqb u l)).
Proof.
  induction l as [|[k v] l IH]; [auto|]. cbn. inversion_clear 1. destruct (u =? k); [assumption|]. cbn. constructor; [|auto]. intros X. now apply del_snd in X.
Qed.
Lemma put_new {V} u (v : V) l : assoc Z.eqb u l = None -> assoc_put Z.eqb u v l = l ++ [(u, v)].
Proof. induction l as [|[k x] l IH]; [reflexivity|]. cbn. destruct (u =? k); [discriminate|]. intros H. now rewrite IH. Qed.

Lemma hstep_inv w x : hinv w -> hinv (fst (hstep w x)).
Proof.
  intros (I1 & I2 & I3). destruct x as [u b m|u|u| |h o|p request]; cbn [hstep].
  - destruct (_ || _); [now split|]. destruct (assoc Z.eqb u (hw_units w)) eqn:A; [now split|]. cbn [fst]. unfold hinv, with_units, with_objects. cbn.
    rewrite put_new, !map_app by exact A. cbn. rewrite app_length. cbn. apply zassoc_none in A.
    split; [|split].
    + apply Permutation.Permutation_NoDup with (u :: map fst (hw_units w)); [apply Permutation.Permutation_cons_append|]. now constructor.
    + apply Permutation.Permutation_NoDup with (length (hw_objects w) :: map snd (hw_units w)); [apply Permutation.Permutation_cons_append|]. constructor; [|exact I2].
      intros X. rewrite Forall_forall in I3. apply I3 in X. lia.
    + apply Forall_app. split; [eapply Forall_impl; [|exact I3]; cbn; intros; lia|]. constructor; [lia|constructor].
  - now split.
  - destruct (assoc Z.eqb u (hw_units w)); [|now split]. cbn [fst]. unfold hinv, with_units. cbn. split; [now apply zdel_nodup|]. split; [now apply del_nodup_snd|].
    rewrite Forall_forall in *. intros x X. apply del_snd in X. auto.
  - unfold hinv, with_units. cbn. repeat constructor.
  - destruct (slave_step (object w h) o) as [s out]. cbn [fst]. unfold hinv, with_objects. cbn. rewrite list_upd_length. now split.
  - destruct (db_handle_request (view w) p request) as [d r]. cbn [fst]. unfold hinv, with_objects. cbn. rewrite write_back_len. now split.
Qed.
Lemma hruns_inv l : forall w, hinv w -> hinv (fst (hruns w l)).
Proof.
  induction l as [|x l IH]; intros w I; [exact I|]. cbn [hruns]. pose proof (hstep_inv w x I) as J. destruct (hstep w x) as [w1 g]. specialize (IH w1 J).
  destruct (hruns w1 l). exact IH.
Qed.
Lemma hreachable_inv w : hreachable w -> hinv w.
Proof. intros (e & l & ->). apply hruns_inv. repeat constructor. Qed.

(** ** A handle of a unit that stays *)
Definition held (w : hworld) (u : Z) (h : nat) : Prop := assoc Z.eqb u (hw_units w) = Some h.
Lemma held_lt w u h : hinv w -> held w u h -> (h < length (hw_objects w))%nat.
Proof. intros (_ & _ & F) H. rewrite Forall_forall in F. apply F. apply zassoc_in in H. now apply (in_map snd) in H. Qed.
Lemma assoc_del_keep {V} u v (l : list (Z * V)) : v <> u -> assoc Z.eqb v (assoc_del Z.eqb u l) = assoc Z.eqb v l.
Proof. intros N. induction l as [|[k x] l IH]; [reflexivity|]. cbn. destruct (u =? k) eqn:Q; cbn; destruct (v =? k) eqn:R; try reflexivity; try exact IH; lia. Qed.
Lemma held_step w u h x : held w u h -> x <> HRemove u -> x <> HRemoveAll -> held (fst (hstep w x)) u h.
Proof.
  unfold held. intros H N1 N2. destruct x as [v b m|v|v| |k o|p request]; cbn [hstep].
  - destruct (_ || _); [exact H|]. destruct (assoc Z.eqb v (hw_units w)) eqn:A; [exact H|]. cbn. rewrite zassoc_put_other; [exact H|congruence].
  - exact H.
  - destruct (assoc Z.eqb v (hw_units w)); [|exact H]. cbn. rewrite assoc_del_keep; [exact H|congruence].
  - congruence.
  - now destruct (slave_step (object w k) o).
  - now destruct (db_handle_request (view w) p request).
Qed.
Lemma held_run l : forall w u h, held w u h -> stays u l -> held (fst (hruns w l)) u h.
Proof.
  induction l as [|x l IH]; intros w u h H (S1 & S2); [exact H|]. cbn [hruns]. pose proof (held_step w u h x H) as K.
  destruct (hstep w x) as [w1 g]. cbn [fst] in K. specialize (IH w1 u h). destruct (hruns w1 l). apply IH.
  - apply K; intros ->; [apply S1|apply S2]; now left.
  - split; intros X; [apply S1|apply S2]; now right.
Qed.
Lemma held_view w u h : held w u h -> get_slave (view w) u = Ok (object w h).
Proof. unfold held, get_slave, view. intros H. cbn. rewrite assoc_view, H. reflexivity. Qed.
Lemma view_put_rows (f g : nat -> slave) u h l : NoDup (map fst l) -> NoDup (map snd l) -> assoc Z.eqb u l = Some h -> (forall k, k <> h -> g k = f k) ->
  map (fun x : Z * nat => (fst x, g (snd x))) l = assoc_put Z.eqb u (g h) (map (fun x => (fst x, f (snd x))) l).
Proof.
  intros N1 N2 A E. induction l as [|[k j] l IH]; [discriminate|]. cbn in *. inversion_clear N1 as [|? ? M1 N1']. inversion_clear N2 as [|? ? M2 N2'].
  destruct (u =? k) eqn:Q.
  - injection A as ->. apply Z.eqb_eq in Q. subst k. f_equal. apply map_ext_in. intros [k j] X. cbn. rewrite E; [reflexivity|]. intros ->. apply M2. now apply (in_map snd) in X.
  - rewrite (E j); [now rewrite IH|]. intros ->. apply M2. apply zassoc_in in A. now apply (in_map snd) in A.
Qed.

(** The object add_slave or get_slave returned for a unit is that unit's slave as long as the unit is not removed: get_slave still
    returns it, its contents are what the masters of that unit use, and a call made on it is the call made through the server. *)
Theorem C126_live : forall w x u h l, hreachable w ->
  (x = HGet u \/ exists unsigned memory, x = HAdd u unsigned memory) -> snd (hstep w x) = HHandle (Ok h) -> stays u l ->
  let w1 := fst (hruns (fst (hstep w x)) l) in
  snd (hstep w1 (HGet u)) = HHandle (Ok h) /\
  get_slave (view w1) u = Ok (object w1 h) /\
  forall o, exists out, snd (hstep w1 (HOn h o)) = HOut out /\
    sact_step (view w1) (OnSlave u o) = (view (fst (hstep w1 (HOn h o))), GCall (Ok out)).
Proof.
  intros w x u h l R X G S w1. apply hreachable_inv in R as I.
  assert (H : held (fst (hstep w x)) u h).
  { destruct X as [->|(b & m & ->)]; cbn [hstep] in *; unfold held.
    - cbn in *. destruct (assoc Z.eqb u (hw_units w)); congruence.
    - destruct (_ || _); [discriminate G|]. destruct (assoc Z.eqb u (hw_units w)) eqn:A; [discriminate G|]. cbn in *. injection G as <-. now rewrite zassoc_put_same. }
  assert (H1 : held w1 u h) by (apply held_run; assumption).
  assert (I1 : hinv w1) by (apply hruns_inv, hstep_inv, I). pose proof (held_view w1 u h H1) as V.
  split; [cbn [hstep snd]; unfold held in H1; now rewrite H1|]. split; [exact V|]. intros o. cbn [hstep sact_step]. rewrite V.
  destruct (slave_step (object w1 h) o) as [s out]. cbn [fst snd]. exists out. split; [reflexivity|]. f_equal.
  unfold put_slave, with_slaves. f_equal.
  assert (Z : object (with_objects w1 (list_upd (hw_objects w1) h s)) h = s).
  { unfold object, with_objects. cbn. rewrite nth_upd, Nat.eqb_refl. pose proof (held_lt w1 u h I1 H1) as L. apply Nat.ltb_lt in L. now rewrite L. }
  rewrite <- Z at 1. cbn [view db_slaves db_error_on_missing with_slaves]. symmetry. destruct I1 as (J1 & J2 & _).
  unfold view at 1. cbn [hw_units with_objects hw_error_on_missing]. f_equal. apply (view_put_rows (object w1)); try assumption.
  intros k N. unfold object, with_objects. cbn. rewrite nth_upd. destruct (Nat.eqb k h) eqn:Q; [apply Nat.eqb_eq in Q; congruence|reflexivity].
Qed.

(** ** A handle of a unit that has been removed *)
Definition loose (w : hworld) (h : nat) : Prop := ~ In h (map snd (hw_units w)) /\ (h < length (hw_objects w))%nat.
(** Two worlds that differ in object [h] only. *)
Definition but (h : nat) (w w' : hworld) : Prop :=
  hw_units w = hw_units w' /\ hw_error_on_missing w = hw_error_on_missing w' /\ length (hw_objects w) = length (hw_objects w') /\
  forall k, k <> h -> object w k = object w' k.
Lemma but_view h w w' : but h w w' -> ~ In h (map snd (hw_units w)) -> view w = view w'.
Proof.
  intros (U & E & _ & O) N. unfold view. rewrite <- U, <- E. f_equal. apply map_ext_in. intros [u k] X. cbn. rewrite O; [reflexivity|]. intros ->. apply N. now apply (in_map snd) in X.
Qed.
Lemma loose_step w h x : hinv w -> loose w h -> loose (fst (hstep w x)) h.
Proof.
  intros _ (N & L). destruct x as [v b m|v|v| |k o|p request]; cbn [hstep].
  - destruct (_ || _); [now split|]. destruct (assoc Z.eqb v (hw_units w)) eqn:A; [now split|]. unfold loose, with_units, with_objects. cbn.
    rewrite put_new, map_app, app_length by exact A. cbn. split; [|lia]. rewrite in_app_iff. cbn. intros [X|[X|[]]]; [auto|lia].
  - now split.
  - destruct (assoc Z.eqb v (hw_units w)); [|now split]. unfold loose, with_units. cbn. split; [|exact L]. intros X. now apply del_snd in X.
  - unfold loose, with_units. cbn. auto.
  - destruct (slave_step (object w k) o). unfold loose, with_objects. cbn. rewrite list_upd_length. now split.
  - destruct (db_handle_request (view w) p request). unfold loose, with_objects. cbn. rewrite write_back_len. now split.
Qed.
(** Other acts leave the loose object alone... *)
Lemma loose_kept w h x : loose w h -> on h x = false -> object (fst (hstep w x)) h = object w h.
Proof.
  intros (N & L) O. unfold object. destruct x as [v b m|v|v| |k o|p request]; cbn [hstep].
  - destruct (_ || _); [reflexivity|]. destruct (assoc Z.eqb v (hw_units w)); [reflexivity|]. cbn. now rewrite app_nth1.
  - reflexivity.
  - now destruct (assoc Z.eqb v (hw_units w)).
  - reflexivity.
  - cbn in O. destruct (slave_step _ o). cbn. rewrite nth_upd, Nat.eqb_sym, O. reflexivity.
  - destruct (db_handle_request (view w) p request). cbn. now apply write_back_other.
Qed.
Lemma write_back_but h d units : forall rows a a', length a = length a' -> (forall k, k <> h -> nth k a d = nth k a' d) ->
  forall j, j <> h -> nth j (write_back units rows a) d = nth j (write_back units rows a') d.
Proof.
  induction units as [|[u k] units IH]; intros [|[v s] rows] a a' L H j J; cbn [write_back]; auto.
  apply IH; [now rewrite !list_upd_length| |exact J]. intros i N. rewrite !nth_upd, L. destruct (Nat.eqb i k); [|now apply H]. destruct (Nat.ltb k (length a')); [reflexivity|now apply H].
Qed.
(** ... and do the same whatever it holds. *)
Lemma but_step w w' h x : loose w h -> but h w w' -> on h x = false ->
  but h (fst (hstep w x)) (fst (hstep w' x)) /\ snd (hstep w x) = snd (hstep w' x).
Proof.
  intros (N & L) B O. pose proof B as (U & E & Len & K). pose proof (but_view h w w' B N) as V. destruct x as [v b m|v|v| |k o|p request]; cbn [hstep].
  - destruct (_ || _); [split; [exact B|reflexivity]|]. rewrite <- U. destruct (assoc Z.eqb v (hw_units w)); [split; [exact B|reflexivity]|]. cbn. rewrite <- Len.
    split; [|reflexivity]. unfold but, with_units, with_objects, object. cbn. rewrite !app_length, Len. repeat split; try assumption. intros j J.
    destruct (Nat.lt_ge_cases j (length (hw_objects w))); [rewrite !app_nth1 by lia; now apply K|rewrite !app_nth2 by lia; now rewrite Len].
  - rewrite U. split; [exact B|reflexivity].
  - rewrite <- U. destruct (assoc Z.eqb v (hw_units w)); [|split; [exact B|reflexivity]]. split; [|reflexivity]. unfold but, with_units. cbn. rewrite U. repeat split; assumption.
  - split; [|reflexivity]. unfold but, with_units. cbn. repeat split; assumption.
  - cbn in O. apply Nat.eqb_neq in O. rewrite <- (K k O). destruct (slave_step (object w k) o) as [s out]. split; [|reflexivity].
    unfold but, with_objects, object. cbn. rewrite !list_upd_length. repeat split; try assumption. intros j J. rewrite !nth_upd, Len. destruct (Nat.eqb j k); [|now apply K].
    destruct (Nat.ltb k (length (hw_objects w'))); [reflexivity|now apply K].
  - rewrite <- V, <- U. destruct (db_handle_request (view w) p request) as [d r]. split; [|reflexivity].
    unfold but, with_objects, object. cbn. rewrite !write_back_len. repeat split; try assumption. intros j J.
    now apply (write_back_but h).
Qed.
Lemma but_on w w' h o : but h w w' -> but h (fst (hstep w (HOn h o))) w'.
Proof.
  intros (U & E & L & K). cbn [hstep]. destruct (slave_step (object w h) o) as [s out]. unfold but, with_objects, object. cbn. rewrite list_upd_length. repeat split; try assumption.
  intros j J. rewrite nth_upd. destruct (Nat.eqb j h) eqn:Q; [apply Nat.eqb_eq in Q; congruence|now apply K].
Qed.
Lemma loose_run l : forall w w' h, hinv w -> loose w h -> but h w w' ->
  let '(w1, got) := hruns w l in
  let '(w2, got2) := hruns w' (others h l) in
  got_others h l got = got2 /\ got_calls h l got = map HOut (outs (object w h) (calls h l)) /\ but h w1 w2 /\ loose w1 h /\
  object w1 h = slave_run (object w h) (calls h l).
Proof.
  induction l as [|x l IH]; intros w w' h I Lo B; [split; [reflexivity|]; split; [reflexivity|]; auto|]. cbn [hruns others filter].
  pose proof (hstep_inv w x I) as I1. pose proof (loose_step w h x I Lo) as Lo1. destruct (on h x) eqn:O; cbn [negb].
  - destruct x as [| | | |k o|]; try discriminate O. cbn in O. apply Nat.eqb_eq in O. subst k. pose proof (but_on w w' h o B) as B1.
    pose proof (IH _ w' h I1 Lo1 B1) as J. fold (others h l). cbn [hstep] in *. destruct (slave_step (object w h) o) as [s out] eqn:S. cbn [fst] in *.
    assert (Z : object (with_objects w (list_upd (hw_objects w) h s)) h = s).
    { unfold object, with_objects. cbn. rewrite nth_upd, Nat.eqb_refl. destruct Lo as [_ L]. apply Nat.ltb_lt in L. now rewrite L. }
    rewrite Z in J. destruct (hruns _ l) as [w2 gs]. destruct (hruns w' (others h l)) as [w2' gs']. destruct J as (J1 & J2 & J3 & J4 & J5).
    cbn [calls flat_map]. rewrite Nat.eqb_refl. fold (calls h l). cbn [app outs]. rewrite S. cbn [fst snd slave_run fold_left]. rewrite S. cbn [fst]. fold (slave_run s (calls h l)).
    unfold got_others, got_calls in *. cbn [combine filter fst on]. rewrite Nat.eqb_refl. cbn [negb map snd]. rewrite J2. repeat (split; [assumption || reflexivity|]); assumption || reflexivity.
  - destruct (but_step w w' h x Lo B O) as (B1 & G). pose proof (loose_kept w h x Lo O) as Q. pose proof (IH _ _ h I1 Lo1 B1) as J. cbn [hruns]. fold (others h l).
    destruct (hstep w x) as [w1 g]. destruct (hstep w' x) as [w1' g']. cbn [fst snd] in *. subst g'. rewrite Q in J.
    destruct (hruns w1 l) as [w2 gs]. destruct (hruns w1' (others h l)) as [w2' gs']. destruct J as (J1 & J2 & J3 & J4 & J5).
    assert (C : calls h (x :: l) = calls h l) by (destruct x; try reflexivity; cbn in O |- *; now rewrite O). rewrite C.
    unfold got_others, got_calls in *. cbn [combine filter fst]. rewrite O. cbn [negb map snd]. rewrite J1. repeat (split; [assumption || reflexivity|]); assumption || reflexivity.
Qed.

(** After the unit is removed (alone, or with all others) the object is on its own, whatever happens - also when the unit is added
    again: its contents are what the calls made on it have made of them and these calls return what they would return on a slave
    without a server; nobody else can tell that the calls are made: all other results, and what every master sees, are the same
    without them. *)
Theorem C126_detached : forall w u h x l, hreachable w -> snd (hstep w (HGet u)) = HHandle (Ok h) -> x = HRemove u \/ x = HRemoveAll ->
  let w0 := fst (hstep w x) in
  let '(w1, got) := hruns w0 l in
  let '(w2, got_without) := hruns w0 (others h l) in
  object w1 h = slave_run (object w h) (calls h l) /\
  got_calls h l got = map HOut (outs (object w h) (calls h l)) /\
  got_others h l got = got_without /\ view w1 = view w2 /\
  forall v, snd (hstep w1 (HGet v)) <> HHandle (Ok h).
Proof.
  intros w u h x l R G X w0. apply hreachable_inv in R as I.
  assert (H : held w u h) by (cbn in G; unfold held; destruct (assoc Z.eqb u (hw_units w)); congruence).
  pose proof (held_lt w u h I H) as L.
  assert (Lo : loose w0 h).
  { unfold w0, loose. destruct X as [->| ->]; cbn [hstep].
    - unfold held in H. rewrite H. cbn. split; [|exact L]. destruct I as (_ & I2 & _). clear - H I2. revert H I2. generalize (hw_units w).
      induction l as [|[k j] l IH]; [discriminate|]. cbn. intros H I2. inversion_clear I2 as [|? ? M N]. destruct (u =? k); [injection H as ->; exact M|].
      cbn. intros [->|Y]; [apply zassoc_in in H; now apply (in_map snd) in H|]. now apply (IH H N).
    - cbn. auto. }
  assert (O : object w0 h = object w h) by (unfold w0; destruct X as [->| ->]; cbn [hstep]; [now destruct (assoc Z.eqb u (hw_units w))|reflexivity]).
  assert (B : but h w0 w0) by (repeat split).
  pose proof (loose_run l w0 w0 h (hstep_inv w x I) Lo B) as J. destruct (hruns w0 l) as [w1 got]. destruct (hruns w0 (others h l)) as [w2 got2].
  destruct J as (J1 & J2 & J3 & J4 & J5). rewrite O in J2, J5. repeat (split; [assumption|]). split; [apply but_view with h; [exact J3|apply J4]|].
  intros v Y. cbn in Y. destruct (assoc Z.eqb v (hw_units w1)) eqn:A; [|discriminate]. injection Y as ->. apply zassoc_in in A. apply (in_map snd) in A. now apply J4.
Qed.

(** Unit 5 is removed and added again while the application still holds the first object: both take values, the master sees those
    of the second. *)
Definition demo_acts : list hact :=
  [HAdd 5 true None; HOn 0 (OpAddBlock "x" 3 0 10); HOn 0 (OpSetValues "x" 0 (SvNum 11))].
Definition demo_later : list hact :=
  [HAdd 5 true None; HFrame TCP (read_frame 5 0 1); HOn 1 (OpAddBlock "x" 3 0 10); HOn 0 (OpSetValues "x" 0 (SvNum 12)); HFrame TCP (read_frame 5 0 1);
   HOn 0 (OpGetValues "x" 0 1); HGet 5].
Example C126_ex : let w := fst (hruns (new_world true) demo_acts) in
  hreachable w /\ snd (hstep w (HGet 5)) = HHandle (Ok 0%nat) /\
  snd (hstep w (HFrame TCP (read_frame 5 0 1))) = HAnswer (Ok (Some [0; 1; 0; 0; 0; 5; 5; 3; 2; 0; 11])) /\
  stays 5 demo_later /\
  snd (hruns (fst (hstep w (HRemove 5))) demo_later) =
  [HHandle (Ok 1%nat); HAnswer (Ok (Some [0; 1; 0; 0; 0; 3; 5; 131; 2])); HOut (OutUnit (Ok tt)); HOut (OutUnit (Ok tt));
   HAnswer (Ok (Some [0; 1; 0; 0; 0; 5; 5; 3; 2; 0; 0])); HOut (OutVals (Ok [12])); HHandle (Ok 1%nat)].
Proof.
  split; [exists true, demo_acts; reflexivity|]. split; [vm_compute; reflexivity|]. split; [vm_compute; reflexivity|].
  split; [split; intros H; repeat (destruct H as [H|H]; [discriminate H|]); exact H|vm_compute; reflexivity].
Qed.
(** The application may think that it sets what masters of unit 5 read: set_values reports no error. *)
Theorem C126_tells_refuted : exists w h l, hreachable w /\ snd (hstep w (HGet 5)) = HHandle (Ok h) /\
  let w1 := fst (hruns w l) in
  snd (hstep w1 (HOn h (OpSetValues "x" 0 (SvNum 12)))) = HOut (OutUnit (Ok tt)) /\
  view (fst (hstep w1 (HOn h (OpSetValues "x" 0 (SvNum 12))))) = view w1.
Proof.
  exists (fst (hruns (new_world true) demo_acts)), 0%nat, [HRemove 5; HAdd 5 true None]. split; [exists true, demo_acts; reflexivity|].
  split; [vm_compute; reflexivity|]. split; vm_compute; reflexivity.
Qed.

Print Assumptions C126_live.
Print Assumptions C126_detached.
Print Assumptions C126_tells_refuted.
