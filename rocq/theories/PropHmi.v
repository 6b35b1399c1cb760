(** C97: what the web pages of hmi/master_webhmi.py show. C98: what they keep.
    Vocabulary: [lookup], [covered], [polled], [real_device] below; Spec.v, EndSpec.v (stored, as_word, round_trip) for the devices. *)
From Coq Require Import ZArith List String Ascii Bool Lia ZifyBool ZifyNat.
Ltac Zify.zify_post_hook ::= Z.div_mod_to_equations.
From Verif Require Import Base BaseFacts SlaveSpec Defines Spec TextModel TextProofs SlaveModel QueryModel DatabankModel DbSpec MasterModel MasterSpec EndSpec PropDatabank PropMaster HmiModel.
From Coq Require Import Permutation Sorted.
Import ListNotations.
Open Scope string_scope.
Open Scope list_scope.
Open Scope Z_scope.

(** Spec: the value a table shows for a key; the value the last of some readings (address, registers read from there on) gives for address [k]. *)
Fixpoint lookup {K} (eqb : K -> K -> bool) (l : list (K * Z)) (k : K) : option Z :=
  match l with [] => None | (k', v) :: l' => if eqb k' k then Some v else lookup eqb l' k end.
Definition reads_at (a : Z) (vs : list Z) (k : Z) : option Z := if (a <=? k) && (k <? a + zlen vs) then nth_error vs (Z.to_nat (k - a)) else None.
Fixpoint covered (readings : list (Z * list Z)) (k : Z) : option Z :=
  match readings with
  | [] => None
  | (a, vs) :: l => match covered l k with Some v => Some v | None => reads_at a vs k end
  end.

Lemma py_str_inj x y : py_str x = py_str y -> x = y.
Proof. intros H. pose proof (int_of_str x) as A. rewrite H, int_of_str in A. congruence. Qed.
Lemma dput_lookup {K} (eqb : K -> K -> bool) (E : forall x y, eqb x y = true <-> x = y) l k v k' :
  lookup eqb (dput eqb l k v) k' = if eqb k k' then Some v else lookup eqb l k'.
Proof.
  induction l as [|[k0 v0] l IH]; cbn [dput lookup]; [reflexivity|].
  destruct (eqb k0 k) eqn:E0; cbn [lookup].
  - apply E in E0. subst k0. destruct (eqb k k'); reflexivity.
  - destruct (eqb k0 k') eqn:E1; [|exact IH]. apply E in E1. subst k0. destruct (eqb k k') eqn:E2; [|reflexivity].
    apply E in E2. subst k'. rewrite (proj2 (E k k) eq_refl) in E0. discriminate.
Qed.
Lemma dput_all_lookup {K} (eqb : K -> K -> bool) (key : Z -> K) (E : forall x y, eqb x y = true <-> x = y) (J : forall x y, key x = key y -> x = y) :
  forall vs l i k, lookup eqb (dput_all eqb key l i vs) (key k) = match reads_at i vs k with Some v => Some v | None => lookup eqb l (key k) end.
Proof.
  induction vs as [|v vs IH]; intros l i k; cbn [dput_all].
  - unfold reads_at. change (zlen (@nil Z)) with 0. destruct (_ && _) eqn:B; [lia|reflexivity].
  - rewrite IH, dput_lookup by exact E. unfold reads_at. rewrite zlen_cons.
    pose proof (zlen_nonneg vs). destruct ((i + 1 <=? k) && (k <? i + 1 + zlen vs)) eqn:B1.
    + replace ((i <=? k) && (k <? i + (1 + zlen vs))) with true by lia. replace (Z.to_nat (k - i)) with (S (Z.to_nat (k - (i + 1)))) by lia. cbn [nth_error].
      destruct (nth_error vs (Z.to_nat (k - (i + 1)))) eqn:N; [reflexivity|]. apply nth_error_None in N. unfold zlen in *. lia.
    + destruct (eqb (key i) (key k)) eqn:Q.
      * apply E in Q. apply J in Q. subst k. replace ((i <=? i) && (i <? i + (1 + zlen vs))) with true by lia. rewrite Z.sub_diag. reflexivity.
      * assert (i <> k) by (intros ->; rewrite (proj2 (E _ _) eq_refl) in Q; discriminate). replace ((i <=? k) && (k <? i + (1 + zlen vs))) with false by lia. reflexivity.
Qed.
Section Pages.
Variable W : Type.
Variable exec : W -> Z -> Z -> Z -> Z -> Z -> W * res (list Z).
(** Spec: the rows are read one after the other from slave [s] through master [m], and every reading succeeds. *)
Inductive polled (m s : Z) : W -> list rrow -> list (Z * list Z) -> W -> Prop :=
| polled_nil w : polled m s w [] [] w
| polled_cons w r rows a n w1 vs l w2 : cell_int (r_start r) = Ok a -> cell_int (r_count r) = Ok n -> exec w m s 3 a n = (w1, Ok vs) ->
    polled m s w1 rows l w2 -> polled m s w (r :: rows) ((a, vs) :: l) w2.

Lemma read_all_lookup {K} (eqb : K -> K -> bool) (key : Z -> K) (E : forall x y, eqb x y = true <-> x = y) (J : forall x y, key x = key y -> x = y) o slave :
  forall rows w acc w' l, read_all W exec eqb key w o slave rows acc = (w', Ok l) ->
  rows = [] /\ w' = w /\ l = acc \/ exists s readings, py_int slave = Ok s /\ polled (o_id o) s w rows readings w' /\
    forall k, lookup eqb l (key k) = match covered readings k with Some v => Some v | None => lookup eqb acc (key k) end.
Proof.
  induction rows as [|r rows IH]; intros w acc w' l H; cbn [read_all] in H; [injection H as -> ->; now left|right].
  destruct (cell_int (r_start r)) as [a|] eqn:E1; [cbn [bind] in H|discriminate]. destruct (py_int slave) as [s|] eqn:E2; [cbn [bind] in H|discriminate].
  destruct (cell_int (r_count r)) as [n|] eqn:E3; [cbn [bind] in H|discriminate].
  destruct (exec w (o_id o) s 3 a n) as [w1 [vs|e]] eqn:X; [|discriminate]. apply IH in H as [(-> & -> & ->) | (s' & rd & S1 & P & L)].
  - exists s, [(a, vs)]. split; [reflexivity|]. split; [econstructor; eauto; constructor|]. intros k. rewrite dput_all_lookup by assumption. cbn [covered]. reflexivity.
  - assert (s' = s) by congruence. subst s'. exists s, ((a, vs) :: rd). split; [reflexivity|]. split; [econstructor; eauto|]. intros k. rewrite L, dput_all_lookup by assumption. cbn [covered].
    destruct (covered rd k); reflexivity.
Qed.
(** and the other way round: whenever all readings succeed the loop ends normally *)
Lemma read_all_polled {K} (eqb : K -> K -> bool) (key : Z -> K) o slave s : py_int slave = Ok s -> forall rows w rd w', polled (o_id o) s w rows rd w' ->
  forall acc, exists l, read_all W exec eqb key w o slave rows acc = (w', Ok l).
Proof.
  intros P rows w rd w' H. induction H as [w|w r rows a n w1 vs l w2 E1 E2 X _ IH]; intros acc; cbn [read_all]; [now eexists|].
  rewrite E1, P, E2. cbn [bind]. rewrite X. apply IH.
Qed.
End Pages.

(** C97: the page of all holding registers reads the FC3 requests configured for the slave, in order, and shows for every address what the
    last reading that covers it gave - and nothing for other addresses; the JSON data that refresh it are the same, read the same way. *)
Theorem C97_all_registers : forall W exec w a master slave o s readings w',
  get_master a master = Ok o -> py_int slave = Ok s ->
  polled W exec (o_id o) s w (get_hr_requests (a_db a) master slave) readings w' ->
  exists l j, serve W exec w a (ReadAll master slave) = (w', a, Table l) /\ serve W exec w a (ReadAllJson master slave) = (w', a, Json j) /\
    (forall k, lookup Z.eqb l k = covered readings k) /\ (forall k, lookup String.eqb j (py_str k) = covered readings k).
Proof.
  intros W exec w a master slave o s rd w' G S P.
  destruct (read_all_polled W exec Z.eqb (fun z => z) o slave s S _ _ _ _ P []) as [l L]. destruct (read_all_polled W exec String.eqb py_str o slave s S _ _ _ _ P []) as [j J].
  exists l, j. cbn [serve]. unfold show_all_hr, json_all_hr. rewrite G, L, J. split; [reflexivity|]. split; [reflexivity|].
  assert (U : forall rows w1 r1 w1' r2 w2', polled W exec (o_id o) s w1 rows r1 w1' -> polled W exec (o_id o) s w1 rows r2 w2' -> r1 = r2).
  { clear. induction rows as [|r rows IH]; intros w1 r1 w1' r2 w2' P1 P2; inversion P1; inversion P2; subst; [reflexivity|].
    match goal with A : cell_int (r_start r) = Ok ?x, B : cell_int (r_start r) = Ok ?y |- _ => assert (x = y) by congruence; subst end.
    match goal with A : cell_int (r_count r) = Ok ?x, B : cell_int (r_count r) = Ok ?y |- _ => assert (x = y) by congruence; subst end.
    match goal with A : exec _ _ _ _ _ _ = (?x, Ok ?u), B : exec _ _ _ _ _ _ = (?y, Ok ?v) |- _ => assert (x = y /\ u = v) as [-> ->] by (rewrite A in B; now injection B) end.
    f_equal. eauto. }
  apply read_all_lookup in L; [|intros; lia|auto]. apply read_all_lookup in J; [|apply String.eqb_eq|exact py_str_inj].
  split; intros k.
  - destruct L as [(E & _ & ->) | (s' & rd' & S' & P' & L)]; [rewrite E in P; inversion P; reflexivity|].
    assert (s' = s) by congruence. subst s'. rewrite (U _ _ _ _ _ _ P P'). rewrite L. destruct (covered rd' k); reflexivity.
  - destruct J as [(E & _ & ->) | (s' & rd' & S' & P' & J)]; [rewrite E in P; inversion P; reflexivity|].
    assert (s' = s) by congruence. subst s'. rewrite (U _ _ _ _ _ _ P P'). rewrite J. destruct (covered rd' k); reflexivity.
Qed.

(** The requests read are the rows of that master and that slave whose function is 3: *)
Theorem C97_which_requests : forall d m u r,
  In r (get_hr_requests d (py_str m) (py_str u)) <-> In r (h_requests d) /\ r_master r = m /\ r_slave r = CInt u /\ r_function r = CInt 3.
Proof.
  intros d m u r. unfold get_hr_requests, affinity. rewrite !int_of_str, filter_In. split.
  - intros (I & B). apply andb_prop in B as [B B3]. apply andb_prop in B as [B1 B2]. split; [exact I|]. cbn [cell_eqb] in B1. apply Z.eqb_eq in B1. subst m.
    destruct (r_slave r) as [x|x], (r_function r) as [y|y]; cbn [cell_eqb] in B2, B3; try discriminate. apply Z.eqb_eq in B2, B3. now subst.
  - intros (I & <- & -> & ->). split; [exact I|]. cbn [cell_eqb]. rewrite !Z.eqb_refl. reflexivity.
Qed.

(** With a real device behind the master - some databank reached over TCP or RTU - the page shows the registers the slave stores. *)
Definition real_device {W} (exec : W -> Z -> Z -> Z -> Z -> Z -> W * res (list Z)) (db : W -> databank) (p : proto) : Prop :=
  forall w m u a n, exists last, 0 <= last <= 65535 /\
    let '(d, e) := round_trip p last (db w) u (ReadRegs true a n) in
    db (fst (exec w m u 3 a n)) = d /\
    match ex_result e with Some (Ok (RTuple l)) => snd (exec w m u 3 a n) = Ok l | Some (Err x) => snd (exec w m u 3 a n) = Err x | _ => True end.
(** a request that asks for registers which slave [s] has, and what they hold *)
Definition readable (s : SlaveModel.slave) (r : rrow) (reading : Z * list Z) : Prop :=
  let '(a, vals) := reading in
  cell_int (r_start r) = Ok a /\ fits true a /\ cell_int (r_count r) = Ok (zlen vals) /\ 1 <= zlen vals <= 125 /\
  stored s HOLDING_REGISTERS a (zlen vals) vals /\ Forall (fits (sl_unsigned s)) vals.
Theorem C97_shows_the_registers : forall W exec db p w a master slave o u s readings,
  real_device exec db p -> db_reachable (db w) ->
  get_master a master = Ok o -> py_int slave = Ok u -> get_slave (db w) u = Ok s ->
  Forall2 (readable s)
    (get_hr_requests (a_db a) master slave) readings ->
  exists l, snd (serve W exec w a (ReadAll master slave)) = Table l /\
    (forall k, lookup Z.eqb l k = covered (map (fun '(a, vs) => (a, map as_word vs)) readings) k).
Proof.
  intros W exec db p w a master slave o u s rd D R G S GS F.
  assert (P : forall rows rd w, db_reachable (db w) -> get_slave (db w) u = Ok s -> Forall2 (readable s) rows rd ->
     exists w', polled W exec (o_id o) u w rows (map (fun '(a, vs) => (a, map as_word vs)) rd) w').
  { clear w rd R GS F. induction rows as [|r rows IH]; intros rd w R GS F; inversion F as [|? [ad vs] ? ? (E1 & E2 & E3 & E4 & E5 & E6) F']; subst; [eexists; constructor|].
    destruct (D w (o_id o) u ad (zlen vs)) as (last & HL & X).
    pose proof (C39_read_registers p last (db w) u true ad (zlen vs) s vs HL R GS E4 E2 E5 E6) as C.
    destruct (round_trip p last (db w) u (ReadRegs true ad (zlen vs))) as [d e] eqn:RT. destruct C as (C1 & C2). rewrite C1 in X. destruct X as (X1 & X2).
    destruct (exec w (o_id o) u 3 ad (zlen vs)) as [w1 x] eqn:EX. cbn [fst snd] in X1, X2. subst x.
    edestruct (fun A B => IH _ w1 A B F') as [w' P']; [| |exists w'; cbn [map]; econstructor; eauto].
    - rewrite X1. clear - R RT. unfold round_trip, round_trip_args in RT. injection RT as <- _. destruct (ex_sent _) as [[q n]|]; [|exact R].
      destruct R as (e0 & ops & F & ->). exists e0, (ops ++ [DbRequest p q]). split; [apply Forall_app; split; [exact F|repeat constructor]|]. unfold db_run. now rewrite fold_left_app.
    - rewrite X1, C2. exact GS. }
  destruct (P _ _ w R GS F) as [w' P']. destruct (C97_all_registers _ _ _ _ _ _ _ _ _ _ G S P') as (l & j & L & _ & LK & _).
  exists l. rewrite L. split; [reflexivity|exact LK].
Qed.

(** C97: one reading is shown as a grid: every result, in order, sixteen in a line, each line with the address of its first result; the
    JSON data give the i-th result under the key that the template gives to the i-th cell. *)
Lemma skipn_skipn' (l : list Z) : forall n m, skipn (n + m) l = skipn n (skipn m l).
Proof. intros n m. revert l. induction m as [|m IH]; intros l; [now rewrite Nat.add_0_r|]. rewrite Nat.add_succ_r. destruct l as [|x l]; [now rewrite !skipn_nil|]. apply IH. Qed.
Lemma rows16_flat results start : forall n l, 0 <= l -> zlen results <= l + 16 * Z.of_nat n -> flat_map snd (rows16 n start l results) = skipn (Z.to_nat l) results.
Proof.
  induction n as [|n IH]; intros l Hl H; cbn [rows16 flat_map snd]; [rewrite skipn_all2; [reflexivity|unfold zlen in H; lia]|].
  rewrite IH by lia. rewrite py_slice_nonneg by lia. replace (Z.to_nat (l + 16 - l)) with 16%nat by lia. replace (Z.to_nat (l + 16)) with (16 + Z.to_nat l)%nat by lia.
  rewrite <- (firstn_skipn 16 (skipn (Z.to_nat l) results)) at 2. f_equal. apply skipn_skipn'.
Qed.
Lemma rows16_nth results start : forall n l i, (i < n)%nat -> 
  nth_error (rows16 n start l results) i = Some (start + l + 16 * Z.of_nat i, py_slice results (l + 16 * Z.of_nat i) (l + 16 * Z.of_nat i + 16)).
Proof.
  induction n as [|n IH]; intros l i H; [lia|]. destruct i as [|i]; cbn [rows16 nth_error].
  - replace (l + start) with (start + l + 16 * Z.of_nat 0) by lia. replace (l + 16 * Z.of_nat 0) with l by lia. reflexivity.
  - rewrite IH by lia. replace (l + 16 + 16 * Z.of_nat i) with (l + 16 * Z.of_nat (S i)) by lia. f_equal. f_equal. lia.
Qed.
Theorem C97_grid : forall start results,
  flat_map snd (grid start results) = results /\
  forall i label line, nth_error (grid start results) i = Some (label, line) ->
    label = start + 16 * Z.of_nat i /\ line <> [] /\ forall j v, nth_error line j = Some v -> (j < 16)%nat /\ nth_error results (16 * i + j) = Some v.
Proof.
  intros start results. unfold grid. pose proof (zlen_nonneg results). set (n := Z.to_nat _).
  assert (N : 16 * (Z.of_nat n - 1) < zlen results <= 16 * Z.of_nat n \/ n = O /\ zlen results = 0) by (unfold n; destruct (0 <? zlen results mod 16) eqn:E; lia).
  split; [rewrite rows16_flat; [reflexivity|lia|lia]|]. intros i label line E.
  assert (I : (i < n)%nat). { clearbody n. clear - E. revert i E. generalize 0. induction n as [|n IH]; intros l i E; [destruct i; discriminate|]. destruct i as [|i]; [lia|]. cbn [rows16 nth_error] in E. apply IH in E. lia. }
  rewrite rows16_nth in E by exact I. apply (f_equal (fun o => match o with Some p => p | None => (0, []) end)) in E. cbv beta iota in E.
  assert (E1 := f_equal fst E). assert (E2 := f_equal snd E). unfold fst in E1. unfold snd in E2. split; [lia|]. subst line. rewrite py_slice_nonneg by lia. replace (Z.to_nat (0 + 16 * Z.of_nat i + 16 - (0 + 16 * Z.of_nat i))) with 16%nat by lia.
  replace (Z.to_nat (0 + 16 * Z.of_nat i)) with (16 * i)%nat by lia. split.
  - intros Q. apply (f_equal (@length Z)) in Q. rewrite firstn_length, skipn_length in Q. cbn [length] in Q. unfold zlen in N. lia.
  - intros j v Q. assert (j < 16)%nat. { assert (j < length (firstn 16 (skipn (16 * i) results)))%nat by (apply nth_error_Some; congruence). rewrite firstn_length in *. lia. }
    split; [assumption|]. rewrite <- Q. symmetry. rewrite nth_error_firstn by assumption. now rewrite nth_error_skipn.
Qed.
Theorem C97_one_reading : forall W exec w a master slave fct start count o s f ad n w' results,
  get_master a master = Ok o -> py_int slave = Ok s -> py_int fct = Ok f -> py_int start = Ok ad -> py_int count = Ok n ->
  exec w (o_id o) s f ad n = (w', Ok results) ->
  serve W exec w a (Read master slave fct start count) = (w', a, Grid (grid ad results)) /\
  exists j, serve W exec w a (ReadJson master slave fct start count) = (w', a, Json j) /\
    forall i, 0 <= i -> lookup String.eqb j (py_str i) = nth_error results (Z.to_nat i).
Proof.
  intros W exec w a master slave fct start count o s f ad n w' results G S F A N X.
  cbn [serve]. unfold show_results, json_results, call. rewrite G, S, F, A, N. cbn [bind]. rewrite X. split; [reflexivity|]. eexists. split; [reflexivity|].
  intros i I. rewrite dput_all_lookup; [|apply String.eqb_eq|exact py_str_inj]. unfold reads_at. destruct (_ && _) eqn:B.
  - rewrite Z.sub_0_r. destruct (nth_error results (Z.to_nat i)) eqn:E; reflexivity.
  - symmetry. apply nth_error_None. unfold zlen in B. lia.
Qed.
(** C97, refuted: a slave that refuses the reading is reported on the page, but the JSON data end in a NameError ... *)
Theorem C97_refuted : forall W exec w a master slave fct start count o s f ad n w' c,
  get_master a master = Ok o -> py_int slave = Ok s -> py_int fct = Ok f -> py_int start = Ok ad -> py_int count = Ok n ->
  exec w (o_id o) s f ad n = (w', Err (ModbusError c)) ->
  serve W exec w a (Read master slave fct start count) = (w', a, Refusal c) /\
  serve W exec w a (ReadJson master slave fct start count) = (w', a, Failed PyNameError).
Proof.
  intros W exec w a master slave fct start count o s f ad n w' c G S F A N X. cbn [serve]. unfold show_results, json_results, call. rewrite G, S, F, A, N. cbn [bind]. rewrite X. split; reflexivity.
Qed.
(** the same for the page of all holding registers: one reading that is refused, after some that succeeded, leaves no values on the page *)
Lemma read_all_refused {K} W exec (eqb : K -> K -> bool) key o slave s r ad n w2 e : py_int slave = Ok s -> cell_int (r_start r) = Ok ad -> cell_int (r_count r) = Ok n ->
  forall rows w rd w1 rows2 acc, polled W exec (o_id o) s w rows rd w1 -> exec w1 (o_id o) s 3 ad n = (w2, Err e) ->
  read_all W exec eqb key w o slave (rows ++ r :: rows2) acc = (w2, Err e).
Proof.
  intros S A N rows w rd w1 rows2 acc P. revert acc. induction P as [w|w r' rows a' n' w' vs l w'' E1 E2 X _ IH]; intros acc H; cbn [app read_all].
  - rewrite A, S, N. cbn [bind]. rewrite H. reflexivity.
  - rewrite E1, S, E2. cbn [bind]. rewrite X. now apply IH.
Qed.
Theorem C97_all_refused_refuted : forall W exec w a master slave o s rows r rows2 readings ad n w1 w2 c,
  get_master a master = Ok o -> py_int slave = Ok s -> get_hr_requests (a_db a) master slave = rows ++ r :: rows2 ->
  polled W exec (o_id o) s w rows readings w1 -> cell_int (r_start r) = Ok ad -> cell_int (r_count r) = Ok n -> exec w1 (o_id o) s 3 ad n = (w2, Err (ModbusError c)) ->
  serve W exec w a (ReadAll master slave) = (w2, a, Refusal c) /\ serve W exec w a (ReadAllJson master slave) = (w2, a, Failed PyNameError).
Proof.
  intros W exec w a master slave o s rows r rows2 rd ad n w1 w2 c G S R P A N X. cbn [serve]. unfold show_all_hr, json_all_hr. rewrite G, R.
  rewrite (read_all_refused W exec Z.eqb (fun z => z) o slave s r ad n w2 _ S A N _ _ _ _ rows2 [] P X).
  rewrite (read_all_refused W exec String.eqb py_str o slave s r ad n w2 _ S A N _ _ _ _ rows2 [] P X). split; reflexivity.
Qed.
Lemma read_all_bad {K} W exec (eqb : K -> K -> bool) key o slave bad : cell_int (r_start bad) = Err PyValueError ->
  forall rows w acc, In bad rows -> exists w' e, read_all W exec eqb key w o slave rows acc = (w', Err e).
Proof.
  intros B. induction rows as [|r rows IH]; intros w acc I; [contradiction|]. cbn [read_all]. destruct I as [-> | I]; [rewrite B; cbn [bind]; eauto|].
  destruct (bind _ _) as [[[a s] n]|e]; [|eauto]. destruct (exec w (o_id o) s 3 a n) as [w1 [vs|e]]; [|eauto]. now apply IH.
Qed.
(** C98. Spec: the masters that can be used and whom they talk to, as the data base says; a "tcp" master talks to host:port. *)
Definition usable (rows : list mrow) : list (Z * target) :=
  flat_map (fun m => if String.eqb (m_protocol m) "tcp" then [(m_id m, tcp_target (m_address m))] else []) rows.
Definition object_of (d : hdb) (it : Z * target) : Z * mobj := (fst it, {| o_id := fst it; o_target := snd it; o_requests := get_requests d (fst it) |}).
Lemma serial_never port : exists e, serial_open [] port = ([], Err e).
Proof. destruct port; cbn; eauto. Qed.
Lemma load_usable d : forall rows, load d [] rows = ([], map (object_of d) (usable rows)).
Proof.
  induction rows as [|m rows IH]; [reflexivity|]. unfold usable. cbn [load flat_map]. fold (usable rows). unfold open_master. destruct (String.eqb (m_protocol m) "tcp"); [rewrite IH; reflexivity|].
  assert (E : exists e, (if String.eqb (m_protocol m) "rtu" then match serial_args (split_on "," (m_address m)) None with Err e => ([], Err e) | Ok port => serial_open [] port end else ([], Err GenericException)) = (@nil string, @Err target e)).
  { destruct (String.eqb _ _); [|eauto]. destruct (serial_args _ _) as [port|e]; [apply serial_never|eauto]. }
  destruct E as [e ->]. rewrite IH. reflexivity.
Qed.
Definition same_target (x : Z * mobj) : Z * target := (fst x, o_target (snd x)).
Record hinv (a : website) : Prop := {
  hv_ports : a_ports a = [];
  hv_objects : map same_target (a_masters a) = usable (h_masters (a_db a));
  hv_ids : Forall (fun x => o_id (snd x) = fst x) (a_masters a);
  hv_mseq : Forall (fun m => m_id m <= h_mseq (a_db a)) (h_masters (a_db a));
  hv_mdup : NoDup (map m_id (h_masters (a_db a)));
  hv_rseq : Forall (fun r => r_id r <= h_rseq (a_db a)) (h_requests (a_db a));
  hv_rdup : NoDup (map r_id (h_requests (a_db a)));
  hv_owner : Forall (fun r => r_master r <= h_mseq (a_db a)) (h_requests (a_db a)) }.
Record dinv (d : hdb) : Prop := {
  dv_mseq : Forall (fun m => m_id m <= h_mseq d) (h_masters d); dv_mdup : NoDup (map m_id (h_masters d));
  dv_rseq : Forall (fun r => r_id r <= h_rseq d) (h_requests d); dv_rdup : NoDup (map r_id (h_requests d));
  dv_owner : Forall (fun r => r_master r <= h_mseq d) (h_requests d) }.
Lemma load_hinv d : dinv d -> hinv (load_masters d []).
Proof.
  intros []. unfold load_masters. rewrite load_usable. constructor; cbn [a_ports a_masters a_db]; try assumption; [reflexivity| |].
  - rewrite map_map. rewrite <- (map_id (usable (h_masters d))) at 2. apply map_ext. now intros [].
  - apply Forall_forall. intros x I. apply in_map_iff in I as (y & <- & _). reflexivity.
Qed.
Lemma hinv_dinv a : hinv a -> dinv (a_db a). Proof. intros []. now constructor. Qed.
Lemma nodup_filter {A B} (g : A -> B) f l : NoDup (map g l) -> NoDup (map g (filter f l)).
Proof.
  induction l as [|x l IH]; cbn [map filter]; intros H; [constructor|]. inversion H as [|? ? N D]; subst. destruct (f x); [|auto]. cbn [map]. constructor; [|auto].
  intros I. apply N. apply in_map_iff in I as (y & E & I). apply filter_In in I as [I _]. apply in_map_iff. eauto.
Qed.
Lemma forall_filter {A} (P : A -> Prop) f l : Forall P l -> Forall P (filter f l).
Proof. rewrite !Forall_forall. intros H x I. apply filter_In in I as [I _]. auto. Qed.
Lemma nodup_snoc {A} (g : A -> Z) l x m : NoDup (map g l) -> Forall (fun y => g y <= m) l -> g x = m + 1 -> NoDup (map g (l ++ [x])).
Proof.
  intros D F E. rewrite map_app. cbn [map]. apply NoDup_rev in D. rewrite <- (rev_involutive (map g l ++ [g x])). apply NoDup_rev. rewrite rev_app_distr. cbn [rev app]. constructor; [|exact D].
  intros I. apply in_rev in I. apply in_map_iff in I as (y & Ey & Iy). rewrite Forall_forall in F. apply F in Iy. lia.
Qed.
Lemma find_in l id o : find_master l id = Ok o -> In (id, o) l.
Proof. induction l as [|[i o'] l IH]; cbn [find_master]; [discriminate|]. destruct (i =? id) eqn:E; [|right; auto]. intros H. injection H as ->. left. f_equal. lia. Qed.
Lemma relist_targets d l id : map same_target (relist d l id) = map same_target l.
Proof. unfold relist. rewrite map_map. apply map_ext. intros [i o]. destruct (i =? id); reflexivity. Qed.
Lemma relist_ids d l id : Forall (fun x => o_id (snd x) = fst x) l -> Forall (fun x => o_id (snd x) = fst x) (relist d l id).
Proof. rewrite !Forall_forall. intros H x I. apply in_map_iff in I as ([i o] & <- & I). apply H in I. destruct (i =? id); exact I. Qed.
Lemma owner_known a id o : hinv a -> find_master (a_masters a) id = Ok o -> o_id o = id /\ id <= h_mseq (a_db a) /\ exists m, In m (h_masters (a_db a)) /\ m_id m = id.
Proof.
  intros [] F. apply find_in in F. rewrite Forall_forall in hv_ids0. pose proof (hv_ids0 _ F) as E. cbn [fst snd] in E.
  apply (in_map same_target) in F. rewrite hv_objects0 in F. unfold usable in F. apply in_flat_map in F as (m & I & F). destruct (String.eqb _ _); [|contradiction]. destruct F as [F|[]]. injection F as F _.
  rewrite Forall_forall in hv_mseq0. pose proof (hv_mseq0 _ I) as L. cbn in F. subst id. eauto.
Qed.
Lemma serve_hinv W exec w a v : hinv a -> hinv (snd (fst (serve W exec w a v))).
Proof.
  intros H. pose proof (hv_ports a H) as PT. pose proof (hinv_dinv a H) as D.
  destruct v as [|id|p ad|id|m s f st c|m id|m s f st c|m s|m s f st c|m s|]; cbn [serve]; rewrite ?PT; cbn [fst snd]; try exact H.
  - destruct (db_add_master (a_db a) p ad) as [d i] eqn:E. injection E as <- <-. cbn [fst snd]. apply load_hinv. destruct D. constructor; cbn [h_masters h_requests h_mseq h_rseq]; try assumption.
    + apply Forall_app. split; [|repeat constructor; cbn; lia]. eapply Forall_impl; [|exact dv_mseq0]. cbn. lia.
    + eapply nodup_snoc; [assumption|exact dv_mseq0|reflexivity].
    + eapply Forall_impl; [|exact dv_owner0]. cbn. lia.
  - apply load_hinv. destruct D. constructor; cbn [db_delete_master h_masters h_requests h_mseq h_rseq]; try assumption; [now apply forall_filter|now apply nodup_filter].
  - destruct (get_master a m) as [o|e] eqn:G; [|exact H]. unfold get_master in G. destruct (py_int m) as [z|]; [cbn [bind] in G|discriminate].
    destruct (owner_known a z o H G) as (E1 & E2 & _). rewrite E1. set (d := db_add_request _ _ _ _ _ _). set (a' := {| a_db := d |}).
    replace (snd (fst (let '(w', pg) := _ in (w', a', pg)))) with a' by (destruct (show_results W exec w a' m s f st c); reflexivity).
    destruct H, D. constructor; cbn [a' a_db a_masters a_ports d db_add_request h_masters h_requests h_mseq h_rseq]; try assumption; try reflexivity.
    + rewrite relist_targets. assumption.
    + now apply relist_ids.
    + apply Forall_app. split; [|repeat constructor; cbn; lia]. eapply Forall_impl; [|exact dv_rseq0]. cbn. lia.
    + eapply nodup_snoc; [assumption|exact dv_rseq0|reflexivity].
    + apply Forall_app. split; [assumption|repeat constructor; exact E2].
  - destruct (get_master a m) as [o|e] eqn:G; [|exact H]. cbn [fst snd]. destruct H. constructor; cbn [a_db a_masters a_ports db_delete_request h_masters h_requests h_mseq h_rseq]; try assumption; try reflexivity.
    + rewrite relist_targets. assumption.
    + now apply relist_ids.
    + now apply forall_filter.
    + now apply nodup_filter.
    + now apply forall_filter.
  - destruct (show_results _ _ _ _ _ _ _ _ _); exact H.
  - destruct (show_all_hr _ _ _ _ _ _); exact H.
  - destruct (json_results _ _ _ _ _ _ _ _ _); exact H.
  - destruct (json_all_hr _ _ _ _ _ _); exact H.
  - now apply load_hinv.
Qed.
Lemma visited_hinv W exec w a : visited W exec w a -> hinv a.
Proof.
  induction 1 as [w|w a v _ IH]; [|now apply serve_hinv]. apply load_hinv. constructor; cbn; repeat constructor; cbn; try lia; tauto.
Qed.
(** ... and one request that was entered wrongly keeps the page of all holding registers from showing the others: it shows no value whatever
    the devices answer, until that request is deleted. *)
Theorem C97_bad_request_refuted : forall W exec w a master slave o text count,
  visited W exec w a -> get_master a master = Ok o -> py_int text = Err PyValueError ->
  let a1 := snd (fst (serve W exec w a (AddRequest master slave "3" text count))) in
  forall w1, match serve W exec w1 a1 (ReadAll master slave) with (_, _, Table _) => False | _ => True end.
Proof.
  intros W exec w a master slave o text count V G T a1 w1. subst a1.
  assert (OI : o_id o = (match py_int master with Ok z => z | Err _ => 0 end)).
  { unfold get_master in G. destruct (py_int master) as [z|]; [cbn [bind] in G|discriminate]. now destruct (owner_known a z o (visited_hinv _ _ _ _ V) G). }
  cbn [serve]. rewrite G. unfold show_results at 1.
  set (d := db_add_request _ _ _ _ _ _). set (a1 := {| a_db := d |}).
  replace (snd (fst (let '(w', pg) := _ in (w', a1, pg)))) with a1 by (destruct (get_master a1 master); [destruct (call _ _ _ _ _ _ _ _); reflexivity|reflexivity]).
  cbn [serve]. unfold show_all_hr. destruct (get_master a1 master) as [o1|e]; [|exact I]. cbn [a1 a_db]. 
  destruct (read_all_bad W exec Z.eqb (fun z => z) o1 slave {| r_id := h_rseq (a_db a) + 1; r_master := o_id o; r_slave := affinity slave; r_function := affinity "3"; r_start := affinity text; r_count := affinity count |}) with (rows := get_hr_requests d master slave) (w := w1) (acc := @nil (Z * Z)) as (w' & e & ->).
  - unfold affinity. cbn [r_start]. rewrite T. exact T.
  - apply filter_In. split; [apply in_or_app; right; now left|]. cbn [r_master r_slave r_function]. unfold get_master in G. destruct (py_int master) as [z|] eqn:M; [|discriminate]. rewrite OI.
    unfold affinity at 1. rewrite M. cbn [cell_eqb]. rewrite Z.eqb_refl. cbn [andb]. change (cell_eqb (affinity "3") (CInt 3)) with true. rewrite andb_true_r.
    destruct (affinity slave); cbn [cell_eqb]; [apply Z.eqb_refl|apply String.eqb_refl].
  - destruct e; exact I.
Qed.

(** C98: in every history of visits and restarts: the masters that can be used are the "tcp" ones of the data base, each under its own id, and
    a restart changes neither them nor the requests. *)
Theorem C98_masters : forall W exec w a, visited W exec w a ->
  NoDup (map m_id (h_masters (a_db a))) /\ map same_target (a_masters a) = usable (h_masters (a_db a)) /\
  (forall id, match find_master (a_masters a) id with
              | Ok o => In (id, o_target o) (usable (h_masters (a_db a))) /\ o_id o = id
              | Err _ => forall t, ~ In (id, t) (usable (h_masters (a_db a))) end) /\
  let a' := snd (fst (serve W exec w a Restart)) in a_db a' = a_db a /\ map same_target (a_masters a') = map same_target (a_masters a).
Proof.
  intros W exec w a V. pose proof (visited_hinv _ _ _ _ V) as H. pose proof H as []. split; [assumption|]. split; [assumption|]. split.
  - intros id. destruct (find_master (a_masters a) id) as [o|e] eqn:F.
    + split; [|now destruct (owner_known a id o H F)]. apply find_in in F. apply (in_map same_target) in F. rewrite hv_objects0 in F. exact F.
    + intros t I. rewrite <- hv_objects0 in I. apply in_map_iff in I as ([i o] & E & I). injection E as -> _. clear - F I. induction (a_masters a) as [|[i o'] l IH]; [contradiction|].
      cbn [find_master] in F. destruct (i =? id) eqn:E; [discriminate|]. destruct I as [I|I]; [injection I as -> _; lia|auto].
  - cbn [serve fst snd]. unfold load_masters. rewrite load_usable. cbn [a_db a_masters]. split; [reflexivity|]. rewrite hv_objects0, map_map. rewrite <- (map_id (usable _)) at 2. apply map_ext. now intros [].
Qed.
(** The list of masters shown is all of them, each once, by increasing number. *)
Lemma insert_perm x l : Permutation (insert x l) (x :: l).
Proof. induction l as [|y l IH]; cbn [insert]; [reflexivity|]. destruct (fst x <=? fst y); [reflexivity|]. rewrite IH. apply perm_swap. Qed.
Lemma insert_sorted x l : StronglySorted (fun a b => fst a <= fst b) l -> StronglySorted (fun a b : Z * mobj => fst a <= fst b) (insert x l).
Proof.
  induction 1 as [|y l S IH F]; cbn [insert]; [repeat constructor|]. destruct (fst x <=? fst y) eqn:E; [|].
  - constructor; [now constructor|]. constructor; [lia|]. revert F. apply Forall_impl. intros; lia.
  - constructor; [exact IH|]. apply (Permutation_Forall (Permutation_sym (insert_perm x l))). constructor; [lia|exact F].
Qed.
Theorem C98_listing : forall W exec w a, visited W exec w a -> exists l,
  serve W exec w a Masters = (w, a, Listing l) /\
  Permutation (map (fun o => (o_id o, o_target o)) l) (usable (h_masters (a_db a))) /\ StronglySorted (fun x y => o_id x < o_id y) l.
Proof.
  intros W exec w a V. pose proof (visited_hinv _ _ _ _ V) as H. pose proof H as []. exists (listing a). split; [reflexivity|].
  assert (P : Permutation (fold_right insert [] (a_masters a)) (a_masters a)) by (clear; induction (a_masters a) as [|x l IH]; cbn [fold_right]; [reflexivity|rewrite insert_perm; now constructor]).
  assert (S : StronglySorted (fun x y => fst x <= fst y) (fold_right insert [] (a_masters a))) by (clear; induction (a_masters a) as [|x l IH]; cbn [fold_right]; [constructor|now apply insert_sorted]).
  unfold listing. set (L := fold_right insert [] (a_masters a)) in *. clearbody L.
  assert (I : Forall (fun x => o_id (snd x) = fst x) L) by (apply (Permutation_Forall (Permutation_sym P)); assumption).
  assert (D : NoDup (map fst L)).
  { apply (Permutation_NoDup (Permutation_map fst (Permutation_sym P))). replace (map fst (a_masters a)) with (map fst (usable (h_masters (a_db a)))) by (rewrite <- hv_objects0, map_map; reflexivity).
    clear - hv_mdup0. induction (h_masters (a_db a)) as [|m l IH]; cbn [usable flat_map map]; [constructor|]. inversion hv_mdup0 as [|x y N D]; subst. specialize (IH D).
    destruct (String.eqb (m_protocol m) "tcp"); [|exact IH]. cbn [app map fst]. constructor; [|exact IH]. intros X. apply N. apply in_map_iff in X as (q & Q & X). apply in_flat_map in X as (m' & M & X).
    destruct (String.eqb (m_protocol m') "tcp"); [|destruct X]. destruct X as [<-|[]]. cbn [fst] in Q. rewrite <- Q. now apply in_map. }
  split.
  - rewrite <- hv_objects0. rewrite <- (Permutation_map same_target P). rewrite map_map. replace (map (fun x => (o_id (snd x), o_target (snd x))) L) with (map same_target L); [reflexivity|].
    apply map_ext_in. intros x X. unfold same_target. rewrite Forall_forall in I. now rewrite (I x X).
  - clear P. induction S as [|x l S IH F]; cbn [map]; [constructor|]. inversion I as [|? ? I1 I2]; subst. inversion D as [|? ? D1 D2]; subst. constructor; [now apply IH|].
    apply Forall_forall. intros o O. apply in_map_iff in O as (y & <- & Y). rewrite Forall_forall in F, I2. rewrite I1, (I2 y Y). specialize (F y Y).
    assert (fst x <> fst y) by (intros X; apply D1; rewrite X; now apply in_map). lia.
Qed.
(** what each visit does to the data base; the pages that only read change nothing *)
Theorem C98_effects : forall W exec w a v, visited W exec w a ->
  let d := a_db a in let d' := a_db (snd (fst (serve W exec w a v))) in
  match v with
  | AddMaster p ad => exists id, h_masters d' = h_masters d ++ [{| m_id := id; m_protocol := p; m_address := ad |}] /\ h_requests d' = h_requests d /\ ~ In id (map m_id (h_masters d))
  | DeleteMaster t => h_requests d' = h_requests d /\ forall m, In m (h_masters d') <-> In m (h_masters d) /\ py_int t <> Ok (m_id m)
  | AddRequest mt s f st c => h_masters d' = h_masters d /\
      match get_master a mt with
      | Ok o => exists id, h_requests d' = h_requests d ++ [{| r_id := id; r_master := o_id o; r_slave := affinity s; r_function := affinity f; r_start := affinity st; r_count := affinity c |}] /\ ~ In id (map r_id (h_requests d))
      | Err _ => h_requests d' = h_requests d end
  | DeleteRequest mt t => h_masters d' = h_masters d /\
      match get_master a mt with
      | Ok _ => forall r, In r (h_requests d') <-> In r (h_requests d) /\ py_int t <> Ok (r_id r)
      | Err _ => h_requests d' = h_requests d end
  | _ => d' = d
  end.
Proof.
  intros W exec w a v V. pose proof (visited_hinv _ _ _ _ V) as H. pose proof H as [].
  assert (FRESH : forall (A : Type) (g : A -> Z) l m, Forall (fun x => g x <= m) l -> ~ In (m + 1) (map g l)).
  { intros A g l m F I. apply in_map_iff in I as (x & E & I). rewrite Forall_forall in F. apply F in I. lia. }
  assert (KEEP : forall x t, negb (cell_eqb (CInt x) (affinity t)) = true <-> py_int t <> Ok x).
  { intros x t. unfold affinity. destruct (py_int t) as [z|e]; cbn [cell_eqb]; [|split; [discriminate|reflexivity]]. split; [intros B E; injection E as ->; lia|]. intros N. destruct (x =? z) eqn:Q; [|reflexivity]. exfalso. apply N. f_equal. lia. }
  destruct v as [|id|p ad|id|m s f st c|m id|m s f st c|m s|m s f st c|m s|]; cbn [serve fst snd]; rewrite ?hv_ports0; cbv zeta; try reflexivity.
  - destruct (db_add_master (a_db a) p ad) as [d i] eqn:E. injection E as <- <-. cbn [fst snd]. unfold load_masters. rewrite load_usable. cbn [a_db h_masters h_requests].
    exists (h_mseq (a_db a) + 1). split; [reflexivity|]. split; [reflexivity|]. now apply FRESH.
  - unfold load_masters. rewrite load_usable. cbn [a_db db_delete_master h_masters h_requests]. split; [reflexivity|]. intros m. rewrite filter_In, KEEP. reflexivity.
  - destruct (get_master a m) as [o|e] eqn:G; [|split; reflexivity]. set (d := db_add_request _ _ _ _ _ _). set (a' := {| a_db := d |}).
    replace (snd (fst (let '(w', pg) := _ in (w', a', pg)))) with a' by (destruct (show_results W exec w a' m s f st c); reflexivity). split; [reflexivity|].
    exists (h_rseq (a_db a) + 1). split; [reflexivity|]. now apply FRESH.
  - destruct (get_master a m) as [o|e] eqn:G; [|split; reflexivity]. cbn [a_db fst snd db_delete_request h_masters h_requests]. split; [reflexivity|]. intros r. rewrite filter_In, KEEP. reflexivity.
  - destruct (show_results _ _ _ _ _ _ _ _ _); reflexivity.
  - destruct (show_all_hr _ _ _ _ _ _); reflexivity.
  - destruct (json_results _ _ _ _ _ _ _ _ _); reflexivity.
  - destruct (json_all_hr _ _ _ _ _ _); reflexivity.
  - unfold load_masters. rewrite load_usable. reflexivity.
Qed.
(** C98: a new master starts without requests, although those of deleted masters are never removed; its page shows it. *)
Theorem C98_new_master : forall W exec w a address, visited W exec w a ->
  exists o, snd (serve W exec w a (AddMaster "tcp" address)) = Detail o /\ o_requests o = [] /\ o_target o = tcp_target address /\ (forall m, In m (h_masters (a_db a)) -> m_id m <> o_id o).
Proof.
  intros W exec w a ad V. pose proof (visited_hinv _ _ _ _ V) as []. cbn [serve]. destruct (db_add_master (a_db a) "tcp" ad) as [d i] eqn:E. injection E as <- <-. cbn [snd]. rewrite hv_ports0.
  unfold load_masters. rewrite load_usable. cbn [a_masters h_masters]. set (d := {| h_masters := _ |}). set (id := h_mseq (a_db a) + 1).
  assert (F : find_master (map (object_of d) (usable (h_masters (a_db a) ++ [{| m_id := id; m_protocol := "tcp"; m_address := ad |}]))) id = Ok {| o_id := id; o_target := tcp_target ad; o_requests := get_requests d id |}).
  { clearbody d. clear - hv_mseq0. induction (h_masters (a_db a)) as [|m l IH]; cbn [app usable flat_map m_protocol String.eqb Ascii.eqb Bool.eqb map object_of find_master m_id fst snd].
    - rewrite Z.eqb_refl. reflexivity.
    - inversion hv_mseq0; subst. destruct (String.eqb (m_protocol m) "tcp"); cbn [app map object_of find_master fst snd]; [|now apply IH]. replace (m_id m =? id) with false by (unfold id; lia). now apply IH. }
  rewrite F. eexists. split; [reflexivity|]. cbn [o_requests o_target o_id]. split; [|split; [reflexivity|]].
  - unfold get_requests, d. cbn [h_requests]. clear - hv_owner0. induction (h_requests (a_db a)) as [|r l IH]; [reflexivity|]. inversion hv_owner0; subst. cbn [filter]. replace (r_master r =? id) with false by (unfold id; lia). now apply IH.
  - intros m I. rewrite Forall_forall in hv_mseq0. apply hv_mseq0 in I. unfold id. lia.
Qed.
(** C98: the page of a master lists the requests of the data base - as long as requests are only deleted from the pages of their own masters. *)
Definition own_deletes (a : website) (v : visit) : Prop :=
  match v with
  | DeleteRequest mt t => forall o r, get_master a mt = Ok o -> In r (h_requests (a_db a)) -> py_int t = Ok (r_id r) -> r_master r = o_id o
  | _ => True
  end.
Inductive visited_well (W : Type) (exec : W -> Z -> Z -> Z -> Z -> Z -> W * res (list Z)) : W -> website -> Prop :=
| well_start w : visited_well W exec w (load_masters new_hdb [])
| well_step w a v : visited_well W exec w a -> own_deletes a v -> visited_well W exec (fst (fst (serve W exec w a v))) (snd (fst (serve W exec w a v))).
Lemma well_visited W exec w a : visited_well W exec w a -> visited W exec w a.
Proof. induction 1; constructor; assumption. Qed.
Lemma get_requests_snoc d m r : get_requests {| h_masters := h_masters d; h_requests := h_requests d ++ [r]; h_mseq := h_mseq d; h_rseq := h_rseq d |} m = get_requests d m ++ (if r_master r =? m then [r] else []).
Proof. unfold get_requests. cbn [h_requests]. rewrite filter_app. cbn [filter]. destruct (r_master r =? m); reflexivity. Qed.
Theorem C98_page_up_to_date_partial : forall W exec w a, visited_well W exec w a ->
  forall id o, find_master (a_masters a) id = Ok o -> o_requests o = filter (fun r => r_master r =? id) (h_requests (a_db a)).
Proof.
  intros W exec w a V. cut (Forall (fun x => o_requests (snd x) = get_requests (a_db a) (fst x)) (a_masters a)).
  { intros H id o F. apply find_in in F. rewrite Forall_forall in H. exact (H _ F). }
  assert (LD : forall d, Forall (fun x => o_requests (snd x) = get_requests d (fst x)) (a_masters (load_masters d []))).
  { intros d. unfold load_masters. rewrite load_usable. cbn [a_masters]. apply Forall_forall. intros x I. apply in_map_iff in I as (y & <- & _). reflexivity. }
  induction V as [w|w a v V IH OD]; [apply LD|]. pose proof (visited_hinv _ _ _ _ (well_visited _ _ _ _ V)) as H. pose proof H as [].
  destruct v as [|id|p ad|id|m s f st c|m id|m s f st c|m s|m s f st c|m s|]; cbn [serve]; rewrite ?hv_ports0; cbn [fst snd]; try exact IH.
  - destruct (db_add_master (a_db a) p ad) as [d i]. cbn [fst snd].
    replace (a_db (load_masters d [])) with d by (unfold load_masters; rewrite load_usable; reflexivity). apply LD.
  - replace (a_db (load_masters (db_delete_master (a_db a) id) [])) with (db_delete_master (a_db a) id) by (unfold load_masters; rewrite load_usable; reflexivity). apply LD.
  - destruct (get_master a m) as [o|e] eqn:G; [|exact IH]. set (d := db_add_request _ _ _ _ _ _). set (a' := {| a_db := d |}).
    replace (snd (fst (let '(w', pg) := _ in (w', a', pg)))) with a' by (destruct (show_results W exec w a' m s f st c); reflexivity). cbn [a' a_db a_masters].
    apply Forall_forall. intros x I. apply in_map_iff in I as ([i o'] & <- & I). rewrite Forall_forall in IH, hv_ids0. pose proof (IH _ I) as R. pose proof (hv_ids0 _ I) as O. cbn [fst snd] in R, O.
    destruct (i =? o_id o) eqn:E; cbn [fst snd o_requests]; [now rewrite O|]. rewrite R. unfold get_requests, d, db_add_request. cbn [h_requests]. rewrite filter_app. cbn [filter r_master].
    replace (o_id o =? i) with false by lia. now rewrite app_nil_r.
  - destruct (get_master a m) as [o|e] eqn:G; [|exact IH]. cbn [fst snd a_db a_masters]. cbn [own_deletes] in OD.
    apply Forall_forall. intros x I. apply in_map_iff in I as ([i o'] & <- & I). rewrite Forall_forall in IH, hv_ids0. pose proof (IH _ I) as R. pose proof (hv_ids0 _ I) as O. cbn [fst snd] in R, O.
    destruct (i =? o_id o) eqn:E; cbn [fst snd o_requests]; [now rewrite O|]. rewrite R. unfold get_requests, db_delete_request. cbn [h_requests]. specialize (OD o).
    assert (ODA : forall r, In r (h_requests (a_db a)) -> py_int id = Ok (r_id r) -> r_master r = o_id o) by (intros r Ir Er; exact (OD r G Ir Er)). clear - E ODA.
    induction (h_requests (a_db a)) as [|r l IHl]; [reflexivity|]. cbn [filter]. destruct (negb (cell_eqb (CInt (r_id r)) (affinity id))) eqn:B; cbn [filter]; rewrite IHl by (intros r0 I0; apply ODA; now right); [reflexivity|].
    unfold affinity in B. destruct (py_int id) as [z|] eqn:P; [|discriminate]. cbn [cell_eqb] in B. rewrite (ODA r (or_introl eq_refl)) by (f_equal; lia). replace (o_id o =? i) with false by lia. reflexivity.
  - destruct (show_results _ _ _ _ _ _ _ _ _); exact IH.
  - destruct (show_all_hr _ _ _ _ _ _); exact IH.
  - destruct (json_results _ _ _ _ _ _ _ _ _); exact IH.
  - destruct (json_all_hr _ _ _ _ _ _); exact IH.
  - replace (a_db (load_masters (a_db a) [])) with (a_db a) by (unfold load_masters; rewrite load_usable; reflexivity). apply LD.
Qed.
(** otherwise the page of the other master goes on listing a request that is gone *)
Theorem C98_refuted : exists v1 v2 v3 v4 : visit, let ex := fun (w : unit) (_ _ _ _ _ : Z) => (w, @Ok (list Z) [7]) in let st a v := snd (fst (serve unit ex tt a v)) in
  let a := st (st (st (load_masters new_hdb []) v1) v2) v3 in h_requests (a_db a) = [] /\ exists o, snd (serve unit ex tt a v4) = Detail o /\ o_requests o <> [].
Proof.
  exists (AddMaster "tcp" "plc:1502"), (AddRequest "2" "1" "3" "100" "1"), (DeleteRequest "1" "1"), (Master "2"). vm_compute. split; [reflexivity|]. eexists. split; [reflexivity|discriminate].
Qed.
(** and a master on a serial line can never be used: adding one ends in a KeyError, every time *)
Theorem C98_serial_refuted : forall W exec w a address, visited W exec w a ->
  snd (serve W exec w a (AddMaster "rtu" address)) = Failed PyKeyError /\
  forall id o, find_master (a_masters a) id = Ok o -> exists host port, o_target o = Tcp host port.
Proof.
  intros W exec w a ad V. pose proof (visited_hinv _ _ _ _ V) as []. split.
  - cbn [serve]. destruct (db_add_master (a_db a) "rtu" ad) as [d i] eqn:E. injection E as <- <-. cbn [snd]. rewrite hv_ports0. unfold load_masters. rewrite load_usable. cbn [a_masters h_masters].
    set (d := {| h_masters := _ |}). set (id := h_mseq (a_db a) + 1). clearbody d.
    replace (usable (h_masters (a_db a) ++ [{| m_id := id; m_protocol := "rtu"; m_address := ad |}])) with (usable (h_masters (a_db a))) by (unfold usable; rewrite flat_map_app; cbn; now rewrite app_nil_r).
    assert (F : find_master (map (object_of d) (usable (h_masters (a_db a)))) id = Err PyKeyError); [|now rewrite F].
    clear - hv_mseq0. induction (h_masters (a_db a)) as [|m l IH]; [reflexivity|]. inversion hv_mseq0; subst. unfold usable. cbn [flat_map]. fold (usable l).
    destruct (String.eqb (m_protocol m) "tcp"); cbn [app map object_of find_master fst snd]; [|now apply IH]. replace (m_id m =? id) with false by (unfold id; lia). now apply IH.
  - intros id o F. apply find_in in F. apply (in_map same_target) in F. rewrite hv_objects0 in F. apply in_flat_map in F as (m & _ & F). destruct (String.eqb _ _); [|contradiction]. destruct F as [F|[]]. injection F as _ F.
    rewrite <- F. unfold tcp_target. destruct (split_on _ _) as [|h [|p [|]]]; eauto. destruct (py_int p); eauto.
Qed.
(** whom a "tcp" master talks to *)
Theorem C98_target : forall host port, all_chars (fun c => negb (Ascii.eqb c ":"%char)) host = true ->
  tcp_target (append host (String ":"%char (py_str port))) = Tcp host port /\ tcp_target host = Tcp host 502 /\
  forall text, all_chars (fun c => negb (Ascii.eqb c ":"%char)) text = true -> (forall n, py_int text <> Ok n) -> tcp_target (append host (String ":"%char text)) = Tcp (append host (String ":"%char text)) 502.
Proof.
  intros host port H. assert (S1 : forall h, all_chars (fun c => negb (Ascii.eqb c ":"%char)) h = true -> split_on ":"%char h = [h]).
  { induction h as [|c h IH]; [reflexivity|]. cbn [all_chars split_on]. intros A. apply andb_prop in A as [A1 A2]. destruct (Ascii.eqb c ":"); [discriminate|]. rewrite IH by exact A2. reflexivity. }
  assert (S2 : forall h t, all_chars (fun c => negb (Ascii.eqb c ":"%char)) h = true -> split_on ":"%char (append h (String ":"%char t)) = h :: split_on ":"%char t).
  { induction h as [|c h IH]; intros t; [reflexivity|]. cbn [all_chars append split_on]. intros A. apply andb_prop in A as [A1 A2]. destruct (Ascii.eqb c ":"); [discriminate|]. rewrite IH by exact A2. reflexivity. }
  unfold tcp_target. rewrite S2 by exact H. rewrite (S1 (py_str port)).
  - rewrite int_of_str, (S1 host H). split; [reflexivity|]. split; [reflexivity|]. intros text A N. rewrite S2 by exact H. rewrite (S1 text A). destruct (py_int text) as [n|e]; [now destruct (N n)|reflexivity].
  - eapply all_chars_impl; [|apply py_str_chars]. intros c Hc. destruct (Ascii.eqb_spec c ":"%char) as [-> |]; [discriminate Hc|reflexivity].
Qed.
(** Examples: a device as [real_device] wants it, a history, and the pages. *)
Definition demo_exec (d : databank) (m u f a n : Z) : databank * res (list Z) :=
  let '(d', e) := round_trip RTU 0 d u (ReadRegs true a n) in
  (d', match ex_result e with Some (Ok (RTuple l)) => Ok l | Some (Err x) => Err x | _ => Err NotModelled end).
Example demo_exec_real : real_device demo_exec (fun d => d) RTU.
Proof. intros w m u a n. exists 0. split; [lia|]. unfold demo_exec. destruct (round_trip _ _ _ _ _) as [d e]. cbn [fst snd]. destruct (ex_result e) as [[[]|]|]; auto. Qed.
Definition demo_visits := [AddMaster "tcp" "plc:1502"; AddRequest "2" "3" "3" "103" "2"; AddRequest "2" "3" "3" "104" "2"; AddRequest "2" "3" "1" "0" "8"].
Definition demo_device : databank := db_run demo_db [DbCall 3 (OpSetValues "r" 103 (SvSeq [5; 6; 65535]))].
Definition demo_site : website := fold_left (fun a v => snd (fst (serve databank demo_exec demo_device a v))) demo_visits (load_masters new_hdb []).
Example C97_ex : db_reachable demo_device /\ (exists o, get_master demo_site "2" = Ok o) /\ exists s, get_slave demo_device 3 = Ok s /\
  Forall2 (readable s) (get_hr_requests (a_db demo_site) "2" "3") [(103, [5; 6]); (104, [6; 65535])] /\
  snd (serve databank demo_exec demo_device demo_site (ReadAll "2" "3")) = Table [(103, 5); (104, 6); (105, 65535)].
Proof.
  split. { unfold demo_device. destruct demo_db_reachable as (e & ops & F & ->). exists e, (ops ++ [DbCall 3 (OpSetValues "r" 103 (SvSeq [5; 6; 65535]))]). split; [apply Forall_app; split; [exact F|repeat constructor]|]. unfold db_run. now rewrite fold_left_app. }
  split; [vm_compute; eauto|]. eexists. split; [vm_compute; reflexivity|]. split; [|vm_compute; reflexivity].
  set (s := SlaveModel.Build_slave _ _ _ _).
  replace (get_hr_requests (a_db demo_site) "2" "3") with [{| r_id := 1; r_master := 2; r_slave := CInt 3; r_function := CInt 3; r_start := CInt 103; r_count := CInt 2 |}; {| r_id := 2; r_master := 2; r_slave := CInt 3; r_function := CInt 3; r_start := CInt 104; r_count := CInt 2 |}] by (vm_compute; reflexivity).
  assert (S : forall a vals, (a = 103 \/ a = 104) -> zlen vals = 2 -> values_at {| b_start := 100; b_size := 10; b_data := [0; 0; 0; 5; 6; 65535; 0; 0; 0; 0] |} a 2 = vals -> stored s HOLDING_REGISTERS a (zlen vals) vals).
  { intros a vals Ha HL Hv. rewrite HL. split; [vm_compute; discriminate|]. eexists. split; [|exact Hv]. exists [], []. split; [vm_compute; reflexivity|]. cbn. split; [split; cbn; lia|]. intros ? []. }
  repeat (constructor; [split; [reflexivity|]; split; [unfold fits; lia|]; split; [reflexivity|]; split; [cbn; lia|]; split; [apply S; [lia|reflexivity|reflexivity]|repeat constructor; vm_compute; intuition congruence]|]). constructor.
Qed.
Example C98_ex : visited databank demo_exec demo_device demo_site /\ (exists o, get_master demo_site "2" = Ok o /\ o_target o = Tcp "plc" 1502 /\ length (o_requests o) = 3%nat) /\ py_int "12a" = Err PyValueError.
Proof.
  split; [|vm_compute; split; [eexists; split; [reflexivity|]; split; reflexivity|reflexivity]]. unfold demo_site, demo_visits. cbn [fold_left].
  set (a0 := load_masters new_hdb []). assert (V0 : visited databank demo_exec demo_device a0) by constructor.
  assert (ST : forall a v, visited databank demo_exec demo_device a -> fst (fst (serve databank demo_exec demo_device a v)) = demo_device -> visited databank demo_exec demo_device (snd (fst (serve databank demo_exec demo_device a v)))).
  { intros a v V E. rewrite <- E at 1. now constructor. }
  repeat (apply ST; [|vm_compute; reflexivity]). exact V0.
Qed.

Print Assumptions C97_all_registers.
Print Assumptions C97_which_requests.
Print Assumptions C97_shows_the_registers.
Print Assumptions C97_grid.
Print Assumptions C97_one_reading.
Print Assumptions C97_refuted.
Print Assumptions C97_all_refused_refuted.
Print Assumptions C97_bad_request_refuted.
Print Assumptions C98_masters.
Print Assumptions C98_effects.
Print Assumptions C98_new_master.
Print Assumptions C98_page_up_to_date_partial.
Print Assumptions C98_refuted.
Print Assumptions C98_serial_refuted.
Print Assumptions C98_target.
Print Assumptions C98_listing.
