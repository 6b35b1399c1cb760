(** C121: masters, broadcasts and the application work on one data model.
    Vocabulary: DeviceSpec.v (the reference device), PropDevice.v (tidy, mirrors, shown, shows_as, world calls), and the definitions below. *)
From Coq Require Import ZArith Lia ZifyBool ZifyNat.
From Verif Require Import Base BaseFacts PyStruct Spec StructFacts StructMore Defines SlaveModel SlaveSpec SlaveProofs BlockSpec BlockProofs HandlerProofs RequestProofs GeneralProofs SlaveInv SlaveMore AtomicProofs PropSlave.
From Verif Require Import FrameSpec QueryModel DatabankModel MasterModel MasterSpec DbSpec DatabankProofs MasterProofs DecodeProofs EndSpec EndProofs PropDatabank PropMaster TransportSpec PropBroadcast DeviceSpec PropDevice.
Ltac Zify.zify_post_hook ::= Z.div_mod_to_equations.
Open Scope string_scope.
Open Scope list_scope.
Open Scope Z_scope.

(** ** Spec: a plant of devices whose areas have names the application uses *)
Record station := { st_device : device; st_area : string -> option (btype * Z * Z) }.        (* table, first address, number of cells *)
Definition plant := Z -> option station.
Definition with_device (x : station) (dev : device) : station := {| st_device := dev; st_area := st_area x |}.
Definition set_unit (w : plant) (u : Z) (x : station) : plant := fun v => if v =? u then Some x else w v.
Inductive event :=
| Ask (u : Z) (c : call)                                        (* a master calls unit u *)
| Announce (c : call)                                           (* a master broadcasts *)
| Store (u : Z) (name : string) (a : Z) (v : setval)            (* the application: get_slave(u).set_values(name, a, v) *)
| Fetch (u : Z) (name : string) (a n : Z).                      (* the application: get_slave(u).get_values(name, a, n) *)
Inductive outcome := Reply (y : reply) | NoAnswer | Done | Got (t : btype) (l : list Z) | Unknown | Outside.
Definition in_area (x : station) (name : string) (a n : Z) (k : btype -> plant * outcome) (w : plant) : plant * outcome :=
  match st_area x name with
  | None => (w, Unknown)
  | Some (t, first, size) => if (first <=? a) && (a + n <=? first + size) then k t else (w, Outside)
  end.
Definition plant_step (w : plant) (e : event) : plant * outcome :=
  match e with
  | Ask u c => match w u with None => (w, NoAnswer) | Some x => (set_unit w u (with_device x (fst (device_call (st_device x) c))), Reply (snd (device_call (st_device x) c))) end
  | Announce c => (fun v => match w v with None => None | Some x => Some (with_device x (fst (device_call (st_device x) c))) end, NoAnswer)
  | Store u name a v =>
      match w u with
      | None => (w, Unknown)
      | Some x => in_area x name a (zlen (values_of v)) (fun t => (set_unit w u (with_device x (put_cells (st_device x) t a (map (shown t) (values_of v)))), Done)) w
      end
  | Fetch u name a n => match w u with None => (w, Unknown) | Some x => in_area x name a n (fun t => (w, Got t (read_cells (st_device x) t a n))) w end
  end.
Fixpoint plant_run (w : plant) (l : list event) : plant * list outcome :=
  match l with [] => (w, []) | e :: l => let '(w1, y) := plant_step w e in let '(w2, ys) := plant_run w1 l in (w2, y :: ys) end.

(** ** The same events in the program *)
Inductive effect := FromCall (r : option (res exec_result)) | FromSet (r : res unit) | FromGet (r : res (list Z)).
Definition program_step (p : proto) (last : Z) (d : databank) (e : event) : databank * Z * effect :=
  match e with
  | Ask u c => let '(d', x) := round_trip p last d u c in (d', ex_last x, FromCall (ex_result x))
  | Announce c => let '(d', x) := round_trip p last d 0 c in (d', ex_last x, FromCall (ex_result x))
  | Store u name a v => match get_slave d u with Err e => (d, last, FromSet (Err e)) | Ok s => let '(s', r) := set_values s name a v in (put_slave d u s', last, FromSet r) end
  | Fetch u name a n => match get_slave d u with Err e => (d, last, FromGet (Err e)) | Ok s => (d, last, FromGet (get_values s name a n)) end
  end.
Fixpoint program_run (p : proto) (last : Z) (d : databank) (l : list event) : databank * list effect :=
  match l with [] => (d, []) | e :: l => let '(d1, last1, y) := program_step p last d e in let '(d2, ys) := program_run p last1 d1 l in (d2, y :: ys) end.
(** what the program gives is what the plant gives; the application sees the stored values, which show as the cells of the device *)
Definition same_outcome (x : effect) (y : outcome) : Prop :=
  match y with
  | Reply y => exists r, x = FromCall r /\ shows_as r y
  | NoAnswer => x = FromCall (Some (Err SocketTimeout))
  | Done => x = FromSet (Ok tt)
  | Got t l => exists vals, x = FromGet (Ok vals) /\ map (shown t) vals = l
  | Unknown => x = FromSet (Err MissingKeyError) \/ x = FromGet (Err MissingKeyError)
  | Outside => x = FromSet (Err OutOfModbusBlockError) \/ x = FromGet (Err OutOfModbusBlockError)
  end.
Definition names_areas (s : slave) (areas : string -> option (btype * Z * Z)) : Prop :=
  forall name, match areas name with
    | None => ~ registered s name
    | Some (t, first, size) => exists b, denotes s name t b /\ b_start b = first /\ b_size b = size
    end.
Definition plays (d : databank) (w : plant) : Prop :=
  forall v, match w v with
    | Some x => exists s, get_slave d v = Ok s /\ tidy s /\ mirrors s (st_device x) /\ names_areas s (st_area x)
    | None => get_slave d v = Err MissingKeyError
    end.
(** what may happen: fine calls, broadcast writes (mask writes only if all slaves are unsigned), values that fit, sizes that are not negative *)
Definition fair (p : proto) (d : databank) (e : event) : Prop :=
  match e with
  | Ask u c => fine p d (u, c)
  | Announce c => writes c /\ usual c /\ (forall last, 0 <= last <= 65535 -> can_send p last 0 c) /\ (forall v s a am om, get_slave d v = Ok s -> c = MaskWrite a am om -> sl_unsigned s = true)
  | Store u name a v => forall s, get_slave d u = Ok s -> Forall (fits (sl_unsigned s)) (values_of v)
  | Fetch u name a n => 0 <= n
  end.

(** ** Proofs *)
Lemma areas_layout s s' areas : same_layout s s' -> names_areas s areas -> names_areas s' areas.
Proof.
  intros (_ & LN & _ & LB) H name. specialize (H name). destruct (areas name) as [[[t first] size]|]; [|unfold registered in *; now rewrite LN].
  destruct H as (b & (N & l1 & l2 & E & F) & B1 & B2). specialize (LB t). rewrite E in LB. apply Forall2_app_inv_l in LB as (k1 & k2' & L1 & L2 & E'). inversion L2 as [|? b' ? k2 (SH1 & SH2 & SH3) L3]; subst k2'.
  exists b'. split; [|split; congruence]. split; [unfold named in *; now rewrite LN, SH1|]. exists k1, k2. split; [exact E'|]. intros c I. rewrite SH1. clear - L1 I F.
  induction L1 as [|x y l l' (A & _) L IH]; [destruct I|]. destruct I as [->|I]; [rewrite A; apply F; now left|]. apply IH; [intros z Z0; apply F; now right|exact I].
Qed.
Lemma denotes_names s name t b : tidy s -> denotes s name t b -> exists l1 l2, names_block s name t l1 b l2.
Proof. intros (T & _) (N & l1 & l2 & E & F). exists l1, l2, (b_start b). split; [exact N|]. split; [apply T|]. auto. Qed.
Lemma denotes_unique s name t b t' b' : tidy s -> denotes s name t b -> denotes s name t' b' -> b' = b.
Proof.
  intros TY X Y. destruct (denotes_names s name t b TY X) as (l1 & l2 & N). destruct (denotes_names s name t' b' TY Y) as (k1 & k2 & N').
  assert (E : get_block s name = Ok (t, length l1, b)) by (apply get_block_ok; eauto). assert (E' : get_block s name = Ok (t', length k1, b')) by (apply get_block_ok; eauto). congruence.
Qed.
Definition kept (d d' : databank) : Prop := forall v s', get_slave d' v = Ok s' -> exists s, get_slave d v = Ok s /\ sl_unsigned s' = sl_unsigned s.
Lemma fair_kept p d d' e : kept d d' -> fair p d e -> fair p d' e.
Proof.
  intros K. destruct e as [u c|c|u name a v|u name a n]; cbn [fair].
  - intros (A1 & A2 & A3 & A4). split; [exact A1|]. split; [exact A2|]. split; [exact A3|]. intros s a am om G C. destruct (K _ _ G) as (s0 & G0 & ->). eapply A4; eauto.
  - intros (A1 & A2 & A3 & A4). split; [exact A1|]. split; [exact A2|]. split; [exact A3|]. intros v s a am om G C. destruct (K _ _ G) as (s0 & G0 & ->). eapply A4; eauto.
  - intros A s G. destruct (K _ _ G) as (s0 & G0 & ->). now apply A.
  - auto.
Qed.
Lemma kept_refl d : kept d d.
Proof. intros v s G. eauto. Qed.
Lemma kept_one d d' u s s' : get_slave d u = Ok s -> get_slave d' u = Ok s' -> same_layout s s' -> others_same d d' u -> kept d d'.
Proof. intros G G' L O v x X. destruct (Z.eq_dec v u) as [->|N]; [|rewrite O in X by exact N; eauto]. rewrite G' in X. injection X as <-. exists s. split; [exact G|apply L]. Qed.
Lemma plays_one d d' w u x s' dev' : plays d w -> w u = Some x -> get_slave d' u = Ok s' -> tidy s' -> mirrors s' dev' -> names_areas s' (st_area x) -> others_same d d' u -> plays d' (set_unit w u (with_device x dev')).
Proof.
  intros P W G T M A O v. unfold set_unit. destruct (v =? u) eqn:E; [replace v with u by lia; exists s'; auto|]. rewrite O by lia. apply P.
Qed.
Definition step_good (p : proto) (last : Z) (d : databank) (w : plant) (e : event) : Prop :=
  let '(d', last', y) := program_step p last d e in
  same_outcome y (snd (plant_step w e)) /\ plays d' (fst (plant_step w e)) /\ db_reachable d' /\ 0 <= last' <= 65535 /\ kept d d'.
Section Steps.
Context (p : proto) (last : Z) (d : databank) (w : plant).
Context (T : 0 <= last <= 65535) (D : db_reachable d) (P : plays d w).
Lemma good_ask u c : fair p d (Ask u c) -> step_good p last d w (Ask u c).
Proof.
  intros (U & US & CS & MK). cbn [fst snd] in *. specialize (CS last T). pose proof (rt_last p last d u c CS) as T1. pose proof (rt_reachable p last d u c D) as D1.
  unfold step_good. cbn [program_step plant_step]. pose proof (P u) as PU. destruct (w u) as [x|] eqn:W.
  - destruct PU as (s & G & TY & M & A). assert (MK' : sl_unsigned s = true \/ (forall a am om, c <> MaskWrite a am om)) by (destruct c; try (right; discriminate); left; eapply MK; eauto).
    pose proof (step_all p last d u s (st_device x) D G TY M c US MK' CS) as K. unfold step_ok in K. destruct (round_trip p last d u c) as [d1 e]. destruct K as (K1 & K2 & s' & K3 & K4 & K5 & K6). cbn [fst snd] in *.
    split; [exists (ex_result e); auto|]. split; [now apply (plays_one d d1 w u x s'); auto; apply (areas_layout s)|]. split; [exact D1|]. split; [exact T1|]. now apply (kept_one d d1 u s s').
  - destruct (rt_absent p last d u c U CS PU) as (R1 & R2). destruct (round_trip p last d u c) as [d1 e]. cbn [fst snd] in *. subst d1. cbn [same_outcome]. rewrite R2. auto using kept_refl.
Qed.
Lemma announced c : writes c -> can_send p last 0 c -> (forall u s, get_slave d u = Ok s -> all_tables s /\ (fc_of c = 23 -> all_fit s)) ->
  every_slave_did p last c d (fst (round_trip p last d 0 c)) /\ ex_result (snd (round_trip p last d 0 c)) = Some (Err SocketTimeout).
Proof.
  intros W (E & T0 & U & F) H. destruct (build_call 0 c E) as (pdu & PR & _). specialize (F pdu PR).
  destruct (broadcast_served p last c d pdu E PR F T0 W D H) as (R1 & R2). destruct (execute_exact p last 0 c pdu E PR F T0 U) as (h & last' & _ & _ & _ & X).
  unfold round_trip, round_trip_args. cbn [fst snd]. rewrite X. cbn [ex_sent ex_result]. split; [exact R2|].
  unfold served_request in R1. cbn [snd] in R1. unfold answer. destruct (snd (db_handle_request _ _ _)) as [r|]; [rewrite R1|]; reflexivity.
Qed.
Lemma good_announce c : fair p d (Announce c) -> step_good p last d w (Announce c).
Proof.
  intros (W & US & CS & MK). pose proof (CS last T) as C0. pose proof (rt_last p last d 0 c C0) as T1. pose proof (rt_reachable p last d 0 c D) as D1.
  assert (SL : forall u s, get_slave d u = Ok s -> exists x, w u = Some x /\ tidy s /\ mirrors s (st_device x) /\ names_areas s (st_area x)).
  { intros u s G. specialize (P u). destruct (w u) as [x|]; [|congruence]. destruct P as (s' & G' & TY & M & A). rewrite G in G'. injection G' as <-. eauto. }
  assert (H : forall u s, get_slave d u = Ok s -> all_tables s /\ (fc_of c = 23 -> all_fit s)).
  { intros u s G. destruct (SL u s G) as (x & _ & TY & _). split; [apply TY|]. intros _. apply TY. }
  destruct (announced c W C0 H) as (E1 & E2).
  assert (ONE : forall u s x, get_slave d u = Ok s -> w u = Some x -> tidy s -> mirrors s (st_device x) -> exists s', get_slave (fst (round_trip p last d 0 c)) u = Ok s' /\ tidy s' /\ mirrors s' (fst (device_call (st_device x) c)) /\ same_layout s s').
  { intros u s x G WU TY M. destruct (db_reachable_slave d u s D G) as [_ U]. assert (MK' : sl_unsigned s = true \/ (forall a am om, c <> MaskWrite a am om)) by (destruct c; try (right; discriminate); left; eapply MK; eauto).
    assert (CU : can_send p last u c) by (destruct C0 as (A1 & A2 & _ & A4); split; [exact A1|]; split; [exact A2|]; split; [lia|exact A4]).
    pose proof (step_all p last d u s (st_device x) D G TY M c US MK' CU) as K. unfold step_ok in K. specialize (E1 u). rewrite G in E1. destruct (round_trip p last d u c) as [d1 e]. destruct K as (_ & _ & s' & K3 & K4 & K5 & K6). cbn [fst] in E1.
    exists s'. rewrite E1. auto. }
  unfold step_good. cbn [program_step plant_step]. destruct (round_trip p last d 0 c) as [d1 e]. cbn [fst snd] in *.
  split; [cbn [same_outcome]; now rewrite E2|]. split; [|split; [exact D1|split; [exact T1|]]].
  - intros v. specialize (P v). specialize (E1 v). destruct (w v) as [x|] eqn:WV.
    + destruct P as (s & G & TY & M & A). destruct (ONE v s x G WV TY M) as (s' & G' & TY' & M' & L). exists s'. split; [exact G'|]. split; [exact TY'|]. split; [exact M'|]. now apply (areas_layout s).
    + rewrite P in E1. exact E1.
  - intros v s' G'. specialize (E1 v). destruct (get_slave d v) as [s|e0] eqn:G; [|congruence]. exists s. split; [reflexivity|]. destruct (SL v s G) as (x & WV & TY & M & _). destruct (ONE v s x G WV TY M) as (s1 & G1 & _ & _ & L). rewrite G' in G1. injection G1 as <-. apply L.
Qed.
Lemma store_put u s name a v : get_slave d u = Ok s -> fst (fst (program_step p last d (Store u name a v))) = db_step d (DbCall u (OpSetValues name a v)).
Proof. intros G. cbn [program_step db_step slave_step]. rewrite G. now destruct (set_values s name a v). Qed.
Lemma good_store u name a v : fair p d (Store u name a v) -> step_good p last d w (Store u name a v).
Proof.
  intros F. cbn [fair] in F. unfold step_good. cbn [program_step plant_step]. pose proof (P u) as PU. destruct (w u) as [x|] eqn:W; [|rewrite PU; cbn [fst snd same_outcome]; auto using kept_refl].
  destruct PU as (s & G & TY & M & A). specialize (F s G). rewrite G. destruct (db_reachable_slave d u s D G) as [R U]. pose proof (reachable_wf s R) as WF.
  assert (D1 : db_reachable (put_slave d u (fst (set_values s name a v)))).
  { pose proof (store_put u s name a v G) as E. cbn [program_step] in E. rewrite G in E. destruct D as (e & ops & S0 & DE). exists e, (ops ++ [DbCall u (OpSetValues name a v)]). split; [apply Forall_app; split; [exact S0|constructor; [exact Logic.I|constructor]]|].
    unfold db_run in *. rewrite fold_left_app. cbn [fold_left]. rewrite <- DE, <- E. now destruct (set_values s name a v). }
  assert (O : forall s', others_same d (put_slave d u s') u) by (intros s' z Z0; now apply get_slave_put_other).
  assert (NIL : forall r, set_values s name a v = (s, r) -> plays (put_slave d u s) w /\ kept d (put_slave d u s)).
  { intros r _. split; [intros z; rewrite (get_slave_put_id d u s G z); apply P|intros z s' X; rewrite (get_slave_put_id d u s G z) in X; eauto]. }
  pose proof (A name) as AN. unfold in_area. destruct (st_area x name) as [[[t first] size]|] eqn:AR.
  - destruct AN as (b & DB & B1 & B2). destruct (denotes_names s name t b TY DB) as (l1 & l2 & NB). replace (zlen (values_of v)) with (zlen (sv_list v)) in * by (now destruct v). replace (values_of v) with (sv_list v) in * by (now destruct v).
    destruct ((first <=? a) && (a + zlen (sv_list v) <=? first + size)) eqn:IN.
    + assert (C : covers b a (zlen (sv_list v))) by (unfold covers; lia). destruct (set_values_ok s name a v t l1 b l2 WF NB C) as (SV & UP). rewrite SV in D1 |- *. cbn [fst snd] in *. set (s' := mem_set _ _ _) in *.
      assert (CH : changed s t a (sv_list v) s').
      { destruct UP as (HT & E & _ & _). exists l1, b, l2. split; [exact E|]. split; [exact C|]. split; [unfold s'; apply blocks_mem_set; [exact HT|reflexivity]|].
        unfold frame, s'. rewrite mem_set_unsigned, mem_set_names, mem_set_alias. split; [reflexivity|]. split; [reflexivity|]. split; [reflexivity|]. split.
        - intros t' ST. rewrite !blocks_mem_set by (auto; reflexivity). reflexivity.
        - intros t' ST. now rewrite blocks_mem_set_other. }
      pose proof (changed_layout s t a _ s' WF TY CH) as L. split; [reflexivity|]. split; [|split; [exact D1|split; [exact T|apply (kept_one d _ u s s'); auto using get_slave_put_same]]].
      apply (plays_one d _ w u x s'); auto using get_slave_put_same; [now apply (changed_tidy s t a (sv_list v))|now apply changed_mirrors with (s := s)|now apply (areas_layout s)].
    + assert (C : ~ covers b a (zlen (sv_list v))) by (unfold covers; lia). pose proof (set_values_out s name a v t l1 b l2 NB C) as SV. rewrite SV in D1 |- *. destruct (NIL _ SV) as (N1 & N2). cbn [fst snd same_outcome] in *. auto.
  - destruct (C04_set_values_range s name a v R) as (SV & _). specialize (SV AN). rewrite SV in D1 |- *. destruct (NIL _ SV) as (N1 & N2). cbn [fst snd same_outcome] in *. auto.
Qed.
Lemma good_fetch u name a n : fair p d (Fetch u name a n) -> step_good p last d w (Fetch u name a n).
Proof.
  intros F. cbn [fair] in F. unfold step_good. cbn [program_step plant_step]. pose proof (P u) as PU. destruct (w u) as [x|] eqn:W; [|rewrite PU; cbn [fst snd same_outcome]; auto using kept_refl].
  destruct PU as (s & G & TY & M & A). rewrite G. destruct (db_reachable_slave d u s D G) as [R U]. pose proof (reachable_wf s R) as WF.
  destruct (C04_get_values_range_partial s name a n R F) as (G1 & _ & G3).
  pose proof (A name) as AN. unfold in_area. destruct (st_area x name) as [[[t first] size]|] eqn:AR; [|cbn [fst snd same_outcome]; rewrite (G1 AN); auto using kept_refl].
  destruct AN as (b & DB & B1 & B2). destruct (denotes_names s name t b TY DB) as (l1 & l2 & NB). destruct ((first <=? a) && (a + n <=? first + size)) eqn:IN.
  - assert (C : covers b a n) by (unfold covers; lia). rewrite (get_values_ok s name a n t l1 b l2 WF NB C F). cbn [fst snd same_outcome]. split; [|auto using kept_refl]. exists (values_at b a n). split; [reflexivity|].
    apply (shown_block s (st_device x) t a n b M WF); auto. destruct NB as (st & _ & _ & E & _). rewrite E. apply in_elt.
  - cbn [fst snd same_outcome]. rewrite G3; [auto using kept_refl|unfold registered; destruct DB as (N & _); unfold named in N; rewrite N; discriminate|].
    intros (t' & b' & DB' & C). assert (b' = b). { now apply (denotes_unique s name t b t'). } subst b'. unfold covers in C. lia.
Qed.
End Steps.
(** ** C121 *)
Theorem C121_plant_partial : forall p l last d w, 0 <= last <= 65535 -> db_reachable d -> plays d w -> Forall (fair p d) l ->
  Forall2 same_outcome (snd (program_run p last d l)) (snd (plant_run w l)) /\ plays (fst (program_run p last d l)) (fst (plant_run w l)).
Proof.
  intros p l. induction l as [|e l IH]; intros last d w T D P F; [split; [constructor|exact P]|]. inversion_clear F as [|? ? F1 F2].
  assert (S : step_good p last d w e) by (destruct e; [apply good_ask|apply good_announce|apply good_store|apply good_fetch]; auto).
  unfold step_good in S. cbn [program_run plant_run]. destruct (program_step p last d e) as [[d1 last1] y]. destruct (plant_step w e) as [w1 o]. cbn [fst snd] in S. destruct S as (S1 & S2 & S3 & S4 & S5).
  destruct (IH last1 d1 w1 S4 S3 S2) as (I1 & I2); [eapply Forall_impl; [|exact F2]; intros z; now apply fair_kept|].
  destruct (program_run p last1 d1 l) as [d2 ys]. destruct (plant_run w1 l) as [w2 os]. cbn [fst snd] in *. split; [constructor; [exact S1|exact I1]|exact I2].
Qed.
(** Every databank with tidy slaves plays a plant. *)
Definition station_of (s : slave) : station :=
  {| st_device := device_of s; st_area := fun name => match get_block s name with Ok (t, _, b) => Some (t, b_start b, b_size b) | Err _ => None end |}.
Definition plant_of (d : databank) : plant := fun v => match get_slave d v with Ok s => Some (station_of s) | Err _ => None end.
Lemma station_areas s : reachable s -> tidy s -> names_areas s (st_area (station_of s)).
Proof.
  intros R TY name. cbn [station_of st_area]. destruct (get_block s name) as [[[t i] b]|e] eqn:G.
  - apply get_block_ok in G as (l1 & l2 & (st & A & _ & E & B & N) & _). exists b. split; [|auto]. subst st. split; [exact A|]. exists l1, l2. auto.
  - intros RG. destruct (C04_get_values_range_partial s name 0 0 R ltac:(lia)) as (_ & G2 & G3). specialize (G2 RG). specialize (G3 RG).
    assert (GV : get_values s name 0 0 = Err e) by (unfold get_values; now rewrite G).
    assert (NI : ~ inside s name 0 0) by (intros I; destruct (G2 I) as (vs & X & _); congruence). specialize (G3 NI). rewrite GV in G3. injection G3 as ->.
    unfold get_block in G. destruct (assoc String.eqb name (sl_names s)) as [[t st]|]; [|discriminate G]. unfold mem_get in G. destruct (get4 (sl_alias s) t); [|discriminate G]. cbn [bind] in G. destruct (find_start _ _ _) as [[? ?]|]; discriminate G.
Qed.
Lemma plant_of_plays d : db_reachable d -> (forall v s, get_slave d v = Ok s -> tidy s) -> plays d (plant_of d).
Proof.
  intros D T v. unfold plant_of. destruct (get_slave d v) as [s|e] eqn:G.
  - destruct (db_reachable_slave d v s D G) as [R _]. exists s. split; [reflexivity|]. split; [eapply T; eauto|]. split; [apply device_of_mirrors; [now apply reachable_wf|eapply T; eauto]|]. apply station_areas; [exact R|eapply T; eauto].
  - now apply get_slave_err in G as ->.
Qed.
Theorem C121_from_databank_partial : forall p l last d, 0 <= last <= 65535 -> db_reachable d -> (forall v s, get_slave d v = Ok s -> tidy s) -> Forall (fair p d) l ->
  Forall2 same_outcome (snd (program_run p last d l)) (snd (plant_run (plant_of d) l)) /\ plays (fst (program_run p last d l)) (fst (plant_run (plant_of d) l)).
Proof. intros p l last d T D H F. apply C121_plant_partial; auto. now apply plant_of_plays. Qed.
Definition demo_events : list event :=
  [Store 9 "r" 104 (SvSeq [-2; 5]); Ask 9 (ReadRegs true 103 3); Announce (WriteRegs 101 [40000]); Fetch 9 "r" 100 3; Fetch 3 "r" 100 3; Ask 12 (ReadRegs true 100 1); Store 3 "c" 18 (SvSeq [1; 0; 1]); Store 3 "c" 18 (SvNum 5);
   Ask 3 (ReadBits true 17 3); Fetch 3 "x" 0 1; Fetch 3 "r" 109 2; Store 44 "r" 0 (SvNum 1)].
Example C121_ex : Forall (fair RTU demo_db) demo_events /\
  snd (plant_run (plant_of demo_db) demo_events) =
    [Done; Reply (Values [0; 65534; 5]); NoAnswer; Got HOLDING_REGISTERS [0; 40000; 0]; Got HOLDING_REGISTERS [0; 40000; 0]; Reply (Refused 2); Outside; Done; Reply (Values [0; 1; 0]); Unknown; Outside; Unknown] /\
  snd (program_run RTU 0 demo_db demo_events) =
    [FromSet (Ok tt); FromCall (Some (Ok (RTuple [0; 65534; 5]))); FromCall (Some (Err SocketTimeout)); FromGet (Ok [0; -25536; 0]); FromGet (Ok [0; 40000; 0]); FromCall (Some (Err (ModbusError 2)));
     FromSet (Err OutOfModbusBlockError); FromSet (Ok tt); FromCall (Some (Ok (RTuple [0; 1; 0]))); FromGet (Err MissingKeyError); FromGet (Err OutOfModbusBlockError); FromSet (Err MissingKeyError)].
Proof.
  split; [|split; vm_compute; reflexivity]. unfold demo_events.
  assert (S : forall u name a v, Forall (fun x => -32768 <= x < 32768 /\ (u = 9 \/ 0 <= x)) (values_of v) -> (forall s, get_slave demo_db u = Ok s -> sl_unsigned s = true -> u <> 9) -> fair RTU demo_db (Store u name a v)).
  { intros u name a v F N s G. eapply Forall_impl; [|exact F]. intros x (X1 & X2). unfold fits. destruct (sl_unsigned s) eqn:E; [|lia]. specialize (N s G E). lia. }
  assert (Q : forall u c pdu, 1 <= u <= 255 -> usual c -> encodable c -> prescribed c pdu -> zlen pdu <= 65534 -> (forall a am om, c <> MaskWrite a am om) -> fair RTU demo_db (Ask u c)).
  { intros u c pdu U US E PR L N. cbn [fair]. apply (fine_intro RTU demo_db u c pdu); auto. intros s a am om _ C. now apply N in C. }
  assert (N9 : forall u, u <> 9 -> forall s, get_slave demo_db u = Ok s -> sl_unsigned s = true -> u <> 9) by auto.
  assert (N9' : forall s, get_slave demo_db 9 = Ok s -> sl_unsigned s = true -> 9 <> 9) by (intros s G X; vm_compute in G; injection G as <-; discriminate X).
  repeat match goal with |- Forall (fair _ _) (_ :: _) => apply Forall_cons | |- Forall (fair _ _) [] => apply Forall_nil end.
  all: try (apply S; [repeat constructor; lia|first [exact N9'|apply N9; lia]]).
  all: try (eapply Q; [lia|exact Logic.I|cbn [encodable]; unfold fits; lia|reflexivity|vm_compute; discriminate|discriminate]).
  all: try (cbn [fair]; lia).
  cbn [fair]. split; [vm_compute; auto|]. split; [exact Logic.I|]. split; [|discriminate].
  intros last L. split; [cbn [encodable]; split; [unfold fits; lia|]; split; [vm_compute; discriminate|repeat constructor; unfold reg_value; lia]|]. split; [exact L|]. split; [lia|]. intros; exact Logic.I.
Qed.
(** A value the application stores and no master can read. *)
Theorem C121_any_value_refuted : snd (program_run TCP 0 demo_db [Store 3 "r" 100 (SvNum 70000); Ask 3 (ReadRegs true 100 1)]) = [FromSet (Ok tt); FromCall (Some (Err ModbusInvalidResponseError))] /\
  snd (plant_run (plant_of demo_db) [Store 3 "r" 100 (SvNum 70000); Ask 3 (ReadRegs true 100 1)]) = [Done; Reply (Values [4464])].
Proof. split; vm_compute; reflexivity. Qed.

Print Assumptions C121_plant_partial.
Print Assumptions C121_from_databank_partial.
Print Assumptions C121_any_value_refuted.
