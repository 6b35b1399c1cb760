(** C129: masters, broadcasts and the application work on the device the library is, whatever numbers the application stores.
    Vocabulary: BuiltSpec.v (the device), PropBuilt.v (plain, pictures, told_as), PropPlant.v (event, effect, program_run, names_areas) and the definitions below. *)
From Coq Require Import ZArith Lia ZifyBool ZifyNat.
From Verif Require Import Base BaseFacts PyStruct Spec StructFacts StructMore Defines SlaveModel SlaveSpec SlaveProofs BlockSpec BlockProofs HandlerProofs RequestProofs GeneralProofs SlaveInv SlaveMore AtomicProofs PropSlave.
From Verif Require Import FrameSpec QueryModel DatabankModel MasterModel MasterSpec DbSpec DatabankProofs MasterProofs DecodeProofs EndSpec EndProofs PropDatabank PropMaster TransportSpec PropBroadcast DeviceSpec PropDevice PropPlant BuiltSpec PropBuilt.
Ltac Zify.zify_post_hook ::= Z.div_mod_to_equations.
Open Scope string_scope.
Open Scope list_scope.
Open Scope Z_scope.

(** ** Spec *)
(** units whose areas have names the application uses *)
Record post := { po_built : built; po_area : string -> option (btype * Z * Z) }.        (* table, first address, number of cells *)
Definition site := Z -> option post.
(** a number that does not fit the registers of the unit *)
Definition no_word (signed : bool) (v : Z) : bool := if signed then (v <? -32768) || (32767 <? v) else (v <? 0) || (65535 <? v).
(** numbers of any size are stored: each register shows its word and is odd if the number does not fit *)
Definition store_any (b : built) (t : btype) (a : Z) (vals : list Z) : built :=
  {| bt_device := put_cells (bt_device b) t a (map (shown t) vals); bt_signed := bt_signed b;
     bt_odd := fun t' x => if same_type t t' && (a <=? x) && (x <? a + zlen vals) then no_word (bt_signed b) (nth (Z.to_nat (x - a)) vals 0) else bt_odd b t' x |}.
Inductive news := Heard (o : option BuiltSpec.outcome) | Kept | Found (t : btype) (l : list Z) | NoSuch | Beyond.
Definition site_step (w : site) (e : event) : site * news :=
  match e with
  | Ask u c => match w u with
               | None => (w, Heard None)
               | Some x => (fun v => if v =? u then Some {| po_built := fst (built_call (po_built x) c); po_area := po_area x |} else w v, Heard (Some (snd (built_call (po_built x) c))))
               end
  | Announce c => (fun v => match w v with None => None | Some x => Some {| po_built := fst (built_call (po_built x) c); po_area := po_area x |} end, Heard None)
  | Store u name a v =>
      match w u with
      | None => (w, NoSuch)
      | Some x => match po_area x name with
                  | None => (w, NoSuch)
                  | Some (t, first, size) =>
                      if (first <=? a) && (a + zlen (values_of v) <=? first + size)
                      then (fun z => if z =? u then Some {| po_built := store_any (po_built x) t a (values_of v); po_area := po_area x |} else w z, Kept)
                      else (w, Beyond)
                  end
      end
  | Fetch u name a n =>
      match w u with
      | None => (w, NoSuch)
      | Some x => match po_area x name with
                  | None => (w, NoSuch)
                  | Some (t, first, size) => if (first <=? a) && (a + n <=? first + size) then (w, Found t (read_cells (bt_device (po_built x)) t a n)) else (w, Beyond)
                  end
      end
  end.
Fixpoint site_run (w : site) (l : list event) : site * list news :=
  match l with [] => (w, []) | e :: l => let '(w1, y) := site_step w e in let '(w2, ys) := site_run w1 l in (w2, y :: ys) end.
(** what the program gives is what the site gives; the application sees the stored values, which show as the cells of the device *)
Definition same_news (x : effect) (y : news) : Prop :=
  match y with
  | Heard o => exists r, x = FromCall r /\ told_as r o
  | Kept => x = FromSet (Ok tt)
  | Found t l => exists vals, x = FromGet (Ok vals) /\ map (shown t) vals = l
  | NoSuch => x = FromSet (Err MissingKeyError) \/ x = FromGet (Err MissingKeyError)
  | Beyond => x = FromSet (Err OutOfModbusBlockError) \/ x = FromGet (Err OutOfModbusBlockError)
  end.
Definition stages (d : databank) (w : site) : Prop :=
  forall v, match w v with
    | Some x => exists s, get_slave d v = Ok s /\ plain s /\ pictures s (po_built x) /\ names_areas s (po_area x)
    | None => get_slave d v = Err MissingKeyError
    end.
(** what may happen: calls of named functions, broadcasts of the five writing functions, set_values with any numbers, get_values of sizes that are not negative *)
Definition lawful (p : proto) (e : event) : Prop :=
  match e with
  | Ask u c => askable p (u, c)
  | Announce c => In (fc_of c) [5; 6; 15; 16; 22] /\ (forall last, 0 <= last <= 65535 -> can_send p last 0 c)
  | Store u name a v => True
  | Fetch u name a n => 0 <= n
  end.

(** ** Proofs *)
Lemma no_word_fits s v : no_word (negb (sl_unsigned s)) v = false <-> fits (sl_unsigned s) v.
Proof. unfold no_word, fits. destruct (sl_unsigned s); cbn [negb]; lia. Qed.
Lemma changed_at s t a vals s' : wf_slave s -> plain s -> changed s t a vals s' ->
  forall t' c x v, In c (blocks s' t') -> cell c x = Some v ->
    (same_type t t' && (a <=? x) && (x <? a + zlen vals) = true /\ nth_error vals (Z.to_nat (x - a)) = Some v) \/
    (same_type t t' && (a <=? x) && (x <? a + zlen vals) = false /\ exists c0, In c0 (blocks s t') /\ cell c0 x = Some v).
Proof.
  intros W (_ & DT & DJ) (l1 & b & l2 & E & C & E' & (_ & _ & _ & _ & FR)) t' c x v I V. pose proof (block_wf _ _ _ _ _ W E) as WB.
  assert (OT : forall t', t' <> t -> blocks s' t' = blocks s t') by (intros t0 N; apply FR; intros X; apply N; symmetry; now apply DT).
  destruct (same_type t t') eqn:T; cbn [andb].
  - apply same_type_iff in T. subst t'. rewrite E' in I. apply In_nth_error in I as (k & K). destruct (Nat.eq_dec k (length l1)) as [->|NK].
    + rewrite nth_error_at in K. injection K as <-. destruct ((a <=? x) && (x <? a + zlen vals)) eqn:R.
      * left. split; [reflexivity|]. replace x with (a + (x - a)) in V by lia. rewrite cell_overlay_in in V; [exact V|exact C|apply WB|lia].
      * right. split; [reflexivity|]. rewrite cell_overlay_out in V; [|exact C|apply WB|lia]. exists b. split; [rewrite E; apply in_elt|exact V].
    + right. assert (K2 : nth_error (blocks s t) k = Some c) by (rewrite E; eapply nth_error_mid; eauto). assert (K1 : nth_error (blocks s t) (length l1) = Some b) by (rewrite E; apply nth_error_at).
      assert (IC : In c (blocks s t)) by (eapply nth_error_In; eauto). assert (WC : wf_block c) by (specialize (W t); rewrite Forall_forall in W; now apply W).
      assert (HC : holds c x) by (eapply cell_some; eauto). split; [|eauto]. destruct ((a <=? x) && (x <? a + zlen vals)) eqn:R; [|reflexivity].
      exfalso. apply (DJ t k (length l1) c b NK K2 K1 x HC). unfold holds. destruct C. lia.
  - right. split; [reflexivity|]. exists c. split; [|exact V]. rewrite <- OT; [exact I|]. intros ->. assert (X : same_type t t = true) by (now apply same_type_iff). congruence.
Qed.
Lemma stored_pictures s b t a vals s' : wf_slave s -> plain s -> pictures s b -> changed s t a vals s' -> plain s' /\ pictures s' (store_any b t a vals).
Proof.
  intros W P (M & S & O) WR. split; [now apply (changed_plain s t a vals)|]. split; [now apply (changed_mirrors' s)|].
  assert (U : sl_unsigned s' = sl_unsigned s) by (destruct WR as (l1 & b0 & l2 & _ & _ & _ & (F1 & _)); exact F1).
  split; [cbn [store_any bt_signed]; now rewrite U|]. intros t' c x v I V R. rewrite U. cbn [store_any bt_odd].
  destruct (changed_at s t a vals s' W P WR t' c x v I V) as [(Q & I')|(Q & c0 & I0 & V0)]; rewrite Q; [|now apply (O t' c0)].
  rewrite (nth_error_nth _ _ 0 I'), S. apply no_word_fits.
Qed.
Lemma denotes_names' s name t b : plain s -> denotes s name t b -> exists l1 l2, names_block s name t l1 b l2.
Proof. intros (T & _) (N & l1 & l2 & E & F). exists l1, l2, (b_start b). split; [exact N|]. split; [apply T|]. auto. Qed.
Lemma denotes_unique' s name t b t' b' : plain s -> denotes s name t b -> denotes s name t' b' -> b' = b.
Proof.
  intros TY X Y. destruct (denotes_names' s name t b TY X) as (l1 & l2 & N). destruct (denotes_names' s name t' b' TY Y) as (k1 & k2 & N').
  assert (E : get_block s name = Ok (t, length l1, b)) by (apply get_block_ok; eauto). assert (E' : get_block s name = Ok (t', length k1, b')) by (apply get_block_ok; eauto). congruence.
Qed.
Lemma stages_one d d' w u x s' b' : stages d w -> w u = Some x -> get_slave d' u = Ok s' -> plain s' -> pictures s' b' -> names_areas s' (po_area x) -> others_same d d' u ->
  stages d' (fun v => if v =? u then Some {| po_built := b'; po_area := po_area x |} else w v).
Proof.
  intros P W G T M A O v. destruct (v =? u) eqn:E; [replace v with u by lia; exists s'; auto|]. rewrite O by lia. apply P.
Qed.
Definition step_well (p : proto) (last : Z) (d : databank) (w : site) (e : event) : Prop :=
  let '(d', last', y) := program_step p last d e in
  same_news y (snd (site_step w e)) /\ stages d' (fst (site_step w e)) /\ db_reachable d' /\ 0 <= last' <= 65535.
Section Steps.
Context (p : proto) (last : Z) (d : databank) (w : site).
Context (T : 0 <= last <= 65535) (D : db_reachable d) (P : stages d w).
Lemma well_ask u c : lawful p (Ask u c) -> step_well p last d w (Ask u c).
Proof.
  intros (U & NR & CS). cbn [fst snd] in *. specialize (CS last T). pose proof (rt_last p last d u c CS) as T1. pose proof (rt_reachable p last d u c D) as D1.
  unfold step_well. cbn [program_step site_step]. pose proof (P u) as PU. destruct (w u) as [x|] eqn:W.
  - destruct PU as (s & G & TY & M & A). pose proof (bs_all p last d u s (po_built x) D G TY M c NR CS) as K. unfold step_as in K. destruct (round_trip p last d u c) as [d1 e]. destruct K as (K1 & K2 & s' & K3 & K4 & K5 & K6). cbn [fst snd] in *.
    split; [exists (ex_result e); auto|]. split; [|auto]. apply (stages_one d d1 w u x s'); auto. now apply (areas_layout s).
  - destruct (rt_absent p last d u c U CS PU) as (R1 & R2). destruct (round_trip p last d u c) as [d1 e]. cbn [fst snd] in *. subst d1. cbn [same_news]. split; [exists (ex_result e); auto|auto].
Qed.
Lemma well_announce c : lawful p (Announce c) -> step_well p last d w (Announce c).
Proof.
  intros (FC & CS). pose proof (CS last T) as C0. pose proof (rt_last p last d 0 c C0) as T1. pose proof (rt_reachable p last d 0 c D) as D1.
  assert (W : writes c) by (unfold writes; cbn [In] in *; tauto). assert (NR : forall pdu, c <> Raw pdu) by (intros pdu ->; cbn [fc_of In] in FC; lia).
  assert (SL : forall u s, get_slave d u = Ok s -> exists x, w u = Some x /\ plain s /\ pictures s (po_built x) /\ names_areas s (po_area x)).
  { intros u s G. specialize (P u). destruct (w u) as [x|]; [|congruence]. destruct P as (s' & G' & TY & M & A). rewrite G in G'. injection G' as <-. eauto. }
  assert (H : forall u s, get_slave d u = Ok s -> all_tables s /\ (fc_of c = 23 -> all_fit s)).
  { intros u s G. destruct (SL u s G) as (x & _ & TY & _). split; [apply TY|]. intros E. rewrite E in FC. cbn [In] in FC. lia. }
  destruct (announced p last d D c W C0 H) as (E1 & E2).
  assert (ONE : forall u s x, get_slave d u = Ok s -> w u = Some x -> plain s -> pictures s (po_built x) ->
    exists s', get_slave (fst (round_trip p last d 0 c)) u = Ok s' /\ plain s' /\ pictures s' (fst (built_call (po_built x) c)) /\ same_layout s s').
  { intros u s x G WU TY M. destruct (db_reachable_slave d u s D G) as [_ U].
    assert (CU : can_send p last u c) by (destruct C0 as (A1 & A2 & _ & A4); split; [exact A1|]; split; [exact A2|]; split; [lia|exact A4]).
    pose proof (bs_all p last d u s (po_built x) D G TY M c NR CU) as K. unfold step_as in K. specialize (E1 u). rewrite G in E1. destruct (round_trip p last d u c) as [d1 e]. destruct K as (_ & _ & s' & K3 & K4 & K5 & K6). cbn [fst] in E1.
    exists s'. rewrite E1. auto. }
  unfold step_well. cbn [program_step site_step]. destruct (round_trip p last d 0 c) as [d1 e]. cbn [fst snd] in *.
  split; [exists (ex_result e); auto|]. split; [|auto].
  intros v. specialize (P v). specialize (E1 v). destruct (w v) as [x|] eqn:WV.
  - destruct P as (s & G & TY & M & A). destruct (ONE v s x G WV TY M) as (s' & G' & TY' & M' & L). exists s'. split; [exact G'|]. split; [exact TY'|]. split; [exact M'|]. now apply (areas_layout s).
  - rewrite P in E1. exact E1.
Qed.
Lemma well_store u name a v : step_well p last d w (Store u name a v).
Proof.
  unfold step_well. cbn [program_step site_step]. pose proof (P u) as PU. destruct (w u) as [x|] eqn:W; [|rewrite PU; cbn [fst snd same_news]; auto].
  destruct PU as (s & G & TY & M & A). rewrite G. destruct (db_reachable_slave d u s D G) as [R U]. pose proof (reachable_wf s R) as WF.
  assert (D1 : db_reachable (put_slave d u (fst (set_values s name a v)))).
  { pose proof (store_put p last d u s name a v G) as E. cbn [program_step] in E. rewrite G in E. destruct D as (e & ops & S0 & DE). exists e, (ops ++ [DbCall u (OpSetValues name a v)]). split; [apply Forall_app; split; [exact S0|constructor; [exact Logic.I|constructor]]|].
    unfold db_run in *. rewrite fold_left_app. cbn [fold_left]. rewrite <- DE, <- E. now destruct (set_values s name a v). }
  assert (O : forall s', others_same d (put_slave d u s') u) by (intros s' z Z0; now apply get_slave_put_other).
  assert (NIL : stages (put_slave d u s) w) by (intros z; rewrite (get_slave_put_id d u s G z); apply P).
  pose proof (A name) as AN. destruct (po_area x name) as [[[t first] size]|] eqn:AR.
  - destruct AN as (b & DB & B1 & B2). destruct (denotes_names' s name t b TY DB) as (l1 & l2 & NB). replace (zlen (values_of v)) with (zlen (sv_list v)) in * by (now destruct v). replace (values_of v) with (sv_list v) in * by (now destruct v).
    destruct ((first <=? a) && (a + zlen (sv_list v) <=? first + size)) eqn:IN.
    + assert (C : covers b a (zlen (sv_list v))) by (unfold covers; lia). destruct (set_values_ok s name a v t l1 b l2 WF NB C) as (SV & UP). rewrite SV in D1 |- *. cbn [fst snd] in *. set (s' := mem_set _ _ _) in *.
      assert (CH : changed s t a (sv_list v) s').
      { destruct UP as (HT & E & _ & _). exists l1, b, l2. split; [exact E|]. split; [exact C|]. split; [unfold s'; apply blocks_mem_set; [exact HT|reflexivity]|].
        unfold frame, s'. rewrite mem_set_unsigned, mem_set_names, mem_set_alias. split; [reflexivity|]. split; [reflexivity|]. split; [reflexivity|]. split.
        - intros t' ST. rewrite !blocks_mem_set by (auto; reflexivity). reflexivity.
        - intros t' ST. now rewrite blocks_mem_set_other. }
      pose proof (changed_layout' s t a _ s' WF TY CH) as L. destruct (stored_pictures s (po_built x) t a _ s' WF TY M CH) as (Q1 & Q2). split; [reflexivity|]. split; [|auto].
      apply (stages_one d _ w u x s'); auto using get_slave_put_same. now apply (areas_layout s).
    + assert (C : ~ covers b a (zlen (sv_list v))) by (unfold covers; lia). pose proof (set_values_out s name a v t l1 b l2 NB C) as SV. rewrite SV in D1 |- *. cbn [fst snd same_news] in *. auto.
  - destruct (C04_set_values_range s name a v R) as (SV & _). specialize (SV AN). rewrite SV in D1 |- *. cbn [fst snd same_news] in *. auto.
Qed.
Lemma well_fetch u name a n : lawful p (Fetch u name a n) -> step_well p last d w (Fetch u name a n).
Proof.
  intros F. cbn [lawful] in F. unfold step_well. cbn [program_step site_step]. pose proof (P u) as PU. destruct (w u) as [x|] eqn:W; [|rewrite PU; cbn [fst snd same_news]; auto].
  destruct PU as (s & G & TY & M & A). rewrite G. destruct (db_reachable_slave d u s D G) as [R U]. pose proof (reachable_wf s R) as WF.
  destruct (C04_get_values_range_partial s name a n R F) as (G1 & _ & G3).
  pose proof (A name) as AN. destruct (po_area x name) as [[[t first] size]|] eqn:AR; [|cbn [fst snd same_news]; rewrite (G1 AN); auto].
  destruct AN as (b & DB & B1 & B2). destruct (denotes_names' s name t b TY DB) as (l1 & l2 & NB). destruct ((first <=? a) && (a + n <=? first + size)) eqn:IN.
  - assert (C : covers b a n) by (unfold covers; lia). rewrite (get_values_ok s name a n t l1 b l2 WF NB C F). cbn [fst snd same_news]. split; [|auto]. exists (values_at b a n). split; [reflexivity|].
    apply (shown_block s (bt_device (po_built x)) t a n b (proj1 M) WF); auto. destruct NB as (st & _ & _ & E & _). rewrite E. apply in_elt.
  - cbn [fst snd same_news]. rewrite G3; [auto|unfold registered; destruct DB as (N & _); unfold named in N; rewrite N; discriminate|].
    intros (t' & b' & DB' & C). assert (b' = b). { now apply (denotes_unique' s name t b t'). } subst b'. unfold covers in C. lia.
Qed.
End Steps.
(** ** C129 *)
Theorem C129_site : forall p l last d w, 0 <= last <= 65535 -> db_reachable d -> stages d w -> Forall (lawful p) l ->
  Forall2 same_news (snd (program_run p last d l)) (snd (site_run w l)) /\ stages (fst (program_run p last d l)) (fst (site_run w l)).
Proof.
  intros p l. induction l as [|e l IH]; intros last d w T D P F; [split; [constructor|exact P]|]. inversion_clear F as [|? ? F1 F2].
  assert (S : step_well p last d w e) by (destruct e; [apply well_ask|apply well_announce|apply well_store|apply well_fetch]; auto).
  unfold step_well in S. cbn [program_run site_run]. destruct (program_step p last d e) as [[d1 last1] y]. destruct (site_step w e) as [w1 o]. cbn [fst snd] in S. destruct S as (S1 & S2 & S3 & S4).
  destruct (IH last1 d1 w1 S4 S3 S2 F2) as (I1 & I2).
  destruct (program_run p last1 d1 l) as [d2 ys]. destruct (site_run w1 l) as [w2 os]. cbn [fst snd] in *. split; [constructor; [exact S1|exact I1]|exact I2].
Qed.
(** Every databank with plain slaves is such a site. *)
Definition post_of (s : slave) : post := {| po_built := built_of s; po_area := fun name => match get_block s name with Ok (t, _, b) => Some (t, b_start b, b_size b) | Err _ => None end |}.
Definition site_of (d : databank) : site := fun v => match get_slave d v with Ok s => Some (post_of s) | Err _ => None end.
Lemma post_areas s : reachable s -> plain s -> names_areas s (po_area (post_of s)).
Proof.
  intros R TY name. cbn [post_of po_area]. destruct (get_block s name) as [[[t i] b]|e] eqn:G.
  - apply get_block_ok in G as (l1 & l2 & (st & A & _ & E & B & N) & _). exists b. split; [|auto]. subst st. split; [exact A|]. exists l1, l2. auto.
  - intros RG. destruct (C04_get_values_range_partial s name 0 0 R ltac:(lia)) as (_ & G2 & G3). specialize (G2 RG). specialize (G3 RG).
    assert (GV : get_values s name 0 0 = Err e) by (unfold get_values; now rewrite G).
    assert (NI : ~ inside s name 0 0) by (intros I; destruct (G2 I) as (vs & X & _); congruence). specialize (G3 NI). rewrite GV in G3. injection G3 as ->.
    unfold get_block in G. destruct (assoc String.eqb name (sl_names s)) as [[t st]|]; [|discriminate G]. unfold mem_get in G. destruct (get4 (sl_alias s) t); [|discriminate G]. cbn [bind] in G. destruct (find_start _ _ _) as [[? ?]|]; discriminate G.
Qed.
Theorem C129_from_databank : forall p l last d, 0 <= last <= 65535 -> db_reachable d -> (forall v s, get_slave d v = Ok s -> plain s) -> Forall (lawful p) l ->
  Forall2 same_news (snd (program_run p last d l)) (snd (site_run (site_of d) l)) /\ stages (fst (program_run p last d l)) (fst (site_run (site_of d) l)).
Proof.
  intros p l last d T D H F. apply C129_site; auto. intros v. unfold site_of. destruct (get_slave d v) as [s|e] eqn:G.
  - destruct (db_reachable_slave d v s D G) as [R _]. exists s. split; [reflexivity|]. split; [eapply H; eauto|]. split; [apply built_of_pictures; [now apply reachable_wf|eapply H; eauto]|]. apply post_areas; [exact R|eapply H; eauto].
  - now apply get_slave_err in G as ->.
Qed.
Definition site_events : list event :=
  [Store 3 "r" 103 (SvSeq [-2; 70000; 5]); Ask 3 (ReadRegs true 105 1); Ask 3 (ReadRegs true 103 3); Fetch 3 "r" 103 3; Ask 3 (MaskWrite 104 65535 0); Ask 3 (ReadRegs true 104 1); Ask 3 (ReadRegs true 103 1); Announce (WriteReg 103 40000); Ask 3 (ReadRegs true 103 1);
   Ask 9 (ReadRegs true 103 1); Announce (MaskWrite 103 65535 0); Ask 9 (ReadRegs true 103 1); Store 9 "r" 103 (SvNum 7); Ask 9 (ReadWriteRegs 103 1 103 [8]); Store 3 "r" 109 (SvSeq [1; 2]); Store 3 "q" 109 (SvNum 1)].
Example C129_ex : Forall (lawful TCP) site_events /\ (forall v s, get_slave demo_db v = Ok s -> plain s) /\
  snd (site_run (site_of demo_db) site_events) =
    [Kept; Heard (Some (Says (Values [5]))); Heard (Some Fails); Found HOLDING_REGISTERS [65534; 4464; 5]; Heard (Some (Says (Values [104; 65535; 0]))); Heard (Some (Says (Values [4464]))); Heard (Some Fails); Heard None; Heard (Some (Says (Values [40000])));
     Heard (Some (Says (Values [40000]))); Heard None; Heard (Some Fails); Kept; Heard (Some (Says (Values [7]))); Beyond; NoSuch].
Proof.
  split; [|split; [intros v s G; destruct (demo_tidy v s G) as (A & B & C & _); exact (conj A (conj B C))|vm_compute; reflexivity]]. unfold site_events.
  repeat (apply Forall_cons; [cbn [lawful]; first
    [ exact Logic.I
    | lia
    | eapply askable_intro; [lia|discriminate|cbn [encodable]; unfold fits, bytes, is_byte, zlen, reg_value; cbn [length Z.of_nat repeat]; repeat constructor; lia|reflexivity|vm_compute; discriminate]
    | split; [cbn [fc_of In]; tauto|]; intros last0 T0; split; [cbn [encodable]; unfold fits, reg_value; repeat split; lia|]; split; [exact T0|]; split; [lia|]; intros pdu P; apply framable_small; rewrite P; vm_compute; discriminate ]|]).
  apply Forall_nil.
Qed.

Print Assumptions C129_site.
Print Assumptions C129_from_databank.
