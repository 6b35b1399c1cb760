(** C106: the simulator of examples/mysimu.py, and (C105) what a master reads with a data_format from registers the application has set.
    Vocabulary: PropSame.v (app_sets, app_gets, block_in, is_unsigned), FloatSpec.v (comes_back, against), NativeModel.v (machine), and the definitions below. *)
From Coq Require Import Reals Lra ZArith Lia ZifyBool ZifyNat.
From Flocq Require Import Core IEEE754.BinarySingleNaN IEEE754.Binary IEEE754.Bits.
From Verif Require Import Base BaseFacts PyStruct Spec StructFacts StructMore Defines SlaveModel SlaveSpec SlaveInv BlockSpec SlaveMore HandlerProofs QueryModel DatabankModel DatabankProofs MasterModel DbSpec EndSpec EndProofs MasterSpec MasterProofs DecodeProofs  PropMaster.
From Verif Require Import FloatModel FloatSpec FloatProofs PropDatabank PropFloat NativeModel PropNative.
From Verif Require Import HooksModel TextModel SimulatorModel TextProofs SimulatorProofs PropSimulator PropSame MySimuModel.
Ltac Zify.zify_post_hook ::= Z.div_mod_to_equations.
Open Scope string_scope.
Open Scope list_scope.
Open Scope Z_scope.

(** ** Spec *)
(** The custom rule: a value over 30 given for register 0 makes the value of register 1 a 1; nothing else is changed. *)
Definition ruled (a : Z) (vs vs' : list Z) : Prop :=
  (a = 0 -> vs <> []) /\
  ((a = 0 /\ exists v, nth_error vs 0 = Some v /\ 30 < v) -> nth_error vs' 1 = Some 1 /\ forall i, i <> 1%nat -> nth_error vs' i = nth_error vs i) /\
  (~ (a = 0 /\ exists v, nth_error vs 0 = Some v /\ 30 < v) -> vs' = vs).

(** ** Proofs *)
Lemma rule_ok a vs vs' : custom_rule a vs = Ok vs' <-> ruled a vs vs'.
Proof.
  unfold custom_rule, ruled. destruct (a =? 0) eqn:A.
  - apply Z.eqb_eq in A. subst a. destruct vs as [|v t].
    + split; [discriminate|]. intros (N & _). now destruct (N eq_refl).
    + destruct (30 <? v) eqn:V.
      * split.
        -- intros E. split; [discriminate|]. split; [intros _|intros N; destruct N; split; [reflexivity|]; exists v; split; [reflexivity|lia]].
           destruct t as [|w t]; injection E as <-; (split; [reflexivity|]); intros [|[|i]] I; try reflexivity; try lia. cbn. destruct i; reflexivity.
        -- intros (_ & H & _). destruct H as [H1 H2]; [split; [reflexivity|]; exists v; split; [reflexivity|lia]|]. f_equal.
           pose proof (H2 0%nat ltac:(lia)) as H0. destruct vs' as [|v' [|w' t']]; try discriminate. injection H0 as ->. injection H1 as ->.
           assert (T : forall i, nth_error t' i = nth_error (tl t) i). { intros i. pose proof (H2 (S (S i)) ltac:(lia)) as Hi. cbn [nth_error] in Hi. rewrite Hi. destruct t; [destruct i; reflexivity|reflexivity]. }
           apply nth_error_ext in T. subst t'. destruct t; reflexivity.
      * split.
        -- intros E. injection E as <-. split; [discriminate|]. split; [intros (_ & w & W & L); injection W as <-; lia|auto].
        -- intros (_ & _ & H). f_equal. symmetry. apply H. intros (_ & w & W & L). injection W as <-. lia.
  - apply Z.eqb_neq in A. split; [intros E; injection E as <-; split; [congruence|]; split; [intros (X & _); congruence|auto]|]. intros (_ & _ & H). f_equal. symmetry. apply H. intros (X & _). congruence.
Qed.
Lemma read_raw p last d u (a n : Z) s vals g : 0 <= last <= 65535 -> db_reachable d -> get_slave d u = Ok s -> fits true a -> 1 <= n <= 125 -> g <> "" ->
  stored s HOLDING_REGISTERS a n vals -> Forall (fits (sl_unsigned s)) vals ->
  ex_result (execute p last (read_formatted u a n g true) (fun request _ => EndSpec.answer d p request)) = Some (Ok (RRaw (words vals))).
Proof.
  intros T D G Ha Hn NG (Ht & b & Hs & <-) Hf. destruct (db_reachable_slave d u s D G) as [Rs U].
  assert (Fn : fits true n) by (unfold fits; lia).
  pose proof (hr_read_registers s 3 HOLDING_REGISTERS a n b [] RT3 Ht Ha Hn Hs Hf) as HR. rewrite app_nil_r in HR.
  pose proof (build_read_formatted u a n g true Ha Fn NG) as Br.
  destruct (round_trip_built p last d u _ _ s (3 :: 2 * n :: words (values_at b a n)) Br eq_refl) as (_ & _ & Q3); cbn [bl_pdu].
  { constructor; [unfold is_byte; lia|]. apply Forall_app; split; apply word_bytes. }
  { rewrite zlen_cons, zlen_app. assert (W : forall v, zlen (word v) = 2) by reflexivity. rewrite !W. lia. }
  { exact T. } { exact U. } { exact G. } { now rewrite HR. }
  unfold round_trip_args in Q3. cbn [snd] in Q3. rewrite Q3. unfold execute_decode. rewrite unpack2_slice. change (128 <? 3) with false. cbn [bl_is_read bl_digits bl_format negb andb]. rewrite from2.
  rewrite words_zlen. pose proof (reachable_wf s Rs) as W. pose proof (values_at_zlen s HOLDING_REGISTERS a n b W Hs ltac:(lia)) as L.
  rewrite L, Z.eqb_refl. reflexivity.
Qed.
(* ------------------------------------------------------------------ C105, with a data_format *)
(** Reading registers with a data_format is struct.unpack of the bytes of the registers, the high byte of each first. *)
Theorem C105_read_format : forall p last d u name a n vals f unsigned,
  0 <= last <= 65535 -> db_reachable d -> block_in d u name HOLDING_REGISTERS -> is_unsigned d u unsigned ->
  app_gets d u name a n vals -> 1 <= n <= 125 -> fits true a -> Forall (fits unsigned) vals -> f <> "" ->
  nc_result (snd (against p d (nread p last u true a n f))) = nunpack f (words vals).
Proof.
  intros p last d u name a n vals f un T D (s & start & G & N & Dj) (s0 & G0 & <-) (s1 & G1 & V) Hn Ha F NF.
  assert (s0 = s) by congruence. assert (s1 = s) by congruence. subst s0 s1. destruct (db_reachable_slave d u s D G) as [R _].
  pose proof (get_is_stored s name _ start a n vals R N Dj ltac:(lia) V) as St.
  destruct (nread_as p last u a n f ">B" (fun request _ => EndSpec.answer d p request) NF ltac:(discriminate) Ha ltac:(unfold fits; lia)) as (_ & _ & R3).
  unfold against. cbn [snd]. apply R3. now apply (read_raw p last d u a n s vals ">B" T D G Ha Hn ltac:(discriminate) St F).
Qed.
Theorem C105_read_native_format : forall m p last d u name a n vals f unsigned, real_machine m ->
  0 <= last <= 65535 -> db_reachable d -> block_in d u name HOLDING_REGISTERS -> is_unsigned d u unsigned ->
  app_gets d u name a n vals -> 1 <= n <= 125 -> fits true a -> Forall (fits unsigned) vals -> f <> "" ->
  (exists x, mparse_fmt m f = Ok x) ->
  nc_result (snd (against p d (mread m p last u true a n f))) = munpack m f (words vals).
Proof.
  intros m p last d u name a n vals f un M T D B U A Hn Ha F NF ([native [little items]] & PF).
  rewrite (munpack_as m f native little items M PF). rewrite <- (C105_read_format p last d u name a n vals _ un T D B U A Hn Ha F (g_full m f native little items PF)).
  unfold against. cbn [snd]. now rewrite (mread_as m f native little items M PF).
Qed.
(* ------------------------------------------------------------------ C106 *)
Lemma line_args w l t : all_chars is_crlf t = true -> solid w -> Forall (fun w => no_space w = true) (w :: l) -> solid (last (w :: l) "") ->
  split_space (strip is_crlf (append (sentence (w :: l)) t)) = w :: l.
Proof.
  intros T W F L. assert (E : strip is_crlf (append (sentence (w :: l)) t) = sentence (w :: l)).
  { rewrite <- (strip_words is_crlf w l white_crlf W L) at 2. unfold strip.
    assert (LS : forall x, lstrip is_crlf (append (sentence (w :: l)) x) = append (sentence (w :: l)) x).
    { intros x. destruct W as [W1 W2]. pose proof (not_white_not_crlf _ W2) as W3. destruct w as [|c u]; [congruence|]. cbn in W3.
      destruct l as [|y l]; [|rewrite words_cons]; cbn [sentence String.concat append]; apply lstrip_id; now destruct (is_crlf c). }
    rewrite LS. rewrite <- (app_nil_str (sentence (w :: l))) at 2. rewrite LS, app_nil_str. now apply rstrip_all. }
  rewrite E. apply split_words; [discriminate|exact F].
Qed.
Lemma set_values_failed sl name a vs sl' e : set_values sl name a (SvSeq vs) = (sl', Err e) -> sl' = sl.
Proof.
  unfold set_values. destruct (get_block sl name) as [[[t i] b]|]; [|intros V; now injection V].
  destruct ((a - b_start b <? 0) || (b_size b <? a - b_start b + zlen vs)); intros V; now injection V.
Qed.
(** [line] is typed, with or without an end of line. *)
Definition typed (line : list string) (text : string) : Prop := exists t, all_chars is_crlf t = true /\ text = append (sentence line) t.
(** cv: the rule is applied, the values are set with set_values in block "foo" of slave 1, and they are the answer; if set_values refuses, or if no value is given for
    register 0, the error is the answer and nothing has changed. *)
Theorem C106_cv : forall text m s a vs line, typed ("cv" :: py_str a :: map py_str vs) line ->
  (forall vs' d', ruled a vs vs' -> app_sets (sm_db s) 1 "foo" a (SvSeq vs') d' ->
     sim_run text (my_cmds m) s [Text line] = (with_db s d', [append "cv done: " (append (sentence (map py_str vs')) crlf)], Running)) /\
  (~ (exists vs' d', ruled a vs vs' /\ app_sets (sm_db s) 1 "foo" a (SvSeq vs') d') ->
     exists e, sim_run text (my_cmds m) s [Text line] = (s, [append "cv error: " (append (text e) crlf)], Running)).
Proof.
  intros text m s a vs line (t & Ht & ->).
  assert (LA : split_space (strip is_crlf (append (sentence ("cv" :: py_str a :: map py_str vs)) t)) = "cv" :: py_str a :: map py_str vs).
  { apply line_args; [exact Ht|split; [discriminate|reflexivity]|constructor; [reflexivity|]; constructor; [apply py_str_no_space|apply nums_no_space]|exact (last_num a vs)]. }
  assert (Q : String.prefix "quit" (append (sentence ("cv" :: py_str a :: map py_str vs)) t) = false) by reflexivity.
  cbn [sim_run]. unfold sim_step. rewrite Q, LA. cbv zeta. cbn [hd]. change (assoc String.eqb "cv" (my_cmds m)) with (Some do_cv). cbv iota.
  unfold do_cv. rewrite (int_arg_num ("cv" :: py_str a :: map py_str vs) 1 a eq_refl). cbn [need skipn]. rewrite ints_of_strs. cbn [need].
  destruct (custom_rule a vs) as [w|e] eqn:C; cbn [need].
  - apply rule_ok in C as C'. destruct (get_slave (sm_db s) 1) as [sl|e] eqn:G; cbn [need].
    + destruct (set_values sl "foo" a (SvSeq w)) as [sl' r] eqn:V. split.
      * intros vs' d' Rl (-> & s0 & s1 & G0 & S0). assert (s0 = sl) by congruence. subst s0. apply rule_ok in Rl. assert (vs' = w) by congruence. subst vs'.
        rewrite S0 in V. injection V as <- <-. cbn [bind show]. rewrite tuple_words.
        replace (db_run (sm_db s) [DbCall 1 (OpSetValues "foo" a (SvSeq w))]) with (put_slave (sm_db s) 1 s1); [reflexivity|]. cbn [db_run fold_left db_step]. rewrite G. cbn [slave_step]. now rewrite S0.
      * intros N. destruct r as [[]|e]; [exfalso; apply N; exists w; eexists; split; [exact C'|]; split; [reflexivity|]; eauto|].
        exists e. cbn [bind]. assert (sl' = sl) by exact (set_values_failed sl "foo" a w sl' e V). subst sl'. rewrite (put_same _ _ _ G), same_db. reflexivity.
    + split; [intros vs' d' _ (_ & s0 & _ & G0 & _); congruence|]. intros _. now exists e.
  - split; [intros vs' d' Rl; apply rule_ok in Rl; congruence|]. intros _. now exists e.
Qed.

(** What a master reads from slave 1 after cv: the values given, register 1 being 1 if the rule says so. *)
Theorem C106_cv_read : forall text m s a vs line vs' d' p last, db_reachable (sm_db s) -> typed ("cv" :: py_str a :: map py_str vs) line ->
  ruled a vs vs' -> app_sets (sm_db s) 1 "foo" a (SvSeq vs') d' -> block_in (sm_db s) 1 "foo" HOLDING_REGISTERS -> is_unsigned (sm_db s) 1 true ->
  1 <= zlen vs' <= 125 -> fits true a -> Forall (fits true) vs' -> 0 <= last <= 65535 ->
  let '(s', _, _) := sim_run text (my_cmds m) s [Text line] in
  ex_result (snd (round_trip p last (sm_db s') 1 (ReadRegs true a (zlen vs')))) = Some (Ok (RTuple vs')) /\
  forall u, u <> 1 -> get_slave (sm_db s') u = get_slave (sm_db s) u.
Proof.
  intros text m s a vs line vs' d' p last D L Rl A B U Z1 Ha F T. destruct (C106_cv text m s a vs line L) as [H _]. rewrite (H vs' d' Rl A). cbn [sm_db with_db].
  split.
  - pose proof (C105_set_then_read_registers p last (sm_db s) 1 "foo" true a (SvSeq vs') d' true T D B U A Z1 Ha F) as R. cbn [values_of] in R. rewrite R. do 3 f_equal.
    rewrite <- (map_id vs') at 2. apply map_ext_in. intros v Hv. rewrite Forall_forall in F. specialize (F v Hv). unfold fits in F. unfold as_word. lia.
  - intros u N. destruct A as (-> & s0 & s1 & G & S0). cbn [db_run fold_left db_step]. rewrite G. cbn [slave_step]. rewrite S0. now apply get_slave_put_other.
Qed.
(** The registers set_pi uses: the four bytes of the C float nearest to 3.14, in the order of the machine. *)
Definition pi_registers (m : machine) : list Z := if m_little m then [50165; 18496] else [16456; 62915].
Lemma pi_bytes m : real_machine m -> mpack m "f" [py_3_14] = Ok (words (pi_registers m)).
Proof.
  intros _. destruct m as [little lg wd al]. unfold mpack, pi_registers. destruct little; vm_compute; reflexivity.
Qed.
Theorem C106_set_pi : forall text m s a line, real_machine m -> db_reachable (sm_db s) -> typed ["set_pi"; py_str a] line ->
  (forall d', app_sets (sm_db s) 1 "foo" a (SvSeq (pi_registers m)) d' ->
     sim_run text (my_cmds m) s [Text line] = (with_db s d', [append "set_pi done: " (append (sentence (map py_str (pi_registers m))) crlf)], Running)) /\
  (~ (exists d', app_sets (sm_db s) 1 "foo" a (SvSeq (pi_registers m)) d') ->
     exists e, sim_run text (my_cmds m) s [Text line] = (s, [append "set_pi error: " (append (text e) crlf)], Running)).
Proof.
  intros text m s a line M D (t & Ht & ->).
  assert (LA : split_space (strip is_crlf (append (sentence ["set_pi"; py_str a]) t)) = ["set_pi"; py_str a]).
  { apply line_args; [exact Ht|split; [discriminate|reflexivity]|repeat constructor; apply py_str_no_space|exact (solid_num a)]. }
  assert (Q : String.prefix "quit" (append (sentence ["set_pi"; py_str a]) t) = false) by reflexivity.
  cbn [sim_run]. unfold sim_step. rewrite Q, LA. cbv zeta. cbn [hd]. change (assoc String.eqb "set_pi" (my_cmds m)) with (Some (do_set_pi m)). cbv iota.
  unfold do_set_pi. rewrite (int_arg_num ["set_pi"; py_str a] 1 a eq_refl). cbn [need]. destruct (get_slave (sm_db s) 1) as [sl|e] eqn:G; cbn [need].
  - rewrite (pi_bytes m M). cbn [need].
    assert (E : match words (pi_registers m) with b0 :: b1 :: b2 :: b3 :: _ => [b0 * 256 + b1; b2 * 256 + b3] | _ => [] end = pi_registers m) by (unfold pi_registers; destruct (m_little m); reflexivity).
    destruct (words (pi_registers m)) as [|b0 [|b1 [|b2 [|b3 b4]]]] eqn:W; try (exfalso; unfold pi_registers in W; destruct (m_little m); discriminate W). rewrite E. clear E W b0 b1 b2 b3 b4.
    destruct (set_values sl "foo" a (SvSeq (pi_registers m))) as [sl' r] eqn:V. split.
    + intros d' (-> & s0 & s1 & G0 & S0). assert (s0 = sl) by congruence. subst s0. rewrite S0 in V. injection V as <- <-. cbn [bind].
      destruct (db_reachable_slave _ _ _ D G) as [R _]. apply reachable_inv in R. destruct (set_get sl "foo" a _ s1 R S0) as [K _]. cbn [sv_list] in K.
      replace 2 with (zlen (pi_registers m)) by (unfold pi_registers; destruct (m_little m); reflexivity). rewrite K. cbn [bind show]. rewrite tuple_words.
      replace (db_run (sm_db s) [DbCall 1 (OpSetValues "foo" a (SvSeq (pi_registers m)))]) with (put_slave (sm_db s) 1 s1); [reflexivity|]. cbn [db_run fold_left db_step]. rewrite G. cbn [slave_step]. now rewrite S0.
    + intros N. destruct r as [[]|e]; [exfalso; apply N; eexists; split; [reflexivity|]; eauto|].
      exists e. cbn [bind]. assert (sl' = sl) by exact (set_values_failed sl "foo" a _ sl' e V). subst sl'. rewrite (put_same _ _ _ G), same_db. reflexivity.
  - split; [intros d' (_ & s0 & _ & G0 & _); congruence|]. intros _. now exists e.
Qed.
(** 3.14 is the double nearest to 314/100: less than half a unit in the last place (2^-51 between 2 and 4) away. *)
Theorem C106_literal : exists x, py_3_14 = NFloat x /\ is_number x = true /\ (Rabs (real x - 314 / 100) < bpow radix2 (-52))%R.
Proof.
  eexists. split; [reflexivity|]. split; [vm_compute; reflexivity|]. unfold real.
  replace (B2R 53 1024 (b64_of_bits 4614253070214989087)) with (F2R (Float radix2 7070651414971679 (-51))) by (vm_compute b64_of_bits; cbn [B2R]; unfold F2R; cbn; lra).
  unfold F2R. cbn. apply Rabs_def1; lra.
Qed.
(** A master on a machine of the same byte order that reads the two registers with the format "f" gets the C float nearest to 3.14; so does any master that names the byte order of the
    simulator's machine. *)
Theorem C106_pi_read : forall text m m' s a line d' p last (f : string), real_machine m -> real_machine m' -> db_reachable (sm_db s) -> typed ["set_pi"; py_str a] line ->
  app_sets (sm_db s) 1 "foo" a (SvSeq (pi_registers m)) d' -> block_in (sm_db s) 1 "foo" HOLDING_REGISTERS -> is_unsigned (sm_db s) 1 true -> fits true a -> 0 <= last <= 65535 ->
  (f = "f" /\ m_little m' = m_little m) \/ f = (if m_little m then "<f" else ">f") ->
  let '(s', _, _) := sim_run text (my_cmds m) s [Text line] in
  exists w, nc_result (snd (against p (sm_db s') (mread m' p last 1 true a 2 f))) = Ok [w] /\ comes_back NF32 py_3_14 w.
Proof.
  intros text m m' s a line d' p last f M M' D L A B U Ha T Hf. destruct (C106_set_pi text m s a line M D L) as [H _]. rewrite (H d' A). cbn [sm_db with_db]. clear H L.
  destruct (set_app (sm_db s) 1 "foo" a _ d' D A) as (D' & A' & B' & U'). cbn [values_of] in A'.
  assert (Z2 : zlen (pi_registers m) = 2) by (unfold pi_registers; destruct (m_little m); reflexivity). rewrite Z2 in A'.
  assert (PF : exists native, mparse_fmt m' f = Ok (native, (m_little m, [NF32]))).
  { destruct Hf as [[-> E] | ->]; [exists true; rewrite <- E; destruct m' as [[|] ? ? ?]; reflexivity|exists false; destruct (m_little m); reflexivity]. }
  destruct PF as [native PF].
  rewrite (C105_read_native_format m' p last d' 1 "foo" a 2 (pi_registers m) f true M' T D' (B' _ B) (U' _ U) A' ltac:(lia) Ha); [| | |eauto].
  - unfold munpack. rewrite PF. cbn [bind fst snd].
    set (g := if m_little m then "<f" else ">f"). assert (PG : nparse_fmt g = Ok (m_little m, [NF32])) by (unfold g; destruct (m_little m); reflexivity).
    assert (P : npack g [py_3_14] = Ok (words (pi_registers m))) by (unfold g, pi_registers; destruct (m_little m); vm_compute; reflexivity).
    destruct (npack_ok g _ _ _ _ PG P) as (_ & _ & vals' & Un & C). unfold nunpack in Un. rewrite PG in Un. cbn [bind fst snd] in Un. rewrite Un.
    cbn [come_back] in C. destruct vals' as [|w ws]; [contradiction|]. destruct C as [C1 [_ ->]]. now exists w.
  - unfold pi_registers. destruct (m_little m); repeat constructor; unfold fits; lia.
  - destruct Hf as [[-> _] | ->]; [discriminate|destruct (m_little m); discriminate].
Qed.

(** MySimulator(server): slave 1 with the hundred registers of "foo", if the server has no slave 1 yet; and the commands of the simulator work as without the two new ones (C72 and C73
    speak of every set of commands that is [standard]). *)
Definition empty_sim : sim := {| sm_db := new_databank true; sm_hooks := []; sm_fcts := []; sm_verbose := 0 |}.
Theorem C106_init : forall s, db_reachable (sm_db s) ->
  (get_slave (sm_db s) 1 = Err MissingKeyError ->
     snd (my_init s) = Ok tt /\ db_reachable (sm_db (fst (my_init s))) /\ block_in (sm_db (fst (my_init s))) 1 "foo" HOLDING_REGISTERS /\ is_unsigned (sm_db (fst (my_init s))) 1 true /\
     app_gets (sm_db (fst (my_init s))) 1 "foo" 0 100 (repeat 0 100) /\ forall u, u <> 1 -> get_slave (sm_db (fst (my_init s))) u = get_slave (sm_db s) u) /\
  ((exists sl, get_slave (sm_db s) 1 = Ok sl) -> my_init s = (s, Err DuplicatedKeyError)).
Proof.
  intros s D. split.
  - intros G. unfold my_init, add_slave. change ((1 <=? 0) || (255 <? 1)) with false. cbv iota. unfold get_slave in G. destruct (assoc Z.eqb 1 (db_slaves (sm_db s))) eqn:A; [discriminate G|].
    assert (E : assoc_put Z.eqb 1 (new_slave true None) (db_slaves (sm_db s)) = db_slaves (put_slave (sm_db s) 1 (new_slave true None))) by reflexivity.
    change (with_slaves (sm_db s) (assoc_put Z.eqb 1 (new_slave true None) (db_slaves (sm_db s)))) with (put_slave (sm_db s) 1 (new_slave true None)).
    rewrite get_slave_put_same. destruct (add_block (new_slave true None) "foo" 3 0 100) as [sl' r'] eqn:B. vm_compute in B. injection B as <- <-. cbn [fst snd sm_db with_db].
    split; [reflexivity|]. split.
    + assert (X : db_run (sm_db s) [DbAdd 1 true None; DbCall 1 (OpAddBlock "foo" 3 0 100)] = put_slave (put_slave (sm_db s) 1 (new_slave true None)) 1 (fst (add_block (new_slave true None) "foo" 3 0 100))).
      { cbn [db_run fold_left db_step]. unfold add_slave. change ((1 <=? 0) || (255 <? 1)) with false. cbv iota. rewrite A. cbn [fst].
        change (with_slaves (sm_db s) (assoc_put Z.eqb 1 (new_slave true None) (db_slaves (sm_db s)))) with (put_slave (sm_db s) 1 (new_slave true None)). rewrite get_slave_put_same. reflexivity. }
      vm_compute (fst (add_block (new_slave true None) "foo" 3 0 100)) in X. rewrite <- X. apply calls_reachable; [exact D|repeat constructor].
    + split; [|split; [|split]].
      * eexists. exists 0. split; [apply get_slave_put_same|]. split; [reflexivity|]. intros [|[|i]] [|[|j]] b b' N B B'; vm_compute in B, B'; try discriminate B; try discriminate B'; now destruct N.
      * eexists. split; [apply get_slave_put_same|reflexivity].
      * eexists. split; [apply get_slave_put_same|vm_compute; reflexivity].
      * intros u N. rewrite !get_slave_put_other by exact N. reflexivity.
  - intros [sl G]. unfold my_init, add_slave. change ((1 <=? 0) || (255 <? 1)) with false. cbv iota. unfold get_slave in G. destruct (assoc Z.eqb 1 (db_slaves (sm_db s))); [|discriminate G]. now rewrite same_db.
Qed.
Theorem C106_standard : forall m, standard (my_cmds m).
Proof.
  intros m n f H. unfold my_cmds, add_command. cbn [builtin_cmds assoc_put String.eqb Ascii.eqb Bool.eqb].
  cbn [assoc builtin_cmds] in H |- *.
  repeat match type of H with (if ?b then _ else _) = _ => destruct b; [exact H|] end. discriminate.
Qed.
(** "If the value of reg0 is greater than 30 then reg1 is set to 1" is no invariant: a later cv sets register 1 to anything. *)
Theorem C106_rule_refuted : ~ (forall text m lines x y,
  Forall (fun line => exists a vs, typed ("cv" :: py_str a :: map py_str vs) line) lines ->
  let '(s', _, _) := sim_run text (my_cmds m) (fst (my_init empty_sim)) (map Text lines) in
  app_gets (sm_db s') 1 "foo" 0 2 [x; y] -> 30 < x -> y = 1).
Proof.
  intros H. specialize (H some_text linux64 ["cv 0 31"; "cv 1 7"] 31 7).
  assert (F : Forall (fun line => exists a vs, typed ("cv" :: py_str a :: map py_str vs) line) ["cv 0 31"; "cv 1 7"]).
  { constructor; [exists 0, [31]; exists ""; split; reflexivity|]. constructor; [exists 1, [7]; exists ""; split; reflexivity|constructor]. }
  specialize (H F). destruct (sim_run _ _ _ _) as [[s' o] st] eqn:E. vm_compute in E. injection E as <- <- <-.
  assert (7 = 1); [|lia]. apply H; [|lia]. eexists. split; vm_compute; reflexivity.
Qed.
(** ... and a master that writes register 0 does not trigger it. *)
Theorem C106_master_refuted : exists s' d' y, sim_run some_text (my_cmds linux64) (fst (my_init empty_sim)) [Text "cv 0 30"] = (s', [append "cv done: 30" crlf], Running) /\
  round_trip TCP 0 (sm_db s') 1 (WriteReg 0 31) = (d', y) /\ app_gets d' 1 "foo" 0 2 [31; 0].
Proof. do 3 eexists. split; [vm_compute; reflexivity|]. split; [vm_compute; reflexivity|]. eexists. split; vm_compute; reflexivity. Qed.
(** Modbus sends the high byte first; a master that reads a float that way (">f") does not get 3.14 from a simulator on a PC. *)
Theorem C106_pi_refuted : ~ (forall m s' out, real_machine m -> sim_run some_text (my_cmds m) (fst (my_init empty_sim)) [Text "set_pi 10"] = (s', out, Running) ->
  exists w, nc_result (snd (against TCP (sm_db s') (mread m TCP 0 1 true 10 2 ">f"))) = Ok [w] /\ comes_back NF32 py_3_14 w).
Proof.
  intros H. set (r := sim_run some_text (my_cmds linux64) (fst (my_init empty_sim)) [Text "set_pi 10"]).
  assert (E : r = (fst (fst r), snd (fst r), Running)) by (vm_compute; reflexivity).
  assert (M : real_machine linux64) by (unfold real_machine; cbn; lia).
  destruct (H linux64 _ _ M E) as (w & W & C). set (q := nc_result _) in W. assert (Q : match q with Ok [NFloat y] => Bsign 53 1024 y | _ => false end = true) by (vm_compute; reflexivity).
  clearbody q. subst q. rename Q into Sy. unfold comes_back, py_3_14 in C.
  replace (is_not_a_number (b64_of_bits 4614253070214989087)) with false in C by (vm_compute; reflexivity).
  replace (is_number (b64_of_bits 4614253070214989087)) with true in C by (vm_compute; reflexivity).
  destruct C as (y & Y & _ & _ & Sg). subst w. replace (Bsign 53 1024 (b64_of_bits 4614253070214989087)) with false in Sg by (vm_compute; reflexivity). rewrite Sy in Sg. discriminate Sg.
Qed.
Example C106_ex : db_reachable (sm_db (fst (my_init empty_sim))) /\ ruled 0 [31; 5; 6] [31; 1; 6] /\ ruled 0 [31] [31; 1] /\ ruled 0 [30] [30] /\ ruled 4 [31; 2] [31; 2] /\
  (exists d', app_sets (sm_db (fst (my_init empty_sim))) 1 "foo" 0 (SvSeq [31; 1]) d') /\ typed ["cv"; "0"; "31"] (append "cv 0 31" crlf) /\
  (exists d', app_sets (sm_db (fst (my_init empty_sim))) 1 "foo" 98 (SvSeq (pi_registers linux64)) d') /\
  ~ (exists d', app_sets (sm_db (fst (my_init empty_sim))) 1 "foo" 99 (SvSeq (pi_registers linux64)) d').
Proof.
  split; [apply (C106_init empty_sim); [exists true, []; split; [constructor|reflexivity]|reflexivity]|].
  split; [now apply rule_ok|]. split; [now apply rule_ok|]. split; [now apply rule_ok|]. split; [now apply rule_ok|].
  split; [eexists; split; [reflexivity|]; do 2 eexists; split; vm_compute; reflexivity|]. split; [exists crlf; split; reflexivity|].
  split; [eexists; split; [reflexivity|]; do 2 eexists; split; vm_compute; reflexivity|].
  intros (d' & _ & s0 & s1 & G & S0). vm_compute in G. injection G as <-. vm_compute in S0. discriminate S0.
Qed.

Print Assumptions C105_read_format.
Print Assumptions C105_read_native_format.
Print Assumptions C106_cv.
Print Assumptions C106_cv_read.
Print Assumptions C106_set_pi.
Print Assumptions C106_literal.
Print Assumptions C106_pi_read.
Print Assumptions C106_init.
Print Assumptions C106_standard.
Print Assumptions C106_rule_refuted.
Print Assumptions C106_master_refuted.
Print Assumptions C106_pi_refuted.
