(** Properties C01-C23 and C60: slaves.  Vocabulary: Spec.v, SlaveSpec.v, BlockSpec.v. *)
From Coq Require Permutation.
From Verif Require Import AtomicProofs.
Open Scope string_scope.
Open Scope list_scope.
Open Scope Z_scope.

(** A slave used in the examples: 10 holding registers at 100, 20 coils at 0, 5 input
    registers at 7 and 3 discrete inputs at 1, with some values. *)
Definition demo (unsigned : bool) : slave :=
  slave_run (new_slave unsigned None)
    [OpAddBlock "r" 3 100 10; OpAddBlock "c" 1 0 20; OpAddBlock "i" 4 7 5; OpAddBlock "d" 2 1 3;
     OpSetValues "r" 101 (SvSeq [17; 300]); OpSetValues "c" 3 (SvSeq [1; 0; 1; 1])].
Lemma demo_reachable u : reachable (demo u).
Proof. eexists (new_slave u None), _. split; [constructor|reflexivity]. Qed.

Ltac upwards := cbn [history_respects app]; repeat split; cbn [respects]; intros t' E; injection E as <-;
  let b := fresh in let Hb := fresh in intros b Hb; vm_compute in Hb; repeat (destruct Hb as [<-|Hb]; [vm_compute; congruence|]); destruct Hb.
(* ------------------------------------------------------------------ C01 *)
(** The property as stated is false: three accepted add_block calls, two of whose
    ranges share address 50. *)
Theorem C01_refuted :
  ~ (forall u ops t, disjoint_blocks (blocks (slave_run (new_slave u None) ops) t)).
Proof.
  intros H.
  specialize (H true [OpAddBlock "a" 3 0 100; OpAddBlock "b" 3 100 100; OpAddBlock "c" 3 50 10] HOLDING_REGISTERS
    0%nat 2%nat _ _ ltac:(discriminate) eq_refl eq_refl 50).
  apply H; vm_compute; split; congruence.
Qed.

(** What does hold: if the blocks of each type are always added upwards, or always
    downwards, then no address ever belongs to two blocks, whatever else is called. *)
Theorem C01_partial :
  forall unsigned p ops, history_respects p (new_slave unsigned None) ops ->
  forall t, disjoint_blocks (blocks (slave_run (new_slave unsigned None) ops) t).
Proof. intros u p ops H t. exact (proj1 (proj2 (good_run p _ ops (inv_new u) (good_new p u) H) t)). Qed.
Example C01_partial_upwards :
  history_respects (fun _ => Upwards) (new_slave true None)
    [OpAddBlock "a" 3 0 10; OpAddBlock "b" 3 10 10; OpAddBlock "c" 3 15 10; OpRemoveBlock "b"; OpAddBlock "d" 3 15 10].
Proof. upwards. Qed.
Example C01_partial_downwards :
  history_respects (fun _ => Downwards) (new_slave true None)
    [OpAddBlock "a" 3 100 10; OpAddBlock "b" 3 10 10; OpAddBlock "c" 3 50 10].
Proof.
  cbn [history_respects]. repeat split; cbn [respects]; intros t E; injection E as <-; [now left| |]; right;
    eexists; (split; [vm_compute; first [right; left; reflexivity|left; reflexivity]|vm_compute; congruence]).
Qed.

(** One call: above all existing starts (or in a table listed upwards by address) the
    check is exact; and it never raises without an actual overlap. *)
Theorem C01_check_exact_partial :
  forall s name z t start size,
  reachable s -> 0 < size -> 0 <= start -> ~ registered s name -> btype_of_Z z = Some t -> has_table s t ->
  (forall b, In b (blocks s t) -> b_start b <= start) ->
  (meets s t start size -> add_block s name z start size = (s, Err OverlapModbusBlockError)) /\
  (~ meets s t start size -> exists s', add_block s name z start size = (s', Ok tt)).
Proof.
  intros s name z t start size Hr H1 H2 H3 H4 H5 H6.
  apply add_block_exact; auto; [now apply reachable_wf|].
  unfold registered in H3. destruct (assoc String.eqb name (sl_names s)); [exfalso; apply H3; discriminate|reflexivity].
Qed.
Theorem C01_no_false_alarm :
  forall s name z start size s',
  reachable s -> add_block s name z start size = (s', Err OverlapModbusBlockError) ->
  exists t, btype_of_Z z = Some t /\ meets s t start size.
Proof. intros s name z start size s' Hr. apply add_block_overlap_real. now apply reachable_wf. Qed.
Example C01_exact_ex : exists s', add_block (demo true) "x" 3 110 4 = (s', Ok tt).
Proof. eexists. vm_compute. reflexivity. Qed.
Example C01_alarm_ex : snd (add_block (demo true) "x" 3 109 4) = Err OverlapModbusBlockError.
Proof. reflexivity. Qed.

(* ------------------------------------------------------------------ C02 *)
Theorem C02_refuted :
  ~ (forall u ops name o, registered (slave_run (new_slave u None) ops) name -> other_name o name ->
     forall a n, get_values (fst (slave_step (slave_run (new_slave u None) ops) o)) name a n
                 = get_values (slave_run (new_slave u None) ops) name a n).
Proof.
  intros H.
  specialize (H true [OpAddBlock "a" 3 0 100; OpAddBlock "b" 3 100 100; OpSetValues "a" 0 (SvNum 7)] "a"
    (OpAddBlock "c" 3 0 5) ltac:(vm_compute; discriminate) ltac:(cbn; discriminate) 0 1).
  vm_compute in H. discriminate.
Qed.
Theorem C02_new_block_zero :
  forall s name z start size s',
  reachable s -> add_block s name z start size = (s', Ok tt) ->
  get_values s' name start size = Ok (repeat 0 (Z.to_nat size)).
Proof. intros s name z start size s' Hr. apply add_block_zeros. now apply reachable_inv. Qed.
Theorem C02_partial :
  forall unsigned p ops o name,
  history_respects p (new_slave unsigned None) (ops ++ [o]) ->
  let s := slave_run (new_slave unsigned None) ops in
  registered s name -> other_name o name ->
  forall a n, get_values (fst (slave_step s o)) name a n = get_values s name a n.
Proof.
  intros u p ops o name H s Hreg Ho.
  assert (H2 : history_respects p (new_slave u None) ops /\ respects p s o).
  { unfold s, slave_run. clear Hreg. revert H. generalize (new_slave u None).
    induction ops as [|x ops IH]; cbn; intros s0; [tauto|]. intros [G1 G2]. apply IH in G2. tauto. }
  destruct H2 as [Hh Hr]. eapply names_stable_step; eauto.
  - apply run_inv, inv_new.
  - apply good_run; [apply inv_new|apply good_new|exact Hh].
Qed.
Example C02_ex :
  history_respects (fun _ => Upwards) (new_slave true None) ([OpAddBlock "a" 3 0 10] ++ [OpAddBlock "b" 3 10 10]) /\
  registered (slave_run (new_slave true None) [OpAddBlock "a" 3 0 10]) "a" /\
  other_name (OpAddBlock "b" 3 10 10) "a".
Proof.
  split; [upwards|split; vm_compute; discriminate].
Qed.

(* ------------------------------------------------------------------ C03 *)
Theorem C03_set_get :
  forall s name a v s',
  reachable s -> set_values s name a v = (s', Ok tt) ->
  get_values s' name a (zlen (values_of v)) = Ok (values_of v) /\
  same_layout s s' /\
  exists t start, named s name t start /\
    (forall t' i b b' x, nth_error (blocks s t') i = Some b -> nth_error (blocks s' t') i = Some b' ->
       cell b' x <> cell b x -> same_table s t t' /\ b_start b = start /\ a <= x < a + zlen (values_of v)).
Proof. intros s name a v s' Hr. apply set_get. now apply reachable_inv. Qed.
Example C03_ex : exists s', set_values (demo true) "r" 104 (SvSeq [5; 6; -7]) = (s', Ok tt).
Proof. eexists. vm_compute. reflexivity. Qed.

(* ------------------------------------------------------------------ C04 *)
Theorem C04_set_values_range :
  forall s name a v,
  reachable s ->
  (~ registered s name -> set_values s name a v = (s, Err MissingKeyError)) /\
  (registered s name -> inside s name a (zlen (values_of v)) ->
     exists s', set_values s name a v = (s', Ok tt)) /\
  (registered s name -> ~ inside s name a (zlen (values_of v)) ->
     set_values s name a v = (s, Err OutOfModbusBlockError)).
Proof.
  intros s name a v Hr. apply reachable_inv in Hr. rewrite (inside_iff s name a _ Hr). now apply set_values_cases.
Qed.
Theorem C04_get_values_range_partial :
  forall s name a n,
  reachable s -> 0 <= n ->
  (~ registered s name -> get_values s name a n = Err MissingKeyError) /\
  (registered s name -> inside s name a n -> exists vs, get_values s name a n = Ok vs /\ zlen vs = n) /\
  (registered s name -> ~ inside s name a n -> get_values s name a n = Err OutOfModbusBlockError).
Proof.
  intros s name a n Hr Hn. apply reachable_inv in Hr. rewrite (inside_iff s name a _ Hr). now apply get_values_cases.
Qed.
(** With a negative size get_values may return data instead of raising. *)
Theorem C04_negative_size_refuted :
  ~ (forall s name a n vs, reachable s -> get_values s name a n = Ok vs -> zlen vs = n).
Proof.
  intros H. specialize (H (demo true) "r" 100 (-3) [0; 17; 300; 0; 0; 0; 0] (demo_reachable true) eq_refl).
  discriminate.
Qed.
Example C04_ex_in : inside (demo true) "r" 108 2.
Proof.
  exists HOLDING_REGISTERS, {| b_start := 100; b_size := 10; b_data := [0; 17; 300; 0; 0; 0; 0; 0; 0; 0] |}.
  split; [split; [reflexivity|exists [], []; split; [reflexivity|intros c []]]|split; cbn; lia].
Qed.
Example C04_ex_out : get_values (demo true) "r" 109 2 = Err OutOfModbusBlockError.
Proof. reflexivity. Qed.

(* ------------------------------------------------------------------ C05 *)
Theorem C05_add_block_arguments :
  forall s name z start size,
  (size <= 0 \/ start < 0 -> add_block s name z start size = (s, Err InvalidArgumentError)) /\
  (0 < size -> 0 <= start -> registered s name -> add_block s name z start size = (s, Err DuplicatedKeyError)) /\
  (0 < size -> 0 <= start -> ~ registered s name -> btype_of_Z z = None ->
     add_block s name z start size = (s, Err InvalidModbusBlockError)).
Proof. exact add_block_checks. Qed.
Theorem C05_add_block_all_or_nothing :
  forall s name z start size s' e,
  add_block s name z start size = (s', Err e) -> indistinguishable s' s.
Proof. intros s name z start size s' e H ops. now apply add_block_err in H as ->. Qed.
Example C05_ex : snd (add_block (demo true) "r" 3 500 1) = Err DuplicatedKeyError /\
                 snd (add_block (demo true) "r" 3 500 0) = Err InvalidArgumentError /\
                 snd (add_block (demo true) "n" 9 500 1) = Err InvalidModbusBlockError.
Proof. repeat split. Qed.

(* ------------------------------------------------------------------ C06 *)
Theorem C06_remove_block :
  forall s name, reachable s ->
  (~ registered s name -> remove_block s name = (s, Err MissingKeyError)) /\
  (registered s name -> exists s' t l1 b l2,
     remove_block s name = (s', Ok tt) /\
     named s name t (b_start b) /\ blocks s t = l1 ++ b :: l2 /\ blocks s' t = l1 ++ l2 /\
     (forall t', ~ same_table s t t' -> blocks s' t' = blocks s t') /\
     ~ registered s' name /\
     (forall n, n <> name -> forall t' st, named s' n t' st <-> named s n t' st) /\
     (disjoint_blocks (blocks s t) ->
        forall z n, btype_of_Z z = Some t -> ~ registered s' n ->
        exists s'', add_block s' n z (b_start b) (b_size b) = (s'', Ok tt))).
Proof. intros s name Hr. apply remove_block_spec. now apply reachable_inv. Qed.
Theorem C06_remove_all_blocks :
  forall s, (forall n, ~ registered (remove_all_blocks s) n) /\
            (forall t, blocks (remove_all_blocks s) t = []).
Proof. intros s. split; [apply (remove_all_spec s COILS)|intros t; apply (remove_all_spec s t)]. Qed.
Example C06_ex : registered (demo true) "r" /\ snd (remove_block (demo true) "r") = Ok tt.
Proof. split; [vm_compute; discriminate|reflexivity]. Qed.

(* ------------------------------------------------------------------ C07 *)
Theorem C07_blocks_have_their_cells :
  forall s, reachable s ->
  (forall t b, In b (blocks s t) -> 0 <= b_start b /\ 0 < b_size b /\ zlen (b_data b) = b_size b) /\
  (forall name t start, named s name t start -> exists b, denotes s name t b /\ b_start b = start).
Proof.
  intros s Hr. apply reachable_inv in Hr. split.
  - intros t b Hb. pose proof (inv_wf_slave _ Hr t) as Hw. rewrite Forall_forall in Hw. exact (Hw b Hb).
  - intros name t start Hn. destruct (inv_resolve _ _ _ _ Hr Hn) as (l1 & b & l2 & Hnb).
    exists b. split; [eapply names_block_denotes; eauto|].
    destruct Hnb as (st & Ha & _ & _ & Hs & _). unfold named in Hn. congruence.
Qed.
Theorem C07_no_bug_exception :
  forall s, reachable s ->
  (forall name a v, snd (set_values s name a v) <> Err GenericException) /\
  (forall name a n, get_values s name a n <> Err GenericException) /\
  (forall name, snd (remove_block s name) <> Err GenericException).
Proof.
  intros s Hr. apply reachable_inv in Hr.
  assert (Hg : forall name, (exists e, get_block s name = Err e /\ e = MissingKeyError) \/ exists t i b, get_block s name = Ok (t, i, b)).
  { intros name. unfold get_block at 1. destruct (assoc String.eqb name (sl_names s)) as [[t st]|] eqn:E; [|left; eauto].
    right. destruct (inv_resolve _ _ _ _ Hr E) as (l1 & b & l2 & Hnb). exists t, (length l1), b. apply get_block_ok. eauto. }
  split; [|split].
  - intros name a v. unfold set_values. destruct (Hg name) as [(e & -> & ->)|(t & i & b & ->)]; [discriminate|].
    destruct (_ || _); [discriminate|]. destruct v; [discriminate|]. destruct (py_set _ _ _) eqn:E; [discriminate|].
    unfold py_set in E. destruct (_ || _) in E; [injection E as <-; discriminate|discriminate].
  - intros name a n. unfold get_values. destruct (Hg name) as [(e & -> & ->)|(t & i & b & ->)]; [discriminate|]. cbn [bind].
    destruct (_ || _); [discriminate|]. destruct (n =? 1); [|discriminate]. unfold py_get.
    destruct (_ || _); [discriminate|]. destruct (nth_error _ _); discriminate.
  - intros name. unfold remove_block. destruct (Hg name) as [(e & -> & ->)|(t & i & b & ->)]; [discriminate|].
    unfold mem_get. destruct (get4 _ t); discriminate.
Qed.
Example C07_ex : named (demo true) "r" HOLDING_REGISTERS 100.
Proof. reflexivity. Qed.

(* ------------------------------------------------------------------ C08 *)
Theorem C08_read_registers :
  forall s fc t a n rest, reachable s -> reg_table fc t -> has_table s t -> fits true a -> fits true n ->
  let pdu := fc :: word a ++ word n ++ rest in
  (forall b, 1 <= n <= 125 -> served_by s t a n b -> Forall (fits (sl_unsigned s)) (values_at b a n) ->
     handle_request s pdu false = (s, Ok (fc :: 2 * n :: words (values_at b a n)))) /\
  (~ (1 <= n <= 125) -> handle_request s pdu false = (s, Ok [fc + 128; 3])) /\
  (1 <= n <= 125 -> not_covered s t a n -> handle_request s pdu false = (s, Ok [fc + 128; 2])).
Proof.
  intros s fc t a n rest _ Hr Ht Ha Hn pdu. split; [|split].
  - intros b H1 H2 H3. now apply (hr_read_registers s fc t).
  - intros H. now apply (hr_read_registers_count s fc t).
  - intros H1 H2. now apply (hr_read_registers_addr s fc t).
Qed.
Example C08_ex :
  handle_request (demo true) (3 :: word 101 ++ word 2 ++ []) false = (demo true, Ok [3; 4; 0; 17; 1; 44]) /\
  handle_request (demo true) (4 :: word 7 ++ word 6 ++ []) false = (demo true, Ok [132; 2]).
Proof. split; vm_compute; reflexivity. Qed.

(* ------------------------------------------------------------------ C09 *)
Theorem C09_read_bits :
  forall s fc t a n rest, reachable s -> bit_table fc t -> has_table s t -> fits true a -> fits true n ->
  let pdu := fc :: word a ++ word n ++ rest in
  (forall b, 1 <= n <= 2000 -> served_by s t a n b ->
     exists out, handle_request s pdu false = (s, Ok (fc :: bytes_for_bits n :: out)) /\
                 packs_bits (values_at b a n) out) /\
  (~ (1 <= n <= 2000) -> handle_request s pdu false = (s, Ok [fc + 128; 3])) /\
  (1 <= n <= 2000 -> not_covered s t a n -> handle_request s pdu false = (s, Ok [fc + 128; 2])).
Proof.
  intros s fc t a n rest _ Hr Ht Ha Hn pdu. split; [|split].
  - intros b H1 H2. now apply (hr_read_digital s fc t).
  - intros H. now apply (hr_read_digital_count s fc t).
  - intros H1 H2. now apply (hr_read_digital_addr s fc t).
Qed.
Example C09_ex : handle_request (demo false) (1 :: word 0 ++ word 10 ++ []) false = (demo false, Ok [1; 2; 104; 0]).
Proof. vm_compute. reflexivity. Qed.

(* ------------------------------------------------------------------ C10 *)
Theorem C10_write_coil :
  forall s a w rest, reachable s -> has_table s COILS -> fits true a -> fits true w ->
  let pdu := 5 :: word a ++ word w ++ rest in
  ((exists b, served_by s COILS a 1 b) -> w = 65280 ->
     exists s', handle_request s pdu false = (s', Ok pdu) /\ wrote s COILS a [1] s') /\
  ((exists b, served_by s COILS a 1 b) -> w = 0 ->
     exists s', handle_request s pdu false = (s', Ok pdu) /\ wrote s COILS a [0] s') /\
  ((exists b, served_by s COILS a 1 b) -> w <> 0 -> w <> 65280 -> handle_request s pdu false = (s, Ok [133; 3])) /\
  (not_covered s COILS a 1 -> handle_request s pdu false = (s, Ok [133; 2])).
Proof.
  intros s a w rest Hr Ht Ha Hw pdu. apply reachable_wf in Hr. split; [|split; [|split]].
  - intros Hb ->. apply (hr_write_coil s a 65280 rest); auto.
  - intros Hb ->. apply (hr_write_coil s a 0 rest); auto.
  - intros Hb H1 H2. now apply hr_write_coil_value.
  - intros Hb. now apply hr_write_coil_addr.
Qed.
Example C10_ex : snd (handle_request (demo true) (5 :: word 19 ++ word 65280 ++ []) false) = Ok [5; 0; 19; 255; 0].
Proof. reflexivity. Qed.

(* ------------------------------------------------------------------ C11 *)
Theorem C11_write_register :
  forall s a w rest, reachable s -> has_table s HOLDING_REGISTERS -> fits true a -> fits true w ->
  let pdu := 6 :: word a ++ word w ++ rest in
  ((exists b, served_by s HOLDING_REGISTERS a 1 b) ->
     exists s', handle_request s pdu false = (s', Ok pdu) /\
                wrote s HOLDING_REGISTERS a [reg_of_word (sl_unsigned s) w] s') /\
  (not_covered s HOLDING_REGISTERS a 1 -> handle_request s pdu false = (s, Ok [134; 2])).
Proof.
  intros s a w rest Hr Ht Ha Hw pdu. apply reachable_wf in Hr. split.
  - intros Hb. now apply hr_write_register.
  - intros Hb. now apply hr_write_register_addr.
Qed.
Example C11_ex : get_values (fst (handle_request (demo false) (6 :: word 109 ++ word 65535 ++ []) false)) "r" 109 1 = Ok [-1].
Proof. reflexivity. Qed.

(* ------------------------------------------------------------------ C12 *)
Theorem C12_write_coils :
  forall s a n data rest, reachable s -> has_table s COILS -> fits true a -> fits true n -> bytes data ->
  (1 <= n <= 1968 -> zlen data = bytes_for_bits n -> (exists b, served_by s COILS a n b) ->
     exists s', handle_request s (15 :: word a ++ word n ++ zlen data :: data ++ rest) false
                = (s', Ok (15 :: word a ++ word n)) /\
                wrote s COILS a (bits_of data (Z.to_nat n)) s') /\
  (forall bc, ~ (1 <= n <= 1968 /\ bc = bytes_for_bits n) ->
     handle_request s (15 :: word a ++ word n ++ bc :: data) false = (s, Ok [143; 3])) /\
  (1 <= n <= 1968 -> not_covered s COILS a n ->
     handle_request s (15 :: word a ++ word n ++ bytes_for_bits n :: data) false = (s, Ok [143; 2])).
Proof.
  intros s a n data rest Hr Ht Ha Hn Hd. apply reachable_wf in Hr. split; [|split].
  - intros H1 H2 H3. now apply hr_write_coils.
  - intros bc H. now apply hr_write_coils_count.
  - intros H1 H2. now apply hr_write_coils_addr.
Qed.
Example C12_ex :
  get_values (fst (handle_request (demo true) (15 :: word 5 ++ word 10 ++ [2; 205; 253]) false)) "c" 4 12
  = Ok [0; 1; 0; 1; 1; 0; 0; 1; 1; 1; 0; 0].
Proof. reflexivity. Qed.

(* ------------------------------------------------------------------ C13 *)
Theorem C13_write_registers :
  forall s a, reachable s -> has_table s HOLDING_REGISTERS -> fits true a ->
  (forall ws rest, 1 <= zlen ws <= 123 -> Forall (fits true) ws ->
     (exists b, served_by s HOLDING_REGISTERS a (zlen ws) b) ->
     exists s', handle_request s (16 :: word a ++ word (zlen ws) ++ 2 * zlen ws :: words ws ++ rest) false
                = (s', Ok (16 :: word a ++ word (zlen ws))) /\
                wrote s HOLDING_REGISTERS a (map (reg_of_word (sl_unsigned s)) ws) s') /\
  (forall n bc data, fits true n -> ~ (1 <= n <= 123 /\ bc = 2 * n) ->
     handle_request s (16 :: word a ++ word n ++ bc :: data) false = (s, Ok [144; 3])) /\
  (forall n data, 1 <= n <= 123 -> not_covered s HOLDING_REGISTERS a n ->
     handle_request s (16 :: word a ++ word n ++ 2 * n :: data) false = (s, Ok [144; 2])).
Proof.
  intros s a Hr Ht Ha. apply reachable_wf in Hr. split; [|split].
  - intros ws rest H1 H2 H3. now apply hr_write_registers.
  - intros n bc data H1 H2. now apply hr_write_registers_count.
  - intros n data H1 H2. now apply hr_write_registers_addr.
Qed.
Example C13_ex :
  get_values (fst (handle_request (demo false) (16 :: word 103 ++ word 2 ++ [4; 1; 2; 255; 254]) false)) "r" 101 5
  = Ok [17; 300; 258; -2; 0].
Proof. reflexivity. Qed.

(* ------------------------------------------------------------------ C14 *)
Theorem C14_mask_write :
  forall s a am om rest, reachable s -> has_table s HOLDING_REGISTERS -> fits true a -> fits true am -> fits true om ->
  let pdu := 22 :: word a ++ word am ++ word om ++ rest in
  (forall b, served_by s HOLDING_REGISTERS a 1 b ->
     exists s' old new, cell b a = Some old /\ handle_request s pdu false = (s', Ok pdu) /\
       wrote s HOLDING_REGISTERS a [new] s' /\
       (forall k, 0 <= k -> Z.testbit new k = if Z.testbit am k then Z.testbit old k else Z.testbit om k)) /\
  (not_covered s HOLDING_REGISTERS a 1 -> handle_request s pdu false = (s, Ok [150; 2])).
Proof.
  intros s a am om rest Hr Ht Ha H1 H2 pdu. apply reachable_wf in Hr. split.
  - intros b Hb. destruct (hr_mask_write s a am om rest b Hr Ht Ha H1 H2 Hb) as (s' & old & Hc & Hh & Hw).
    exists s', old, (Z.lor (Z.land old am) (Z.land om (Z.lnot am))). repeat split; auto.
    intros k Hk. rewrite Z.lor_spec, !Z.land_spec, Z.lnot_spec by assumption.
    destruct (Z.testbit old k), (Z.testbit am k), (Z.testbit om k); reflexivity.
  - intros Hb. now apply hr_mask_write_addr.
Qed.
Example C14_ex :
  get_values (fst (handle_request (demo true) (22 :: word 101 ++ word 242 ++ word 37 ++ []) false)) "r" 101 1 = Ok [21].
Proof. reflexivity. Qed.

(* ------------------------------------------------------------------ C15 *)
(** The response holds the values from before the write. *)
Theorem C15_read_write_partial :
  forall s ra wa, reachable s -> has_table s HOLDING_REGISTERS -> fits true ra -> fits true wa ->
  (forall rq ws rest rb, 1 <= rq <= 125 -> 1 <= zlen ws <= 123 -> Forall (fits true) ws ->
     served_by s HOLDING_REGISTERS ra rq rb -> Forall (fits (sl_unsigned s)) (values_at rb ra rq) ->
     (exists b, served_by s HOLDING_REGISTERS wa (zlen ws) b) ->
     exists s', handle_request s (23 :: word ra ++ word rq ++ word wa ++ word (zlen ws)
                                    ++ 2 * zlen ws :: words ws ++ rest) false
                = (s', Ok (23 :: 2 * rq :: words (values_at rb ra rq))) /\
                wrote s HOLDING_REGISTERS wa (map (reg_of_word (sl_unsigned s)) ws) s') /\
  (forall rq wq bc data, fits true rq -> fits true wq -> ~ (1 <= rq <= 125) ->
     handle_request s (23 :: word ra ++ word rq ++ word wa ++ word wq ++ bc :: data) false = (s, Ok [151; 3])) /\
  (forall rq wq bc data, fits true wq -> 1 <= rq <= 125 -> not_covered s HOLDING_REGISTERS ra rq ->
     handle_request s (23 :: word ra ++ word rq ++ word wa ++ word wq ++ bc :: data) false = (s, Ok [151; 2])) /\
  (forall rq wq bc data rb, fits true wq -> 1 <= rq <= 125 ->
     served_by s HOLDING_REGISTERS ra rq rb -> Forall (fits (sl_unsigned s)) (values_at rb ra rq) ->
     ~ (1 <= wq <= 123 /\ bc = 2 * wq) ->
     handle_request s (23 :: word ra ++ word rq ++ word wa ++ word wq ++ bc :: data) false = (s, Ok [151; 3])) /\
  (forall rq wq data rb, 1 <= rq <= 125 -> 1 <= wq <= 123 ->
     served_by s HOLDING_REGISTERS ra rq rb -> Forall (fits (sl_unsigned s)) (values_at rb ra rq) ->
     not_covered s HOLDING_REGISTERS wa wq ->
     handle_request s (23 :: word ra ++ word rq ++ word wa ++ word wq ++ 2 * wq :: data) false = (s, Ok [151; 2])).
Proof.
  intros s ra wa Hr Ht Ha Hw. apply reachable_wf in Hr. repeat split.
  - intros. now apply hr_read_write.
  - intros. now apply hr_read_write_rcount.
  - intros. now apply hr_read_write_raddr.
  - intros. now apply (hr_read_write_wcount s ra rq wa wq bc data rb).
  - intros. now apply (hr_read_write_waddr s ra rq wa wq data rb).
Qed.
(** The specification's "write first" fails: writing 9 to register 101 and reading it in
    the same request returns the old 17. *)
Theorem C15_write_before_read_refuted :
  ~ (forall s ra rq wa ws s' resp, reachable s ->
     handle_request s (23 :: word ra ++ word rq ++ word wa ++ word (zlen ws) ++ 2 * zlen ws :: words ws) false
       = (s', Ok (23 :: 2 * rq :: resp)) ->
     exists b, served_by s' HOLDING_REGISTERS ra rq b /\ resp = words (values_at b ra rq)).
Proof.
  intros H.
  destruct (H (demo true) 101 1 101 [9] _ _ (demo_reachable true) eq_refl) as (b & (l1 & l2 & Hb & Hc & _) & E).
  vm_compute in Hb. destruct l1 as [|x [|y l1]]; cbn in Hb; try discriminate.
  injection Hb as <- _. vm_compute in E. discriminate.
Qed.
Example C15_ex :
  snd (handle_request (demo true) (23 :: word 101 ++ word 2 ++ word 103 ++ word 1 ++ [2; 0; 9]) false) = Ok [23; 4; 0; 17; 1; 44].
Proof. reflexivity. Qed.

(* ------------------------------------------------------------------ C16 *)
Theorem C16_unsupported_partial :
  forall s fc rest bc, 0 <= fc < 128 -> ~ supported fc ->
  handle_request s (fc :: rest) bc = (s, Ok [fc + 128; 1]).
Proof.
  intros s fc rest bc Hfc Hs. unfold handle_request. rewrite unpack_fc.
  rewrite (proj2 (fn_none_iff fc) Hs). cbn [catch_modbus_error]. rewrite pack_BB.
  replace (byte_b (fc + 128)) with true by (unfold byte_b; lia). reflexivity.
Qed.
(** Among them are codes that defines.py names. *)
Theorem C16_named : forall s rest,
  handle_request s (DIAGNOSTIC :: rest) false = (s, Ok [136; 1]) /\
  handle_request s (REPORT_SLAVE_ID :: rest) false = (s, Ok [145; 1]) /\ handle_request s (READ_FILE_RECORD :: rest) false = (s, Ok [148; 1]) /\
  handle_request s (DEVICE_INFO :: rest) false = (s, Ok [171; 1]).
Proof.
  intros s rest. repeat split; (rewrite C16_unsupported_partial; [reflexivity|unfold DIAGNOSTIC, REPORT_SLAVE_ID, READ_FILE_RECORD, DEVICE_INFO; lia|]);
    unfold supported; intros H; cbn in H; repeat (destruct H as [H|H]; [discriminate H|]); destruct H.
Qed.
(** Codes 128..255: no answer, a struct.error escapes. *)
Theorem C16_refuted :
  forall s fc rest bc, 128 <= fc <= 255 -> handle_request s (fc :: rest) bc = (s, Err StructError).
Proof.
  intros s fc rest bc Hfc. unfold handle_request. rewrite unpack_fc.
  assert (Hs : ~ supported fc) by (unfold supported; cbn; lia).
  rewrite (proj2 (fn_none_iff fc) Hs). cbn [catch_modbus_error]. rewrite pack_BB.
  replace (byte_b (fc + 128)) with false by (unfold byte_b; lia). reflexivity.
Qed.
Example C16_ex : ~ supported 43 /\ 0 <= 43 < 128.
Proof. unfold supported. cbn. lia. Qed.

(* ------------------------------------------------------------------ C17 *)
Theorem C17_exception_means_unchanged :
  forall s pdu bc s' x resp, reachable s -> handle_request s pdu bc = (s', Ok (x :: resp)) -> 128 <= x ->
  s' = s /\ exists fc rest c, pdu = fc :: rest /\ x = fc + 128 /\ resp = [c] /\
    (c = 1 /\ ~ supported fc \/ (c = 2 \/ c = 3) /\ supported fc).
Proof.
  intros s pdu bc s' x resp Hr H Hx. apply reachable_wf in Hr.
  destruct (hr_exception _ _ _ _ _ _ Hr H Hx) as (fc & rest & c & H1 & H2 & H3 & H4 & H5).
  split; [exact H4|]. exists fc, rest, c. auto.
Qed.
Example C17_ex : snd (handle_request (demo true) (16 :: word 105 ++ word 6 ++ [12; 0; 1; 0; 2]) false) = Ok [144; 2].
Proof. reflexivity. Qed.

(* ------------------------------------------------------------------ C18 *)
Theorem C18_refuted :
  ~ (forall s pdu, reachable s -> bytes pdu ->
     fst (handle_request s pdu false) = s \/ positive pdu false (snd (handle_request s pdu false))).
Proof.
  intros H. destruct (H (demo true) (16 :: word 103 ++ word 2 ++ [4; 0; 9]) (demo_reachable true)) as [E|[r E]].
  - repeat constructor; unfold is_byte; lia.
  - vm_compute in E. discriminate.
  - vm_compute in E. discriminate.
Qed.
(** Requests carrying all the data bytes they announce are atomic. *)
Theorem C18_complete_requests_partial :
  forall s pdu bc, reachable s -> bytes pdu -> complete pdu ->
  fst (handle_request s pdu bc) = s \/ positive pdu bc (snd (handle_request s pdu bc)).
Proof. intros s pdu bc Hr. apply hr_atomic. now apply reachable_wf. Qed.
Example C18_ex : complete (16 :: word 103 ++ word 2 ++ [4; 0; 9; 0; 8]) /\ ~ complete (16 :: word 103 ++ word 2 ++ [4; 0; 9]) /\
  complete (6 :: word 103 ++ [0]).
Proof. unfold complete, zlen. cbn. lia. Qed.

(* ------------------------------------------------------------------ C19 *)
Theorem C19_reads_do_not_write :
  forall s fc rest bc, reachable s -> ~ In fc [5; 6; 15; 16; 22; 23] ->
  fst (handle_request s (fc :: rest) bc) = s.
Proof.
  intros s fc rest bc Hr Hn. apply reachable_wf in Hr.
  destruct (hr_state s (fc :: rest) bc Hr) as [H|(fc' & r' & t & a & n & vals & E & Hw & _)]; [exact H|].
  exfalso. apply Hn. unfold write_range in Hw.
  destruct (fc =? 5) eqn:?; [cbn; lia|]. destruct (fc =? 6) eqn:?; [cbn; lia|]. destruct (fc =? 15) eqn:?; [cbn; lia|].
  destruct (fc =? 16) eqn:?; [cbn; lia|]. destruct (fc =? 22) eqn:?; [cbn; lia|]. destruct (fc =? 23) eqn:?; [cbn; lia|]. discriminate.
Qed.
Example C19_ex : ~ In 3 [5; 6; 15; 16; 22; 23] /\ ~ In 43 [5; 6; 15; 16; 22; 23].
Proof. cbn. lia. Qed.

(* ------------------------------------------------------------------ C20 *)
Theorem C20_only_named_cells :
  forall s pdu bc, reachable s ->
  let s' := fst (handle_request s pdu bc) in
  same_layout s s' /\
  forall t i b b' x, nth_error (blocks s t) i = Some b -> nth_error (blocks s' t) i = Some b' ->
    cell b' x <> cell b x ->
    exists t0 a n, write_range pdu = Some (t0, a, n) /\ same_table s t0 t /\ a <= x < a + n.
Proof.
  intros s pdu bc Hr s'. apply reachable_wf in Hr. destruct (hr_effect s pdu bc Hr) as (H1 & _ & H2). split; [exact H1|exact H2].
Qed.
Example C20_ex : fst (handle_request (demo true) (16 :: word 103 ++ word 2 ++ [4; 0; 9]) false) <> demo true.
Proof. vm_compute. discriminate. Qed.

(* ------------------------------------------------------------------ C21 *)
Ltac storable := intros t b v Hb Hv; destruct t; vm_compute in Hb;
  (destruct Hb as [<-|[]]; vm_compute in Hv;
   repeat (destruct Hv as [<-|Hv]; [vm_compute; split; congruence|]); destruct Hv).
Theorem C21_registers_stay_storable_partial :
  forall s pdu bc, reachable s -> bytes pdu -> all_fit s -> sl_unsigned s = true \/ hd 0 pdu <> 22 ->
  all_fit (fst (handle_request s pdu bc)).
Proof. intros s pdu bc Hr. apply hr_fit. now apply reachable_wf. Qed.
Theorem C21_storable_reads_answered :
  forall s fc t rest, reachable s -> all_fit s -> reg_table fc t -> has_table s t -> bytes (fc :: rest) ->
  (4 <= length rest)%nat -> exists resp, snd (handle_request s (fc :: rest) false) = Ok resp.
Proof. intros s fc t rest Hr. apply fit_read_answered. now apply reachable_wf. Qed.
Theorem C21_refuted :
  ~ (forall s pdu bc, reachable s -> bytes pdu -> all_fit s -> all_fit (fst (handle_request s pdu bc))).
Proof.
  intros H.
  assert (Hf : all_fit (demo false)).
  { storable. }
  specialize (H (demo false) (22 :: word 103 ++ word 0 ++ word 32768) false (demo_reachable false)).
  assert (Hby : bytes (22 :: word 103 ++ word 0 ++ word 32768)) by (repeat constructor; unfold is_byte; cbn; lia).
  specialize (H Hby Hf HOLDING_REGISTERS _ 32768 (or_introl eq_refl)).
  assert (Hin : fits false 32768) by (apply H; vm_compute; tauto). unfold fits in Hin. lia.
Qed.
(** ... and then every read of that register fails *)
Example C21_refuted_effect :
  snd (handle_request (fst (handle_request (demo false) (22 :: word 103 ++ word 0 ++ word 32768) false))
         (3 :: word 103 ++ word 1) false) = Err StructError.
Proof. vm_compute. reflexivity. Qed.
Example C21_ex : all_fit (demo true).
Proof. storable. Qed.

(* ------------------------------------------------------------------ C22 *)
Theorem C22_unique_block :
  forall s t a n b b', disjoint_blocks (blocks s t) -> 1 <= n ->
  In b (blocks s t) -> In b' (blocks s t) -> covers b a n -> covers b' a n -> b = b'.
Proof. intros s t a n b b'. apply covers_unique. Qed.
Theorem C22_order_independent :
  forall s s' pdu bc, reordered s s' -> (forall t, disjoint_blocks (blocks s t)) ->
  snd (handle_request s' pdu bc) = snd (handle_request s pdu bc) /\
  reordered (fst (handle_request s pdu bc)) (fst (handle_request s' pdu bc)).
Proof.
  intros s s' pdu bc [H1 H2 H3] Hd.
  destruct (shuffled_hr s s' pdu bc (Build_shuffled _ _ H1 H2 H3) Hd) as [[G1 G2 G3] G4].
  split; [exact G4|constructor; assumption].
Qed.
Theorem C22_spanning_refused :
  forall s t a n b x y,
  disjoint_blocks (blocks s t) -> In b (blocks s t) -> holds b x -> ~ holds b y ->
  a <= x < a + n -> a <= y < a + n -> not_covered s t a n.
Proof. exact span_refused. Qed.
(** two adjacent blocks, added in either order: same answers; a range across them is refused *)
Definition two_up := slave_run (new_slave true None) [OpAddBlock "a" 3 0 10; OpAddBlock "b" 3 10 10].
Definition two_down := slave_run (new_slave true None) [OpAddBlock "b" 3 10 10; OpAddBlock "c" 3 30 2; OpAddBlock "a" 3 0 10; OpRemoveBlock "c"].
Example C22_ex : reordered two_up two_down /\ (forall t, disjoint_blocks (blocks two_up t)) /\
  blocks two_up HOLDING_REGISTERS <> blocks two_down HOLDING_REGISTERS /\
  snd (handle_request two_up (3 :: word 9 ++ word 2) false) = Ok [131; 2].
Proof.
  split; [|split; [|split]].
  - constructor; try reflexivity. intros []; vm_compute; constructor.
  - intros t. apply (C01_partial true (fun _ => Upwards) [OpAddBlock "a" 3 0 10; OpAddBlock "b" 3 10 10]).
    upwards.
  - vm_compute. discriminate.
  - vm_compute. reflexivity.
Qed.

(* ------------------------------------------------------------------ C23 *)
Theorem C23_response_shape :
  forall s fc rest bc s' r, bytes (fc :: rest) -> handle_request s (fc :: rest) bc = (s', Ok r) ->
  bytes r /\ zlen r <= Z.max 252 (zlen (fc :: rest)) /\
  (r = [] /\ bc = true \/ hd 0 r = fc \/ hd 0 r = fc + 128).
Proof. exact hr_small. Qed.
Example C23_ex : exists s' r, handle_request (demo true) [3; 0; 101; 0; 1] false = (s', Ok r).
Proof. eexists _, _. vm_compute. reflexivity. Qed.

(* ------------------------------------------------------------------ C60 *)
Theorem C60_shared_blocks :
  forall s t t', same_table s t t' -> blocks s t' = blocks s t.
Proof. exact blocks_same_table. Qed.
(** Holding and input registers bound to one list: FC3 and FC4 give the same data. *)
Theorem C60_shared_reads :
  forall s rest bc, same_table s HOLDING_REGISTERS ANALOG_INPUTS ->
  match snd (handle_request s (3 :: rest) bc), snd (handle_request s (4 :: rest) bc) with
  | Ok r3, Ok r4 => r3 = [] /\ r4 = [] \/ exists d, (r3 = 3 :: d /\ r4 = 4 :: d) \/ (r3 = 131 :: d /\ r4 = 132 :: d)
  | Err e3, Err e4 => e3 = e4
  | _, _ => False
  end.
Proof.
  intros s rest bc Hs. unfold handle_request. rewrite !unpack_fc.
  change (fn_code_map 3) with (Some (fun (s : slave) (p : list Z) => (s, read_registers s HOLDING_REGISTERS p))).
  change (fn_code_map 4) with (Some (fun (s : slave) (p : list Z) => (s, read_registers s ANALOG_INPUTS p))).
  change (cant_be_broadcasted 3) with true. change (cant_be_broadcasted 4) with true.
  destruct bc; cbn [andb snd]; [reflexivity|]. rewrite (shared_reads s rest Hs).
  destruct (read_registers_res s ANALOG_INPUTS (4 :: rest)) as [(r & -> & Hne)|(e & -> & [[->|[->| ->]]|(c & -> & [->| ->])])].
  - destruct r as [|x r]; [congruence|]. rewrite !pack_B_ok by (unfold is_byte; lia). cbn. right. eexists. left. split; reflexivity.
  - reflexivity.
  - reflexivity.
  - reflexivity.
  - vm_compute. right. exists [2]. right. split; reflexivity.
  - vm_compute. right. exists [3]. right. split; reflexivity.
Qed.
(** A write through one type changes all types bound to the same list, and no other. *)
Theorem C60_shared_writes :
  forall s t a vals s', wrote s t a vals s' ->
  (forall t', same_table s t t' -> blocks s' t' = blocks s' t) /\
  (forall t', ~ same_table s t t' -> blocks s' t' = blocks s t').
Proof. intros s t a vals s' (l1 & b & l2 & _ & _ & (_ & _ & _ & H1 & H2)). auto. Qed.
(** add_block under one type checks and extends the shared list. *)
Theorem C60_shared_add_block :
  forall s name z z' t t' start size,
  btype_of_Z z = Some t -> btype_of_Z z' = Some t' -> same_table s t t' ->
  snd (add_block s name z start size) = snd (add_block s name z' start size) /\
  forall t'', blocks (fst (add_block s name z start size)) t'' = blocks (fst (add_block s name z' start size)) t''.
Proof. exact shared_add. Qed.
Definition shared_demo : slave :=
  slave_run (new_slave true (Some ({| v_co := Some COILS; v_di := Some DISCRETE_INPUTS;
      v_hr := Some HOLDING_REGISTERS; v_ai := Some HOLDING_REGISTERS |}, no_blocks)))
    [OpAddBlock "m" 3 0 10; OpRequest (6 :: word 4 ++ word 99) false].
Example C60_ex : same_table shared_demo HOLDING_REGISTERS ANALOG_INPUTS /\
  snd (handle_request shared_demo (4 :: word 4 ++ word 1) false) = Ok [4; 2; 0; 99] /\
  snd (add_block shared_demo "n" 4 9 3) = Err OverlapModbusBlockError.
Proof. repeat split. Qed.
(** remove_all_blocks silently gives each type its own list again. *)
Theorem C60_sharing_lost_by_remove_all_refuted :
  ~ (forall s t t', has_table s t -> same_table s t t' -> same_table (remove_all_blocks s) t t').
Proof.
  intros H. specialize (H shared_demo HOLDING_REGISTERS ANALOG_INPUTS).
  assert (E : same_table (remove_all_blocks shared_demo) HOLDING_REGISTERS ANALOG_INPUTS)
    by (apply H; vm_compute; congruence). vm_compute in E. discriminate.
Qed.

Print Assumptions C01_refuted.
Print Assumptions C01_partial.
Print Assumptions C01_check_exact_partial.
Print Assumptions C01_no_false_alarm.
Print Assumptions C02_refuted.
Print Assumptions C02_new_block_zero.
Print Assumptions C02_partial.
Print Assumptions C03_set_get.
Print Assumptions C04_set_values_range.
Print Assumptions C04_get_values_range_partial.
Print Assumptions C04_negative_size_refuted.
Print Assumptions C05_add_block_arguments.
Print Assumptions C05_add_block_all_or_nothing.
Print Assumptions C06_remove_block.
Print Assumptions C06_remove_all_blocks.
Print Assumptions C07_blocks_have_their_cells.
Print Assumptions C07_no_bug_exception.
Print Assumptions C08_read_registers.
Print Assumptions C09_read_bits.
Print Assumptions C10_write_coil.
Print Assumptions C11_write_register.
Print Assumptions C12_write_coils.
Print Assumptions C13_write_registers.
Print Assumptions C14_mask_write.
Print Assumptions C15_read_write_partial.
Print Assumptions C15_write_before_read_refuted.
Print Assumptions C16_unsupported_partial.
Print Assumptions C16_named.
Print Assumptions C16_refuted.
Print Assumptions C17_exception_means_unchanged.
Print Assumptions C18_refuted.
Print Assumptions C18_complete_requests_partial.
Print Assumptions C19_reads_do_not_write.
Print Assumptions C20_only_named_cells.
Print Assumptions C21_registers_stay_storable_partial.
Print Assumptions C21_storable_reads_answered.
Print Assumptions C21_refuted.
Print Assumptions C22_unique_block.
Print Assumptions C22_order_independent.
Print Assumptions C22_spanning_refused.
Print Assumptions C23_response_shape.
Print Assumptions C60_shared_blocks.
Print Assumptions C60_shared_reads.
Print Assumptions C60_shared_writes.
Print Assumptions C60_shared_add_block.
Print Assumptions C60_sharing_lost_by_remove_all_refuted.
