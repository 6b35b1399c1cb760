(** Properties C36 (from several threads), C54, C70, C71: what threads share.
    Vocabulary: ConcModel.v (machine), ConcSpec.v, SharedModel.v. *)
From Coq Require Import Lia ZifyBool ZifyNat.
From Verif Require Import PropDatabank PropMaster.
From Verif Require Import Base BaseFacts Spec Defines SlaveModel SlaveSpec BlockSpec SlaveProofs PropSlave QueryModel DatabankModel DatabankProofs DbSpec MasterModel MasterSpec EndSpec EndProofs ConcModel ConcSpec ConcProofs ConcSlave SharedModel.
Open Scope string_scope.
Open Scope list_scope.
Open Scope Z_scope.
Ltac Zify.zify_post_hook ::= Z.div_mod_to_equations.

Lemma nth_error_lt {A} (l : list A) i x : nth_error l i = Some x -> (i < length l)%nat.
Proof. intros H. apply nth_error_Some. congruence. Qed.

(** The calls that have returned were made by threads of the program, and are what the program calls. *)
Lemma returned_thread {S Op O} (sem : Op -> code S O) g sched m i k op o :
  In (i, k, op, o) (returned g sem sched m) -> (i < length (m_threads m))%nat.
Proof.
  revert m. induction sched as [|j sched IH]; intros m H; [destruct H|]. cbn [returned] in H. apply in_app_or in H as [H|H].
  - destruct (nth_error (m_threads m) j) as [th|] eqn:N; [|destruct H].
    destruct (th_now th) as [[[k' op'] [o'|f]]|]; [destruct H as [H|[]]|destruct H..].
    injection H as -> _ _ _. apply nth_error_Some. congruence.
  - apply IH in H. now rewrite move_length in H.
Qed.
Lemma calls_of_in {Op O} i k op o (h : list (@event Op O)) : In (i, k, op, o) h -> In (k, op, o) (calls_of i h).
Proof.
  induction h as [|[[[j k'] op'] o'] h IH]; [intros []|]. intros [H|H]; cbn.
  - injection H as -> -> -> ->. rewrite Nat.eqb_refl. now left.
  - destruct (Nat.eqb i j); [right|]; auto.
Qed.
Lemma returned_program {S Op O} (sem : Op -> code S O) atomic (A : forall op s, run (sem op) s = atomic s op) init progs sched i k op o :
  In (i, k, op, o) (returned true sem sched (start init progs)) ->
  exists p before, In p progs /\ p before = Some (k, op).
Proof.
  intros H. pose proof (returned_thread _ _ _ _ _ _ _ _ H) as L. cbn in L. rewrite map_length in L.
  destruct (nth_error progs i) as [p|] eqn:N; [|apply nth_error_None in N; lia].
  destruct (one_at_a_time sem atomic A init progs sched) as (fin & _ & _ & F). pose proof (F i p N) as Fi.
  apply calls_of_in, in_split in H as (before & after & E). exists p, before. split; [eapply nth_error_In; eassumption|].
  eapply Fi. exact E.
Qed.

(* ------------------------------------------------------------------ C54 *)
(** Any number of threads with any programs calling any operations of any slaves, under any schedule:
    the calls return what they return when made one after the other in the order in which they return,
    and a slave on which no call is running is as after those calls. *)
Theorem C54_one_at_a_time : forall (slaves : Z -> slave) programs schedule,
  let m0 := start slaves programs in
  let m := moves true slave_code schedule m0 in
  let h := returned true slave_code schedule m0 in
  exists final, sequential slave_step slaves h final /\
    (forall k, m_lock m k = None -> m_obj m k = final k /\ final k = slave_run (slaves k) (on_object k h)) /\
    (forall i p, nth_error programs i = Some p -> follows p (calls_of i h)).
Proof.
  intros slaves programs schedule. cbv zeta.
  destruct (one_at_a_time slave_code slave_step run_slave_code slaves programs schedule) as (fin & H1 & H2 & H3).
  exists fin. split; [exact H1|]. split; [|exact H3]. intros k L. split; [now apply H2|].
  apply (sequential_object slave_step slaves _ fin k H1).
Qed.
(** Nobody waits for ever: a thread that is in a call, or wants to make one, can return from it. *)
Theorem C54_no_deadlock : forall (slaves : Z -> slave) programs schedule i p,
  let m0 := start slaves programs in
  nth_error programs i = Some p ->
  let so_far := calls_of i (returned true slave_code schedule m0) in
  p so_far <> None ->
  exists more call, calls_of i (returned true slave_code (schedule ++ more) m0) = so_far ++ [call].
Proof. intros slaves programs schedule i p. apply (no_deadlock slave_code slave_step run_slave_code). Qed.

(** In particular there are no torn reads: if all writes of a range write one value everywhere, no read
    of the range sees two values. *)
Theorem C54_no_torn_reads : forall (slaves : Z -> slave) programs schedule name a n v0,
  (forall k, reachable (slaves k) /\ get_values (slaves k) name a (Z.of_nat n) = Ok (repeat v0 n)) ->
  (forall p before k op, In p programs -> p before = Some (k, op) ->
     op = OpGetValues name a (Z.of_nat n) \/ exists v, op = OpSetValues name a (SvSeq (repeat v n))) ->
  forall i k out, In (i, k, OpGetValues name a (Z.of_nat n), out) (returned true slave_code schedule (start slaves programs)) ->
  exists v, out = OutVals (Ok (repeat v n)).
Proof.
  intros slaves programs schedule name a n v0 H0 HP i k out Hin.
  destruct (one_at_a_time slave_code slave_step run_slave_code slaves programs schedule) as (fin & Sq & _).
  destruct (sequential_invariant slave_step
    (fun _ s => reachable s /\ exists v, get_values s name a (Z.of_nat n) = Ok (repeat v n))
    (fun _ op => op = OpGetValues name a (Z.of_nat n) \/ exists v, op = OpSetValues name a (SvSeq (repeat v n)))
    (fun _ op o => op = OpGetValues name a (Z.of_nat n) -> exists v, o = OutVals (Ok (repeat v n)))
    slaves (returned true slave_code schedule (start slaves programs)) fin) as [_ Q]; [| |exact Sq| |eapply Q; [exact Hin|reflexivity]].
  - intros x. destruct (H0 x) as [R G]. split; [exact R|now exists v0].
  - intros x s op [R (v & G)] [->|(w & ->)].
    + cbn [slave_step fst snd]. split; [split; [exact R|now exists v]|]. intros _. exists v. now rewrite G.
    + split; [|discriminate]. split; [now apply reachable_step|]. cbn [slave_step].
      destruct (set_values s name a (SvSeq (repeat w n))) as [s' [[]|e]] eqn:E; cbn [fst].
      * destruct (C03_set_get _ _ _ _ _ R E) as (G' & _). cbn [values_of] in G'. rewrite zlen_repeat in G'. now exists w.
      * exists v. enough (s' = s) as -> by exact G. unfold set_values in E. destruct (get_block s name) as [[[t j] b]|e']; [|congruence].
        destruct ((a - b_start b <? 0) || _); [congruence|discriminate].
  - intros j x op o H. destruct (returned_program slave_code slave_step run_slave_code _ _ _ _ _ _ _ H) as (p & before & Ip & Ep).
    eapply HP; eassumption.
Qed.

(** Two threads: one writes registers 100 and 101 with one request, the other reads both. *)
Definition write_two : slave_op := OpRequest [16; 0; 100; 0; 2; 4; 0; 7; 0; 7] false.
Definition read_two : slave_op := OpRequest [3; 0; 100; 0; 2] false.
Definition two_regs : slave := slave_run (new_slave true None) [OpAddBlock "r" 3 100 2].
Example C54_ex : (* with the lock, the reader that comes in the middle waits *)
  returned true slave_code (repeat 0 6 ++ repeat 1 20 ++ repeat 0 20 ++ repeat 1 20)%nat
    (start (fun _ => two_regs) [just [(0, write_two)]; just [(0, read_two)]])
  = [(0%nat, 0, write_two, OutVals (Ok [16; 0; 100; 0; 2])); (1%nat, 0, read_two, OutVals (Ok [3; 4; 0; 7; 0; 7]))].
Proof. vm_compute. reflexivity. Qed.
Example C54_lock_needed : (* without it, it sees half of the write *)
  In (1%nat, 0, read_two, OutVals (Ok [3; 4; 0; 7; 0; 0]))
     (returned false slave_code (repeat 0 5 ++ repeat 1 20 ++ repeat 0 20)%nat
        (start (fun _ => two_regs) [just [(0, write_two)]; just [(0, read_two)]])).
Proof. vm_compute. auto. Qed.
(** Two threads set one bit each of register 100 with mask writes. *)
Definition set_bit (mask : Z) : slave_op := OpRequest [22; 0; 100; 255; 255 - mask; 0; mask] false.
Example C54_ex_masks : (* with the lock both bits are set, whatever the schedule; here one thread tries to come in between *)
  get_values (m_obj (moves true slave_code (repeat 0 4 ++ repeat 1 20 ++ repeat 0 20 ++ repeat 1 20)%nat
    (start (fun _ => two_regs) [just [(0, set_bit 1)]; just [(0, set_bit 2)]])) 0) "r" 100 1 = Ok [3].
Proof. vm_compute. reflexivity. Qed.
Example C54_lock_needed_masks : (* without it, one is lost *)
  get_values (m_obj (moves false slave_code (repeat 0 4 ++ repeat 1 20 ++ repeat 0 20)%nat
    (start (fun _ => two_regs) [just [(0, set_bit 1)]; just [(0, set_bit 2)]])) 0) "r" 100 1 = Ok [1].
Proof. vm_compute. reflexivity. Qed.

(* ------------------------------------------------------------------ C36, from several threads *)
Definition next_id (last : Z) (_ : unit) : Z * Z := (next_transaction_id last, next_transaction_id last).
Lemma run_next_id op s : run (m_next_id op) s = next_id s op.
Proof. unfold m_next_id, next_id, next_transaction_id. cbn. destruct (s <? 65535); reflexivity. Qed.

(** However many threads take transaction ids, under any schedule, the ids handed out are the successive
    numbers modulo 65536, each once: any 65536 successive ones are all different. *)
Theorem C36_threads : forall last programs schedule,
  0 <= last <= 65535 ->
  (forall p before k op, In p programs -> p before = Some (k, op) -> k = 0) ->
  let ids := map snd (returned true m_next_id schedule (start (fun _ => last) programs)) in
  (forall j id, nth_error ids j = Some id -> id = (last + 1 + Z.of_nat j) mod 65536) /\
  (zlen ids <= 65536 -> NoDup ids).
Proof.
  intros last programs schedule L HP ids.
  assert (Sq : forall h final, sequential next_id (fun _ => last) h final -> (forall i k op o, In (i, k, op, o) h -> k = 0) ->
     final 0 = (last + zlen h) mod 65536 /\ forall j id, nth_error (map snd h) j = Some id -> id = (last + 1 + Z.of_nat j) mod 65536).
  { intros h final S0. induction S0 as [final E|h before i k op s' o final S0 IH At E1 E2]; intros Hk.
    - split; [rewrite E; change (zlen []) with 0; lia|]. intros [|j] id H; discriminate.
    - destruct IH as [I1 I2]. { intros. eapply Hk, in_or_app. left. eassumption. }
      assert (k = 0) as -> by (eapply Hk, in_or_app; right; left; reflexivity).
      unfold next_id in At. injection At as A1 A2. rewrite I1 in A1, A2.
      assert (V : next_transaction_id ((last + zlen h) mod 65536) = (last + 1 + zlen h) mod 65536).
      { unfold next_transaction_id. pose proof (zlen_nonneg h). destruct ((last + zlen h) mod 65536 <? 65535) eqn:Q; lia. }
      split.
      + rewrite E1, <- A1, V, zlen_app. change (zlen [(i, 0, op, o)]) with 1. f_equal. lia.
      + intros j id. rewrite map_app. cbn [map snd]. unfold event in *. destruct (Nat.lt_ge_cases j (length (map snd h))) as [Lj|Lj].
        * rewrite nth_error_app1 by assumption. apply I2.
        * intros H. assert (j = length (map snd h)) as ->.
          { pose proof (nth_error_lt _ _ _ H) as X. rewrite app_length in X. cbn in X. lia. }
          rewrite nth_error_app2, Nat.sub_diag in H by lia. injection H as <-. rewrite <- A2, V, map_length. unfold zlen. f_equal. }
  destruct (one_at_a_time m_next_id next_id run_next_id (fun _ => last) programs schedule) as (fin & S0 & _ & _).
  destruct (Sq _ _ S0) as [_ N].
  { intros i k op o H. destruct (returned_program m_next_id next_id run_next_id _ _ _ _ _ _ _ H) as (p & b & Ip & Ep). eapply HP; eassumption. }
  split; [exact N|]. intros Hl. apply NoDup_nth_error. intros i j Hi E.
  assert (Hj : (j < length ids)%nat) by (apply nth_error_Some; rewrite <- E; now apply nth_error_Some).
  destruct (nth_error ids i) as [x|] eqn:Ei; [|apply nth_error_None in Ei; lia]. symmetry in E.
  apply N in Ei. apply N in E. unfold zlen in Hl. lia.
Qed.
Example C36_threads_ex : map snd (returned true m_next_id (repeat 0 3 ++ [1] ++ repeat 0 3 ++ repeat 1 6 ++ repeat 0 9)%nat
  (start (fun _ => 65534) [just [(0, tt); (0, tt)]; just [(0, tt)]])) = [65535; 0; 1].
Proof. vm_compute. reflexivity. Qed.
Example C36_lock_needed : map snd (returned false m_next_id [0; 0; 0; 1; 1; 1; 1; 1; 1; 0; 0; 0; 0; 0; 0]%nat
  (start (fun _ => 7) [just [(0, tt)]; just [(0, tt)]])) = [8; 8].
Proof. vm_compute. reflexivity. Qed.

(* ------------------------------------------------------------------ C70 *)
(** execute in one go: what the request does to the server, the answer this request gets. *)
Definition execute_alone (p : proto) (w : world) (a : exec_args) : world * option (res exec_result) :=
  let '(d, e) := round_trip_args p (w_last w) (w_db w) a in
  ({| w_db := d; w_last := ex_last e; w_wire := match ex_sent e with Some _ => [] | None => w_wire w end |}, ex_result e).
Lemma run_execute p a w : run (m_execute p a) w = execute_alone p w a.
Proof.
  unfold m_execute, execute_alone, round_trip_args, execute. destruct (execute_build a) as [b|e].
  2: { cbn. now destruct w. }
  rewrite run_andthen, run_act. destruct (build_request p (w_last w) (bl_pdu b) (ea_slave a)) as [last' [[hdr request]|e]]; [|reflexivity].
  rewrite run_andthen, run_act, run_andthen, run_act, run_andthen, run_act. cbn.
  unfold receive, send_request, flush_wire. cbn. destruct (answer (w_db w) p request) as [r|e] eqn:A; cbn; [reflexivity|].
  unfold answer in A. destruct (snd (db_handle_request (w_db w) p request)) as [r|]; [destruct (sent r)|]; try discriminate; now injection A as <-.
Qed.

(** Threads sharing a master: under any schedule, every execute returns what it would return if the
    calls were made one after the other, in the order in which they return. *)
Theorem C70_own_answer : forall p (worlds : Z -> world) programs schedule,
  let m0 := start worlds programs in
  let h := returned true (m_execute p) schedule m0 in
  exists final, sequential (execute_alone p) worlds h final /\
    (forall k, m_lock (moves true (m_execute p) schedule m0) k = None -> m_obj (moves true (m_execute p) schedule m0) k = final k) /\
    (forall i q, nth_error programs i = Some q -> follows q (calls_of i h)).
Proof. intros p worlds programs schedule. apply (one_at_a_time (m_execute p) (execute_alone p) (run_execute p)). Qed.

(** In particular: whatever registers the threads read, each gets the values of the registers it asked
    for (never those another thread asked for). *)
Theorem C70_reads : forall p d last programs schedule,
  db_reachable d -> 0 <= last <= 65535 ->
  (forall q before k a, In q programs -> q before = Some (k, a) ->
     exists u adr n s vals, a = args_of u (ReadRegs true adr n) /\ get_slave d u = Ok s /\ 1 <= n <= 125 /\ fits true adr /\
       stored s HOLDING_REGISTERS adr n vals /\ Forall (fits (sl_unsigned s)) vals) ->
  forall i k u adr n s vals out,
  In (i, k, args_of u (ReadRegs true adr n), out)
     (returned true (m_execute p) schedule (start (fun _ => {| w_db := d; w_last := last; w_wire := [] |}) programs)) ->
  get_slave d u = Ok s -> stored s HOLDING_REGISTERS adr n vals ->
  out = Some (Ok (RTuple (map as_word vals))).
Proof.
  intros p d last programs schedule R L HP i k u adr n s vals out Hin G St.
  set (w0 := {| w_db := d; w_last := last; w_wire := [] |}) in *.
  set (h := returned true (m_execute p) schedule (start (fun _ => w0) programs)) in *.
  destruct (one_at_a_time (m_execute p) (execute_alone p) (run_execute p) (fun _ => w0) programs schedule) as (fin & Sq & _). fold h in Sq.
  assert (Same : forall s t a m v v', stored s t a m v -> stored s t a m v' -> v = v').
  { intros s0 t a m v v' [_ (b & (l1 & l2 & S1) & E1)] [_ (b' & (l1' & l2' & S2) & E2)].
    enough (b = b') by congruence. assert (F1 : find_block (blocks s0 t) a m 0 = Some (length l1, b, a - b_start b)) by (apply find_block_some; now exists l1, l2).
    assert (F2 : find_block (blocks s0 t) a m 0 = Some (length l1', b', a - b_start b')) by (apply find_block_some; now exists l1', l2'). congruence. }
  destruct (sequential_invariant (execute_alone p)
    (fun _ w => db_reachable (w_db w) /\ 0 <= w_last w <= 65535 /\ forall v, get_slave (w_db w) v = get_slave d v)
    (fun _ a => exists u adr n s vals, a = args_of u (ReadRegs true adr n) /\ get_slave d u = Ok s /\ 1 <= n <= 125 /\ fits true adr /\
       stored s HOLDING_REGISTERS adr n vals /\ Forall (fits (sl_unsigned s)) vals)
    (fun _ a o => forall u adr n s vals, a = args_of u (ReadRegs true adr n) -> get_slave d u = Ok s -> stored s HOLDING_REGISTERS adr n vals ->
       o = Some (Ok (RTuple (map as_word vals))))
    (fun _ => w0) h fin) as [_ Q]; [| |exact Sq| |eapply Q; [exact Hin|reflexivity|eassumption..]].
  - intros _. cbn. auto.
  - intros x w a (Rw & Lw & Gw) (u1 & a1 & n1 & s1 & v1 & -> & G1 & N1 & F1 & St1 & Fv1).
    rewrite <- Gw in G1.
    pose proof (C39_read_registers p (w_last w) (w_db w) u1 true a1 n1 s1 v1 Lw Rw G1 N1 F1 St1 Fv1) as H.
    destruct (db_reachable_slave _ _ _ Rw G1) as [Rs U].
    destruct St1 as (Ht1 & b1 & Hs1 & Ev1).
    destruct (rt_read_regs p (w_last w) (w_db w) u1 true a1 n1 s1 b1 _ Lw U G1 (reachable_wf s1 Rs) eq_refl Ht1 F1 N1 Hs1 ltac:(rewrite Ev1; exact Fv1)) as (_ & L2 & _).
    unfold execute_alone. unfold round_trip in H, L2.
    destruct (round_trip_args p (w_last w) (w_db w) (args_of u1 (ReadRegs true a1 n1))) as [d' e] eqn:E. destruct H as [H1 H2]. cbn [fst snd w_db w_last] in *.
    split; [split; [|split; [exact L2|intros v; rewrite H2; apply Gw]]|].
    + (* the databank only handled a request *)
      unfold round_trip_args in E. set (ex := execute p (w_last w) (args_of u1 (ReadRegs true a1 n1)) (fun request _ => answer (w_db w) p request)) in E.
      destruct (ex_sent ex) as [[rq x1]|]; injection E as <- _; [|exact Rw].
      destruct Rw as (er & ops & Fo & Eo). exists er, (ops ++ [DbRequest p rq]). split; [apply Forall_app; split; [exact Fo|repeat constructor]|].
      unfold db_run. rewrite fold_left_app. cbn. unfold db_run in Eo. now rewrite <- Eo.
    + intros u2 a2 n2 s2 v2 Ea G2 St2. cbn in Ea. injection Ea as <- <- <-. rewrite H1. do 4 f_equal.
      rewrite Gw in G1. assert (s2 = s1) as -> by congruence. eapply Same; [|exact St2]. split; [exact Ht1|]. exists b1. auto.
  - intros j x a o H. destruct (returned_program (m_execute p) (execute_alone p) (run_execute p) _ _ _ _ _ _ _ H) as (q & before & Iq & Eq).
    eapply HP; eassumption.
Qed.

(** Two threads read different registers of unit 3 over a serial line. *)
Definition demo_world : world :=
  {| w_db := db_run demo_db [DbCall 3 (OpSetValues "r" 100 (SvSeq [11; 22]))]; w_last := 0; w_wire := [] |}.
Definition read_one (a : Z) : exec_args := args_of 3 (ReadRegs true a 1).
Example C70_ex :
  returned true (m_execute RTU) (repeat 0 4 ++ repeat 1 9 ++ repeat 0 9 ++ repeat 1 9)%nat
    (start (fun _ => demo_world) [just [(0, read_one 100)]; just [(0, read_one 101)]])
  = [(0%nat, 0, read_one 100, Some (Ok (RTuple [11]))); (1%nat, 0, read_one 101, Some (Ok (RTuple [22])))].
Proof. vm_compute. reflexivity. Qed.
(** execute(..., threadsafe=False) takes no lock: a thread can get the other one's value. *)
Example C70_lock_needed :
  In (0%nat, 0, read_one 100, Some (Ok (RTuple [22])))
    (returned false (m_execute RTU) (repeat 0 4 ++ repeat 1 4 ++ repeat 0 9)%nat
      (start (fun _ => demo_world) [just [(0, read_one 100)]; just [(0, read_one 101)]])).
Proof. vm_compute. auto. Qed.

(* ------------------------------------------------------------------ C71 *)
(** The operations of shared objects, in one go. *)
Definition shared_step (x : shared) (o : shared_op) : shared * shared_out :=
  match x, is_slave_op o with
  | SSlave s, Some op => let (s', r) := slave_step s op in (SSlave s', SoSlave r)
  | SDatabank l, None => let (l', r) := sh_op l o in (SDatabank l', r)
  | _, _ => (x, SoUnit (Err PyTypeError))
  end.
Lemma run_on_slave c s : run (on_slave c) (SSlave s) = let (s', o) := run c s in (SSlave s', SoSlave o).
Proof.
  revert s. induction c as [o|f IH] using code_induction; intros s; [reflexivity|]. cbn. pose proof (IH s) as H.
  destruct (f s) as [s' c']. apply H.
Qed.
Lemma run_shared o x : run (shared_code o) x = shared_step x o.
Proof.
  destruct o; try (unfold shared_code; rewrite run_act; destruct x; reflexivity).
  cbn [shared_code]. rewrite run_andthen, run_look. destruct x as [l|s]; [reflexivity|]. rewrite run_on_slave, run_slave_code. reflexivity.
Qed.

(** The slaves to which a broadcasting thread has handed the request. *)
Definition handed (calls : list call_result) : list Z :=
  flat_map (fun c => match c with (ref, SlaveOp _, _) => [ref] | _ => [] end) calls.
(** every slave the request was handed to has handled it without raising *)
Definition all_handled (calls : list call_result) : Prop :=
  forall ref op o, In (ref, SlaveOp op, o) calls -> exists r, o = SoSlave (OutVals (Ok r)).
Definition changes_slaves (o : shared_op) : Prop :=
  match o with ShAdd _ _ | ShRemove _ | ShRemoveAll => True | _ => False end.

Lemma skipn_nth {A} (l : list A) n x : nth_error l n = Some x -> skipn n l = x :: skipn (S n) l.
Proof. revert n. induction l as [|y l IH]; intros [|n] H; try discriminate; [now injection H as ->|]. apply (IH n H). Qed.
Lemma broadcast_walk pdu (l : list (Z * Z)) : NoDup (map fst l) ->
  forall m pos done, (length done <= m)%nat ->
  (forall before k op o after, done = before ++ (k, op, o) :: after -> broadcast_next pdu (length l) pos before = Some (k, op)) ->
  (forall op o, In (0, op, o) done -> o = snd (sh_op l op)) ->
  (exists n, handed done = firstn n (skipn pos (map snd l))) /\
  (all_handled done -> broadcast_next pdu (length l) pos done = None -> handed done = skipn pos (map snd l)).
Proof.
  intros ND m. induction m as [|m IH]; intros pos done Hl Hf HQ.
  { destruct done; [|cbn in Hl; lia]. split; [now exists O|]. intros _ X. discriminate X. }
  destruct done as [|[[k1 op1] o1] d1]. { split; [now exists O|]. intros _ X. discriminate X. }
  pose proof (Hf [] k1 op1 o1 d1 eq_refl) as F1. cbn in F1. injection F1 as <- <-.
  pose proof (HQ _ o1 (or_introl eq_refl)) as Q1. cbn in Q1. rewrite Nat.eqb_refl in Q1. subst o1.
  destruct (nth_error l pos) as [[id ref]|] eqn:Np.
  2: { (* the iterator has ended *)
    destruct d1 as [|[[k2 op2] o2] d2].
    - cbn. split; [now exists O|]. intros _ _. rewrite skipn_all2; [reflexivity|]. rewrite map_length. now apply nth_error_None.
    - pose proof (Hf [(0, ShNext (length l) pos, SoNext (Ok None))] k2 op2 o2 d2 eq_refl) as X. discriminate X. }
  cbn [option_map fst] in *.
  assert (Sk : skipn pos (map snd l) = ref :: skipn (S pos) (map snd l)).
  { assert (Nm : nth_error (map snd l) pos = Some ref) by (now rewrite nth_error_map, Np).
    exact (skipn_nth _ _ _ Nm). }
  destruct d1 as [|[[k2 op2] o2] d2]. { cbn. split; [now exists O|]. intros _ X. discriminate X. }
  pose proof (Hf [_] k2 op2 o2 d2 eq_refl) as F2. cbn in F2. injection F2 as <- <-.
  pose proof (HQ _ o2 (or_intror (or_introl eq_refl))) as Q2. cbn in Q2.
  rewrite (in_assoc Z.eqb Z.eqb_eq id ref l ND (nth_error_In _ _ Np)) in Q2. subst o2.
  destruct d2 as [|[[k3 op3] o3] d3]. { cbn. split; [now exists O|]. intros _ X. discriminate X. }
  pose proof (Hf [_; _] k3 op3 o3 d3 eq_refl) as F3. cbn in F3. injection F3 as <- <-.
  assert (Hd : handed ((0, ShNext (length l) pos, SoNext (Ok (Some id))) :: (0, ShItem id, SoRef (Ok ref)) :: (ref, SlaveOp (OpRequest pdu true), o3) :: d3)
           = ref :: handed d3) by reflexivity.
  rewrite Hd, Sk. clear Hd.
  assert (Cases : (exists r, o3 = SoSlave (OutVals (Ok r))) \/ broadcast_next pdu (length l) pos
      [(0, ShNext (length l) pos, SoNext (Ok (Some id))); (0, ShItem id, SoRef (Ok ref)); (ref, SlaveOp (OpRequest pdu true), o3)] = None).
  { cbn. destruct o3 as [| | | |[|[r|]]]; try (now right). left. now exists r. }
  destruct Cases as [(r & ->)|C].
  - destruct (IH (S pos) d3) as [(n & E) T].
    + cbn in Hl. lia.
    + intros before k op o after E. specialize (Hf ((0, ShNext (length l) pos, SoNext (Ok (Some id))) :: (0, ShItem id, SoRef (Ok ref)) :: (ref, SlaveOp (OpRequest pdu true), SoSlave (OutVals (Ok r))) :: before) k op o after).
      rewrite E in Hf. apply Hf. reflexivity.
    + intros op o Hin. apply HQ. right. right. right. exact Hin.
    + split; [exists (S n); cbn; now rewrite E|]. intros A B. f_equal. apply T; [|exact B].
      intros ref' op o Hin. eapply A. right. right. right. exact Hin.
  - destruct d3 as [|[[k4 op4] o4] d4].
    + split; [exists 1%nat; reflexivity|]. intros A _. destruct (A ref _ o3 (or_intror (or_intror (or_introl eq_refl)))) as (r & ->). discriminate C.
    + pose proof (Hf [_; _; _] k4 op4 o4 d4 eq_refl) as X. congruence.
Qed.

(** As long as nobody adds or removes slaves meanwhile, a broadcast reaches the slaves one after the
    other, each once, whatever other threads do with the slaves; when it has ended and no slave raised, it
    has reached all of them.  (What is missing: slaves being added or removed meanwhile.) *)
Theorem C71_broadcast_partial : forall pdu l objects others schedule,
  objects 0 = SDatabank l -> NoDup (map fst l) ->
  (forall p before op, In p others -> p before = Some (0, op) -> ~ changes_slaves op) ->
  let calls := calls_of 0 (returned true shared_code schedule (start objects (broadcast_calls pdu :: others))) in
  (exists n, handed calls = firstn n (map snd l)) /\
  (broadcast_calls pdu calls = None -> all_handled calls -> handed calls = map snd l).
Proof.
  intros pdu l objects others schedule O0 ND HP calls.
  set (h := returned true shared_code schedule (start objects (broadcast_calls pdu :: others))) in *.
  destruct (one_at_a_time shared_code shared_step run_shared objects (broadcast_calls pdu :: others) schedule) as (fin & Sq & _ & Fo).
  fold h in Sq, Fo. specialize (Fo O _ eq_refl). fold calls in Fo.
  assert (BN : forall size done pos op k, broadcast_next pdu size pos done = Some (k, op) -> ~ changes_slaves op).
  { intros size done. remember (length done) as m eqn:Em. revert done Em. induction m as [m IHm] using lt_wf_ind. intros done -> pos op k.
    destruct done as [|[[k1 op1] o1] d1]; [intros X; injection X as _ <-; exact (fun x => x)|].
    destruct o1 as [| | |[[key|]|]|]; try discriminate. destruct d1 as [|[[k2 op2] o2] d2]; [intros X; injection X as _ <-; exact (fun x => x)|].
    cbn. destruct o2 as [|[ref|]| | |]; try discriminate. destruct d2 as [|[[k3 op3] o3] d3]; [intros X; injection X as _ <-; exact (fun x => x)|].
    destruct o3 as [| | | |[|[r|]]]; try discriminate. eapply IHm; [|reflexivity]. cbn. lia. }
  destruct (sequential_invariant shared_step (fun k x => k = 0 -> x = SDatabank l) (fun k op => k = 0 -> ~ changes_slaves op)
    (fun k op o => k = 0 -> o = snd (sh_op l op)) objects h fin) as [_ Q].
  - now intros k ->.
  - intros k x op HPk HA. split; intros ->; rewrite (HPk eq_refl); specialize (HA eq_refl); destruct op; try (now cbn in HA); try reflexivity.
  - exact Sq.
  - intros i k op o Hin ->. destruct (returned_program shared_code shared_step run_shared _ _ _ _ _ _ _ Hin) as (p & before & [<-|Ip] & Ep).
    + destruct before as [|[[k1 op1] o1] d1]; [injection Ep as <-; exact (fun x => x)|].
      destruct o1; try discriminate Ep. eapply BN. exact Ep.
    + eapply HP; eassumption.
  - assert (Qc : forall op o, In (0, op, o) calls -> o = snd (sh_op l op)).
    { intros op o Hin. assert (X : In (0%nat, 0, op, o) h).
      { revert Hin. unfold calls. clear. induction h as [|[[[j k'] op'] o'] h IH]; cbn; [easy|]. destruct j as [|j]; cbn; [|intros H; right; auto].
        intros [H|H]; [injection H as -> -> ->; now left|right; auto]. }
      eapply Q; [exact X|reflexivity]. }
    destruct calls as [|[[k1 op1] o1] d1] eqn:Ec. { split; [now exists O|]. intros X. discriminate X. }
    pose proof (Fo [] k1 op1 o1 d1 eq_refl) as F1. cbn in F1. injection F1 as <- <-.
    pose proof (Qc _ _ (or_introl eq_refl)) as Q1. cbn in Q1. subst o1. cbn [broadcast_calls handed flat_map app].
    destruct (broadcast_walk pdu l ND (length d1) O d1 (le_n _)) as [W1 W2].
    + intros before k op o after E. specialize (Fo ((0, ShIterate, SoSize (length l)) :: before) k op o after). rewrite E in Fo. apply Fo. reflexivity.
    + intros op o Hin. apply Qc. now right.
    + split; [exact W1|]. intros N A. apply W2; [|exact N]. intros ref op o Hin. eapply A. right. exact Hin.
Qed.

(** With slaves being added the full claim fails: the loop over the dict raises RuntimeError, and the
    slaves after that never get the request although they were there all along. *)
Theorem C71_broadcast_refuted :
  ~ (forall pdu l objects others schedule,
     objects 0 = SDatabank l -> NoDup (map fst l) ->
     (forall p before k op, In p others -> p before = Some (k, op) -> op <> ShRemoveAll /\ forall id, op <> ShRemove id) ->
     let calls := calls_of 0 (returned true shared_code schedule (start objects (broadcast_calls pdu :: others))) in
     broadcast_calls pdu calls = None -> all_handled calls -> incl (map snd l) (handed calls)).
Proof.
  intros H.
  specialize (H [6; 0; 100; 0; 7] [(3, 100); (5, 101)] (fun k => if k =? 0 then SDatabank [(3, 100); (5, 101)] else SSlave two_regs)
    [just [(0, ShAdd 9 102)]] (repeat 0 12 ++ repeat 1 3 ++ repeat 0 19)%nat eq_refl).
  cbv zeta in H.
  match type of H with _ -> _ -> broadcast_calls _ ?c = None -> _ =>
    assert (E : c = [(0, ShIterate, SoSize 2); (0, ShNext 2 0, SoNext (Ok (Some 3))); (0, ShItem 3, SoRef (Ok 100));
        (100, SlaveOp (OpRequest [6; 0; 100; 0; 7] true), SoSlave (OutVals (Ok []))); (0, ShNext 2 1, SoNext (Err PyRuntimeError))])
      by (vm_compute; reflexivity);
    generalize dependent c; intros cs H E; rewrite E in H; clear cs E
  end.
  assert (X : incl [100; 101] [100]).
  { apply H.
    - repeat constructor; cbn; intuition congruence.
    - intros p before k op [<-|[]]. unfold just. destruct before as [|x []]; cbn; intros Y; try discriminate. injection Y as _ <-. split; [discriminate|intros id; discriminate].
    - reflexivity.
    - intros ref op o [Y|[Y|[Y|[Y|[Y|[]]]]]]; try discriminate Y. injection Y as _ _ <-. now exists []. }
  specialize (X 101 (or_intror (or_introl eq_refl))). destruct X as [X|[]]. discriminate X.
Qed.
Example C71_ex : (* another thread changes a slave meanwhile *)
  handed (calls_of 0 (returned true shared_code (repeat 0 12 ++ repeat 1 30 ++ repeat 0 40)%nat
     (start (fun k => if k =? 0 then SDatabank [(3, 100); (5, 101)] else SSlave two_regs)
        [broadcast_calls [6; 0; 100; 0; 7]; just [(101, SlaveOp (OpSetValues "r" 100 (SvNum 5)))]]))) = [100; 101].
Proof. vm_compute. reflexivity. Qed.

(** The databank of references does what the databank of DatabankModel.v does (C37-C39 are about it): if the slaves [l] refers to are the
    slaves of [d], a call has the same result, and leads to databanks that again hold the same slaves. *)
Definition holds (m : Z -> slave) (l : list (Z * Z)) (d : databank) : Prop := db_slaves d = map (fun p => (fst p, m (snd p))) l.
Lemma assoc_map (m : Z -> slave) l id : assoc Z.eqb id (map (fun p => (fst p, m (snd p))) l) = option_map m (assoc Z.eqb id l).
Proof. induction l as [|[k r] l IH]; [reflexivity|]. cbn. destruct (id =? k); [reflexivity|exact IH]. Qed.
Lemma assoc_put_map (m : Z -> slave) l id r : assoc_put Z.eqb id (m r) (map (fun p => (fst p, m (snd p))) l) = map (fun p => (fst p, m (snd p))) (assoc_put Z.eqb id r l).
Proof. induction l as [|[k r'] l IH]; [reflexivity|]. cbn. destruct (id =? k); [reflexivity|]. cbn. now rewrite IH. Qed.
Lemma assoc_del_map (m : Z -> slave) l id : assoc_del Z.eqb id (map (fun p => (fst p, m (snd p))) l) = map (fun p => (fst p, m (snd p))) (assoc_del Z.eqb id l).
Proof. induction l as [|[k r'] l IH]; [reflexivity|]. cbn. destruct (id =? k); [reflexivity|]. cbn. now rewrite IH. Qed.
Theorem C71_same_databank : forall m l d, holds m l d ->
  (forall id ref unsigned memory, m ref = new_slave unsigned memory ->
     let '(d', r) := add_slave d id unsigned memory in exists l', sh_op l (ShAdd id ref) = (l', SoUnit r) /\ holds m l' d') /\
  (forall id, exists r, sh_op l (ShGet id) = (l, SoRef r) /\ get_slave d id = (ref <- r ;; Ok (m ref))) /\
  (forall id, let '(d', r) := remove_slave d id in exists l', sh_op l (ShRemove id) = (l', SoUnit r) /\ holds m l' d') /\
  (exists l', sh_op l ShRemoveAll = (l', SoUnit (Ok tt)) /\ holds m l' (remove_all_slaves d)).
Proof.
  intros m l d H. unfold holds in *. repeat split.
  - intros id ref un me E. unfold add_slave. cbn [sh_op]. destruct ((id <=? 0) || (255 <? id))%bool; [eauto|]. rewrite H, assoc_map.
    destruct (assoc Z.eqb id l) as [r|]; cbn [option_map]; [eauto|]. eexists. split; [reflexivity|]. cbn. rewrite <- E. apply assoc_put_map.
  - intros id. eexists. split; [reflexivity|]. unfold get_slave. rewrite H, assoc_map. now destruct (assoc Z.eqb id l).
  - intros id. unfold remove_slave. cbn [sh_op]. rewrite H, assoc_map. destruct (assoc Z.eqb id l) as [r|]; cbn [option_map]; [|eauto].
    eexists. split; [reflexivity|]. cbn. apply assoc_del_map.
  - eexists. split; [reflexivity|]. reflexivity.
Qed.
Example C71_same_databank_applies :
  let d := fst (add_slave (fst (add_slave (new_databank true) 3 true None)) 9 true None) in holds (fun _ => new_slave true None) [(3, 100); (9, 101)] d /\ length (db_slaves d) = 2%nat.
Proof. split; reflexivity. Qed.

Print Assumptions C54_one_at_a_time.
Print Assumptions C54_no_deadlock.
Print Assumptions C54_no_torn_reads.
Print Assumptions C36_threads.
Print Assumptions C70_own_answer.
Print Assumptions C70_reads.
Print Assumptions C71_broadcast_partial.
Print Assumptions C71_broadcast_refuted.
Print Assumptions C71_same_databank.
