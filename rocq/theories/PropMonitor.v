(** C112: examples/modbus_system_monitor.py publishes the processors' loads. *)
From Coq Require Import ZArith Lia ZifyBool ZifyNat.
From Verif Require Import Base BaseFacts PyStruct Spec StructFacts Defines SlaveModel SlaveSpec SlaveProofs RequestProofs GeneralProofs AtomicProofs QueryModel DatabankModel DatabankProofs MasterModel DbSpec EndSpec EndProofs MasterSpec.
From Verif Require Import HooksModel TextModel SimulatorModel TextProofs SimulatorProofs PropSimulator MonitorModel.
Open Scope string_scope.
Open Scope list_scope.
Open Scope Z_scope.

(** ** Specification *)
(** The load WMI gives for one processor; None counts as an idle processor. *)
Definition load (o : option Z) : Z := match o with Some z => z | None => 0 end.
(** The readings that come before the first one that fails. *)
Fixpoint before_failure (cpu : list reading) : list (option Z) :=
  match cpu with Ok o :: t => o :: before_failure t | _ => [] end.
(** The load of processor [k] in one sample, if this sample gives it. *)
Definition seen (w : wmi) (k : nat) : option Z :=
  match w with Ok cpu => option_map load (nth_error (before_failure cpu) k) | Err _ => None end.
(** The samples: one call of collect out of [period], starting with the first ([n] calls were made before). *)
Fixpoint sampled (period n : Z) (h : list event) : list wmi :=
  match h with
  | [] => []
  | Collected w _ :: t => if n mod period =? 0 then w :: sampled period (n + 1) t else sampled period (n + 1) t
  | Asked _ _ :: t => sampled period n t
  end.
(** The latest load of processor [k] that a sample gave; 0 before. *)
Definition latest (ws : list wmi) (k : nat) : Z :=
  List.last (flat_map (fun w => match seen w k with Some v => [v] | None => [] end) ws) 0.
(** Loads are percentages and the short messages of the RPC client are not cut. *)
Definition normal (e : event) : Prop :=
  match e with
  | Collected w cuts =>
      (forall i, (64 <= fst (cuts i))%nat /\ (64 <= snd (cuts i))%nat) /\
      forall cpu z, w = Ok cpu -> In (Ok (Some z)) cpu -> 0 <= z <= 100
  | Asked _ _ => True
  end.

(** ** The databank of the monitor *)
Definition regs_slave (vals : list Z) : slave :=
  {| sl_unsigned := true; sl_names := [("Cpu", (ANALOG_INPUTS, 0))];
     sl_alias := {| v_co := Some COILS; v_di := Some DISCRETE_INPUTS; v_hr := Some HOLDING_REGISTERS; v_ai := Some ANALOG_INPUTS |};
     sl_lists := {| v_co := []; v_di := []; v_hr := []; v_ai := [{| b_start := 0; b_size := 10; b_data := vals |}] |} |}.
Definition regs_db (vals : list Z) : databank := put_slave (fst (add_slave (new_databank true) 1 true None)) 1 (regs_slave vals).
Lemma monitor_start : monitor_db = Ok (regs_db (repeat 0 10)).
Proof. reflexivity. Qed.
Ltac ten vals H :=
  do 10 (destruct vals as [|? vals]; [discriminate H|]); destruct vals as [|? vals]; [clear H|discriminate H].
Lemma regs_reachable vals : length vals = 10%nat -> db_reachable (regs_db vals).
Proof.
  intros H. exists true, [DbAdd 1 true None; DbCall 1 (OpAddBlock "Cpu" 4 0 10); DbCall 1 (OpSetValues "Cpu" 0 (SvSeq vals))].
  split; [repeat constructor|]. ten vals H. reflexivity.
Qed.
Lemma regs_get vals : get_slave (regs_db vals) 1 = Ok (regs_slave vals).
Proof. reflexivity. Qed.
Lemma regs_put vals vals' : put_slave (regs_db vals) 1 (regs_slave vals') = regs_db vals'.
Proof. reflexivity. Qed.
Lemma regs_set vals i v : length vals = 10%nat -> (i < 10)%nat ->
  set_values (regs_slave vals) "Cpu" (Z.of_nat i) (SvSeq [v]) = (regs_slave (firstn i vals ++ v :: skipn (S i) vals), Ok tt).
Proof.
  intros H L. ten vals H. do 10 (destruct i as [|i]; [reflexivity|]). lia.
Qed.
(** A request cannot change the input registers. *)
Lemma regs_hr vals pdu bc : length vals = 10%nat -> fst (handle_request (regs_slave vals) pdu bc) = regs_slave vals.
Proof.
  intros H. assert (W : wf_slave (regs_slave vals)).
  { destruct (db_reachable_slave _ 1 _ (regs_reachable vals H) (regs_get vals)) as [R _]. exact (reachable_wf _ R). }
  destruct (hr_state (regs_slave vals) pdu bc W) as [E|(fc & rest & t & a & n & vs & -> & R & (l1 & b & l2 & _ & Sv & _) & _)]; [exact E|].
  exfalso. destruct Sv as (Sv & _). unfold write_range in R.
  destruct l1; repeat match type of R with context [if ?c then _ else _] => destruct c end; try discriminate R; injection R as <- <- <-; cbn in Sv; discriminate Sv.
Qed.
Lemma regs_request vals p request : length vals = 10%nat -> fst (db_handle_request (regs_db vals) p request) = regs_db vals.
Proof.
  intros H. unfold db_handle_request. destruct (parse_request p request) as [[[h u] pdu]|e]; [|reflexivity].
  pose proof (fun bc => regs_hr vals pdu bc H) as K.
  destruct (u =? 0) eqn:U.
  - assert (D : db_slaves (regs_db vals) = [(1, regs_slave vals)]) by reflexivity. rewrite D. cbn [broadcast_loop].
    specialize (K true). destruct (handle_request (regs_slave vals) pdu true) as [s' r]. cbn [fst] in K. subst s'. destruct r; reflexivity.
  - destruct (u =? 1) eqn:U1.
    + apply Z.eqb_eq in U1. subst u. rewrite regs_get. specialize (K false). destruct (handle_request (regs_slave vals) pdu false) as [s' r]. cbn [fst] in K. subst s'.
      rewrite regs_put. destruct (bind r _); reflexivity.
    + assert (G : get_slave (regs_db vals) u = Err MissingKeyError).
      { unfold get_slave, regs_db. cbn. now rewrite U1. }
      rewrite G. destruct (db_error_on_missing _); reflexivity.
Qed.
(** ** One RPC call *)
Lemma percent_length v : 0 <= v <= 100 -> (String.length (py_str v) <= 3)%nat.
Proof.
  intros H. assert (F : forallb (fun n => Nat.leb (String.length (py_str (Z.of_nat n))) 3) (seq 0 101) = true) by (vm_compute; reflexivity).
  rewrite forallb_forall in F. specialize (F (Z.to_nat v)). rewrite Z2Nat.id in F by lia. apply Nat.leb_le, F. apply in_seq. lia.
Qed.
Lemma append_length a b : String.length (append a b) = (String.length a + String.length b)%nat.
Proof. induction a; cbn; [reflexivity|now rewrite IHa]. Qed.
Lemma rpc_set text cmds n1 n2 s vals i v : standard cmds -> (64 <= n1)%nat -> (64 <= n2)%nat -> length vals = 10%nat -> (i < 10)%nat -> 0 <= v <= 100 ->
  sm_db s = regs_db vals ->
  rpc_call text cmds n1 n2 s (q_set_values 1 "Cpu" (Z.of_nat i) [v]) = (with_db s (regs_db (firstn i vals ++ v :: skipn (S i) vals)), Ok (py_str v)).
Proof.
  intros C N1 N2 L I V D. pose proof (percent_length v V) as P.
  rewrite C72_set_values; auto.
  - unfold on_slave. rewrite D, regs_get, regs_set by assumption. cbn [fst snd]. now rewrite regs_put.
  - rewrite D. now apply regs_reachable.
  - rewrite q_set_values_words. unfold sentence. cbn [map String.concat].
    pose proof (percent_length (Z.of_nat i) ltac:(lia)) as Q. pose proof (percent_length 1 ltac:(lia)) as Q1. cbn [String.length] in *. unfold whole. rewrite !append_length. cbn [String.length]. lia.
  - unfold sentence. cbn [map String.concat]. unfold whole. rewrite !append_length. cbn. lia.
Qed.
(** ** One sample *)
Definition write_from (i : nat) (vals : list Z) (l : list (option Z)) : list Z :=
  map (fun k => if (i <=? k)%nat then match nth_error l (k - i) with Some o => load o | None => nth k vals 0 end else nth k vals 0) (seq 0 10).
Lemma list_ten (vals : list Z) : length vals = 10%nat -> vals = map (fun k => nth k vals 0) (seq 0 10).
Proof. intros H. ten vals H. reflexivity. Qed.
Lemma put_nth (vals : list Z) i v k : (i < length vals)%nat -> nth k (firstn i vals ++ v :: skipn (S i) vals) 0 = if (k =? i)%nat then v else nth k vals 0.
Proof.
  revert i k. induction vals as [|x t IH]; intros i k H; [cbn in H; lia|]. destruct i as [|i]; destruct k as [|k]; try reflexivity.
  cbn [firstn skipn app nth]. rewrite IH by (cbn in H; lia). reflexivity.
Qed.
Lemma put_length (vals : list Z) i v : (i < length vals)%nat -> length (firstn i vals ++ v :: skipn (S i) vals) = length vals.
Proof. intros H. rewrite app_length, firstn_length. cbn [length]. rewrite skipn_length. lia. Qed.
Lemma publish_spec text cmds cuts : standard cmds -> (forall i, (64 <= fst (cuts i))%nat /\ (64 <= snd (cuts i))%nat) ->
  forall cpu left i s vals, (left + i = 10)%nat -> length vals = 10%nat -> sm_db s = regs_db vals -> (forall z, In (Ok (Some z)) cpu -> 0 <= z <= 100) ->
  publish text cmds cuts s left i cpu = with_db s (regs_db (write_from i vals (before_failure cpu))).
Proof.
  intros C N. assert (Z0 : forall vals i l, length vals = 10%nat -> (10 <= i)%nat \/ l = [] -> write_from i vals l = vals).
  { intros vals i l L Q. rewrite (list_ten vals L) at 2. unfold write_from. apply map_ext_in. intros k K. apply in_seq in K.
    destruct (i <=? k)%nat eqn:E; [|reflexivity]. apply Nat.leb_le in E. destruct Q as [Q | ->]; [lia|]. now destruct (k - i)%nat. }
  assert (Same : forall s vals, sm_db s = regs_db vals -> with_db s (regs_db vals) = s) by (intros [] vals E; cbn in *; now rewrite <- E).
  induction cpu as [|r rest IH]; intros left i s vals LI L D B.
  - cbn [before_failure]. rewrite Z0 by auto. destruct left; symmetry; apply Same, D.
  - destruct left as [|left].
    + rewrite Z0 by (auto; left; lia). symmetry. apply Same, D.
    + destruct r as [o|e]; cbn [publish before_failure].
      2:{ rewrite Z0 by auto. symmetry. apply Same, D. }
      assert (Lo : cpu_usage o = load o) by (destruct o as [z|]; [cbn; destruct (z =? 0) eqn:Ez; lia|reflexivity]).
      assert (V : 0 <= cpu_usage o <= 100).
      { rewrite Lo. destruct o as [z|]; cbn [load]; [apply B; now left|lia]. }
      destruct (N i) as [N1 N2]. rewrite (rpc_set text cmds _ _ s vals i (cpu_usage o) C N1 N2 L ltac:(lia) V D).
      rewrite (IH left (S i) _ (firstn i vals ++ cpu_usage o :: skipn (S i) vals)).
      * cbn [with_db]. unfold with_db. cbn [sm_db sm_hooks sm_fcts sm_verbose]. f_equal. f_equal. unfold write_from. apply map_ext_in. intros k K. apply in_seq in K.
        rewrite put_nth by lia. rewrite Lo. destruct (k =? i)%nat eqn:E1.
        { apply Nat.eqb_eq in E1. subst k. rewrite Nat.leb_refl, Nat.sub_diag. destruct (S i <=? i)%nat eqn:E2; [apply Nat.leb_le in E2; lia|reflexivity]. }
        apply Nat.eqb_neq in E1. destruct (S i <=? k)%nat eqn:E2.
        { apply Nat.leb_le in E2. rewrite (proj2 (Nat.leb_le i k)) by lia. now replace (k - i)%nat with (S (k - S i)) by lia. }
        apply Nat.leb_gt in E2. rewrite (proj2 (Nat.leb_gt i k)) by lia. reflexivity.
      * lia.
      * rewrite put_length; lia.
      * reflexivity.
      * intros z Hz. apply B. now right.
Qed.
(** ** Histories *)
Definition table (ws : list wmi) : list Z := map (latest ws) (seq 0 10).
Lemma table_length ws : length (table ws) = 10%nat.
Proof. reflexivity. Qed.
Lemma latest_app ws w k : latest (ws ++ [w]) k = match seen w k with Some v => v | None => latest ws k end.
Proof.
  unfold latest. rewrite flat_map_app. cbn [flat_map]. destruct (seen w k) as [v|]; cbn [app]; [apply last_last|now rewrite app_nil_r].
Qed.
Lemma table_nth ws k : (k < 10)%nat -> nth k (table ws) 0 = latest ws k.
Proof. intros K. unfold table. rewrite (nth_indep _ 0 (latest ws 0)) by (rewrite map_length, seq_length; lia). rewrite map_nth, seq_nth by lia. reflexivity. Qed.
Lemma table_app ws cpu : write_from 0 (table ws) (before_failure cpu) = table (ws ++ [Ok cpu]).
Proof.
  unfold write_from, table at 2. apply map_ext_in. intros k K. apply in_seq in K. rewrite latest_app. cbn [seen Nat.leb].
  rewrite Nat.sub_0_r, table_nth by lia. destruct (nth_error (before_failure cpu) k); reflexivity.
Qed.
Lemma table_none ws e : table (ws ++ [Err e]) = table ws.
Proof. unfold table. apply map_ext. intros k. now rewrite latest_app. Qed.
(** the collector after [n] calls *)
Definition due (rate n : Z) (c : collector) : Prop :=
  cl_max c = rate * 10 /\ (rate <= 0 /\ rate * 10 <= cl_count c + 1 \/ 1 <= rate /\ cl_count c = (n - 1) mod (rate * 10)).
Lemma run_spec text cmds rate : standard cmds -> forall h c s n ws, Forall normal h -> due rate n c -> 0 <= n -> sm_db s = regs_db (table ws) ->
  exists c', monitor text cmds (c, s) h = (c', with_db s (regs_db (table (ws ++ sampled (Z.max 1 (rate * 10)) n h)))).
Proof.
  intros C. induction h as [|e t IH]; intros c s n ws F U N D.
  - exists c. cbn [monitor fold_left sampled]. rewrite app_nil_r. f_equal. destruct s; cbn in *. now rewrite <- D.
  - inversion_clear F as [|? ? Fe Ft]. unfold monitor. cbn [fold_left]. destruct e as [w cuts|p r]; cbn [event_step sampled].
    + destruct Fe as [Fc Fw]. destruct U as [U1 U2]. unfold collect.
      assert (K : (cl_max c <=? cl_count c + 1) = (n mod Z.max 1 (rate * 10) =? 0)).
      { rewrite U1. destruct U2 as [[U2 U3]|[U2 U3]].
        - replace (Z.max 1 (rate * 10)) with 1 by lia. rewrite Z.mod_1_r. lia.
        - replace (Z.max 1 (rate * 10)) with (rate * 10) by lia. rewrite U3.
          set (m := rate * 10) in *. assert (M : 10 <= m) by lia. clearbody m.
          pose proof (Z.mod_pos_bound n m ltac:(lia)). pose proof (Z.mod_pos_bound (n - 1) m ltac:(lia)).
          assert (E : (n - 1) mod m = if n mod m =? 0 then m - 1 else n mod m - 1).
          { destruct (n mod m =? 0) eqn:E0.
            - apply Z.eqb_eq in E0. symmetry. apply (Z.mod_unique_pos _ _ (n / m - 1)); [lia|]. pose proof (Z.div_mod n m ltac:(lia)). lia.
            - apply Z.eqb_neq in E0. symmetry. apply (Z.mod_unique_pos _ _ (n / m)); [lia|]. pose proof (Z.div_mod n m ltac:(lia)). lia. }
          rewrite E. destruct (n mod m =? 0) eqn:E0; lia. }
      rewrite K. destruct (n mod Z.max 1 (rate * 10) =? 0) eqn:E0.
      * assert (U' : due rate (n + 1) {| cl_max := cl_max c; cl_count := 0 |}).
        { split; [exact U1|]. cbn [cl_count]. destruct U2 as [[U2 U3]|[U2 U3]]; [left; lia|right; split; [lia|]].
          replace (Z.max 1 (rate * 10)) with (rate * 10) in E0 by lia. apply Z.eqb_eq in E0. now replace (n + 1 - 1) with n by lia. }
        set (s' := match w with Ok cpu => publish text cmds cuts s 10 0 cpu | Err _ => s end).
        assert (S' : s' = with_db s (regs_db (table (ws ++ [w])))).
        { unfold s'. destruct w as [cpu|e].
          - rewrite (publish_spec text cmds cuts C Fc cpu 10 0 s (table ws) eq_refl (table_length ws) D (fun z Hz => Fw cpu z eq_refl Hz)).
            now rewrite table_app.
          - rewrite table_none. destruct s; cbn in *. now rewrite <- D. }
        destruct (IH _ s' (n + 1) (ws ++ [w]) Ft U' ltac:(lia) ltac:(now rewrite S')) as [c' E]. exists c'. unfold monitor in E. rewrite E, S'.
        unfold with_db. cbn [sm_db sm_hooks sm_fcts sm_verbose]. now rewrite <- app_assoc.
      * assert (U' : due rate (n + 1) {| cl_max := cl_max c; cl_count := cl_count c + 1 |}).
        { split; [exact U1|]. cbn [cl_count]. destruct U2 as [[U2 U3]|[U2 U3]]; [left; lia|right; split; [lia|]].
          replace (n + 1 - 1) with n by lia. rewrite U1 in K. set (m := rate * 10) in *. replace (Z.max 1 m) with m in * by lia. assert (M : 10 <= m) by lia. clearbody m.
          apply Z.eqb_neq in E0. pose proof (Z.mod_pos_bound n m ltac:(lia)).
          rewrite U3. apply (Z.mod_unique_pos _ _ ((n - 1) / m)); [pose proof (Z.mod_pos_bound (n - 1) m ltac:(lia)); lia|]. pose proof (Z.div_mod (n - 1) m ltac:(lia)). lia. }
        destruct (IH _ s (n + 1) ws Ft U' ltac:(lia) D) as [c' E]. exists c'. exact E.
    + cbn [fst snd]. rewrite D, regs_request by apply table_length.
      destruct (IH c (with_db s (regs_db (table ws))) n ws Ft U N eq_refl) as [c' E]. exists c'. exact E.
Qed.
(** ** The properties *)
Lemma seq_slice f a n : (a + n <= 10)%nat -> firstn n (skipn a (map f (seq 0 10))) = map f (seq a n) :> list Z.
Proof.
  intros H. do 11 (destruct a as [|a]; [do 11 (destruct n as [|n]; [reflexivity || lia|]); lia|]). lia.
Qed.
Lemma seen_bound w k v : (forall cpu z, w = Ok cpu -> In (Ok (Some z)) cpu -> 0 <= z <= 100) -> seen w k = Some v -> 0 <= v <= 100.
Proof.
  intros B E. destruct w as [cpu|]; [|discriminate]. cbn in E. specialize (fun z => B cpu z eq_refl).
  revert k E. induction cpu as [|[o|] t IH]; intros k E; [destruct k; discriminate| |destruct k; discriminate].
  destruct k as [|k]; cbn in E.
  - injection E as <-. destruct o; cbn; [apply B; now left|lia].
  - apply (IH (fun z Hz => B z (or_intror Hz)) k E).
Qed.
Lemma sampled_in period w : forall h n, In w (sampled period n h) -> exists cuts, In (Collected w cuts) h.
Proof.
  induction h as [|[w' cuts|p r] t IH]; intros n I; cbn in I; [tauto| |].
  - destruct (n mod period =? 0); [destruct I as [-> | I]|]; [exists cuts; now left| |]; destruct (IH _ I) as [c Hc]; exists c; now right.
  - destruct (IH _ I) as [c Hc]. exists c. now right.
Qed.
Lemma latest_bound ws k : (forall w v, In w ws -> seen w k = Some v -> 0 <= v <= 100) -> 0 <= latest ws k <= 100.
Proof.
  induction ws as [|w ws IH] using rev_ind; intros B; [cbn; lia|]. rewrite latest_app. destruct (seen w k) as [v|] eqn:E.
  - apply (B w); [apply in_or_app; right; now left|exact E].
  - apply IH. intros w' v I. apply B. apply in_or_app. now left.
Qed.
Section Published.
  Context (text : exn -> string) (cmds : list (string * fct)) (rate : Z) (h : list event) (s0 : sim).
  Context (C : standard cmds) (Start : monitor_db = Ok (sm_db s0)) (F : Forall normal h).
  Let ws := sampled (Z.max 1 (10 * rate)) 0 h.
  Lemma published_db : snd (monitor text cmds (new_collector rate, s0) h) = with_db s0 (regs_db (table ws)).
  Proof.
    rewrite monitor_start in Start. injection Start as E.
    destruct (run_spec text cmds rate C h (new_collector rate) s0 0 [] F) as [c' R].
    - split; [reflexivity|]. cbn [new_collector cl_count]. destruct (Z_le_gt_dec rate 0) as [L|G]; [left; lia|right; split; [lia|]].
      apply (Z.mod_unique_pos _ _ (-1)); lia.
    - lia.
    - rewrite <- E. reflexivity.
    - rewrite R. cbn [snd]. unfold ws. now rewrite (Z.mul_comm 10).
  Qed.
End Published.
(** A master that reads registers of the range 0..9 gets, for each of them, the load of this processor in the latest sample
    that gave it: whatever the schedule of samples and of requests, which samples failed and where.  The samples are one call
    of collect out of 10 * refresh_rate. *)
Theorem C112_published : forall text cmds rate h s0, standard cmds -> monitor_db = Ok (sm_db s0) -> Forall normal h ->
  forall p last a n, 0 <= last <= 65535 -> (1 <= n)%nat -> (a + n <= 10)%nat ->
  ex_result (snd (round_trip p last (sm_db (snd (monitor text cmds (new_collector rate, s0) h))) 1 (ReadRegs false (Z.of_nat a) (Z.of_nat n)))) =
  Some (Ok (RTuple (map (latest (sampled (Z.max 1 (10 * rate)) 0 h)) (seq a n)))).
Proof.
  intros text cmds rate h s0 C Start F p last a n Hl Hn Han. rewrite published_db by assumption. cbn [with_db sm_db].
  set (ws := sampled (Z.max 1 (10 * rate)) 0 h).
  assert (B : forall k, 0 <= latest ws k <= 100).
  { intros k. apply latest_bound. intros w v I. apply seen_bound. apply sampled_in in I as [cuts I].
    rewrite Forall_forall in F. exact (proj2 (F _ I)). }
  destruct (db_reachable_slave _ 1 _ (regs_reachable (table ws) (table_length ws)) (regs_get _)) as [R _].
  assert (V : values_at {| b_start := 0; b_size := 10; b_data := table ws |} (Z.of_nat a) (Z.of_nat n) = map (latest ws) (seq a n)).
  { unfold values_at. cbn [b_start b_data]. rewrite Z.sub_0_r, !Nat2Z.id. now apply seq_slice. }
  destruct (rt_read_regs p last (regs_db (table ws)) 1 false (Z.of_nat a) (Z.of_nat n) (regs_slave (table ws))
              {| b_start := 0; b_size := 10; b_data := table ws |} ANALOG_INPUTS Hl ltac:(lia) (regs_get _) (reachable_wf _ R) eq_refl) as (_ & _ & E).
  - discriminate.
  - unfold fits; lia.
  - lia.
  - exists [], []. split; [reflexivity|]. split; [unfold covers; cbn; lia|intros b' []].
  - rewrite V. apply Forall_forall. intros v I. apply in_map_iff in I as (k & <- & _). pose proof (B k). cbn [regs_slave sl_unsigned]. unfold fits. lia.
  - rewrite E, V. f_equal. f_equal. f_equal. rewrite map_map. apply map_ext. intros k. unfold as_word. pose proof (B k). rewrite Z.mod_small; lia.
Qed.
(** No request changes anything: the only writer of the registers is the collector. *)
Theorem C112_requests : forall text cmds rate h s0, standard cmds -> monitor_db = Ok (sm_db s0) -> Forall normal h ->
  let s := snd (monitor text cmds (new_collector rate, s0) h) in
  forall p request, fst (db_handle_request (sm_db s) p request) = sm_db s.
Proof.
  intros text cmds rate h s0 C Start F s p request. subst s. rewrite published_db by assumption. cbn [with_db sm_db].
  apply regs_request, table_length.
Qed.
(** Between two samples nothing changes, and a sample that fails altogether changes nothing either: the registers then show
    old loads and nothing tells the master.  Here: one good sample, then any number of failed ones. *)
Definition whole_cuts : nat -> nat * nat := fun _ => (1460%nat, 1460%nat).
Definition failing (e : event) : Prop := match e with Collected (Err _) _ | Asked _ _ => True | _ => False end.
Lemma sampled_app period h2 : Forall failing h2 -> forall h1 n,
  exists ws, sampled period n (h1 ++ h2) = sampled period n h1 ++ ws /\ forall k, flat_map (fun w => match seen w k with Some v => [v] | None => [] end) ws = [].
Proof.
  intros A. induction h1 as [|e t IH]; intros n.
  - cbn [app sampled]. exists (sampled period n h2). split; [reflexivity|]. intros k. revert n. induction A as [|e t Fe A IH]; intros n; [reflexivity|].
    destruct e as [[cpu|x] c|p r]; cbn [failing sampled] in *; [contradiction| |apply IH]. destruct (n mod period =? 0); [|apply IH]. cbn [flat_map seen app]. apply IH.
  - destruct e as [w c|p r]; cbn [app sampled]; [|apply IH]. destruct (n mod period =? 0); [|apply IH].
    destruct (IH (n + 1)) as (ws & E & Q). exists ws. now rewrite E.
Qed.
(** From the moment WMI fails, whatever happened before, the master reads the old loads for ever. *)
Theorem C112_stale_refuted : forall text cmds rate h1 h2 s0, standard cmds -> monitor_db = Ok (sm_db s0) -> Forall normal h1 -> Forall normal h2 -> Forall failing h2 ->
  sm_db (snd (monitor text cmds (new_collector rate, s0) (h1 ++ h2))) = sm_db (snd (monitor text cmds (new_collector rate, s0) h1)).
Proof.
  intros text cmds rate h1 h2 s0 C Start F1 F2 A. rewrite !published_db by (try assumption; now apply Forall_app).
  cbn [with_db sm_db]. f_equal. unfold table. apply map_ext. intros k. destruct (sampled_app (Z.max 1 (10 * rate)) h2 A h1 0) as (ws & E & Q).
  unfold latest. now rewrite E, flat_map_app, Q, app_nil_r.
Qed.
(** The eleventh processor, and those after it, are shown nowhere: two machines that differ there only look alike. *)
Theorem C112_eleventh_refuted : forall text cmds rate s0 cuts cpu more1 more2, standard cmds -> monitor_db = Ok (sm_db s0) -> length cpu = 10%nat ->
  normal (Collected (Ok (cpu ++ more1)) cuts) -> normal (Collected (Ok (cpu ++ more2)) cuts) ->
  sm_db (snd (monitor text cmds (new_collector rate, s0) [Collected (Ok (cpu ++ more1)) cuts])) =
  sm_db (snd (monitor text cmds (new_collector rate, s0) [Collected (Ok (cpu ++ more2)) cuts])).
Proof.
  intros text cmds rate s0 cuts cpu more1 more2 C Start L N1 N2. pose proof (Forall_cons _ N1 (Forall_nil _)) as F1. pose proof (Forall_cons _ N2 (Forall_nil _)) as F2. rewrite !published_db by assumption.
  cbn [with_db sm_db sampled]. rewrite Zmod_0_l. cbn [Z.eqb]. f_equal. unfold table. apply map_ext_in. intros k K. apply in_seq in K.
  unfold latest. cbn [flat_map seen]. rewrite !app_nil_r.
  assert (E : nth_error (before_failure (cpu ++ more1)) k = nth_error (before_failure (cpu ++ more2)) k).
  { rewrite <- L in K. clear -K. revert k K. induction cpu as [|[o|] t IH]; intros k K; [cbn in K; lia| |reflexivity].
    destruct k; [reflexivity|]. cbn in *. apply IH. lia. }
  now rewrite E.
Qed.

(** ** Concrete cases: a monitor with refresh_rate 1 (one sample every ten calls) *)
Definition monitor_sim : sim := {| sm_db := regs_db (repeat 0 10); sm_hooks := []; sm_fcts := []; sm_verbose := 0 |}.
Definition some_texts : exn -> string := fun _ => "error".
Definition idle : event := Collected (Ok [Ok (Some 1)]) whole_cuts.
Definition two_cpus : event := Collected (Ok [Ok (Some 87); Ok None]) whole_cuts.
Definition half : event := Collected (Ok [Ok (Some 12); Err GenericException; Ok (Some 50)]) whole_cuts.
Definition down : event := Collected (Err GenericException) whole_cuts.
Definition write_req : event := Asked TCP [0; 1; 0; 0; 0; 6; 1; 6; 0; 0; 0; 9].
Definition day : list event := two_cpus :: write_req :: repeat idle 9 ++ half :: repeat idle 9 ++ [down].
Example C112_ex : monitor_db = Ok (sm_db monitor_sim) /\ Forall normal day /\
  sampled 10 0 day = [Ok [Ok (Some 87); Ok None]; Ok [Ok (Some 12); Err GenericException; Ok (Some 50)]; Err GenericException] /\
  map (latest (sampled 10 0 day)) (seq 0 3) = [12; 0; 0] /\
  map (latest (sampled 10 0 [two_cpus])) (seq 0 3) = [87; 0; 0] /\
  ex_result (snd (round_trip TCP 7 (sm_db (snd (monitor some_texts builtin_cmds (new_collector 1, monitor_sim) day))) 1 (ReadRegs false 0 3))) = Some (Ok (RTuple [12; 0; 0])).
Proof.
  split; [reflexivity|]. split.
  - assert (W : forall i, (64 <= fst (whole_cuts i))%nat /\ (64 <= snd (whole_cuts i))%nat) by (intros i; split; apply Nat.leb_le; reflexivity).
    assert (N1 : normal idle) by (split; [exact W|intros cpu z E; injection E as <-; intros [I|[]]; injection I as <-; lia]).
    assert (N2 : normal two_cpus) by (split; [exact W|intros cpu z E; injection E as <-; intros [I|[I|[]]]; [injection I as <-; lia|discriminate I]]).
    assert (N3 : normal half) by (split; [exact W|intros cpu z E; injection E as <-; intros [I|[I|[I|[]]]]; [injection I as <-; lia|discriminate I|injection I as <-; lia]]).
    assert (N4 : normal down) by (split; [exact W|intros cpu z E; discriminate E]).
    unfold day. constructor; [exact N2|]. constructor; [exact I|]. apply Forall_app. split; [apply Forall_forall; intros e H; apply repeat_spec in H; now subst|].
    constructor; [exact N3|]. apply Forall_app. split; [apply Forall_forall; intros e H; apply repeat_spec in H; now subst|]. constructor; [exact N4|constructor].
  - repeat (split; [vm_compute; reflexivity|]). vm_compute. reflexivity.
Qed.
Example C112_stale_ex : Forall failing [down; write_req; down].
Proof. repeat constructor. Qed.

Print Assumptions C112_published.
Print Assumptions C112_requests.
Print Assumptions C112_stale_refuted.
Print Assumptions C112_eleventh_refuted.
