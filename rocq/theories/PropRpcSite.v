(** C134: masters and a remote program that works through SimulatorRpcClient: together the devices the library is.
    Vocabulary: BuiltSpec.v and PropBuiltPlant.v (site, site_run, lawful, stages), SimulatorModel.v (rpc_call, client_get_values: the RPC
    client, the two messages cut after n1 and n2 bytes, and the simulator), PropSimulator.v (standard) and the definitions below. *)
From Coq Require Import ZArith Lia ZifyBool ZifyNat.
From Verif Require Import Base BaseFacts PyStruct Spec StructFacts StructMore Defines SlaveModel SlaveSpec SlaveProofs BlockSpec BlockProofs HandlerProofs RequestProofs GeneralProofs SlaveInv PropSlave AtomicProofs SlaveMore.
From Verif Require Import FrameSpec QueryModel DatabankModel MasterModel MasterSpec DbSpec DatabankProofs MasterProofs EndSpec EndProofs PropDatabank PropMaster PropBroadcast.
From Verif Require Import HooksModel TextModel SimulatorModel TextProofs SimulatorProofs PropSimulator DeviceSpec PropDevice PropPlant BuiltSpec PropBuilt PropBuiltPlant.
Open Scope string_scope.
Open Scope list_scope.
Open Scope Z_scope.

(** ** Spec *)
(** An event: what masters do is as in C129; the remote program stores and reads by RPC. *)
Inductive remote :=
| Modbus (u : Z) (c : call) | ModbusAll (c : call)
| RpcSet (u : Z) (name : string) (a : Z) (values : list Z)
| RpcGet (u : Z) (name : string) (a n : Z).
Definition as_event (x : remote) : event :=
  match x with
  | Modbus u c => Ask u c | ModbusAll c => Announce c
  | RpcSet u name a values => Store u name a (SvSeq values) | RpcGet u name a n => Fetch u name a n
  end.
Inductive felt := FeltCall (r : option (res exec_result)) | FeltSet (r : res string) | FeltGet (r : res (list Z)).
(** Each event with the sizes of the pieces its messages are received in. *)
Definition remote_step (text : exn -> string) (cmds : list (string * fct)) (p : proto) (last : Z) (s : sim) (x : remote * (nat * nat)) : sim * Z * felt :=
  let '(e, (n1, n2)) := x in
  match e with
  | Modbus u c => let '(d', r) := round_trip p last (sm_db s) u c in (with_db s d', ex_last r, FeltCall (ex_result r))
  | ModbusAll c => let '(d', r) := round_trip p last (sm_db s) 0 c in (with_db s d', ex_last r, FeltCall (ex_result r))
  | RpcSet u name a values => let '(s', r) := rpc_call text cmds n1 n2 s (q_set_values u name a values) in (s', last, FeltSet r)
  | RpcGet u name a n => let '(s', r) := client_get_values text cmds n1 n2 s u name a n in (s', last, FeltGet r)
  end.
Fixpoint remote_run text cmds (p : proto) (last : Z) (s : sim) (l : list (remote * (nat * nat))) : sim * list felt :=
  match l with [] => (s, []) | x :: l => let '(s1, last1, y) := remote_step text cmds p last s x in let '(s2, ys) := remote_run text cmds p last1 s1 l in (s2, y :: ys) end.
(** What is felt is what the site gives.  A stored list is answered with its numbers; what the slave refuses is the client's Exception. *)
Definition felt_as (x : remote) (y : felt) (o : news) : Prop :=
  match o with
  | Heard o => exists r, y = FeltCall r /\ told_as r o
  | Kept => exists u name a values, x = RpcSet u name a values /\ y = FeltSet (Ok (sentence (map py_str values)))
  | Found t l => exists vals, y = FeltGet (Ok vals) /\ map (shown t) vals = l
  | NoSuch | Beyond => y = FeltSet (Err GenericException) \/ y = FeltGet (Err GenericException)
  end.
(** Every message arrives in one piece and has at most 1024 bytes (the simulator and the client read once, C57); names have no space; at
    least one value is read. *)
Definition carried (s : sim) (x : remote * (nat * nat)) : Prop :=
  let '(e, (n1, n2)) := x in
  match e with
  | RpcSet u name a values => no_space name = true /\ SimulatorProofs.whole n1 (q_set_values u name a values) /\
      SimulatorProofs.whole n2 (append "set_values done: " (append (sentence (map py_str values)) crlf))
  | RpcGet u name a n => no_space name = true /\ SimulatorProofs.whole n1 (q_get_values u name a n) /\ 1 <= n /\
      forall sl vs, get_slave (sm_db s) u = Ok sl -> get_values sl name a n = Ok vs -> SimulatorProofs.whole n2 (append "get_values done: " (append (sentence (map py_str vs)) crlf))
  | _ => True
  end.
Fixpoint all_carried text cmds (p : proto) (last : Z) (s : sim) (l : list (remote * (nat * nat))) : Prop :=
  match l with [] => True | x :: l => carried s x /\ let '(s1, last1, _) := remote_step text cmds p last s x in all_carried text cmds p last1 s1 l end.

(** ** Proofs *)
Lemma remote_well text cmds p last s w x : standard cmds -> 0 <= last <= 65535 -> db_reachable (sm_db s) -> stages (sm_db s) w -> lawful p (as_event (fst x)) -> carried s x ->
  let '(s', last', y) := remote_step text cmds p last s x in
  felt_as (fst x) y (snd (site_step w (as_event (fst x)))) /\ stages (sm_db s') (fst (site_step w (as_event (fst x)))) /\ db_reachable (sm_db s') /\ 0 <= last' <= 65535.
Proof.
  intros C T D P L K. destruct x as (e & n1 & n2). cbn [fst] in *.
  assert (W : step_well p last (sm_db s) w (as_event e)) by (destruct e; [apply well_ask|apply well_announce|apply well_store|apply well_fetch]; auto).
  destruct e as [u c|c|u name a values|u name a n]; cbn [as_event remote_step] in *; unfold step_well in W; cbn [program_step] in W.
  - destruct (round_trip p last (sm_db s) u c) as [d' r]. cbn [sm_db with_db] in *. destruct W as (W1 & W). split; [|exact W]. cbn [site_step] in *. destruct (w u); cbn [snd same_news felt_as] in *; destruct W1 as (r0 & X & Y); injection X as <-; eauto.
  - destruct (round_trip p last (sm_db s) 0 c) as [d' r]. cbn [sm_db with_db] in *. destruct W as (W1 & W). split; [|exact W]. cbn [site_step snd same_news felt_as] in *. destruct W1 as (r0 & X & Y). injection X as <-. eauto.
  - destruct K as (K1 & K2 & K3). rewrite (C72_set_values text cmds n1 n2 s u name a values C K1 D K2 K3). unfold on_slave.
    destruct (get_slave (sm_db s) u) as [sl|e] eqn:G.
    + destruct (set_values sl name a (SvSeq values)) as [sl' r] eqn:V. cbn [fst snd sm_db with_db]. destruct W as (W1 & W). split; [|exact W].
      destruct (snd (site_step w (Store u name a (SvSeq values)))) as [o| |t l| |]; cbn [same_news felt_as] in *.
      * destruct W1 as (r0 & X & _). discriminate X.
      * injection W1 as ->. eauto 8.
      * destruct W1 as (v0 & X & _). discriminate X.
      * destruct W1 as [X|X]; [injection X as ->; auto|discriminate X].
      * destruct W1 as [X|X]; [injection X as ->; auto|discriminate X].
    + cbn [fst snd]. destruct W as (W1 & W). split; [|exact W].
      destruct (snd (site_step w (Store u name a (SvSeq values)))) as [o| |t l| |]; cbn [same_news felt_as] in *; auto; [destruct W1 as (r0 & X & _); discriminate X|discriminate W1|destruct W1 as (v0 & X & _); discriminate X].
  - destruct K as (K1 & K2 & K3 & K4). rewrite (C72_get_values text cmds n1 n2 s u name a n C K1 K2).
    2:{ intros sl vs G V. split; [|now apply (K4 sl vs G V)]. intros ->. destruct (db_reachable_slave (sm_db s) u sl D G) as [R _]. destruct (C04_get_values_range_partial sl name a n R ltac:(lia)) as (X1 & X2 & X3).
      destruct (assoc String.eqb name (sl_names sl)) as [p0|] eqn:RG; [|rewrite X1 in V; [discriminate V|unfold registered; rewrite RG; congruence]]. assert (RN : registered sl name) by (unfold registered; rewrite RG; discriminate).
      destruct (get_values sl name a n) as [v0|e0] eqn:GV; [|discriminate V]. injection V as ->. assert (IN : ~ ~ inside sl name a n) by (intros NI; specialize (X3 RN NI); discriminate X3).
      apply IN. intros I. destruct (X2 RN I) as (vs & E & Z0). injection E as <-. cbn in Z0. lia. }
    destruct (get_slave (sm_db s) u) as [sl|e] eqn:G.
    + destruct W as (W1 & W). split; [|exact W]. destruct (snd (site_step w (Fetch u name a n))) as [o| |t l| |]; cbn [same_news felt_as] in *.
      * destruct W1 as (r0 & X & _). discriminate X.
      * discriminate W1.
      * destruct W1 as (v0 & X & Y). injection X as X. rewrite X. eauto.
      * destruct W1 as [X|X]; [discriminate X|injection X as X; rewrite X; auto].
      * destruct W1 as [X|X]; [discriminate X|injection X as X; rewrite X; auto].
    + destruct W as (W1 & W). split; [|exact W].
      destruct (snd (site_step w (Fetch u name a n))) as [o| |t l| |]; cbn [same_news felt_as] in *; auto; [destruct W1 as (r0 & X & _); discriminate X|discriminate W1|destruct W1 as (v0 & X & _); discriminate X].
Qed.
(** ** C134 *)
Theorem C134_remote : forall text cmds p l last s w, standard cmds -> 0 <= last <= 65535 -> db_reachable (sm_db s) -> stages (sm_db s) w ->
  Forall (fun x => lawful p (as_event (fst x))) l -> all_carried text cmds p last s l ->
  Forall2 (fun xy o => felt_as (fst (fst xy)) (snd xy) o) (combine l (snd (remote_run text cmds p last s l))) (snd (site_run w (map (fun x => as_event (fst x)) l))) /\
  length (snd (remote_run text cmds p last s l)) = length l /\
  stages (sm_db (fst (remote_run text cmds p last s l))) (fst (site_run w (map (fun x => as_event (fst x)) l))).
Proof.
  intros text cmds p l last s w C. revert last s w. induction l as [|x l IH]; intros last s w T D P F K; [split; [constructor|auto]|]. inversion_clear F as [|? ? F1 F2]. destruct K as (K1 & K2).
  pose proof (remote_well text cmds p last s w x C T D P F1 K1) as SW. cbn [remote_run map site_run]. destruct (remote_step text cmds p last s x) as [[s1 last1] y]. destruct (site_step w (as_event (fst x))) as [w1 o]. cbn [fst snd] in SW. destruct SW as (S1 & S2 & S3 & S4).
  destruct (IH last1 s1 w1 S4 S3 S2 F2 K2) as (I1 & I2 & I3). destruct (remote_run text cmds p last1 s1 l) as [s2 ys]. destruct (site_run w1 (map (fun x => as_event (fst x)) l)) as [w2 os]. cbn [fst snd combine length] in *.
  split; [constructor; [exact S1|exact I1]|]. split; [now rewrite I2|exact I3].
Qed.
(** Every simulator whose slaves are plain is such a site. *)
Theorem C134_from_simulator : forall text cmds p l last s, standard cmds -> 0 <= last <= 65535 -> db_reachable (sm_db s) -> (forall v sl, get_slave (sm_db s) v = Ok sl -> plain sl) ->
  Forall (fun x => lawful p (as_event (fst x))) l -> all_carried text cmds p last s l ->
  Forall2 (fun xy o => felt_as (fst (fst xy)) (snd xy) o) (combine l (snd (remote_run text cmds p last s l))) (snd (site_run (site_of (sm_db s)) (map (fun x => as_event (fst x)) l))) /\
  length (snd (remote_run text cmds p last s l)) = length l /\
  stages (sm_db (fst (remote_run text cmds p last s l))) (fst (site_run (site_of (sm_db s)) (map (fun x => as_event (fst x)) l))).
Proof.
  intros text cmds p l last s C T D H F K. apply C134_remote; auto. intros v. unfold site_of. destruct (get_slave (sm_db s) v) as [sl|e] eqn:G.
  - destruct (db_reachable_slave (sm_db s) v sl D G) as [R _]. exists sl. split; [reflexivity|]. split; [eapply H; eauto|]. split; [apply built_of_pictures; [now apply reachable_wf|eapply H; eauto]|]. apply post_areas; [exact R|eapply H; eauto].
  - now apply get_slave_err in G as ->.
Qed.
(** ** A concrete case *)
Definition demo_sim : sim := {| sm_db := demo_db; sm_hooks := []; sm_fcts := []; sm_verbose := 0 |}.
Definition remotes : list (remote * (nat * nat)) :=
  map (fun e => (e, (1460%nat, 1460%nat)))
    [RpcSet 3 "r" 103 [-2; 70000; 5]; Modbus 3 (ReadRegs true 105 1); Modbus 3 (WriteReg 103 9); RpcGet 3 "r" 103 2; ModbusAll (WriteReg 104 7); RpcGet 9 "r" 104 1; RpcSet 3 "r" 109 [1; 2]; RpcSet 77 "r" 100 [1]; RpcGet 9 "q" 1 1; Modbus 3 (ReadRegs true 103 3)].
Definition any_text (e : exn) : string := "no".
Example C134_ex : Forall (fun x => lawful TCP (as_event (fst x))) remotes /\ all_carried any_text builtin_cmds TCP 0 demo_sim remotes /\ (forall v sl, get_slave (sm_db demo_sim) v = Ok sl -> plain sl) /\
  snd (remote_run any_text builtin_cmds TCP 0 demo_sim remotes) =
    [FeltSet (Ok "-2 70000 5"); FeltCall (Some (Ok (RTuple [5]))); FeltCall (Some (Ok (RTuple [103; 9]))); FeltGet (Ok [9; 70000]); FeltCall (Some (Err SocketTimeout)); FeltGet (Ok [7]); FeltSet (Err GenericException); FeltSet (Err GenericException);
     FeltGet (Err GenericException); FeltCall (Some (Ok (RTuple [9; 7; 5])))].
Proof.
  split; [|split; [|split; [intros v s G; destruct (demo_tidy v s G) as (A & B & C & _); exact (conj A (conj B C))|vm_compute; reflexivity]]].
  - unfold remotes. cbn [map].
    repeat (apply Forall_cons; [cbn [lawful as_event fst]; first
      [ exact Logic.I
      | lia
      | eapply askable_intro; [lia|discriminate|cbn [encodable]; unfold fits, bytes, is_byte, zlen, reg_value; cbn [length Z.of_nat repeat]; repeat constructor; lia|reflexivity|vm_compute; discriminate]
      | split; [cbn [fc_of In]; tauto|]; intros last0 T0; split; [cbn [encodable]; unfold fits, reg_value; repeat split; lia|]; split; [exact T0|]; split; [lia|]; intros pdu P; apply framable_small; rewrite P; vm_compute; discriminate ]|]).
    apply Forall_nil.
  - unfold remotes. cbn [map].
    assert (WH : forall n t, Nat.leb (String.length t) n = true -> Nat.leb (String.length t) 1024 = true -> SimulatorProofs.whole n t) by (intros n t A B; split; now apply Nat.leb_le).
    repeat (cbn [all_carried]; split;
      [cbn [carried]; first [exact Logic.I | split; [reflexivity|]; split; [apply WH; vm_compute; reflexivity|]; first [apply WH; vm_compute; reflexivity | split; [lia|]; intros sl vs G V; vm_compute in G; first [discriminate G | injection G as <-; vm_compute in V; first [discriminate V | injection V as <-; apply WH; vm_compute; reflexivity]]]]
      |match goal with |- match ?t with _ => _ end => let t' := eval vm_compute in t in change t with t' end; cbv iota beta]).
    exact Logic.I.
Qed.

Print Assumptions C134_remote.
Print Assumptions C134_from_simulator.
