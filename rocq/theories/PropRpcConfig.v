(** C138: a simulator that a remote program sets up, changes and takes down through SimulatorRpcClient while masters work, starting without units.
    Vocabulary: PropConfigSite.v (move, site_move, runs_as, lawful_move), PropRpcSite.v (remote, remote_step, felt_as, carried), SimulatorModel.v (rpc_call and the
    texts of the client) and the definitions below. *)
From Coq Require Import ZArith Lia ZifyBool ZifyNat.
From Verif Require Import Base BaseFacts PyStruct Spec StructFacts StructMore Defines SlaveModel SlaveSpec SlaveProofs BlockSpec BlockProofs HandlerProofs RequestProofs GeneralProofs SlaveInv PropSlave AtomicProofs SlaveMore.
From Verif Require Import FrameSpec QueryModel DatabankModel MasterModel MasterSpec DbSpec DatabankProofs MasterProofs EndSpec EndProofs PropDatabank PropMaster PropBroadcast.
From Verif Require Import NetModel NetSpec PropPlantNet PropBuiltNet PropBuiltSerial PropBothSite.
From Verif Require Import HooksModel TextModel SimulatorModel TextProofs SimulatorProofs PropSimulator DeviceSpec PropDevice PropPlant BuiltSpec PropBuilt PropBuiltPlant PropRpcSite PropConfigSite PropConfigBoth.
Open Scope string_scope.
Open Scope list_scope.
Open Scope Z_scope.

(** ** Spec *)
(** What the remote program and the masters do: calls, broadcasts, set_values and get_values (PropRpcSite.v), and the other methods of SimulatorRpcClient
    that deal with slaves and blocks (simulator_rpc_client.py 64-113). *)
Inductive remote_move :=
| Deal (x : remote)
| RpcAddSlave (u : Z) | RpcRemoveSlave (u : Z) | RpcRemoveAllSlaves | RpcHasSlave (u : Z)
| RpcAddBlock (u : Z) (name : string) (kind a n : Z) | RpcRemoveBlock (u : Z) (name : string) | RpcRemoveAllBlocks (u : Z).
(** has_slave changes nothing; slaves added by RPC are unsigned *)
Definition moved (x : remote_move) : option move :=
  match x with
  | Deal x => Some (Happens (as_event x))
  | RpcAddSlave u => Some (AddUnit u true) | RpcRemoveSlave u => Some (DropUnit u) | RpcRemoveAllSlaves => Some DropUnits | RpcHasSlave _ => None
  | RpcAddBlock u name kind a n => Some (AddArea u name kind a n) | RpcRemoveBlock u name => Some (DropArea u name) | RpcRemoveAllBlocks u => Some (DropAreas u)
  end.
(** what _rpc_call returns when the command succeeds: add_slave, remove_slave and add_block return it, the other three drop it (simulator_rpc_client.py 44-87) *)
Definition echo (x : remote_move) : string :=
  match x with RpcAddSlave u => py_str u | RpcAddBlock _ name _ _ _ => name | RpcRemoveBlock _ _ | RpcRemoveAllBlocks _ => "None" | _ => "" end.
Inductive remote_felt := Felt (y : felt) | FeltText (r : res string) | FeltBool (r : res bool).
(** what the caller must get: the site's answer; what the site refuses is the client's Exception *)
Definition felt_move (w : site) (x : remote_move) (y : remote_felt) : Prop :=
  match x with
  | Deal x => exists z, y = Felt z /\ felt_as x z (snd (site_step w (as_event x)))
  | RpcHasSlave u => y = FeltBool (Ok (match w u with Some _ => true | None => false end))
  | _ => match moved x with
         | Some m => match snd (site_move w m) with Said (Ok _) => y = FeltText (Ok (echo x)) | _ => y = FeltText (Err GenericException) end
         | None => False
         end
  end.
Definition site_after (w : site) (x : remote_move) : site := match moved x with Some m => fst (site_move w m) | None => w end.
Fixpoint all_felt (w : site) (l : list remote_move) (ys : list remote_felt) : Prop :=
  match l, ys with
  | [], [] => True
  | x :: l, y :: ys => felt_move w x y /\ all_felt (site_after w x) l ys
  | _, _ => False
  end.
Definition sites_after (w : site) (l : list remote_move) : site := fold_left site_after l w.
Definition lawful_remote (p : proto) (w : site) (x : remote_move) : Prop := match moved x with Some m => lawful_move p w m | None => True end.
Fixpoint lawful_remotes (p : proto) (w : site) (l : list remote_move) : Prop :=
  match l with [] => True | x :: l => lawful_remote p w x /\ lawful_remotes p (site_after w x) l end.

(** ** The same in the program *)
Definition texted (x : sim * res string) (last : Z) : sim * Z * remote_felt := let '(s, r) := x in (s, last, FeltText r).
Definition remote_move_step (text : exn -> string) (cmds : list (string * fct)) (p : proto) (last : Z) (s : sim) (x : remote_move * (nat * nat)) : sim * Z * remote_felt :=
  let '(e, (n1, n2)) := x in
  let rpc q := texted (rpc_call text cmds n1 n2 s q) last in
  match e with
  | Deal x => let '(s', last', y) := remote_step text cmds p last s (x, (n1, n2)) in (s', last', Felt y)
  | RpcAddSlave u => rpc (q_add_slave u)
  | RpcRemoveSlave u => rpc (q_remove_slave u)
  | RpcRemoveAllSlaves => rpc q_remove_all_slaves
  | RpcHasSlave u => let '(s', r) := client_has_slave text cmds n1 n2 s u in (s', last, FeltBool r)
  | RpcAddBlock u name kind a n => rpc (q_add_block u name kind a n)
  | RpcRemoveBlock u name => rpc (q_remove_block u name)
  | RpcRemoveAllBlocks u => rpc (q_remove_all_blocks u)
  end.
Fixpoint remote_moves text cmds (p : proto) (last : Z) (s : sim) (l : list (remote_move * (nat * nat))) : sim * list remote_felt :=
  match l with [] => (s, []) | x :: l => let '(s1, last1, y) := remote_move_step text cmds p last s x in let '(s2, ys) := remote_moves text cmds p last1 s1 l in (s2, y :: ys) end.
(** Every message arrives in one piece and has at most 1024 bytes; names are words. *)
Definition carried_move (s : sim) (x : remote_move * (nat * nat)) : Prop :=
  let '(e, (n1, n2)) := x in
  let both q a := SimulatorProofs.whole n1 q /\ SimulatorProofs.whole n2 (append a crlf) in
  match e with
  | Deal x => carried s (x, (n1, n2))
  | RpcAddSlave u => both (q_add_slave u) (append "add_slave done: " (py_str u))
  | RpcRemoveSlave u => both (q_remove_slave u) "remove_slave done: "
  | RpcRemoveAllSlaves => both q_remove_all_slaves "remove_all_slaves done: "
  | RpcHasSlave u => both (q_has_slave u) "has_slave done: 1"
  | RpcAddBlock u name kind a n => solid name /\ both (q_add_block u name kind a n) (append "add_block done: " name)
  | RpcRemoveBlock u name => solid name /\ both (q_remove_block u name) "remove_block done: None"
  | RpcRemoveAllBlocks u => both (q_remove_all_blocks u) "remove_all_blocks done: None"
  end.
Fixpoint all_carried_moves text cmds (p : proto) (last : Z) (s : sim) (l : list (remote_move * (nat * nat))) : Prop :=
  match l with [] => True | x :: l => carried_move s x /\ let '(s1, last1, _) := remote_move_step text cmds p last s x in all_carried_moves text cmds p last1 s1 l end.

(** ** Proofs *)
Lemma append_assoc' (a b c : string) : append (append a b) c = append a (append b c).
Proof. induction a as [|x a IH]; [reflexivity|]. cbn. now rewrite IH. Qed.
Lemma config_well p d w m : db_reachable d -> runs_as d w -> (forall e, m <> Happens e) -> lawful_move p w m -> move_well p 0 d w m.
Proof.
  intros D P NH L. assert (T0 : 0 <= 0 <= 65535) by lia. destruct m as [e| | | | | |]; [exfalso; now apply (NH e)|apply add_unit|apply drop_unit|apply drop_units|apply add_area_well|apply drop_area_well|apply drop_areas]; auto.
Qed.
Lemma remote_move_well text cmds p last s w x : standard cmds -> 0 <= last <= 65535 -> db_reachable (sm_db s) -> runs_as (sm_db s) w -> lawful_remote p w (fst x) -> carried_move s x ->
  let '(s', last', y) := remote_move_step text cmds p last s x in
  felt_move w (fst x) y /\ runs_as (sm_db s') (site_after w (fst x)) /\ db_reachable (sm_db s') /\ 0 <= last' <= 65535.
Proof.
  intros C T D P L K. destruct x as (e & n1 & n2). cbn [fst] in *. destruct e as [x|u|u| |u|u name kind a n|u name|u]; unfold lawful_remote, site_after in *; cbn [moved remote_move_step carried_move felt_move echo] in *.
  - destruct (ordered_ok (sm_db s) w P) as (P' & LK). destruct (like_step w (ordered (sm_db s) w) (as_event x) LK) as (_ & Y).
    pose proof (remote_well text cmds p last s (ordered (sm_db s) w) (x, (n1, n2)) C T D P' L K) as W. destruct (remote_step text cmds p last s (x, (n1, n2))) as [[s' last'] y]. cbn [fst] in W. destruct W as (W1 & W2 & W3 & W4).
    apply (after_event (sm_db s) (sm_db s') w) in W2; [|exact P]. rewrite <- Y in W1. cbn [site_move]. destruct (site_step w (as_event x)) as [w' n]. cbn [fst snd] in *. split; [exists y; auto|]. auto.
  - destruct K as (K1 & K2). rewrite append_assoc' in K2. rewrite (C72_add_slave text cmds n1 n2 s u C K1 K2). cbn [texted]. pose proof (config_well p (sm_db s) w (AddUnit u true) D P ltac:(discriminate) L) as W. unfold move_well in W. cbn [program_move] in W.
    destruct (add_slave (sm_db s) u true None) as [d' r]. cbn [fst snd sm_db with_db] in *. destruct W as (W1 & W2 & W3 & _). split; [|auto]. destruct (snd (site_move w (AddUnit u true))) as [y|[[]|e]]; cbn [same_notice] in W1; [destruct W1 as (e & X & _); discriminate X| |]; injection W1 as ->; reflexivity.
  - destruct K as (K1 & K2). rewrite (C72_remove_slave text cmds n1 n2 s u C K1 K2). cbn [texted]. pose proof (config_well p (sm_db s) w (DropUnit u) D P ltac:(discriminate) L) as W. unfold move_well in W. cbn [program_move] in W.
    destruct (remove_slave (sm_db s) u) as [d' r]. cbn [fst snd sm_db with_db] in *. destruct W as (W1 & W2 & W3 & _). split; [|auto]. destruct (snd (site_move w (DropUnit u))) as [y|[[]|e]]; cbn [same_notice] in W1; [destruct W1 as (e & X & _); discriminate X| |]; injection W1 as ->; reflexivity.
  - destruct K as (K1 & K2). rewrite (C72_remove_all_slaves text cmds n1 n2 s C K1 K2). cbn [texted]. pose proof (config_well p (sm_db s) w DropUnits D P ltac:(discriminate) L) as W. unfold move_well in W. cbn [program_move] in W.
    destruct W as (W1 & W2 & W3 & _). split; [reflexivity|auto].
  - destruct K as (K1 & K2). rewrite (C72_has_slave text cmds n1 n2 s u C K1 K2). split; [|auto]. specialize (P u). destruct (w u) as [x|]; [destruct P as (sl & -> & _)|rewrite P]; reflexivity.
  - destruct K as (K0 & K1 & K2). rewrite append_assoc' in K2. rewrite (C72_add_block text cmds n1 n2 s u name kind a n C K0 K1 K2). cbn [texted]. pose proof (config_well p (sm_db s) w (AddArea u name kind a n) D P ltac:(discriminate) L) as W. unfold move_well in W. cbn [program_move] in W. unfold on_slave.
    destruct (get_slave (sm_db s) u) as [sl|e]; [destruct (add_block sl name kind a n) as [sl' r]|]; cbn [fst snd sm_db with_db] in *; destruct W as (W1 & W2 & W3 & _); (split; [|auto]); destruct (snd (site_move w (AddArea u name kind a n))) as [y|[[]|e0]]; cbn [same_notice] in W1; try (destruct W1 as (e1 & X & _); discriminate X); try discriminate W1; try (injection W1 as ->); reflexivity.
  - destruct K as (K0 & K1 & K2). rewrite (C72_remove_block text cmds n1 n2 s u name C K0 K1 K2). cbn [texted]. pose proof (config_well p (sm_db s) w (DropArea u name) D P ltac:(discriminate) L) as W. unfold move_well in W. cbn [program_move] in W. unfold on_slave.
    destruct (get_slave (sm_db s) u) as [sl|e]; [destruct (remove_block sl name) as [sl' r]|]; cbn [fst snd sm_db with_db] in *; destruct W as (W1 & W2 & W3 & _); (split; [|auto]); destruct (snd (site_move w (DropArea u name))) as [y|[[]|e0]]; cbn [same_notice] in W1; try (destruct W1 as (e1 & X & _); discriminate X); try discriminate W1; try (injection W1 as ->); reflexivity.
  - destruct K as (K1 & K2). rewrite (C72_remove_all_blocks text cmds n1 n2 s u C K1 K2). cbn [texted]. pose proof (config_well p (sm_db s) w (DropAreas u) D P ltac:(discriminate) L) as W. unfold move_well in W. cbn [program_move] in W. unfold on_slave.
    destruct (get_slave (sm_db s) u) as [sl|e]; cbn [fst snd sm_db with_db] in *; destruct W as (W1 & W2 & W3 & _); (split; [|auto]); destruct (snd (site_move w (DropAreas u))) as [y|[[]|e0]]; cbn [same_notice] in W1; try (destruct W1 as (e1 & X & _); discriminate X); try discriminate W1; reflexivity.
Qed.
(** ** C138 *)
Theorem C138_remote : forall text cmds p l last s w, standard cmds -> 0 <= last <= 65535 -> db_reachable (sm_db s) -> runs_as (sm_db s) w -> lawful_remotes p w (map fst l) -> all_carried_moves text cmds p last s l ->
  all_felt w (map fst l) (snd (remote_moves text cmds p last s l)) /\ runs_as (sm_db (fst (remote_moves text cmds p last s l))) (sites_after w (map fst l)).
Proof.
  intros text cmds p l last s w C. revert last s w. induction l as [|x l IH]; intros last s w T D P F K; [split; [exact Logic.I|exact P]|]. destruct F as (F1 & F2), K as (K1 & K2).
  pose proof (remote_move_well text cmds p last s w x C T D P F1 K1) as SW. unfold sites_after. cbn [remote_moves map fold_left]. destruct (remote_move_step text cmds p last s x) as [[s1 last1] y]. destruct SW as (S1 & S2 & S3 & S4).
  destruct (IH last1 s1 (site_after w (fst x)) S4 S3 S2 F2 K2) as (I1 & I2). destruct (remote_moves text cmds p last1 s1 l) as [s2 ys]. cbn [fst snd all_felt] in *. auto.
Qed.
Theorem C138_from_nothing : forall text cmds p l last s error_on_missing, standard cmds -> 0 <= last <= 65535 -> sm_db s = new_databank error_on_missing -> lawful_remotes p (fun _ => None) (map fst l) -> all_carried_moves text cmds p last s l ->
  all_felt (fun _ => None) (map fst l) (snd (remote_moves text cmds p last s l)).
Proof.
  intros text cmds p l last s e C T E F K. apply C138_remote; auto; rewrite E; [|intros v; reflexivity]. exists e, []. split; [constructor|reflexivity].
Qed.
(** ** A concrete case: a simulator without slaves *)
Definition empty_sim : sim := {| sm_db := new_databank true; sm_hooks := []; sm_fcts := []; sm_verbose := 0 |}.
Definition remote_plan : list (remote_move * (nat * nat)) :=
  map (fun e => (e, (1460%nat, 1460%nat)))
    [RpcHasSlave 3; RpcAddSlave 3; RpcHasSlave 3; RpcAddSlave 3; RpcAddBlock 3 "r" 3 100 10; RpcAddBlock 3 "r" 3 200 10; RpcAddBlock 77 "r" 3 200 10; Deal (RpcSet 3 "r" 103 [70000; 5]); Deal (Modbus 3 (ReadRegs true 104 1)); Deal (Modbus 3 (WriteReg 103 9));
     Deal (RpcGet 3 "r" 103 2); RpcRemoveBlock 3 "r"; Deal (Modbus 3 (ReadRegs true 104 1)); RpcAddBlock 3 "q" 1 8 8; Deal (ModbusAll (WriteCoil 9 1)); Deal (RpcGet 3 "q" 8 3); RpcRemoveAllBlocks 3; Deal (RpcGet 3 "q" 8 3); RpcRemoveSlave 3; RpcHasSlave 3;
     Deal (Modbus 3 (ReadRegs true 104 1)); RpcRemoveAllSlaves; RpcAddSlave 256].
Example C138_ex : lawful_remotes TCP (fun _ => None) (map fst remote_plan) /\ all_carried_moves any_text builtin_cmds TCP 0 empty_sim remote_plan /\
  snd (remote_moves any_text builtin_cmds TCP 0 empty_sim remote_plan) =
    [FeltBool (Ok false); FeltText (Ok "3"); FeltBool (Ok true); FeltText (Err GenericException); FeltText (Ok "r"); FeltText (Err GenericException); FeltText (Err GenericException); Felt (FeltSet (Ok "70000 5")); Felt (FeltCall (Some (Ok (RTuple [5]))));
     Felt (FeltCall (Some (Ok (RTuple [103; 9])))); Felt (FeltGet (Ok [9; 5])); FeltText (Ok "None"); Felt (FeltCall (Some (Err (ModbusError 2)))); FeltText (Ok "q"); Felt (FeltCall (Some (Err SocketTimeout))); Felt (FeltGet (Ok [0; 1; 0]));
     FeltText (Ok "None"); Felt (FeltGet (Err GenericException)); FeltText (Ok ""); FeltBool (Ok false); Felt (FeltCall (Some (Err SocketTimeout))); FeltText (Ok ""); FeltText (Err GenericException)].
Proof.
  split; [|split; [|vm_compute; reflexivity]].
  - unfold remote_plan. cbn [map fst].
    repeat (cbn [lawful_remotes]; split; [unfold lawful_remote; cbn [moved lawful_move lawful as_event]; first
      [ exact Logic.I
      | lia
      | eapply askable_intro; [lia|discriminate|cbn [encodable]; unfold fits, bytes, is_byte, zlen, reg_value; cbn [length Z.of_nat repeat]; repeat constructor; lia|reflexivity|vm_compute; discriminate]
      | split; [cbn [fc_of In]; tauto|]; intros last0 T0; split; [cbn [encodable]; unfold fits, reg_value; repeat split; lia|]; split; [exact T0|]; split; [lia|]; intros pdu P; apply framable_small; rewrite P; vm_compute; discriminate
      | intros x t X K z I; injection K as <-; vm_compute in X; first [discriminate X|injection X as <-]; vm_compute in I; repeat (destruct I as [<-|I]; [cbn [fst snd]; lia|]); destruct I ]|]).
    exact Logic.I.
  - unfold remote_plan. cbn [map].
    assert (WH : forall n t, Nat.leb (String.length t) n = true -> Nat.leb (String.length t) 1024 = true -> SimulatorProofs.whole n t) by (intros n t A B; split; now apply Nat.leb_le).
    repeat (cbn [all_carried_moves]; split;
      [cbn [carried_move carried]; first
         [ exact Logic.I
         | split; apply WH; vm_compute; reflexivity
         | split; [split; [discriminate|reflexivity]|]; split; apply WH; vm_compute; reflexivity
         | split; [reflexivity|]; split; [apply WH; vm_compute; reflexivity|]; first [apply WH; vm_compute; reflexivity | split; [lia|]; intros sl vs G V; vm_compute in G; first [discriminate G | injection G as <-; vm_compute in V; first [discriminate V | injection V as <-; apply WH; vm_compute; reflexivity]]]]
      |match goal with |- match ?t with _ => _ end => let t' := eval vm_compute in t in change t with t' end; cbv iota beta]).
    exact Logic.I.
Qed.

Print Assumptions C138_remote.
Print Assumptions C138_from_nothing.
