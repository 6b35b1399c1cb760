(** C137: a CompositeServer that is configured while masters on both transports work, starting without units.
    Vocabulary: PropConfigSite.v (move, site_move, site_moves, lawful_move, runs_as), PropBothSite.v (both, both_step, both_event, both_news, lawful_both) and the definitions below. *)
From Coq Require Import ZArith Lia ZifyBool ZifyNat.
From Verif Require Import Base BaseFacts PyStruct Spec StructFacts StructMore Defines SlaveModel SlaveSpec SlaveProofs BlockSpec BlockProofs HandlerProofs RequestProofs GeneralProofs SlaveInv PropSlave.
From Verif Require Import FrameSpec QueryModel DatabankModel MasterModel MasterSpec DbSpec DatabankProofs MasterProofs EndSpec EndProofs PropDatabank PropMaster TransportModel TransportSpec TransportProofs LinkSpec PropTransport PropBroadcast.
From Verif Require Import NetModel NetSpec NetProofs PropNet PropNetApart PropPlantNet DeviceSpec PropDevice PropPlant BuiltSpec PropBuilt PropBuiltPlant PropBuiltNet PropBuiltSerial PropBothSite PropConfigSite.
Open Scope string_scope.
Open Scope list_scope.
Open Scope Z_scope.

(** ** Spec *)
(** What happens: a call of one of the masters or set_values/get_values of the application (PropBothSite.v), or the application configures the server. *)
Inductive doing := Use (x : both) | Configure (m : move).
Definition doing_move (x : doing) : move := match x with Use x => Happens (both_event x) | Configure m => m end.
(** The transaction numbers of the TcpMasters and the databank. *)
Definition doing_step (lasts : nat -> Z) (d : databank) (x : doing) : (nat -> Z) * databank * seen :=
  match x with
  | Use x => let '(lasts', d', y) := both_step lasts d x in (lasts', d', Saw y)
  | Configure m => let '(d', _, y) := program_move TCP 0 d m in (lasts, d', y)
  end.
Fixpoint doing_run (lasts : nat -> Z) (d : databank) (l : list doing) : databank * list seen :=
  match l with [] => (d, []) | x :: l => let '(lasts1, d1, y) := doing_step lasts d x in let '(d2, ys) := doing_run lasts1 d1 l in (d2, y :: ys) end.
Definition doing_notice (x : doing) (y : seen) (o : notice) : Prop :=
  match x with
  | Use x => exists e n, y = Saw e /\ o = News n /\ both_news x e n
  | Configure _ => same_notice y o
  end.
Definition lawful_doing (w : site) (x : doing) : Prop :=
  match x with
  | Use x => lawful_both x
  | Configure m => (forall e, m <> Happens e) /\ lawful_move TCP w m
  end.
Fixpoint lawful_doings (w : site) (l : list doing) : Prop :=
  match l with [] => True | x :: l => lawful_doing w x /\ lawful_doings (fst (site_move w (doing_move x))) l end.

(** ** Proofs *)
Lemma after_event d d' w e : runs_as d w -> stages d' (fst (site_step (ordered d w) e)) -> runs_as d' (fst (site_step w e)).
Proof.
  intros P S2. destruct (ordered_ok d w P) as (_ & L). destruct (like_step w (ordered d w) e L) as (L' & _). pose proof (site_names w e) as SN.
  intros v. specialize (S2 v). specialize (L' v). specialize (SN v). specialize (P v). destruct (fst (site_step w e) v) as [x|]; destruct (fst (site_step (ordered d w) e) v) as [x'|]; try contradiction; [|exact S2].
  destruct SN as (y0 & W0 & A0). rewrite W0 in P. destruct P as (s0 & _ & _ & _ & _ & ON). destruct S2 as (s & G & PL & PI & NA). destruct L' as (B & A). exists s. split; [exact G|]. split; [exact PL|]. split; [eapply displays_of; eauto|].
  split; [now rewrite <- A|]. unfold one_name in *. now rewrite A0.
Qed.
Lemma doing_well lasts d w x : (forall i, 0 <= lasts i <= 65535) -> db_reachable d -> runs_as d w -> lawful_doing w x ->
  let '(lasts', d', y) := doing_step lasts d x in
  doing_notice x y (snd (site_move w (doing_move x))) /\ runs_as d' (fst (site_move w (doing_move x))) /\ db_reachable d' /\ (forall i, 0 <= lasts' i <= 65535).
Proof.
  intros T D P L. destruct x as [x|m]; cbn [doing_step doing_move doing_notice lawful_doing] in *.
  - destruct (ordered_ok d w P) as (P' & LK). destruct (like_step w (ordered d w) (both_event x) LK) as (_ & Y).
    pose proof (both_well lasts d (ordered d w) x T D P' L) as W. destruct (both_step lasts d x) as [[lasts' d'] y]. destruct W as (W1 & W2 & W3 & W4). apply (after_event d d' w) in W2; [|exact P]. rewrite <- Y in W1. cbn [site_move].
    destruct (site_step w (both_event x)) as [w' n]. cbn [fst snd] in *. split; [exists y, n; auto|]. auto.
  - destruct L as (NH & L). assert (W : move_well TCP 0 d w m).
    { assert (T0 : 0 <= 0 <= 65535) by lia. destruct m as [e| | | | | |]; [exfalso; now apply (NH e)|apply add_unit|apply drop_unit|apply drop_units|apply add_area_well|apply drop_area_well|apply drop_areas]; auto. }
    unfold move_well in W. destruct (program_move TCP 0 d m) as [[d' l'] y]. destruct W as (W1 & W2 & W3 & _). auto.
Qed.
(** ** C137 *)
Theorem C137_configured : forall l lasts d w, (forall i, 0 <= lasts i <= 65535) -> db_reachable d -> runs_as d w -> lawful_doings w l ->
  Forall2 (fun xy o => doing_notice (fst xy) (snd xy) o) (combine l (snd (doing_run lasts d l))) (snd (site_moves w (map doing_move l))) /\
  length (snd (doing_run lasts d l)) = length l /\ runs_as (fst (doing_run lasts d l)) (fst (site_moves w (map doing_move l))).
Proof.
  induction l as [|x l IH]; intros lasts d w T D P F; [split; [constructor|auto]|]. destruct F as (F1 & F2).
  pose proof (doing_well lasts d w x T D P F1) as SW. cbn [doing_run map site_moves]. destruct (doing_step lasts d x) as [[lasts1 d1] y]. destruct (site_move w (doing_move x)) as [w1 o]. cbn [fst snd] in *. destruct SW as (S1 & S2 & S3 & S4).
  destruct (IH lasts1 d1 w1 S4 S3 S2 F2) as (I1 & I2 & I3). destruct (doing_run lasts1 d1 l) as [d2 ys]. destruct (site_moves w1 (map doing_move l)) as [w2 os]. cbn [fst snd combine length] in *.
  split; [constructor; [exact S1|exact I1]|]. split; [now rewrite I2|exact I3].
Qed.
Theorem C137_from_nothing : forall l lasts error_on_missing, (forall i, 0 <= lasts i <= 65535) -> lawful_doings (fun _ => None) l ->
  Forall2 (fun xy o => doing_notice (fst xy) (snd xy) o) (combine l (snd (doing_run lasts (new_databank error_on_missing) l))) (snd (site_moves (fun _ => None) (map doing_move l))) /\
  length (snd (doing_run lasts (new_databank error_on_missing) l)) = length l.
Proof.
  intros l lasts e T F. destruct (C137_configured l lasts (new_databank e) (fun _ => None) T) as (A & B & _); auto; [|intros v; reflexivity]. exists e, []. split; [constructor|reflexivity].
Qed.
(** ** A concrete case *)
Definition doings : list doing :=
  [Use (ByTcp 0 3 (ReadRegs true 103 1)); Use (BySerial by_two by_two 3 (ReadRegs true 103 1)); Configure (AddUnit 3 false); Configure (AddArea 3 "r" 3 100 10); Use (ByTcp 0 3 (WriteReg 103 9)); Use (BySerial by_two by_two 3 (ReadRegs true 103 1));
   Configure (AddArea 3 "s" 3 110 4); Use (Local (Store 3 "s" 110 (SvSeq [5; 6]))); Use (ByTcp 1 3 (ReadRegs true 110 2)); Configure (DropArea 3 "r"); Use (BySerial by_two in_one_piece 3 (ReadRegs true 103 1)); Configure (AddArea 3 "r" 3 100 10); Use (ByTcp 1 3 (ReadRegs true 103 1));
   Use (BySerial by_two by_two 0 (WriteReg 111 1)); Use (Local (Fetch 3 "s" 110 2)); Configure (DropUnit 3); Use (ByTcp 1 3 (ReadRegs true 103 1))].
Example C137_ex : lawful_doings (fun _ => None) doings /\
  snd (doing_run (fun _ => 65535) (new_databank true) doings) =
    [Saw (FromCall (Some (Err SocketTimeout))); Saw (FromCall (Some (Err ModbusInvalidResponseError))); Returned (Ok tt); Returned (Ok tt); Saw (FromCall (Some (Ok (RTuple [103; 9])))); Saw (FromCall (Some (Ok (RTuple [9]))));
     Returned (Ok tt); Saw (FromSet (Ok tt)); Saw (FromCall (Some (Ok (RTuple [5; 6])))); Returned (Ok tt); Saw (FromCall (Some (Err (ModbusError 2)))); Returned (Ok tt); Saw (FromCall (Some (Ok (RTuple [0]))));
     Saw (FromCall (Some (Err ModbusInvalidResponseError))); Saw (FromGet (Ok [5; 1])); Returned (Ok tt); Saw (FromCall (Some (Err SocketTimeout)))].
Proof.
  split; [|vm_compute; reflexivity]. unfold doings.
  repeat (cbn [lawful_doings]; split; [cbn [lawful_doing lawful_both]; try (split; [first [exact by_two_cuts|exact one_piece_cutting]|]; split; [first [exact by_two_cuts|exact one_piece_cutting]|]); unfold call_event; cbn [Z.eqb lawful Pos.eqb]; first
    [ exact Logic.I
    | lia
    | split; [intros e X; discriminate X|exact Logic.I]
    | eapply askable_intro; [lia|discriminate|cbn [encodable]; unfold fits, bytes, is_byte, zlen, reg_value; cbn [length Z.of_nat repeat]; repeat constructor; lia|reflexivity|vm_compute; discriminate]
    | split; [cbn [fc_of In]; tauto|]; intros last0 T0; split; [cbn [encodable]; unfold fits, reg_value; repeat split; lia|]; split; [exact T0|]; split; [lia|]; intros pdu P; apply framable_small; rewrite P; vm_compute; discriminate
    | split; [intros e X; discriminate X|]; intros x t X K z I; injection K as <-; vm_compute in X; injection X as <-; vm_compute in I; repeat (destruct I as [<-|I]; [cbn [fst snd]; lia|]); destruct I ]|]).
  exact Logic.I.
Qed.

Print Assumptions C137_configured.
Print Assumptions C137_from_nothing.
