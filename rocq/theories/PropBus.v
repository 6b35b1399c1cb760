(** C87: several stations on one serial line. *)
From Verif Require Import Base BaseFacts Spec StructFacts PyStruct SlaveModel SlaveSpec QueryModel DatabankModel CrcSpec FrameSpec DbSpec DatabankProofs PropDatabank MasterModel MasterSpec MasterProofs EndSpec
  TransportModel TransportSpec TransportProofs LinkSpec PropTransport BusModel.
Open Scope string_scope. Open Scope list_scope. Open Scope Z_scope.

(** No unit lives at two stations. *)
Definition separate (stations : list databank) : Prop :=
  forall i j d e u s s', nth_error stations i = Some d -> nth_error stations j = Some e -> get_slave d u = Ok s -> get_slave e u = Ok s' -> i = j.
(** [one] is a databank with the slaves of all stations. *)
Definition gathers (one : databank) (stations : list databank) : Prop :=
  forall u s, get_slave one u = Ok s <-> exists i d, nth_error stations i = Some d /\ get_slave d u = Ok s.

Lemma hear_served cut d frame : cutting cut -> frame <> [] -> hear cut d frame = served_request d RTU frame.
Proof.
  intros C N. unfold hear. rewrite (C48_one_request false d (cut frame) frame [] N (C frame)). cbn [rt_db rt_written]. unfold served_request. reflexivity.
Qed.
(** A station that does not have the unit changes nothing and says nothing. *)
Lemma hear_absent cut d u pdu : cutting cut -> bytes pdu -> 1 <= u <= 255 -> (forall s, get_slave d u <> Ok s) -> hear cut d (on_wire None u pdu) = (d, None).
Proof.
  intros C B U N. rewrite hear_served by (auto using on_wire_nonempty). unfold served_request. change RTU with (proto_of None).
  assert (G : get_slave d u = Err MissingKeyError). { destruct (get_slave d u) as [s|e] eqn:G; [now destruct (N s)|]. now apply get_slave_err in G as ->. }
  rewrite (db_absent d None u pdu (conj B Logic.I) U G). reflexivity.
Qed.
(** Two bytes are no frame. *)
Lemma hear_short cut d frame : cutting cut -> frame <> [] -> zlen frame < 3 -> hear cut d frame = (d, None).
Proof.
  intros C N L. rewrite hear_served by auto. unfold served_request, db_handle_request. cbn [parse_request]. unfold rtu_parse_request.
  replace (zlen frame <? 3) with true by lia. reflexivity.
Qed.
Lemma all_hear_silent cuts speaker frame : forall stations k,
  (forall i d, nth_error stations i = Some d -> speaker <> Some (k + i)%nat -> hear (cuts (k + i)%nat) d frame = (d, None)) ->
  all_hear cuts speaker k stations frame = (stations, []).
Proof.
  induction stations as [|d t IH]; intros k H; [reflexivity|]. cbn [all_hear].
  assert (E : (if match speaker with Some i => Nat.eqb i k | None => false end then (d, None) else hear (cuts k) d frame) = (d, None)).
  { destruct speaker as [i|]; [destruct (Nat.eqb_spec i k); [reflexivity|]|]; (replace k with (k + 0)%nat at 1 by lia; apply H; [reflexivity|]); [intros [= ->]; lia|discriminate]. }
  rewrite E. rewrite IH; [reflexivity|]. intros i d' N X. replace (S k + i)%nat with (k + S i)%nat by lia. apply H; [exact N|]. now replace (k + S i)%nat with (S k + i)%nat by lia.
Qed.
Lemma all_hear_one cuts frame d d' out : forall stations k n, nth_error stations n = Some d -> hear (cuts (k + n)%nat) d frame = (d', out) ->
  (forall i e, i <> n -> nth_error stations i = Some e -> hear (cuts (k + i)%nat) e frame = (e, None)) ->
  all_hear cuts None k stations frame = (list_upd stations n d', match out with Some a => [((k + n)%nat, a)] | None => [] end).
Proof.
  induction stations as [|x t IH]; intros k n N H O; [destruct n; discriminate|]. cbn [all_hear]. destruct n as [|n].
  - cbn in N. injection N as ->. replace (k + 0)%nat with k in * by lia. rewrite H. rewrite all_hear_silent; [reflexivity|].
    intros i e Ni _. replace (S k + i)%nat with (k + S i)%nat by lia. apply O; [lia|exact Ni].
  - assert (E : hear (cuts k) x frame = (x, None)) by (replace k with (k + 0)%nat at 1 by lia; apply O; [lia|reflexivity]). rewrite E.
    rewrite (IH (S k) n N); [| |].
    + cbn [list_upd]. f_equal. destruct out; [|reflexivity]. do 2 f_equal. lia.
    + now replace (S k + n)%nat with (k + S n)%nat by lia.
    + intros i e Ni Hi. replace (S k + i)%nat with (k + S i)%nat by lia. apply O; [lia|exact Hi].
Qed.

Lemma catch_short e pdu r : db_catch e pdu = Ok (Some r) -> zlen r < 3.
Proof.
  assert (FB : failure_response pdu = Ok (Some r) -> zlen r < 3).
  { unfold failure_response. destruct (match pdu with [] => Ok 1 | _ => unpack_one ">B" (py_slice pdu 0 1) end) as [fc|]; cbn [bind]; [|discriminate].
    destruct (pack ">BB" [fc + 128; Defines.SLAVE_DEVICE_FAILURE]) as [b|] eqn:P; cbn [bind]; [|discriminate]. intros [= <-].
    unfold pack in P. cbn [parse_fmt] in P. change (parse_items "BB" None) with (Ok [FInt 1 false; FInt 1 false]) in P. cbn [bind pf_little pf_items] in P.
    rewrite !pack_items_B_cons in P. repeat (match type of P with context [if ?x then _ else _] => destruct x end; try discriminate). cbn in P. injection P as <-. cbn. lia. }
  unfold db_catch. destruct e; try (intros [= <-]; cbn; lia); exact FB.
Qed.
Definition answer_of (out : option (list Z)) (k : nat) : list (nat * list Z) := match out with Some a => [(k, a)] | None => [] end.

(* ------------------------------------------------------------------ C87 *)
(** A request for a unit: the station that has the unit handles it as if it were alone, nobody else changes anything, it alone
    answers, and nobody mistakes its answer for a request. *)
Theorem C87_owner : forall cuts stations k d u s pdu,
  (forall i, cutting (cuts i)) -> separate stations -> nth_error stations k = Some d -> get_slave d u = Ok s -> 1 <= u <= 255 -> bytes pdu ->
  on_bus cuts stations (on_wire None u pdu) =
  (list_upd stations k (fst (served_request d RTU (on_wire None u pdu))), answer_of (snd (served_request d RTU (on_wire None u pdu))) k, []).
Proof.
  intros cuts stations k d u s pdu C Sep N G U B. unfold on_bus. set (w := on_wire None u pdu). assert (Nw : w <> []) by apply on_wire_nonempty.
  assert (Ab : forall i e, i <> k -> nth_error stations i = Some e -> forall s', get_slave e u <> Ok s').
  { intros i e D Ni s' G'. apply D. eapply Sep; eauto. }
  rewrite (all_hear_one cuts w d (fst (served_request d RTU w)) (snd (served_request d RTU w)) stations 0 k N); cycle 1.
  { cbn [Nat.add]. rewrite hear_served by auto. now destruct (served_request d RTU w). }
  { intros i e D Ni. apply hear_absent; auto. eauto. }
  fold (answer_of (snd (served_request d RTU w)) (0 + k)). cbn [Nat.add]. destruct (snd (served_request d RTU w)) as [a|] eqn:A; [|reflexivity]. cbn [answer_of hear_answers].
  rewrite all_hear_silent; [reflexivity|]. intros i e Ni Sp. cbn [Nat.add] in *. assert (D : i <> k) by congruence. rewrite list_upd_other in Ni by congruence.
  unfold served_request in A. cbn [snd] in A. unfold w in A. change RTU with (proto_of None) in A.
  rewrite (db_present d None u pdu s (conj B Logic.I) U G) in A. cbn [snd] in A.
  destruct (handle_request s pdu false) as [s' [r|er]] eqn:H; cbn [snd] in A.
  - assert (Sr : sendable None r) by (eapply sendable_response; [|exact H]; split; [exact B|exact Logic.I]).
    assert (A' : a = on_wire None u r). { destruct (on_wire None u r) eqn:Q; [now apply on_wire_nonempty in Q|]. cbn [sent] in A. congruence. }
    subst a. apply hear_absent; auto; [apply Sr|eauto].
  - destruct (db_catch er pdu) as [[[|x y]|]|] eqn:Q; try discriminate A. apply catch_short in Q. cbn [sent] in A. injection A as <-. apply hear_short; auto. discriminate.
Qed.
(** A request for a unit nobody has: nothing happens. *)
Theorem C87_nobody : forall cuts stations u pdu, (forall i, cutting (cuts i)) -> 1 <= u <= 255 -> bytes pdu ->
  (forall d s, In d stations -> get_slave d u <> Ok s) -> on_bus cuts stations (on_wire None u pdu) = (stations, [], []).
Proof.
  intros cuts stations u pdu C U B N. unfold on_bus. rewrite all_hear_silent; [reflexivity|].
  intros i d Ni _. apply hear_absent; auto. intros s. eauto using nth_error_In.
Qed.
Lemma triple_inj {A B D} (a a' : A) (b b' : B) (c c' : D) : (a, b, c) = (a', b', c') -> a = a' /\ b = b' /\ c = c'.
Proof. intros [= -> -> ->]. auto. Qed.
(** So the stations together are one databank: the same answers, the same slaves afterwards. *)
Lemma unit_known stations u : (exists i d s, nth_error stations i = Some d /\ get_slave d u = Ok s) \/ (forall d s, In d stations -> get_slave d u <> Ok s).
Proof.
  induction stations as [|d t [(i & e & s & N & G)|IH]]; [right; intros d s []|left; exists (S i), e, s; auto|].
  destruct (get_slave d u) as [s|e] eqn:G; [left; exists 0%nat, d, s; auto|]. right. intros x s [<-|I]; [congruence|eauto].
Qed.
Theorem C87_as_one : forall cuts stations one u pdu st' answers noise,
  (forall i, cutting (cuts i)) -> separate stations -> gathers one stations -> 1 <= u <= 255 -> bytes pdu ->
  on_bus cuts stations (on_wire None u pdu) = (st', answers, noise) ->
  noise = [] /\ map snd answers = match snd (served_request one RTU (on_wire None u pdu)) with Some a => [a] | None => [] end /\
  gathers (fst (served_request one RTU (on_wire None u pdu))) st' /\ separate st'.
Proof.
  intros cuts stations one u pdu st' answers noise C Sep Ga U B H.
  assert (Sd : sendable None pdu) by (split; [exact B|exact Logic.I]).
  destruct (unit_known stations u) as [(k & d & s & N & G)|No].
  - rewrite (C87_owner cuts stations k d u s pdu C Sep N G U B) in H. apply triple_inj in H. destruct H as (<- & <- & <-). split; [reflexivity|].
    assert (G1 : get_slave one u = Ok s) by (apply Ga; eauto).
    unfold served_request. change RTU with (proto_of None). rewrite (db_present d None u pdu s Sd U G), (db_present one None u pdu s Sd U G1). cbn [fst snd].
    set (s1 := fst (handle_request s pdu false)). split; [destruct (match _ with Ok r => sent r | Err _ => None end); reflexivity|]. split.
    + intros v t. destruct (Z.eq_dec v u) as [->|Dv].
      * rewrite get_slave_put_same. split; [intros [= <-]; exists k, (put_slave d u s1); rewrite get_slave_put_same; split; [apply list_upd_same, nth_error_Some; congruence|reflexivity]|].
        intros (i & e & Ni & Gi). destruct (Nat.eq_dec i k) as [->|Di].
        -- rewrite list_upd_same in Ni by (apply nth_error_Some; congruence). injection Ni as <-. now rewrite get_slave_put_same in Gi.
        -- rewrite list_upd_other in Ni by congruence. now destruct (Di (Sep _ _ _ _ _ _ _ Ni N Gi G)).
      * rewrite get_slave_put_other by exact Dv. rewrite (Ga v t). split; intros (i & e & Ni & Gi); destruct (Nat.eq_dec i k) as [->|Di].
        -- rewrite N in Ni. injection Ni as <-. exists k, (put_slave d u s1). rewrite get_slave_put_other by exact Dv. split; [apply list_upd_same, nth_error_Some; congruence|exact Gi].
        -- exists i, e. rewrite list_upd_other by congruence. auto.
        -- rewrite list_upd_same in Ni by (apply nth_error_Some; congruence). injection Ni as <-. rewrite get_slave_put_other in Gi by exact Dv. eauto.
        -- rewrite list_upd_other in Ni by congruence. eauto.
    + assert (Back : forall i e v t, nth_error (list_upd stations k (put_slave d u s1)) i = Some e -> get_slave e v = Ok t -> exists e0 t0, nth_error stations i = Some e0 /\ get_slave e0 v = Ok t0).
      { intros i e v t Ni Gi. destruct (Nat.eq_dec i k) as [->|Di].
        - rewrite list_upd_same in Ni by (apply nth_error_Some; congruence). injection Ni as <-. destruct (Z.eq_dec v u) as [->|Dv]; [eauto|]. rewrite get_slave_put_other in Gi by exact Dv. eauto.
        - rewrite list_upd_other in Ni by congruence. eauto. }
      intros i j x y v t t' Ni Nj Gi Gj. destruct (Back _ _ _ _ Ni Gi) as (x0 & t0 & Ni' & Gi'). destruct (Back _ _ _ _ Nj Gj) as (y0 & t1 & Nj' & Gj'). eapply Sep; eauto.
  - rewrite (C87_nobody cuts stations u pdu C U B No) in H. injection H as <- <- <-. split; [reflexivity|].
    assert (G : get_slave one u = Err MissingKeyError).
    { destruct (get_slave one u) as [s|e] eqn:G; [|now apply get_slave_err in G as ->]. apply Ga in G. destruct G as (i & d & Ni & Gi). apply nth_error_In in Ni. now destruct (No d s Ni). }
    unfold served_request. change RTU with (proto_of None). rewrite (db_absent one None u pdu Sd U G). cbn [fst snd sent map]. auto.
Qed.
(** A whole conversation: the answers and the slaves are those of the one databank, request after request. *)
Fixpoint bus_talk (cuts : nat -> nat -> list Z -> list (list Z)) (stations : list databank) (frames : list (list Z))
  : list databank * list (list Z * list (nat * list Z) * list (nat * list Z)) :=
  match frames with
  | [] => (stations, [])
  | f :: t =>
      let '(st1, answers, noise) := on_bus (cuts (length t)) stations f in
      let '(st2, log) := bus_talk cuts st1 t in (st2, (f, answers, noise) :: log)
  end.
Theorem C87_conversation : forall cuts requests stations one st' log,
  (forall t i, cutting (cuts t i)) -> separate stations -> gathers one stations ->
  Forall (fun ur => 1 <= fst ur <= 255 /\ bytes (snd ur)) requests ->
  bus_talk cuts stations (map (fun ur => on_wire None (fst ur) (snd ur)) requests) = (st', log) ->
  exists one' served, replay RTU one served one' /\ gathers one' st' /\
    Forall2 (fun '(f, answers, noise) '(f', out) => f = f' /\ noise = [] /\ map snd answers = match out with Some a => [a] | None => [] end) log served.
Proof.
  intros cuts requests. induction requests as [|[u pdu] t IH]; intros stations one st' log C Sep Ga F H.
  - injection H as <- <-. exists one, []. split; [reflexivity|]. auto.
  - inversion F as [|? ? [U B] F']; subst. cbn [fst snd] in U, B. cbn [map fst snd bus_talk] in H.
    destruct (on_bus (cuts (length (map (fun ur : Z * list Z => on_wire None (fst ur) (snd ur)) t))) stations (on_wire None u pdu)) as [[st1 answers] noise] eqn:O.
    destruct (bus_talk cuts st1 _) as [st2 log2] eqn:T. apply pair_equal_spec in H. destruct H as [<- <-].
    destruct (C87_as_one _ _ one u pdu _ _ _ (C _) Sep Ga U B O) as (Nz & An & Ga' & Sep').
    destruct (IH _ _ _ _ C Sep' Ga' F' T) as (one' & served & R & G & L).
    exists one', ((on_wire None u pdu, snd (served_request one RTU (on_wire None u pdu))) :: served). split; [split; [reflexivity|exact R]|]. split; [exact G|].
    constructor; [|exact L]. auto.
Qed.
(** A broadcast write: every slave of every station does it, nobody speaks. *)
Theorem C87_broadcast_partial : forall cuts stations pdu, (forall i, cutting (cuts i)) ->
  bytes pdu -> well_formed pdu -> ~ In (hd 0 pdu) [1; 2; 3; 4] ->
  (forall d, In d stations -> db_reachable d /\ forall u s, get_slave d u = Ok s -> all_tables s /\ (hd 0 pdu = 23 -> all_fit s)) ->
  exists st', on_bus cuts stations (on_wire None 0 pdu) = (st', [], []) /\
    Forall2 (fun d d' => forall u, get_slave d' u = match get_slave d u with Ok s => Ok (fst (handle_request s pdu false)) | Err e => Err e end) stations st'.
Proof.
  intros cuts stations pdu C B W N H. unfold on_bus. set (w := on_wire None 0 pdu). assert (Nw : w <> []) by apply on_wire_nonempty.
  assert (K : forall l k, (forall d, In d l -> In d stations) -> exists l', all_hear cuts None k l w = (l', []) /\
     Forall2 (fun d d' => forall u, get_slave d' u = match get_slave d u with Ok s => Ok (fst (handle_request s pdu false)) | Err e => Err e end) l l').
  { induction l as [|d t IH]; intros k I; [exists []; auto|]. destruct (IH (S k)) as (t' & E & F); [intros x X; apply I; now right|].
    destruct (H d (I d ltac:(now left))) as [R A]. destruct (C26_broadcast_partial d None pdu R (conj B Logic.I) W N A) as [Q G].
    exists (fst (served_request d RTU w) :: t'). split; [|constructor; [exact G|exact F]].
    cbn [all_hear]. rewrite hear_served by auto. rewrite E. unfold served_request at 1. unfold w at 2. change RTU with (proto_of None) at 2. rewrite Q. reflexivity. }
  destruct (K stations 0%nat ltac:(auto)) as (st' & E & F). exists st'. rewrite E. auto.
Qed.
(** Refuted: (1) a broadcast that is malformed is answered, by all stations at once. *)
Definition demo_db2 : databank := db_run (new_databank true) [DbAdd 20 true None; DbCall 20 (OpAddBlock "r" 3 100 10)].
Theorem C87_collision_refuted :
  snd (fst (on_bus (fun _ => fun l => match l with [] => [] | _ => [l] end) [demo_db; demo_db2] (on_wire None 0 [16; 0; 100]))) = [(0%nat, [144; 4]); (1%nat, [144; 4])].
Proof. vm_compute. reflexivity. Qed.
(** Two stations with the same unit: both answer a write, each takes the other's answer for a request and answers it again. *)
Theorem C87_same_unit_refuted :
  let '(_, said, noise) := on_bus (fun _ => fun l => match l with [] => [] | _ => [l] end) [demo_db; demo_db] rtu_write in
  said = [(0%nat, rtu_write); (1%nat, rtu_write)] /\ noise = [(1%nat, rtu_write); (0%nat, rtu_write)].
Proof. vm_compute. split; reflexivity. Qed.
(** (2) On a line adapter that echoes what the station itself says, the station takes its own answer to a write for a new request, and
    answers again, without end. *)
Theorem C87_own_echo_refuted : exists d frame, db_reachable d /\ forall cut n, cutting cut -> snd (own_echo n cut d frame) = repeat frame n.
Proof.
  exists demo_db, rtu_write. split; [apply demo_db_reachable|]. intros cut n C.
  assert (Nw : rtu_write <> []) by (vm_compute; discriminate).
  set (d1 := fst (served_request demo_db RTU rtu_write)).
  assert (E0 : served_request demo_db RTU rtu_write = (d1, Some rtu_write)) by (vm_compute; reflexivity).
  assert (E1 : served_request d1 RTU rtu_write = (d1, Some rtu_write)) by (vm_compute; reflexivity).
  assert (K : forall m, snd (own_echo m cut d1 rtu_write) = repeat rtu_write m).
  { induction m as [|m IH]; [reflexivity|]. cbn [own_echo repeat]. rewrite hear_served, E1 by auto. destruct (own_echo m cut d1 rtu_write) as [x y]. cbn [snd] in *. now rewrite IH. }
  destruct n as [|n]; [reflexivity|]. cbn [own_echo repeat]. rewrite hear_served, E0 by auto. specialize (K n). destruct (own_echo n cut d1 rtu_write) as [x y]. cbn [snd] in *. now rewrite K.
Qed.

(** Two stations: units 3, 9, 12 and unit 20. *)
Lemma slave_units d v s : get_slave d v = Ok s -> In v (map fst (db_slaves d)).
Proof.
  unfold get_slave. destruct (assoc Z.eqb v (db_slaves d)) as [x|] eqn:A; [|discriminate]. intros _. clear s. induction (db_slaves d) as [|[k y] t IH]; [discriminate|].
  cbn in *. destruct (Z.eqb_spec v k); [now left|right; auto].
Qed.
Example C87_ex : separate [demo_db; demo_db2] /\
  (let '(_, answers, noise) := on_bus (fun _ => fun l => match l with [] => [] | _ => [l] end) [demo_db; demo_db2] (on_wire None 20 (6 :: word 100 ++ word 7)) in
   answers = [(1%nat, on_wire None 20 (6 :: word 100 ++ word 7))] /\ noise = []).
Proof.
  split; [|vm_compute; auto]. intros i j d e u s s' Ni Nj Gi Gj. apply slave_units in Gi, Gj.
  destruct i as [|[|[|i]]], j as [|[|[|j]]]; cbn in Ni, Nj; try discriminate; try reflexivity; injection Ni as <-; injection Nj as <-; vm_compute in Gi, Gj; intuition lia.
Qed.

Print Assumptions C87_owner.
Print Assumptions C87_nobody.
Print Assumptions C87_as_one.
Print Assumptions C87_conversation.
Print Assumptions C87_broadcast_partial.
Print Assumptions C87_collision_refuted.
Print Assumptions C87_same_unit_refuted.
Print Assumptions C87_own_echo_refuted.
