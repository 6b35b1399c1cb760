(** C132: a master, several RTU servers on one line, and the application: together the devices the library is.
    Vocabulary: BuiltSpec.v and PropBuiltPlant.v (site, site_run, lawful), PropBuiltSerial.v (news_line), BusModel.v (on_bus: everybody hears
    everything) and the definitions below. *)
From Coq Require Import ZArith Lia ZifyBool ZifyNat.
From Verif Require Import Base BaseFacts PyStruct Spec StructFacts StructMore Defines SlaveModel SlaveSpec SlaveProofs BlockSpec BlockProofs HandlerProofs RequestProofs GeneralProofs SlaveInv PropSlave.
From Verif Require Import FrameSpec QueryModel DatabankModel MasterModel MasterSpec DbSpec DatabankProofs MasterProofs EndSpec EndProofs PropDatabank PropMaster TransportModel TransportSpec TransportProofs LinkSpec PropTransport PropBroadcast.
From Verif Require Import BusModel PropBus NetModel NetSpec NetProofs PropNet PropNetApart PropPlantNet DeviceSpec PropDevice PropPlant BuiltSpec PropBuilt PropBuiltPlant PropBuiltNet PropBuiltSerial.
Open Scope string_scope.
Open Scope list_scope.
Open Scope Z_scope.

(** ** The model: Master.execute (modbus.py 165-423) over RtuMaster (modbus_rtu.py 99-180) on a line with several RtuServers (BusModel.v) *)
Definition bus_exchange (cuts : nat -> list Z -> list (list Z)) (cut_resp : list Z -> list (list Z)) (stations : list databank) (request : list Z) (expected : Z) : res (list Z) :=
  let '(_, answers, _) := on_bus cuts stations request in
  match rtu_master_recv no_hook TPositive [] expected (flat_map (fun a => map Burst (cut_resp (snd a))) answers ++ [Silence]) with
  | Some (_, r) => r
  | None => Err NotModelled
  end.
Definition over_bus (cuts : nat -> list Z -> list (list Z)) (cut_resp : list Z -> list (list Z)) (last : Z) (stations : list databank) (u : Z) (c : call) : list databank * executed :=
  let e := execute RTU last (args_of u c) (bus_exchange cuts cut_resp stations) in
  (match ex_sent e with Some (request, _) => fst (fst (on_bus cuts stations request)) | None => stations end, e).

(** ** Spec *)
(** An event: how each station and the master receive the frames. *)
Record bus_use := { bu_stations : nat -> list Z -> list (list Z); bu_master : list Z -> list (list Z); bu_event : event }.
(** The application calls set_values and get_values at the station that has the unit. *)
Fixpoint at_unit (u : Z) (stations : list databank) (f : databank -> databank * effect) (nobody : effect) : list databank * effect :=
  match stations with
  | [] => ([], nobody)
  | d :: t => match get_slave d u with
              | Ok _ => let '(d', y) := f d in (d' :: t, y)
              | Err _ => let '(t', y) := at_unit u t f nobody in (d :: t', y)
              end
  end.
Definition bus_step (last : Z) (stations : list databank) (x : bus_use) : list databank * Z * effect :=
  let call u c := let '(st', e) := over_bus (bu_stations x) (bu_master x) last stations u c in (st', ex_last e, FromCall (ex_result e)) in
  let local u e nobody := let '(st', y) := at_unit u stations (fun d => let '(d', _, y) := program_step RTU last d e in (d', y)) nobody in (st', last, y) in
  match bu_event x with
  | Ask u c => call u c
  | Announce c => call 0 c
  | Store u name a v => local u (Store u name a v) (FromSet (Err MissingKeyError))
  | Fetch u name a n => local u (Fetch u name a n) (FromGet (Err MissingKeyError))
  end.
Fixpoint bus_run (last : Z) (stations : list databank) (l : list bus_use) : list databank * list effect :=
  match l with [] => (stations, []) | x :: l => let '(st1, last1, y) := bus_step last stations x in let '(st2, ys) := bus_run last1 st1 l in (st2, y :: ys) end.
(** Every unit of the site is a slave of one station and of no other. *)
Definition spread (stations : list databank) (w : site) : Prop :=
  forall u, match w u with
    | Some x => exists k d s, nth_error stations k = Some d /\ get_slave d u = Ok s /\ plain s /\ pictures s (po_built x) /\ names_areas s (po_area x) /\
                  forall j e, nth_error stations j = Some e -> j <> k -> get_slave e u = Err MissingKeyError
    | None => forall d, In d stations -> get_slave d u = Err MissingKeyError
    end.
Definition lawful_bus (x : bus_use) : Prop := (forall k, cutting (bu_stations x k)) /\ cutting (bu_master x) /\ lawful RTU (bu_event x).

(** ** Proofs *)
(** the part of the site at a station *)
Definition part (w : site) (d : databank) : site := fun v => match get_slave d v with Ok _ => w v | Err _ => None end.
Lemma spread_stages st w k d : spread st w -> nth_error st k = Some d -> stages d (part w d).
Proof.
  intros S N v. specialize (S v). unfold part. destruct (get_slave d v) as [s|e] eqn:G.
  - destruct (w v) as [x|].
    + destruct S as (k' & d' & s' & N' & G' & TY & M & A & O). destruct (Nat.eq_dec k k') as [->|NE]; [|rewrite (O k d N NE) in G; discriminate G]. rewrite N in N'. injection N' as <-. exists s'. rewrite <- G, G'. auto.
    + rewrite (S d) in G; [discriminate G|]. now apply nth_error_In with k.
  - now apply get_slave_err in G as ->.
Qed.
Lemma upd_nth (d' : databank) : forall st k j e, nth_error (list_upd st k d') j = Some e -> (j = k /\ e = d') \/ (j <> k /\ nth_error st j = Some e).
Proof.
  induction st as [|x t IH]; intros [|k] [|j] e H; cbn [list_upd nth_error] in *; try discriminate; auto.
  - injection H as <-. auto.
  - destruct (IH k j e H) as [(-> & ->)|(N & Q)]; auto.
Qed.
Lemma upd_same (d d' : databank) : forall st k, nth_error st k = Some d -> nth_error (list_upd st k d') k = Some d'.
Proof. induction st as [|x t IH]; intros [|k] H; cbn [list_upd nth_error] in *; try discriminate; auto. Qed.
Lemma upd_other (d' : databank) : forall st k j, j <> k -> nth_error (list_upd st k d') j = nth_error st j.
Proof. induction st as [|x t IH]; intros [|k] [|j] N; cbn [list_upd nth_error] in *; auto; try lia. Qed.
(** one station has taken a step at one of its units *)
Lemma spread_upd st w w' k d d' u s : spread st w -> nth_error st k = Some d -> get_slave d u = Ok s -> w u <> None -> w' u <> None -> (forall v, v <> u -> w' v = w v) ->
  stages d' (fun v => if v =? u then w' u else part w d v) -> spread (list_upd st k d') w'.
Proof.
  intros S N G W W' O P v. pose proof (S v) as Sv. pose proof (P v) as Pv. cbn beta in Pv. destruct (v =? u) eqn:E.
  - replace v with u in * by lia. clear v E. destruct (w' u) as [x|]; [|congruence]. destruct Pv as (s' & G' & TY & M & A). exists k, d', s'. split; [now apply upd_same with d|]. split; [exact G'|]. split; [exact TY|]. split; [exact M|]. split; [exact A|].
    intros j e Nj NE. rewrite upd_other in Nj by exact NE. destruct (w u) as [y|]; [|congruence]. destruct Sv as (k' & d2 & s2 & N2 & G2 & _ & _ & _ & Q). apply (Q j e Nj). intros ->.
    destruct (Nat.eq_dec k k') as [->|NK]; [congruence|]. rewrite (Q k d N NK) in G. discriminate G.
  - rewrite O by lia. unfold part in Pv. destruct (w v) as [x|].
    + destruct Sv as (k' & d2 & s2 & N2 & G2 & TY & M & A & Q). destruct (Nat.eq_dec k k') as [<-|NK].
      * rewrite N in N2. injection N2 as <-. rewrite G2 in Pv. destruct Pv as (s' & G' & TY' & M' & A'). exists k, d', s'. split; [now apply upd_same with d|]. repeat (split; [assumption|]).
        intros j e Nj NE. rewrite upd_other in Nj by exact NE. now apply (Q j e).
      * exists k', d2, s2. split; [rewrite upd_other by congruence; exact N2|]. repeat (split; [assumption|]). intros j e Nj NE. apply upd_nth in Nj as [(-> & ->)|(_ & Nj)]; [|now apply (Q j e)].
        rewrite (Q k d N NK) in Pv. exact Pv.
    + intros e I. apply In_nth_error in I as (j & Nj). apply upd_nth in Nj as [(-> & ->)|(_ & Nj)]; [|apply Sv; now apply nth_error_In with j].
      rewrite (Sv d) in Pv by (now apply nth_error_In with k). exact Pv.
Qed.
Lemma upd_forall (P : databank -> Prop) d' st k : Forall P st -> P d' -> Forall P (list_upd st k d').
Proof.
  intros F Q. apply Forall_forall. intros e I. apply In_nth_error in I as (j & Nj). apply upd_nth in Nj as [(-> & ->)|(_ & Nj)]; [exact Q|]. rewrite Forall_forall in F. apply F. now apply nth_error_In with j.
Qed.
Lemma spread_separate st w : spread st w -> separate st.
Proof.
  intros S i j d e u s s' Ni Nj Gi Gj. specialize (S u). destruct (w u) as [x|].
  - destruct S as (k & d2 & s2 & _ & _ & _ & _ & _ & Q). destruct (Nat.eq_dec i k) as [->|NI]; [destruct (Nat.eq_dec j k) as [->|NJ]; [reflexivity|rewrite (Q j e Nj NJ) in Gj; discriminate Gj]|rewrite (Q i d Ni NI) in Gi; discriminate Gi].
  - rewrite (S d) in Gi; [discriminate Gi|]. now apply nth_error_In with i.
Qed.
Lemma at_unit_found u f y : forall st k d s, nth_error st k = Some d -> get_slave d u = Ok s -> (forall j e, nth_error st j = Some e -> j <> k -> get_slave e u = Err MissingKeyError) ->
  at_unit u st f y = (list_upd st k (fst (f d)), snd (f d)).
Proof.
  induction st as [|x t IH]; intros [|k] d s N G Q; cbn [nth_error] in N; try discriminate; cbn [at_unit list_upd].
  - injection N as ->. rewrite G. now destruct (f d).
  - rewrite (Q 0%nat x) by (auto; lia). rewrite (IH k d s N G); [reflexivity|]. intros j e Nj NE. apply (Q (S j) e); [exact Nj|lia].
Qed.
Lemma at_unit_nobody u f y : forall st, (forall e, In e st -> get_slave e u = Err MissingKeyError) -> at_unit u st f y = (st, y).
Proof.
  induction st as [|x t IH]; intros Q; [reflexivity|]. cbn [at_unit]. rewrite (Q x) by now left. rewrite IH; [reflexivity|]. intros e I. apply Q. now right.
Qed.
Lemma on_one cuts cut_resp last st w k d u c s : (forall i, cutting (cuts i)) -> cutting cut_resp -> spread st w -> nth_error st k = Some d -> get_slave d u = Ok s -> 1 <= u <= 255 -> can_send RTU last u c ->
  over_bus cuts cut_resp last st u c = (list_upd st k (fst (over_serial (cuts k) cut_resp last d u c)), snd (over_serial (cuts k) cut_resp last d u c)).
Proof.
  intros C1 C2 S N G U (E & T & U' & F). destruct (build_call u c E) as (pdu & PR & _). destruct (execute_exact RTU last u c pdu E PR (F _ PR) T U') as (h & last' & _ & SD & _ & X).
  unfold over_bus, over_serial. rewrite !X. cbn [ex_sent fst snd]. set (z := on_wire (ids_for RTU last) u pdu) in *.
  pose proof (C48_one_request false d (cuts k z) z [] ltac:(apply on_wire_nonempty) (C1 k z)) as SV. pose proof (C87_owner cuts st k d u s pdu C1 (spread_separate st w S) N G U (proj1 SD)) as OB.
  change (on_wire None u pdu) with z in OB. rewrite OB, SV. cbn [fst rt_db]. f_equal. unfold bus_exchange, serial_exchange. rewrite OB, SV. cbn [rt_written].
  destruct (snd (served_request d RTU z)) as [a|]; cbn [answer_of flat_map snd]; [rewrite app_nil_r|]; reflexivity.
Qed.
Lemma on_none cuts cut_resp last st u c : (forall i, cutting (cuts i)) -> (forall d, In d st -> get_slave d u = Err MissingKeyError) -> 1 <= u <= 255 -> can_send RTU last u c ->
  fst (over_bus cuts cut_resp last st u c) = st /\ ex_result (snd (over_bus cuts cut_resp last st u c)) = Some (Err ModbusInvalidResponseError) /\ 0 <= ex_last (snd (over_bus cuts cut_resp last st u c)) <= 65535.
Proof.
  intros C1 Q U (E & T & U' & F). destruct (build_call u c E) as (pdu & PR & _). destruct (execute_exact RTU last u c pdu E PR (F _ PR) T U') as (h & last' & T' & SD & _ & X).
  unfold over_bus. rewrite !X. cbn [ex_sent ex_last ex_result fst snd].
  assert (OB : on_bus cuts st (on_wire (ids_for RTU last) u pdu) = (st, [], [])) by (apply (C87_nobody cuts st u pdu C1 U (proj1 SD)); intros d s I; rewrite (Q d I); discriminate).
  unfold bus_exchange. rewrite OB. cbn [fst flat_map]. destruct (two_on_line h (expected_call c) [] ltac:(cbn; lia)) as (p' & out & R & K). cbn [map] in R. rewrite R. cbn [bind]. now rewrite K.
Qed.
Lemma all_silent cuts frame (f : databank -> databank) : forall st k, (forall i d, In d st -> hear (cuts i) d frame = (f d, None)) -> all_hear cuts None k st frame = (map f st, []).
Proof.
  induction st as [|d t IH]; intros k H; [reflexivity|]. cbn [all_hear map]. rewrite (H k d) by now left. rewrite (IH (S k)); [reflexivity|]. intros i e I. apply H. now right.
Qed.
Lemma on_all cuts cut_resp last st w c : (forall i, cutting (cuts i)) -> cutting cut_resp -> spread st w -> Forall db_reachable st -> 0 <= last <= 65535 -> lawful RTU (Announce c) ->
  fst (over_bus cuts cut_resp last st 0 c) = map (fun d => fst (over_serial (cuts 0%nat) cut_resp last d 0 c)) st /\
  ex_result (snd (over_bus cuts cut_resp last st 0 c)) = Some (Err ModbusInvalidResponseError) /\ 0 <= ex_last (snd (over_bus cuts cut_resp last st 0 c)) <= 65535.
Proof.
  intros C1 C2 S D T L. destruct L as (FC & CS). specialize (CS last T). assert (W : writes c) by (unfold writes; cbn [In] in *; tauto).
  destruct CS as (E & _ & U & F). destruct (build_call 0 c E) as (pdu & PR & _). destruct (execute_exact RTU last 0 c pdu E PR (F _ PR) T U) as (h & last' & T' & SD & _ & X).
  set (z := on_wire (ids_for RTU last) 0 pdu) in *.
  assert (H : forall d, In d st -> snd (served_request d RTU z) = None).
  { intros d I. apply In_nth_error in I as (k & N). pose proof (spread_stages st w k d S N) as P. apply (broadcast_served RTU last c d pdu E PR (F _ PR) T W).
    - rewrite Forall_forall in D. apply D. now apply nth_error_In with k.
    - intros v s G. specialize (P v). destruct (part w d v) as [x|]; [|congruence]. destruct P as (s' & G' & TY & _). rewrite G in G'. injection G' as <-. split; [apply TY|]. intros K. rewrite K in FC. cbn [In] in FC. lia. }
  assert (OB : on_bus cuts st z = (map (fun d => fst (served_request d RTU z)) st, [], [])).
  { unfold on_bus. rewrite (all_silent cuts z (fun d => fst (served_request d RTU z)) st 0%nat); [reflexivity|]. intros i d I. rewrite hear_served by (auto; apply on_wire_nonempty). rewrite <- (H d I). now destruct (served_request d RTU z). }
  unfold over_bus. rewrite !X. cbn [ex_sent ex_last ex_result fst snd]. fold z. unfold bus_exchange. rewrite OB. cbn [fst flat_map].
  destruct (two_on_line h (expected_call c) [] ltac:(cbn; lia)) as (p' & out & R & K). cbn [map] in R. rewrite R. cbn [bind]. rewrite K. split; [|auto].
  apply map_ext. intros d. unfold over_serial. rewrite X. cbn [ex_sent fst]. fold z. now rewrite (C48_one_request false d (cuts 0%nat z) z [] ltac:(apply on_wire_nonempty) (C1 0%nat z)).
Qed.
Lemma bus_well last st w x : 0 <= last <= 65535 -> Forall db_reachable st -> spread st w -> lawful_bus x ->
  let '(st', last', y) := bus_step last st x in
  news_line y (snd (site_step w (bu_event x))) /\ spread st' (fst (site_step w (bu_event x))) /\ Forall db_reachable st' /\ 0 <= last' <= 65535.
Proof.
  intros T D P (C1 & C2 & L). destruct x as [cuts cut_resp e]. cbn [bu_stations bu_master bu_event] in *. unfold bus_step. cbn [bu_stations bu_master bu_event].
  assert (DK : forall k d, nth_error st k = Some d -> db_reachable d) by (intros k d N; rewrite Forall_forall in D; apply D; now apply nth_error_In with k).
  destruct e as [u c|c|u name a v|u name a n].
  - pose proof L as (U & NR & CS). cbn [fst snd] in U, NR, CS. specialize (CS last T). pose proof (P u) as PU. destruct (w u) as [x|] eqn:WU.
    + destruct PU as (k & d & s & N & G & TY & M & A & Q). rewrite (on_one cuts cut_resp last st w k d u c s C1 C2 P N G U CS).
      pose proof (line_well last d (part w d) {| lu_request := cuts k; lu_response := cut_resp; lu_event := Ask u c |} T (DK k d N) (spread_stages st w k d P N) (conj (C1 k) (conj C2 L))) as LW.
      unfold line_step in LW. cbn [lu_request lu_response lu_event] in LW. destruct (over_serial (cuts k) cut_resp last d u c) as [d' e]. cbn [fst snd site_step] in *. assert (PW : part w d u = Some x) by (unfold part; now rewrite G).
      rewrite PW in LW. rewrite WU. cbn [fst snd] in *. destruct LW as (L1 & L2 & L3 & L4). split; [exact L1|]. split; [|split; [now apply upd_forall|exact L4]].
      apply (spread_upd st w _ k d d' u s P N G); [rewrite WU; discriminate|rewrite Z.eqb_refl; discriminate|intros v V; now replace (v =? u) with false by lia|].
      intros v. specialize (L2 v). rewrite Z.eqb_refl. exact L2.
    + destruct (on_none cuts cut_resp last st u c C1 PU U CS) as (O1 & O2 & O3). destruct (over_bus cuts cut_resp last st u c) as [st' e]. cbn [fst snd site_step] in *. rewrite WU. cbn [fst snd]. subst st'. rewrite O2. split; [reflexivity|]. auto.
  - destruct (on_all cuts cut_resp last st w c C1 C2 P D T L) as (O1 & O2 & O3). destruct (over_bus cuts cut_resp last st 0 c) as [st' e]. cbn [fst snd site_step] in *. subst st'. rewrite O2. split; [reflexivity|].
    assert (LW : forall k d, nth_error st k = Some d -> stages (fst (over_serial (cuts 0%nat) cut_resp last d 0 c)) (fun v => match part w d v with None => None | Some x => Some {| po_built := fst (built_call (po_built x) c); po_area := po_area x |} end) /\
      db_reachable (fst (over_serial (cuts 0%nat) cut_resp last d 0 c))).
    { intros k d N. pose proof (line_well last d (part w d) {| lu_request := cuts 0%nat; lu_response := cut_resp; lu_event := Announce c |} T (DK k d N) (spread_stages st w k d P N) (conj (C1 0%nat) (conj C2 L))) as LW.
      unfold line_step in LW. cbn [lu_request lu_response lu_event] in LW. destruct (over_serial (cuts 0%nat) cut_resp last d 0 c) as [d' e']. cbn [fst snd site_step] in *. tauto. }
    split; [|split; [|exact O3]].
    + intros v. pose proof (P v) as Pv. destruct (w v) as [x|] eqn:WV.
      * destruct Pv as (k & d & s & N & G & TY & M & A & Q). destruct (LW k d N) as (LS & _). specialize (LS v). cbn beta in LS. unfold part in LS. rewrite G, WV in LS. destruct LS as (s' & G' & TY' & M' & A').
        exists k, (fst (over_serial (cuts 0%nat) cut_resp last d 0 c)), s'. split; [now apply (map_nth_error (fun d => fst (over_serial (cuts 0%nat) cut_resp last d 0 c)))|]. repeat (split; [assumption|]).
        intros j e' Nj NE. destruct (nth_error st j) as [e0|] eqn:N0; [|apply nth_error_None in N0; assert (nth_error (map (fun d => fst (over_serial (cuts 0%nat) cut_resp last d 0 c)) st) j <> None) as B by congruence; apply nth_error_Some in B; rewrite map_length in B; lia].
        rewrite (map_nth_error _ j st N0) in Nj. injection Nj as <-. destruct (LW j e0 N0) as (LS & _). specialize (LS v). cbn beta in LS. unfold part in LS. rewrite (Q j e0 N0 NE) in LS. exact LS.
      * intros e' I. apply in_map_iff in I as (e0 & <- & I). pose proof I as I0. apply In_nth_error in I as (j & N0). destruct (LW j e0 N0) as (LS & _). specialize (LS v). cbn beta in LS. unfold part in LS. rewrite (Pv e0 I0) in LS. exact LS.
    + apply Forall_forall. intros e' I. apply in_map_iff in I as (e0 & <- & I). apply In_nth_error in I as (j & N0). now apply (LW j e0).
  - cbv zeta. pose proof (P u) as PU. destruct (w u) as [x|] eqn:WU.
    + destruct PU as (k & d & s & N & G & TY & M & A & Q). rewrite (at_unit_found u _ _ st k d s N G Q).
      pose proof (well_store RTU last d (part w d) T (DK k d N) (spread_stages st w k d P N) u name a v) as LW. unfold step_well in LW. destruct (program_step RTU last d (Store u name a v)) as [[d' l'] y]. cbn [fst snd].
      assert (PW : part w d u = Some x) by (unfold part; now rewrite G). cbn [site_step] in *. rewrite PW in LW. rewrite WU.
      assert (ID : forall d', stages d' (part w d) -> spread (list_upd st k d') w).
      { intros d2 S2. apply (spread_upd st w w k d d2 u s P N G); [rewrite WU; discriminate|rewrite WU; discriminate|auto|]. intros z. specialize (S2 z). cbn beta. destruct (z =? u) eqn:EZ; [|exact S2]. replace z with u in * by lia. rewrite PW in S2. rewrite WU. exact S2. }
      destruct (po_area x name) as [[[t first] size]|]; [destruct ((first <=? a) && (a + zlen (values_of v) <=? first + size))|]; cbn [fst snd] in *; destruct LW as (L1 & L2 & L3 & L4).
      * split; [exact L1|]. split; [|split; [now apply upd_forall|exact T]]. apply (spread_upd st w _ k d d' u s P N G); [rewrite WU; discriminate|rewrite Z.eqb_refl; discriminate|intros z V; now replace (z =? u) with false by lia|].
        intros z. specialize (L2 z). rewrite Z.eqb_refl. exact L2.
      * split; [exact L1|]. split; [now apply ID|]. split; [now apply upd_forall|exact T].
      * split; [exact L1|]. split; [now apply ID|]. split; [now apply upd_forall|exact T].
    + rewrite at_unit_nobody by exact PU. cbn [site_step]. rewrite WU. cbn [fst snd]. split; [left; reflexivity|auto].
  - cbv zeta. pose proof (P u) as PU. destruct (w u) as [x|] eqn:WU.
    + destruct PU as (k & d & s & N & G & TY & M & A & Q). rewrite (at_unit_found u _ _ st k d s N G Q).
      pose proof (well_fetch RTU last d (part w d) T (DK k d N) (spread_stages st w k d P N) u name a n L) as LW. unfold step_well in LW. cbn [program_step] in *. rewrite G in *. cbn [fst snd].
      assert (PW : part w d u = Some x) by (unfold part; now rewrite G). cbn [site_step] in *. rewrite PW in LW. rewrite WU. rewrite list_upd_self by exact N.
      destruct (po_area x name) as [[[t first] size]|]; [destruct ((first <=? a) && (a + n <=? first + size))|]; cbn [fst snd] in *; destruct LW as (L1 & _); auto.
    + rewrite at_unit_nobody by exact PU. cbn [site_step]. rewrite WU. cbn [fst snd]. split; [right; reflexivity|auto].
Qed.
(** ** C132 *)
Theorem C132_bus : forall l last st w, 0 <= last <= 65535 -> Forall db_reachable st -> spread st w -> Forall lawful_bus l ->
  Forall2 news_line (snd (bus_run last st l)) (snd (site_run w (map bu_event l))) /\ spread (fst (bus_run last st l)) (fst (site_run w (map bu_event l))).
Proof.
  induction l as [|x l IH]; intros last st w T D P F; [split; [constructor|exact P]|]. inversion_clear F as [|? ? F1 F2].
  pose proof (bus_well last st w x T D P F1) as SW. cbn [bus_run map site_run]. destruct (bus_step last st x) as [[st1 last1] y]. destruct (site_step w (bu_event x)) as [w1 o]. cbn [fst snd] in SW. destruct SW as (S1 & S2 & S3 & S4).
  destruct (IH last1 st1 w1 S4 S3 S2 F2) as (I1 & I2). destruct (bus_run last1 st1 l) as [st2 ys]. destruct (site_run w1 (map bu_event l)) as [w2 os]. cbn [fst snd] in *. split; [constructor; [exact S1|exact I1]|exact I2].
Qed.
(** Every set of servers with plain slaves and no unit at two of them is such a site. *)
Definition site_of_all (st : list databank) : site := fun v => fold_right (fun d r => match get_slave d v with Ok s => Some (post_of s) | Err _ => r end) None st.
Lemma site_of_all_cases st v : match site_of_all st v with
  | Some x => exists k d s, nth_error st k = Some d /\ get_slave d v = Ok s /\ x = post_of s
  | None => forall d, In d st -> get_slave d v = Err MissingKeyError
  end.
Proof.
  unfold site_of_all. induction st as [|d t IH]; cbn [fold_right]; [intros d []|]. destruct (get_slave d v) as [s|e] eqn:G; [exists 0%nat, d, s; auto|].
  destruct (fold_right _ None t) as [x|].
  - destruct IH as (k & d2 & s & N & G2 & X). exists (S k), d2, s. auto.
  - intros d2 [<-|I]; [pose proof (get_slave_err _ _ _ G) as K; congruence|now apply IH].
Qed.
Theorem C132_from_databanks : forall l last st, 0 <= last <= 65535 -> Forall db_reachable st ->
  (forall d v s, In d st -> get_slave d v = Ok s -> plain s) ->
  (forall i j d e u s s', nth_error st i = Some d -> nth_error st j = Some e -> get_slave d u = Ok s -> get_slave e u = Ok s' -> i = j) -> Forall lawful_bus l ->
  Forall2 news_line (snd (bus_run last st l)) (snd (site_run (site_of_all st) (map bu_event l))) /\ spread (fst (bus_run last st l)) (fst (site_run (site_of_all st) (map bu_event l))).
Proof.
  intros l last st T D H Sep F. apply C132_bus; auto. intros u. pose proof (site_of_all_cases st u) as K. destruct (site_of_all st u) as [x|]; [|exact K]. destruct K as (k & d & s & N & G & ->).
  assert (I : In d st) by now apply nth_error_In with k. rewrite Forall_forall in D. destruct (db_reachable_slave d u s (D d I) G) as [R _].
  exists k, d, s. split; [exact N|]. split; [exact G|]. split; [eapply H; eauto|]. split; [apply built_of_pictures; [now apply reachable_wf|eapply H; eauto]|]. split; [apply post_areas; [exact R|eapply H; eauto]|].
  intros j e Nj NE. destruct (get_slave e u) as [s'|x] eqn:G'; [destruct NE; now rewrite (Sep j k e d u s' s Nj N G' G)|now apply get_slave_err in G' as ->].
Qed.
(** ** A concrete case: the stations of demo_db (units 3, 9, 12) and of demo_db2 (unit 20) *)
Definition bus_uses : list bus_use :=
  map (fun e => {| bu_stations := fun k => if Nat.eqb k 0 then by_two else in_one_piece; bu_master := by_two; bu_event := e |})
    [Ask 20 (WriteReg 103 40000); Ask 3 (ReadRegs true 103 2); Store 20 "r" 104 (SvSeq [70000]); Announce (WriteReg 103 7); Ask 20 (ReadRegs true 103 1); Ask 20 (ReadRegs true 103 2); Ask 3 (ReadRegs true 103 1); Ask 5 (ReadRegs true 103 1);
     Fetch 20 "r" 103 2; Fetch 5 "r" 103 2].
Lemma demo2_tidy : forall v s, get_slave demo_db2 v = Ok s -> tidy s.
Proof.
  intros v s G. unfold get_slave in G. destruct (assoc Z.eqb v (db_slaves demo_db2)) as [s0|] eqn:A; [|discriminate G]. injection G as ->. apply zassoc_in in A. vm_compute in A.
  destruct A as [A|[]]; injection A as _ <-; apply tidy_zero; [intros []; reflexivity|intros []; vm_compute; lia|
    intros [] b x I V; vm_compute in I; repeat (destruct I as [<-|I]; [vm_compute in V; repeat (destruct V as [<-|V]; [reflexivity|]); destruct V|]); destruct I].
Qed.
Example C132_ex : Forall db_reachable [demo_db; demo_db2] /\ (forall d v s, In d [demo_db; demo_db2] -> get_slave d v = Ok s -> plain s) /\
  (forall i j d e u s s', nth_error [demo_db; demo_db2] i = Some d -> nth_error [demo_db; demo_db2] j = Some e -> get_slave d u = Ok s -> get_slave e u = Ok s' -> i = j) /\ Forall lawful_bus bus_uses /\
  snd (bus_run 0 [demo_db; demo_db2] bus_uses) =
    [FromCall (Some (Ok (RTuple [103; 40000]))); FromCall (Some (Ok (RTuple [0; 0]))); FromSet (Ok tt); FromCall (Some (Err ModbusInvalidResponseError)); FromCall (Some (Ok (RTuple [7])));
     FromCall (Some (Err ModbusInvalidResponseError)); FromCall (Some (Ok (RTuple [7]))); FromCall (Some (Err ModbusInvalidResponseError)); FromGet (Ok [7; 70000]); FromGet (Err MissingKeyError)].
Proof.
  assert (R2 : db_reachable demo_db2) by (exists true, [DbAdd 20 true None; DbCall 20 (OpAddBlock "r" 3 100 10)]; split; [repeat constructor|reflexivity]).
  assert (Sep : separate [demo_db; demo_db2]). { intros i j d e u s s' Ni Nj Gi Gj. apply slave_units in Gi, Gj.
    destruct i as [|[|[|i]]], j as [|[|[|j]]]; cbn in Ni, Nj; try discriminate; try reflexivity; injection Ni as <-; injection Nj as <-; vm_compute in Gi, Gj; intuition lia. }
  assert (FR : Forall db_reachable [demo_db; demo_db2]) by (apply Forall_cons; [exact demo_db_reachable|apply Forall_cons; [exact R2|apply Forall_nil]]).
  split; [exact FR|].
  split.
  2: split.
  2: exact Sep.
  2: split.
  - intros d v s I G. assert (T : tidy s) by (destruct I as [<-|[<-|[]]]; [exact (demo_tidy v s G)|exact (demo2_tidy v s G)]). destruct T as (A & B & C & _). exact (conj A (conj B C)).
  - unfold bus_uses. cbn [map].
    repeat (apply Forall_cons; [split; [intros k; cbn [bu_stations]; destruct (Nat.eqb k 0); [exact by_two_cuts|exact one_piece_cutting]|]; split; [exact by_two_cuts|]; cbn [bu_event lawful]; first
      [ exact Logic.I
      | lia
      | eapply askable_intro; [lia|discriminate|cbn [encodable]; unfold fits, bytes, is_byte, zlen, reg_value; cbn [length Z.of_nat repeat]; repeat constructor; lia|reflexivity|vm_compute; discriminate]
      | split; [cbn [fc_of In]; tauto|]; intros last0 T0; split; [cbn [encodable]; unfold fits, reg_value; repeat split; lia|]; split; [exact T0|]; split; [lia|]; intros pdu P; apply framable_small; rewrite P; vm_compute; discriminate ]|]).
    apply Forall_nil.
  - vm_compute. reflexivity.
Qed.

Print Assumptions C132_bus.
Print Assumptions C132_from_databanks.
