(** Property C58: simulator answers go to whoever asked. *)
From Coq Require Import List Arith Lia.
From Verif Require Import QueueModel.
Import ListNotations.

(** the answers taken from the output queue, in order *)
Definition taken (l : list ending) : list cmd_id := flat_map (fun e => match e with Got _ _ c => [c] | GaveUp _ _ => [] end) l.
Definition in_flight (q : qstate) : list cmd_id := q_out q ++ match q_busy q with Some c => [c] | None => [] end ++ q_in q.

Lemma taken_app a b : taken (a ++ b) = taken a ++ taken b.
Proof. apply flat_map_app. Qed.
Lemma fifo_step q l q' : qdo q l = Some q' -> taken (q_log q) ++ in_flight q = q_sent q -> taken (q_log q') ++ in_flight q' = q_sent q'.
Proof.
  intros E H. unfold in_flight in *. destruct l as [i| | |i|i]; cbn in E.
  - destruct (q_waits q i); [discriminate|]. injection E as <-. cbn. rewrite <- H. rewrite <- !app_assoc. reflexivity.
  - destruct (q_busy q); [discriminate|]. destruct (q_in q); [discriminate|]. injection E as <-. exact H.
  - destruct (q_busy q); [|discriminate]. injection E as <-. cbn. rewrite <- H. rewrite <- !app_assoc. reflexivity.
  - destruct (q_waits q i); [|discriminate]. destruct (q_out q); [discriminate|]. injection E as <-. cbn. rewrite taken_app.
    rewrite <- H. cbn. rewrite <- !app_assoc. reflexivity.
  - destruct (q_waits q i); [|discriminate]. injection E as <-. cbn. rewrite taken_app. cbn. now rewrite app_nil_r.
Qed.
(** For every schedule, any number of interfaces and any timeouts: no answer is lost, duplicated or reordered; the n-th answer
    taken is the answer to the n-th command issued. *)
Theorem C58_fifo_partial : forall ls q, qexec q_start ls = Some q -> taken (q_log q) ++ in_flight q = q_sent q.
Proof.
  intros ls. assert (G : forall q0 q, taken (q_log q0) ++ in_flight q0 = q_sent q0 -> qexec q0 ls = Some q -> taken (q_log q) ++ in_flight q = q_sent q).
  { induction ls as [|l ls IH]; intros q0 q H E; [injection E as <-; exact H|]. cbn in E.
    destruct (qdo q0 l) as [q1|] eqn:E1; [|discriminate]. apply (IH q1); [|exact E]. now apply (fifo_step q0 l). }
  intros q. now apply G.
Qed.

(** Nobody issues a command while another interface waits for its answer, and no timeout expires. *)
Fixpoint taking_turns (q : qstate) (ls : list qlabel) : Prop :=
  match ls with
  | [] => True
  | l :: t =>
      match qdo q l with
      | Some q' => match l with Send _ => forall j, q_waits q j = false | Expire _ => False | _ => True end /\ taking_turns q' t
      | None => True
      end
  end.
(** calls that got their own answer *)
Definition own (e : ending) : Prop := match e with Got i k c => c = (i, k) | GaveUp _ _ => False end.
(** nobody waits and nothing is in flight, or one interface waits for the one command in flight *)
Definition calm (q : qstate) : Prop :=
  Forall own (q_log q) /\
  ((in_flight q = [] /\ forall j, q_waits q j = false) \/
   exists i n, q_count q i = S n /\ in_flight q = [(i, n)] /\ forall j, q_waits q j = (j =? i)).
Lemma in_flight_nil q : in_flight q = [] -> q_out q = [] /\ q_busy q = None /\ q_in q = [].
Proof. unfold in_flight. destruct (q_out q); [|discriminate]. destruct (q_busy q); [discriminate|]. auto. Qed.
Lemma calm_step q l q' : calm q -> match l with Send _ => forall j, q_waits q j = false | Expire _ => False | _ => True end ->
  qdo q l = Some q' -> calm q'.
Proof.
  intros [O C] T E. destruct l as [i| | |i|i]; [| | | |contradiction]; cbn in E.
  - rewrite T in E. injection E as <-. destruct C as [[F N]|(i' & n & _ & _ & W)].
    + apply in_flight_nil in F as (F1 & F2 & F3). split; [exact O|]. right. exists i, (q_count q i). cbn.
      unfold in_flight. cbn. rewrite F1, F2, F3. unfold upd. rewrite Nat.eqb_refl. split; [reflexivity|]. split; [reflexivity|].
      intros j. destruct (j =? i); auto.
    + specialize (W i'). rewrite T, Nat.eqb_refl in W. discriminate.
  - destruct (q_busy q) eqn:B; [discriminate|]. destruct (q_in q) as [|c t] eqn:I; [discriminate|]. injection E as <-.
    split; [exact O|]. unfold in_flight in *. cbn. rewrite B, I in C. exact C.
  - destruct (q_busy q) as [c|] eqn:B; [|discriminate]. injection E as <-. split; [exact O|]. unfold in_flight in *. cbn in *.
    rewrite B in C. rewrite <- app_assoc. exact C.
  - destruct (q_waits q i) eqn:W; [|discriminate]. destruct (q_out q) as [|c t] eqn:U; [discriminate|]. injection E as <-.
    destruct C as [[F N]|(i' & n & K & F & N)]; [rewrite N in W; discriminate|].
    assert (i = i') as <-. { rewrite N in W. now apply Nat.eqb_eq. }
    unfold in_flight in F. rewrite U in F. cbn in F. injection F as -> F.
    split; cbn.
    + apply Forall_app. split; [exact O|]. constructor; [|constructor]. cbn. now rewrite K.
    + left. split; [exact F|]. intros j. unfold upd. destruct (j =? i) eqn:J; [reflexivity|]. now rewrite N.
Qed.
Lemma calm_exec ls q q' : calm q -> taking_turns q ls -> qexec q ls = Some q' -> calm q'.
Proof.
  revert q. induction ls as [|l ls IH]; intros q C T E; [injection E as <-; exact C|]. cbn in T, E.
  destruct (qdo q l) as [q1|] eqn:E1; [|discriminate]. destruct T as [T1 T2]. apply (IH q1); auto. now apply (calm_step q l).
Qed.
Lemma calm_start : calm q_start.
Proof. split; [constructor|]. left. auto. Qed.
(** Taking turns, everyone gets the answers to its own commands, in all schedules. *)
Theorem C58_turns_partial : forall ls q, taking_turns q_start ls -> qexec q_start ls = Some q -> Forall own (q_log q).
Proof. intros ls q T E. now apply (calm_exec ls q_start q calm_start T E). Qed.
(** Whoever waits can be served: the simulator has something to do, or the answer is there. *)
Theorem C58_progress_partial : forall ls q i, taking_turns q_start ls -> qexec q_start ls = Some q -> q_waits q i = true ->
  exists l, (l = Take \/ l = Put \/ l = Get i) /\ qdo q l <> None.
Proof.
  intros ls q i T E W. destruct (calm_exec ls q_start q calm_start T E) as [_ [[_ N]|(i' & n & K & F & N)]]; [rewrite N in W; discriminate|].
  unfold in_flight in F. destruct (q_out q) as [|c t] eqn:U.
  - destruct (q_busy q) as [c|] eqn:B.
    + exists Put. split; [auto|]. cbn. rewrite B. discriminate.
    + cbn in F. exists Take. split; [auto|]. cbn. rewrite B, F. discriminate.
  - exists (Get i). split; [auto|]. cbn. rewrite W, U. discriminate.
Qed.
(** A single interface that never times out takes turns with itself. *)
Theorem C58_single_partial : forall i ls q,
  Forall (fun l => match l with Send j | Get j => j = i | Expire _ => False | _ => True end) ls ->
  qexec q_start ls = Some q -> Forall own (q_log q).
Proof.
  intros i ls q F E. apply (C58_turns_partial ls q); [|exact E].
  assert (G : forall q0, (forall j, j <> i -> q_waits q0 j = false) -> taking_turns q0 ls).
  { clear E. induction F as [|l ls L F IH]; intros q0 H; [exact Logic.I|]. cbn.
    destruct (qdo q0 l) as [q1|] eqn:E1; [|exact Logic.I]. split.
    - destruct l as [j| | |j|j]; auto. subst j. cbn in E1. destruct (q_waits q0 i) eqn:W; [discriminate|].
      intros j. destruct (Nat.eq_dec j i) as [->|D]; auto.
    - apply IH. intros j J.
      destruct l as [k| | |k|k]; cbn in E1.
      + subst k. destruct (q_waits q0 i); [discriminate|]. injection E1 as <-. cbn. unfold upd. apply Nat.eqb_neq in J as J'. rewrite J'. auto.
      + destruct (q_busy q0); [discriminate|]. destruct (q_in q0); [discriminate|]. injection E1 as <-. cbn. auto.
      + destruct (q_busy q0); [|discriminate]. injection E1 as <-. cbn. auto.
      + subst k. destruct (q_waits q0 i); [|discriminate]. destruct (q_out q0); [discriminate|]. injection E1 as <-. cbn. unfold upd. apply Nat.eqb_neq in J as J'. rewrite J'. auto.
      + contradiction. }
  apply G. reflexivity.
Qed.
Example C58_ex :
  (** console (0) and RPC (1) taking turns *)
  let ls := [Send 0; Take; Put; Get 0; Send 1; Take; Put; Get 1; Send 0; Take; Put; Get 0] in
  option_map q_log (qexec q_start ls) = Some [Got 0 0 (0, 0); Got 1 0 (1, 0); Got 0 1 (0, 1)] /\ taking_turns q_start ls.
Proof. split; [vm_compute; reflexivity|]. vm_compute. repeat split; intros [|[|j]]; reflexivity. Qed.

(** Two interfaces at the same time: one gets the answer to the other's command. *)
Theorem C58_two_interfaces_refuted :
  ~ (forall ls q, Forall (fun l => match l with Expire _ => False | _ => True end) ls -> qexec q_start ls = Some q -> Forall own (q_log q)).
Proof.
  intros H. specialize (H [Send 0; Send 1; Take; Put; Get 1]). destruct (qexec q_start [Send 0; Send 1; Take; Put; Get 1]) as [q|] eqn:E; [|vm_compute in E; discriminate E].
  assert (G : Forall own (q_log q)) by (apply H; [repeat constructor|reflexivity]). vm_compute in E. injection E as <-. cbn in G.
  inversion G as [|? ? O _]. discriminate O.
Qed.

(** The calls of a single interface end in order; with timeouts, a call that gets an answer gets the answer to the call
    as many places earlier as there were timeouts before. *)
Fixpoint shifted (call missed : nat) (l : list ending) : Prop :=
  match l with
  | [] => True
  | Got _ k c :: t => k = call /\ snd c + missed = call /\ shifted (S call) missed t
  | GaveUp _ k :: t => k = call /\ shifted (S call) (S missed) t
  end.
Definition missed (l : list ending) : nat := length (filter (fun e => match e with GaveUp _ _ => true | _ => false end) l).
Lemma shifted_app a b call m : shifted call m a -> shifted (call + length a) (m + missed a) b -> shifted call m (a ++ b).
Proof.
  revert call m. induction a as [|e a IH]; intros call m H1 H2; cbn in *; [now rewrite !Nat.add_0_r in H2|].
  destruct e as [i k c|i k].
  - destruct H1 as (-> & -> & H1). split; [reflexivity|]. split; [reflexivity|]. apply IH; [exact H1|]. cbn in H2. now rewrite <- Nat.add_succ_comm in H2.
  - destruct H1 as (-> & H1). split; [reflexivity|]. apply IH; [exact H1|]. cbn in H2.
    now rewrite <- !Nat.add_succ_comm in H2.
Qed.
Lemma log_length l : length l = length (taken l) + missed l.
Proof. unfold missed, taken. induction l as [|[i k c|i k] l IH]; cbn in *; lia. Qed.
Definition solo (i : nat) (q : qstate) : Prop :=
  q_sent q = map (fun n => (i, n)) (seq 0 (q_count q i)) /\
  length (q_log q) + (if q_waits q i then 1 else 0) = q_count q i /\
  shifted 0 0 (q_log q).
Theorem C58_timeout_shift : forall i ls q,
  Forall (fun l => match l with Send j | Get j | Expire j => j = i | _ => True end) ls ->
  qexec q_start ls = Some q -> shifted 0 0 (q_log q).
Proof.
  intros i ls q F E.
  assert (G : forall q0 q, solo i q0 -> taken (q_log q0) ++ in_flight q0 = q_sent q0 -> qexec q0 ls = Some q -> solo i q).
  { clear E q. induction F as [|l ls L F IH]; intros q0 q S Q E; [injection E as <-; exact S|]. cbn in E.
    destruct (qdo q0 l) as [q1|] eqn:E1; [|discriminate]. apply (IH q1); [|now apply (fifo_step q0 l)|exact E]. clear IH E.
    destruct S as (S1 & S2 & S3). destruct l as [k| | |k|k]; cbn in E1.
    - subst k. destruct (q_waits q0 i) eqn:W; [discriminate|]. injection E1 as <-. unfold solo. cbn. unfold upd. rewrite Nat.eqb_refl.
      split; [rewrite S1; change (S (q_count q0 i)) with (1 + q_count q0 i); rewrite Nat.add_comm, seq_app, map_app; reflexivity|]. split; [lia|exact S3].
    - destruct (q_busy q0); [discriminate|]. destruct (q_in q0); [discriminate|]. injection E1 as <-. exact (conj S1 (conj S2 S3)).
    - destruct (q_busy q0); [|discriminate]. injection E1 as <-. exact (conj S1 (conj S2 S3)).
    - subst k. destruct (q_waits q0 i) eqn:W; [|discriminate]. destruct (q_out q0) as [|c t] eqn:U; [discriminate|]. injection E1 as <-.
      unfold solo. cbn. unfold upd. rewrite Nat.eqb_refl. split; [exact S1|]. rewrite app_length. cbn. split; [lia|].
      apply shifted_app; [exact S3|]. cbn. rewrite log_length in *. split; [lia|]. split; [|exact Logic.I].
      assert (C : nth_error (q_sent q0) (length (taken (q_log q0))) = Some c).
      { rewrite <- Q, nth_error_app2, Nat.sub_diag by lia. unfold in_flight. now rewrite U. }
      rewrite S1, nth_error_map in C. destruct (nth_error (seq 0 (q_count q0 i)) (length (taken (q_log q0)))) as [x|] eqn:X; [|discriminate].
      injection C as <-. cbn. assert (Lt : length (taken (q_log q0)) < length (seq 0 (q_count q0 i))) by (apply nth_error_Some; congruence).
      apply (nth_error_nth _ _ 0) in X. rewrite seq_length in Lt. rewrite seq_nth in X by exact Lt. lia.
    - subst k. destruct (q_waits q0 i) eqn:W; [|discriminate]. injection E1 as <-.
      unfold solo. cbn. unfold upd. rewrite Nat.eqb_refl. split; [exact S1|]. rewrite app_length. cbn. split; [lia|].
      apply shifted_app; [exact S3|]. cbn. rewrite log_length in *. split; [lia|exact Logic.I]. }
  apply (G q_start q); [|reflexivity|exact E]. split; [reflexivity|]. split; [reflexivity|exact Logic.I].
Qed.
(** After one timeout the next call gets the answer to the one that timed out. *)
Theorem C58_timeout_refuted :
  ~ (forall ls q i, Forall (fun l => match l with Send j | Get j | Expire j => j = i | _ => True end) ls ->
       qexec q_start ls = Some q -> Forall (fun e => match e with Got j k c => c = (j, k) | GaveUp _ _ => True end) (q_log q)).
Proof.
  intros H. specialize (H [Send 0; Expire 0; Send 0; Take; Put; Get 0]). destruct (qexec q_start [Send 0; Expire 0; Send 0; Take; Put; Get 0]) as [q|] eqn:E; [|vm_compute in E; discriminate E].
  assert (G : Forall (fun e => match e with Got j k c => c = (j, k) | GaveUp _ _ => True end) (q_log q)) by (apply (H q 0); [repeat constructor|reflexivity]).
  vm_compute in E. injection E as <-. cbn in G.
  inversion G as [|? ? _ G1]. inversion G1 as [|? ? O _]. discriminate O.
Qed.

Print Assumptions C58_fifo_partial.
Print Assumptions C58_turns_partial.
Print Assumptions C58_progress_partial.
Print Assumptions C58_single_partial.
Print Assumptions C58_two_interfaces_refuted.
Print Assumptions C58_timeout_shift.
Print Assumptions C58_timeout_refuted.
