(** C115: how many clients a TCP server can have.  Statements first use: [fd_life env l s] (FdModel.v), the server over the turns [l];
    [None] is the end of the server thread. *)
From Verif Require Import Base DatabankModel TransportModel TransportSpec TransportProofs PropTransport AvailModel PropAvail FdModel.
From Coq Require Import ZArith List Lia.
Import ListNotations.
Open Scope list_scope. Open Scope Z_scope.

Lemma search_free_spec used : forall fuel n, n <= search_free fuel n used <= n + Z.of_nat fuel /\
  (forall k, n <= k < search_free fuel n used -> In k used) /\
  (In (search_free fuel n used) used -> search_free fuel n used = n + Z.of_nat fuel).
Proof.
  induction fuel as [|f IH]; intros n; cbn [search_free].
  - split; [lia|]. split; [intros; lia|lia].
  - destruct (existsb (Z.eqb n) used) eqn:E.
    + destruct (IH (n + 1)) as (B & I & F). split; [lia|]. split; [|intros X; apply F in X; lia].
      intros k K. destruct (Z.eq_dec k n) as [-> | N].
      * apply existsb_exists in E. destruct E as (x & X & Q). apply Z.eqb_eq in Q. now subst.
      * apply I. lia.
    + split; [lia|]. split; [intros; lia|]. intros X. exfalso. assert (Y : existsb (Z.eqb n) used = true) by (apply existsb_exists; exists n; split; [exact X|apply Z.eqb_refl]). congruence.
Qed.
(** A new descriptor is not in use, and its number is at most the number of descriptors in use. *)
Lemma lowest_free_spec used : ~ In (lowest_free used) used /\ 0 <= lowest_free used <= zlen used.
Proof.
  unfold lowest_free. destruct (search_free_spec used (length used) 0) as (B & I & F). split; [|unfold zlen; lia].
  intros X. pose proof (F X) as Q.
  assert (N : NoDup (map Z.of_nat (seq 0 (S (length used))))).
  { apply FinFun.Injective_map_NoDup; [intros a b; lia|apply seq_NoDup]. }
  assert (C : incl (map Z.of_nat (seq 0 (S (length used)))) used).
  { intros k K. apply in_map_iff in K. destruct K as (m & <- & M). apply in_seq in M.
    destruct (Z.eq_dec (Z.of_nat m) (search_free (length used) 0 used)) as [-> | D]; [exact X|apply I; lia]. }
  apply NoDup_incl_length in C; [|exact N]. rewrite map_length, seq_length in C. lia.
Qed.
Lemma lowest_free_seq n : lowest_free (map Z.of_nat (seq 0 n)) = Z.of_nat n.
Proof.
  destruct (lowest_free_spec (map Z.of_nat (seq 0 n))) as (N & B). unfold zlen in B. rewrite map_length, seq_length in B.
  destruct (Z.eq_dec (lowest_free (map Z.of_nat (seq 0 n))) (Z.of_nat n)) as [E|D]; [exact E|]. exfalso. apply N. apply in_map_iff.
  exists (Z.to_nat (lowest_free (map Z.of_nat (seq 0 n)))). split; [lia|]. apply in_seq. lia.
Qed.

(** A server that listens, on descriptors select() takes. *)
Definition in_order (env : fd_env) (s : tcp_server) : Prop :=
  ts_listening s = true /\ NoDup (fds env s) /\ Forall (fun fd => fd < 1024) (fds env s).
(** The process has a descriptor left that select() takes. *)
Definition has_room (env : fd_env) (t : fd_before) (s : tcp_server) : Prop :=
  zlen (ft_others t) + 1 + zlen (ts_conns s) < Z.min (fe_limit env) 1024.
(** Whenever a client knocks in the course of [l], there is room for it. *)
Definition room_for_all (env : fd_env) (l : list fd_before) (s : tcp_server) : Prop :=
  forall before t after s1 log1, l = before ++ t :: after -> fd_life env before s = Some (s1, log1) ->
  ft_knock t <> None -> has_room env t s1.

Lemma in_order_select env s : in_order env s -> select_raises env s = false.
Proof.
  intros (_ & _ & F). unfold select_raises. destruct (existsb _ (fds env s)) eqn:E; [|reflexivity]. exfalso.
  apply existsb_exists in E. destruct E as (x & X & Q). rewrite Forall_forall in F. apply F in X. unfold FD_SETSIZE in Q. lia.
Qed.
Lemma room_fd env t s : in_order env s -> has_room env t s ->
  let fd := lowest_free (ft_others t ++ fds env s) in fd < fe_limit env /\ fd < 1024 /\ ~ In fd (ft_others t ++ fds env s).
Proof.
  intros (L & _) R. cbv zeta. destruct (lowest_free_spec (ft_others t ++ fds env s)) as (N & B). unfold has_room, zlen in *.
  assert (Q : length (ft_others t ++ fds env s) = (length (ft_others t) + (1 + length (ts_conns s)))%nat).
  { unfold fds. rewrite L, !app_length, map_length. reflexivity. }
  rewrite Q in B. repeat split; auto; lia.
Qed.
(** Ids after a pass over the clients: none is added. *)
Lemma run_ids ready : (forall a, ~ In (ReadyListen a) ready) -> forall s s' log, NoDup (map fst (ts_conns s)) -> tcp_do_run no_tcp_hooks ready s = (s', log) ->
  ts_listening s' = ts_listening s /\ incl (map fst (ts_conns s')) (map fst (ts_conns s)) /\ NoDup (map fst (ts_conns s')).
Proof.
  induction ready as [|[a|j] t IH]; intros N s s' log ND H; cbn [tcp_do_run] in H.
  - injection H as <- _. repeat split; [apply incl_refl|exact ND].
  - exfalso. apply (N a). now left.
  - assert (N' : forall a, ~ In (ReadyListen a) t) by (intros a X; apply (N a); now right).
    destruct (assoc Z.eqb j (ts_conns s)) as [cj|] eqn:A; [|eauto]. destruct (serve_client _ _ _) as [|e|c' d' handled out].
    + injection H as <- _. cbn [ts_conns ts_listening]. split; [reflexivity|]. split; [intros x X; now apply assoc_del_incl in X|now apply assoc_del_nodup].
    + apply IH in H; [|exact N'|cbn [ts_conns]; now apply assoc_del_nodup]. destruct H as (L' & I & D). cbn [ts_conns ts_listening] in *. split; [exact L'|]. split; [|exact D].
      intros x X. apply I in X. now apply assoc_del_incl in X.
    + destruct (tcp_do_run no_tcp_hooks t _) as [s2 ev] eqn:R. injection H as <- _.
      pose proof (assoc_put_left j (ts_conns s) [] cj c' A) as [_ M].
      apply IH in R; [|exact N'|cbn [ts_conns]; rewrite M; exact ND]. cbn [ts_conns ts_listening] in R. rewrite M in R. exact R.
Qed.
Lemma NoDup_app_intro_end (l : list Z) x : NoDup l -> ~ In x l -> NoDup (l ++ map fst [(x, tt)]).
Proof.
  induction l as [|a t IH]; cbn; intros ND NI; [constructor; [easy|constructor]|]. inversion ND; subst. constructor; [|apply IH; tauto].
  intros X. apply in_app_or in X. cbn in X. intuition.
Qed.
Lemma turn_in_order env t s : in_order env s -> (ft_knock t <> None -> has_room env t s) ->
  exists s' log, fd_turn env t s = Some (s', log) /\ in_order env s'.
Proof.
  intros O R. unfold fd_turn. rewrite (in_order_select env s O).
  assert (NL : forall conns a, ~ In (ReadyListen a) (map (fun kc : Z * conn => ReadyClient (fst kc)) (filter (fun kc => readable (snd kc)) conns))).
  { intros conns a X. apply in_map_iff in X. destruct X as (y & X & _). discriminate X. }
  destruct (tcp_turn no_tcp_hooks _ s) as [s' log] eqn:T. exists s', log. split; [reflexivity|].
  unfold tcp_turn, selected in T. cbn [bt_arrivals bt_knock ts_listening ts_conns] in T.
  set (conns := arrive (ft_arrivals t) (ts_conns s)) in T.
  assert (C : map fst conns = map fst (ts_conns s)) by apply arrive_ids.
  pose proof O as (L & ND & F). rewrite L in T.
  unfold fds in ND, F. rewrite L in ND, F. cbn [app] in ND, F. inversion ND as [|? ? NI NDc]; subst.
  destruct (ft_knock t) as [c|] eqn:K; cbn [option_map] in T.
  - destruct (room_fd env t s O (R ltac:(discriminate))) as (Hl & Hs & Hn). unfold accept_fd in T.
    set (fd := lowest_free (ft_others t ++ fds env s)) in *. destruct (Z.ltb_spec fd (fe_limit env)); [|lia].
    cbn [app tcp_do_run ts_listening ts_conns ts_db] in T.
    apply run_ids in T; [|apply NL|].
    + cbn [ts_listening ts_conns] in T. destruct T as (L' & I & D). split; [congruence|].
      assert (G : forall x, In x (map fst (ts_conns s')) -> In x (map fst (ts_conns s)) \/ x = fd).
      { intros x X. apply I in X. rewrite map_app, C in X. apply in_app_or in X. cbn in X. intuition. }
      assert (Nf : ~ In fd (fe_listen env :: map fst (ts_conns s))).
      { intros X. apply Hn. apply in_or_app. right. unfold fds. rewrite L. exact X. }
      unfold fds. replace (ts_listening s') with true by congruence. cbn [app]. split.
      * constructor; [|exact D]. intros X. apply G in X. destruct X as [X|X]; [contradiction|]. apply Nf. left. congruence.
      * inversion F; subst. constructor; [assumption|]. apply Forall_forall. intros x X. apply G in X. destruct X as [X|X]; [|lia].
        match goal with H : Forall _ (map _ _) |- _ => rewrite Forall_forall in H; now apply H end.
    + cbn [ts_conns]. rewrite map_app, C. apply NoDup_app_intro_end; auto.
      intros X. apply Hn. apply in_or_app. right. unfold fds. rewrite L. right. exact X.
  - cbn [app] in T. apply run_ids in T; [|apply NL|cbn [ts_conns]; rewrite C; exact NDc].
    cbn [ts_listening ts_conns] in T. rewrite C in T. destruct T as (L' & I & D). split; [congruence|].
    unfold fds. replace (ts_listening s') with true by congruence. cbn [app]. inversion F; subst. split.
    + constructor; [|exact D]. intros X. apply NI. now apply I.
    + constructor; [assumption|]. apply Forall_forall. intros x X. apply I in X.
      match goal with H : Forall _ (map _ _) |- _ => rewrite Forall_forall in H; now apply H end.
Qed.

(** As long as the process has, whenever a client knocks, a descriptor below 1024 left, the server thread goes on and listens. *)
Theorem C115_capacity_partial : forall env l s, in_order env s -> room_for_all env l s ->
  exists s' log, fd_life env l s = Some (s', log) /\ in_order env s'.
Proof.
  intros env. induction l as [|t l IH]; intros s O R; cbn [fd_life]; [eauto|].
  destruct (turn_in_order env t s O) as (s1 & ev1 & T & O1); [intros K; apply (R [] t l s []); auto|]. rewrite T.
  destruct (IH s1 O1) as (s2 & ev2 & H & O2); [|rewrite H; eauto].
  intros before t' after s3 log3 E H K. apply (R (t :: before) t' after s3 (ev1 ++ log3)); auto; [cbn; now rewrite E|]. cbn [fd_life]. now rewrite T, H.
Qed.
(** ... and every client that knocks is accepted in that turn, on a descriptor of its own, behind the clients that were there. *)
Theorem C115_accepted : forall env t s c, in_order env s -> has_room env t s -> ft_knock t = Some c ->
  exists s' log fd earlier, fd_turn env t s = Some (s', log) /\ in_order env s' /\ ts_conns s' = earlier ++ [(fd, c)] /\
    (length earlier <= length (ts_conns s))%nat /\ ~ In fd (ft_others t) /\ ~ In fd (fds env s) /\ NoDup (map fst earlier) /\ ~ In fd (map fst earlier).
Proof.
  intros env t s c O R K. destruct (turn_in_order env t s O (fun _ => R)) as (s' & log & T & O'). exists s', log, (lowest_free (ft_others t ++ fds env s)).
  destruct (room_fd env t s O R) as (Hl & Hs & Hn). set (fd := lowest_free _) in *. pose proof T as T0. unfold fd_turn in T. rewrite (in_order_select env s O) in T. injection T as T.
  destruct O as (L & ND & F). unfold fds in ND. rewrite L in ND. cbn [app] in ND. inversion ND; subst.
  assert (Na : ~ In fd (ft_others t)) by (intros X; apply Hn, in_or_app; now left).
  assert (Nb : ~ In fd (fds env s)) by (intros X; apply Hn, in_or_app; now right).
  edestruct (fun b => C86_newcomer b s s' log fd c L) as (earlier & E & Le & N1 & N2); [..|exact T|].
  - cbn [bt_knock]. rewrite K. cbn [option_map]. unfold accept_fd. fold fd. destruct (Z.ltb_spec fd (fe_limit env)); [reflexivity|lia].
  - assumption.
  - intros X. apply Nb. unfold fds. rewrite L. now right.
  - exists earlier. auto 10.
Qed.

Lemma life_as_tcp env : forall l s s' log, fd_life env l s = Some (s', log) ->
  exists turns, length turns = length l /\ tcp_life no_tcp_hooks turns s = (s', log).
Proof.
  induction l as [|t l IH]; intros s s' log H; cbn [fd_life] in H; [injection H as <- <-; now exists []|].
  unfold fd_turn in H. destruct (select_raises env s); [discriminate H|]. destruct (tcp_turn _ _ s) as [s1 ev1] eqn:T.
  destruct (fd_life env l s1) as [[s2 ev2]|] eqn:R; [|discriminate H]. injection H as <- <-. destruct (IH _ _ _ R) as (turns & Ln & E).
  exists ({| bt_arrivals := ft_arrivals t; bt_knock := option_map (accept_fd env (ft_others t) s) (ft_knock t) |} :: turns).
  split; [cbn; now rewrite Ln|]. cbn [tcp_life]. now rewrite T, E.
Qed.
(** ... and served: after at most as many further turns as there were clients before it, plus one, its first request has been handled first. *)
Theorem C115_served : forall env t l s c frame rest, in_order env s -> room_for_all env (t :: l) s -> ft_knock t = Some c ->
  self_delimited frame -> 7 <= zlen frame -> stream c = frame ++ rest -> (length (ts_conns s) < length l)%nat ->
  exists s1 ev1 fd s' log more, fd_turn env t s = Some (s1, ev1) /\ In (fd, c) (ts_conns s1) /\ ~ In fd (fds env s) /\
    fd_life env l s1 = Some (s', log) /\ in_order env s' /\ of_client fd log = frame :: more.
Proof.
  intros env t l s c frame rest O R K D L7 St Ln. assert (H : has_room env t s) by (apply (R [] t l s []); auto; congruence).
  destruct (C115_accepted env t s c O H K) as (s1 & ev1 & fd & earlier & T & O1 & E & Le & _ & Nf & N1 & N2).
  destruct (C115_capacity_partial env l s1 O1) as (s' & log & F & O').
  { intros before t' after s3 log3 Q G K'. apply (R (t :: before) t' after s3 (ev1 ++ log3)); auto; [cbn; now rewrite Q|]. cbn [fd_life]. now rewrite T, G. }
  destruct (life_as_tcp env l s1 s' log F) as (turns & Lt & E').
  destruct (C86_served turns s1 s' log earlier fd c [] frame rest) as (more & M); auto; [lia|].
  exists s1, ev1, fd, s', log, more. split; [exact T|]. split; [rewrite E; apply in_or_app; right; now left|]. auto.
Qed.

(** *** What happens without room *)
(** A client that connects and sends nothing; the process uses the standard streams besides the server. *)
Definition silent : conn := {| c_segs := []; c_end := Stalled |}.
Definition visit : fd_before := {| ft_arrivals := []; ft_knock := Some silent; ft_others := [0; 1; 2] |}.
Definition limit_env (limit : Z) : fd_env := {| fe_limit := limit; fe_listen := 3 |}.
Definition crowd (d : databank) (n : nat) : tcp_server :=
  {| ts_listening := true; ts_conns := map (fun i => (Z.of_nat i, silent)) (seq 4 n); ts_db := d |}.

Lemma crowd_fds limit d n : fds (limit_env limit) (crowd d n) = map Z.of_nat (seq 3 (S n)).
Proof. unfold fds. cbn [crowd ts_listening ts_conns limit_env fe_listen app seq map]. now rewrite map_map. Qed.
Lemma crowd_free limit d n : lowest_free ([0; 1; 2] ++ fds (limit_env limit) (crowd d n)) = Z.of_nat (4 + n).
Proof. rewrite crowd_fds. change ([0; 1; 2] ++ map Z.of_nat (seq 3 (S n))) with (map Z.of_nat (seq 0 (4 + n))). apply lowest_free_seq. Qed.
Lemma crowd_raises limit d n : select_raises (limit_env limit) (crowd d n) = (1021 <=? Z.of_nat n).
Proof.
  unfold select_raises. rewrite crowd_fds. unfold FD_SETSIZE. destruct (Z.leb_spec 1021 (Z.of_nat n)) as [H|H].
  - apply existsb_exists. exists (Z.of_nat (3 + n)). split; [|lia]. apply in_map, in_seq. lia.
  - apply Bool.not_true_iff_false. intros X. apply existsb_exists in X. destruct X as (x & X & Q). apply in_map_iff in X. destruct X as (m & <- & M). apply in_seq in M. lia.
Qed.
Lemma crowd_quiet n : filter (fun kc : Z * conn => readable (snd kc)) (map (fun i => (Z.of_nat i, silent)) n) = [].
Proof. induction n as [|x t IH]; [reflexivity|]. cbn. exact IH. Qed.
Lemma crowd_turn limit d n : Z.of_nat n < 1021 -> Z.of_nat (4 + n) < limit -> fd_turn (limit_env limit) visit (crowd d n) = Some (crowd d (S n), []).
Proof.
  intros S L. unfold fd_turn. rewrite crowd_raises. destruct (Z.leb_spec 1021 (Z.of_nat n)); [lia|]. cbn [visit ft_arrivals ft_knock ft_others option_map]. unfold accept_fd.
  rewrite crowd_free. cbn [limit_env fe_limit]. destruct (Z.ltb_spec (Z.of_nat (4 + n)) limit); [|lia].
  unfold tcp_turn, selected. cbn [bt_arrivals bt_knock arrive fold_left crowd ts_listening ts_conns ts_db]. rewrite crowd_quiet. cbn [map app tcp_do_run ts_listening ts_conns ts_db].
  unfold crowd. do 3 f_equal. rewrite seq_S, map_app. reflexivity.
Qed.
Lemma crowd_life limit d n : forall k, Z.of_nat (k + n) <= 1021 -> Z.of_nat (4 + (k + n)) <= limit ->
  fd_life (limit_env limit) (repeat visit n) (crowd d k) = Some (crowd d (k + n), []).
Proof.
  induction n as [|n IH]; intros k S L; [now rewrite Nat.add_0_r|]. cbn [repeat fd_life]. rewrite crowd_turn by lia. rewrite IH by lia.
  now replace (Datatypes.S k + n)%nat with (k + Datatypes.S n)%nat by lia.
Qed.
Lemma life_app env l1 : forall l2 s, fd_life env (l1 ++ l2) s =
  match fd_life env l1 s with None => None | Some (s1, ev1) => match fd_life env l2 s1 with None => None | Some (s2, ev2) => Some (s2, ev1 ++ ev2) end end.
Proof.
  induction l1 as [|t l1 IH]; intros l2 s; cbn [app fd_life]; [destruct (fd_life env l2 s) as [[? ?]|]; reflexivity|].
  destruct (fd_turn env t s) as [[s1 ev1]|]; [|reflexivity]. rewrite IH. destruct (fd_life env l1 s1) as [[s2 ev2]|]; [|reflexivity].
  destruct (fd_life env l2 s2) as [[s3 ev3]|]; [|reflexivity]. now rewrite app_assoc.
Qed.
(** A deaf server that select() can take stays so. *)
Lemma deaf_on env l : forall s, ts_listening s = false -> Forall (fun fd => fd < 1024) (map fst (ts_conns s)) ->
  exists s' log, fd_life env l s = Some (s', log) /\ ts_listening s' = false /\ incl (map fst (ts_conns s')) (map fst (ts_conns s)).
Proof.
  induction l as [|t l IH]; intros s L F; cbn [fd_life]; [exists s, []; repeat split; [exact L|apply incl_refl]|].
  unfold fd_turn. replace (select_raises env s) with false.
  - destruct (tcp_turn _ _ s) as [s1 ev1] eqn:T. unfold tcp_turn in T. apply run_deaf in T; [|exact L]. destruct T as [L1 I1]. cbn [ts_conns] in I1. rewrite arrive_ids in I1.
    destruct (IH s1 L1) as (s' & log & H & L' & I'); [apply Forall_forall; intros x X; rewrite Forall_forall in F; auto|].
    rewrite H. eexists _, _. split; [reflexivity|]. split; [exact L'|]. intros x X. auto.
  - symmetry. unfold select_raises, fds. rewrite L. cbn [app]. apply Bool.not_true_iff_false. intros X. apply existsb_exists in X. destruct X as (x & X & Q).
    rewrite Forall_forall in F. apply F in X. unfold FD_SETSIZE in Q. lia.
Qed.
(** One client too many and the server listens no more, whatever happens afterwards: even when all clients have gone, nobody is accepted. *)
Theorem C115_deaf_refuted : forall limit d later, 4 <= limit <= 1024 ->
  exists s log, fd_life (limit_env limit) (repeat visit (Z.to_nat limit - 4) ++ visit :: later) (crowd d 0) = Some (s, log) /\
    ts_listening s = false /\ forall fd, In fd (map fst (ts_conns s)) -> 4 <= fd < limit.
Proof.
  intros limit d later L. rewrite life_app, crowd_life by lia. cbn [fd_life Nat.add]. set (n := (Z.to_nat limit - 4)%nat).
  unfold fd_turn. rewrite crowd_raises. destruct (Z.leb_spec 1021 (Z.of_nat n)); [lia|]. cbn [visit ft_arrivals ft_knock ft_others option_map]. unfold accept_fd.
  rewrite crowd_free. cbn [limit_env fe_limit]. destruct (Z.ltb_spec (Z.of_nat (4 + n)) limit); [lia|].
  unfold tcp_turn, selected. cbn [bt_arrivals bt_knock arrive fold_left crowd ts_listening ts_conns ts_db]. rewrite crowd_quiet. cbn [map app tcp_do_run ts_listening ts_conns ts_db].
  set (s1 := {| ts_listening := false |}).
  assert (F : forall fd, In fd (map fst (ts_conns s1)) -> 4 <= fd < limit).
  { intros fd X. cbn [s1 ts_conns] in X. rewrite map_map in X. apply in_map_iff in X. destruct X as (m & <- & M). apply in_seq in M. cbn [fst]. lia. }
  destruct (deaf_on (limit_env limit) later s1) as (s' & log & R & L' & I); [reflexivity|apply Forall_forall; intros x X; apply F in X; lia|].
  change {| fe_limit := limit; fe_listen := 3 |} with (limit_env limit). rewrite R. eexists _, _. split; [reflexivity|]. split; [exact L'|]. intros fd X. auto.
Qed.
(** Where the process may have more than 1024 descriptors, 1021 silent clients end the server thread. *)
Theorem C115_ends_refuted : forall limit d t later, 1024 < limit ->
  fd_life (limit_env limit) (repeat visit 1020) (crowd d 0) <> None /\
  fd_life (limit_env limit) (repeat visit 1021 ++ t :: later) (crowd d 0) = None.
Proof.
  intros limit d t later L. split; [rewrite crowd_life by lia; discriminate|]. rewrite life_app, crowd_life by lia. cbn [fd_life]. unfold fd_turn. now rewrite crowd_raises.
Qed.
(** The hypotheses can be met: 1020 clients are accepted where the process may have 1024 descriptors, and the server still listens. *)
Example C115_example d : in_order (limit_env 1024) (crowd d 0) /\ room_for_all (limit_env 1024) (repeat visit 1020) (crowd d 0).
Proof.
  assert (O : in_order (limit_env 1024) (crowd d 0)) by (split; [reflexivity|]; split; rewrite crowd_fds; cbn [seq map]; [constructor; [easy|constructor]|constructor; [lia|constructor]]).
  split; [exact O|]. intros before t after s1 log1 E H K.
  assert (B : before = repeat visit (length before) /\ t = visit).
  { assert (G : forall x, In x (repeat visit 1020) -> x = visit) by (intros x X; now apply repeat_spec in X).
    split; [|apply G; rewrite E; apply in_or_app; right; now left].
    clear - E G. assert (G' : forall x, In x before -> x = visit) by (intros x X; apply G; rewrite E; apply in_or_app; now left). clear - G'.
    induction before as [|a b IH]; [reflexivity|]. cbn. f_equal; [apply G'; now left|]. apply IH. intros x X. apply G'. now right. }
  destruct B as [B ->]. assert (Ln : (length before < 1020)%nat) by (apply (f_equal (@length fd_before)) in E; rewrite repeat_length, app_length in E; cbn in E; lia).
  rewrite B, crowd_life in H by (rewrite ?repeat_length; lia). injection H as <- _.
  unfold has_room, zlen, crowd. cbn [ts_conns visit ft_others length limit_env fe_limit]. rewrite map_length, seq_length. cbn [Nat.add]. lia.
Qed.

Print Assumptions C115_capacity_partial.
Print Assumptions C115_accepted.
Print Assumptions C115_served.
Print Assumptions C115_deaf_refuted.
Print Assumptions C115_ends_refuted.
