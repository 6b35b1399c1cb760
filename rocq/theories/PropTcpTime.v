(** C102: how long a call of a TCP master, and a turn of a TCP server, can take.
    Vocabulary: TcpTimeModel.v (sockets: bytes with the times at which they are there; lag; clock), TransportSpec.v (stream, self_delimited), PropRtuTime.v
    (steady, last_time, stamp) and the definitions below. *)
From Coq Require Import ZArith Lia.
From Verif Require Import Base BaseFacts Spec FrameSpec DbSpec SlaveModel DatabankModel QueryModel DatabankProofs TransportModel TransportSpec TransportProofs PropDatabank PropTransport PropRtuTime TcpTimeModel.

(** ** Spec *)
(** an untimed connection that brings exactly the bytes [b] and then ends with [e] *)
Definition brings (b : list (Z * Z)) (e : ending) (c : conn) : Prop := stream c = map snd b /\ c_end c = e.
(** [n] operations, each of which takes at most [t] (the timeout) and [delta] (the program) *)
Definition spent (t delta : Z) (n : nat) (k k' : clock) : Prop :=
  k_ops k' = (k_ops k + n)%nat /\ k_now k <= k_now k' <= k_now k + Z.of_nat n * (t + delta).
(** the first byte comes within [t] of [now], each other one within [t] of the one before *)
Definition on_time (t now : Z) (g : list (Z * Z)) : Prop := steady t g /\ match g with [] => True | x :: _ => fst x <= now + t end.
(** nothing, and no end of the connection, up to [until] *)
Definition nothing_before (until : Z) (s : tsock) : Prop := far until (s_line s) /\ match s_fin s with Some c => until < c | None => True end.
Definition line_of (l : list (Z * Z)) (s : tsock) : tsock := {| s_line := l; s_fin := s_fin s |}.
Definition clock_at (now : Z) : clock := {| k_now := now; k_ops := 0 |}.

(** the timed visit [r], of which [rest] is what remains on the socket, is the untimed one *)
Definition same_visit (u : served) (r : t_served) (rest : list (Z * Z)) : Prop :=
  match u, r with
  | Gone, TGone => True
  | Failed x, TFailed y => x = y
  | Stays _ d h o, TStays s' d' h' o' => d = d' /\ h = h' /\ o = o' /\ rest = s_line s'
  | _, _ => False
  end.

(** the requests handled in a turn, with what was sent for each *)
Fixpoint handled_in (l : list t_served) : list (list Z * option (list Z)) :=
  match l with TStays _ _ (Some request) out :: t => (request, out) :: handled_in t | _ :: t => handled_in t | [] => [] end.

Section Facts.
Variable lag : nat -> Z.
Variables t delta : Z.
Hypothesis LAG : forall n, 0 <= lag n <= delta.
Hypothesis T : 0 <= t.

Lemma spent_0 k : spent t delta 0 k k. Proof. split; [lia|lia]. Qed.
Lemma spent_trans n m a b c : spent t delta n a b -> spent t delta m b c -> spent t delta (n + m) a c.
Proof. intros [A1 A2] [B1 B2]. split; [lia|]. rewrite Nat2Z.inj_add, Z.mul_add_distr_r. lia. Qed.
Lemma spent_le n m a b : (n <= m)%nat -> spent t delta n a b -> k_now b <= k_now a + Z.of_nat m * (t + delta).
Proof. intros L [_ [_ H]]. pose proof (LAG 0). assert (Z.of_nat n * (t + delta) <= Z.of_nat m * (t + delta)) by (apply Z.mul_le_mono_nonneg_r; lia). lia. Qed.

(** ** one recv *)
Lemma recv_spec k s : exists k', spent t delta 1 k k' /\
  ((exists x l, s_line s = x :: l /\ trecv1 lag t k s = (k', line_of l s, Ok [snd x]) /\ fst x <= k_now k') \/
   (trecv1 lag t k s = (k', s, Ok []) /\ s_line s = []) \/
   (trecv1 lag t k s = (k', s, Err SocketTimeout) /\ k_now k + t <= k_now k')).
Proof.
  pose proof (LAG (k_ops k)) as L. unfold trecv1, line_of. destruct (s_line s) as [|[a b] l] eqn:E.
  - destruct (s_fin s) as [c|] eqn:F.
    + destruct (c <=? k_now k + lag (k_ops k) + t) eqn:Q.
      * eexists. split; [|right; left; split; reflexivity]. split; cbn [k_now k_ops]; [lia|]. apply Z.leb_le in Q. lia.
      * eexists. split; [|right; right; split; [reflexivity|cbn [k_now]; lia]]. split; cbn [k_now k_ops]; lia.
    + eexists. split; [|right; right; split; [reflexivity|cbn [k_now]; lia]]. split; cbn [k_now k_ops]; lia.
  - destruct (a <=? k_now k + lag (k_ops k) + t) eqn:Q.
    + eexists. split; [|left; exists (a, b), l; split; [reflexivity|]; split; [reflexivity|cbn [fst k_now]; lia]]. apply Z.leb_le in Q. split; cbn [k_now k_ops]; lia.
    + eexists. split; [|right; right; split; [reflexivity|cbn [k_now]; lia]]. split; cbn [k_now k_ops]; lia.
Qed.
Lemma view_cons b x e c : brings (x :: b) e c -> exists c1, recv 1 c = (c1, Ok [snd x]) /\ brings b e c1.
Proof. intros [S E]. destruct (recv1_cons c (snd x) (map snd b) S) as (c1 & R & S1 & E1). exists c1. split; [exact R|]. split; congruence. Qed.

(** ** the master's loop: it ends, is the untimed loop on the bytes it took, and takes at most 65541 operations *)
Lemma tcp_general : forall fuel k s r len, bytes (map snd (s_line s)) -> bytes r -> (6 <= zlen r \/ len = 255) -> len <= 65541 -> zlen r <= 65541 -> 65541 < zlen r + Z.of_nat fuel ->
  exists k' s' o b e n, t_tcp_recv lag fuel t k s r len = Some (k', s', o) /\ s_line s = b ++ s_line s' /\ s_fin s' = s_fin s /\ spent t delta n k k' /\ zlen r + Z.of_nat n <= 65541 /\
    (n <= S (length b))%nat /\ Forall (fun x => fst x <= k_now k') b /\ match o with Ok resp => resp = r ++ map snd b | Err x => x = SocketTimeout end /\
    (forall c, brings b e c -> exists c', tcp_recv_loop fuel c r len = Some (c', o)).
Proof using LAG T.
  induction fuel as [|fuel IH]; intros k s r len B Br A L Lr F; [lia|]. cbn [t_tcp_recv tcp_recv_loop].
  destruct (zlen r <? len) eqn:Q.
  2: { exists k, s, (Ok r), [], Stalled, 0%nat. repeat split; try reflexivity; try lia; [constructor|now rewrite app_nil_r|]. intros c _. eauto. }
  destruct (recv_spec k s) as (k1 & SP & [(x & l & E & R & LE)|[[R E]|[R LE]]]).
  - rewrite R. cbn [app]. rewrite E in B. inversion_clear B as [|? ? Bx Bt].
    assert (Br' : bytes (r ++ [snd x])) by (apply Forall_app; split; [exact Br|constructor; [exact Bx|constructor]]).
    assert (R6 : zlen (r ++ [snd x]) = zlen r + 1) by (now rewrite zlen_app).
    assert (G : forall len', (6 <= zlen (r ++ [snd x]) \/ len' = 255) -> len' <= 65541 -> exists k' s' o b e n, t_tcp_recv lag fuel t k1 (line_of l s) (r ++ [snd x]) len' = Some (k', s', o) /\ s_line s = b ++ s_line s' /\ s_fin s' = s_fin s /\ spent t delta n k k' /\ zlen r + Z.of_nat n <= 65541 /\
      (n <= S (length b))%nat /\ Forall (fun x => fst x <= k_now k') b /\ match o with Ok resp => resp = r ++ map snd b | Err x => x = SocketTimeout end /\
      (forall c, brings b e c -> exists c1 c', recv 1 c = (c1, Ok [snd x]) /\ tcp_recv_loop fuel c1 (r ++ [snd x]) len' = Some (c', o))).
    { intros len' A' L'. destruct (IH k1 (line_of l s) (r ++ [snd x]) len' Bt Br' A' L' ltac:(lia) ltac:(lia)) as (k' & s' & o & b & e & n & I1 & I2 & I3 & I4 & I5 & I6 & I7 & I8 & I9).
      exists k', s', o, (x :: b), e, (1 + n)%nat. split; [exact I1|]. cbn [line_of s_line s_fin] in I2, I3. split; [cbn [app]; congruence|]. split; [exact I3|]. split; [now apply spent_trans with k1|]. split; [lia|].
      split; [cbn [length]; lia|]. split; [constructor; [destruct I4 as [_ [I4 _]]; lia|exact I7]|]. split.
      - destruct o; [|exact I8]. rewrite I8, <- app_assoc. reflexivity.
      - intros c C. apply view_cons in C as (c1 & R1 & C1). destruct (I9 c1 C1) as (c' & C'). exists c1, c'. auto. }
    rewrite R6. destruct (zlen r + 1 =? 6) eqn:Q6.
    + assert (W : exists m, third_word (r ++ [snd x]) = Ok m /\ m <= 65535).
      { clear - Q6 R6 Br'. remember (r ++ [snd x]) as r'. assert (L6 : length r' = 6%nat) by (unfold zlen in R6; unfold zlen in Q6; lia).
        destruct r' as [|y1 [|y2 [|y3 [|y4 [|y5 [|y6 [|y7 r']]]]]]]; try discriminate. rewrite third_word_six. eexists. split; [reflexivity|].
        repeat match goal with H : bytes (_ :: _) |- _ => inversion_clear H end. repeat match goal with H : Forall is_byte (_ :: _) |- _ => inversion_clear H end. unfold is_byte in *. lia. }
      destruct W as (m & W & M). rewrite W. destruct (G (m + 6)) as (k' & s' & o & b & e & n & I1 & I2 & I3 & I4 & I5 & I6 & I7 & I8 & I9); [left; lia|lia|].
      exists k', s', o, b, e, n. do 8 (split; [assumption|]). intros c C. destruct (I9 c C) as (c1 & c' & R1 & C'). rewrite R1. cbn [app]. rewrite R6, Q6, W. eauto.
    + destruct (G len) as (k' & s' & o & b & e & n & I1 & I2 & I3 & I4 & I5 & I6 & I7 & I8 & I9); [destruct A; [left; lia|now right]|exact L|].
      exists k', s', o, b, e, n. do 8 (split; [assumption|]). intros c C. destruct (I9 c C) as (c1 & c' & R1 & C'). rewrite R1. cbn [app]. rewrite R6, Q6. eauto.
  - rewrite R. exists k1, s, (Ok r), [], Closed, 1%nat. split; [reflexivity|]. split; [reflexivity|]. split; [reflexivity|]. split; [exact SP|]. split; [lia|]. split; [cbn; lia|]. split; [constructor|]. split; [now rewrite app_nil_r|].
    intros c [C1 C2]. rewrite recv_nil by exact C1. rewrite C2. eauto.
  - rewrite R. exists k1, s, (Err SocketTimeout), [], Stalled, 1%nat. split; [reflexivity|]. split; [reflexivity|]. split; [reflexivity|]. split; [exact SP|]. split; [lia|]. split; [cbn; lia|]. split; [constructor|]. split; [reflexivity|].
    intros c [C1 C2]. rewrite recv_nil by exact C1. rewrite C2. eauto.
Qed.

(** ** the server's loops *)
Lemma more_general : forall n k s r, exists k' s' o b e m, t_read_more lag n t k s r = (k', s', o) /\ s_line s = b ++ s_line s' /\ s_fin s' = s_fin s /\ spent t delta m k k' /\ (m <= n)%nat /\ (length b <= m <= S (length b))%nat /\
  Forall (fun x => fst x <= k_now k') b /\ match o with Ok (resp, ok) => resp = r ++ map snd b /\ (ok = true -> length b = n) /\ (ok = false -> s_line s' = [] /\ e = Closed) | Err x => x = SocketTimeout /\ e = Stalled end /\
  (forall c, stream c = map snd b -> (o = Ok (r ++ map snd b, true) \/ c_end c = e) -> exists c', read_more n c r = (c', o) /\ stream c' = [] /\ c_end c' = c_end c) /\
  (forall c rest, o = Ok (r ++ map snd b, true) -> stream c = map snd b ++ rest -> exists c', read_more n c r = (c', o) /\ stream c' = rest /\ c_end c' = c_end c).
Proof using LAG T.
  induction n as [|n IH]; intros k s r; cbn [t_read_more read_more].
  - exists k, s, (Ok (r, true)), [], Stalled, 0%nat. split; [reflexivity|]. split; [reflexivity|]. split; [reflexivity|]. split; [exact (spent_0 k)|]. split; [lia|]. split; [cbn; lia|]. split; [constructor|]. split; [split; [now rewrite app_nil_r|split; [reflexivity|discriminate]]|].
    split; [intros c C _; exists c; auto|intros c rest _ C; exists c; auto].
  - destruct (recv_spec k s) as (k1 & SP & [(x & l & E & R & LE)|[[R E]|[R LE]]]); rewrite R.
    + destruct (IH k1 (line_of l s) (r ++ [snd x])) as (k' & s' & o & b & e & m & I1 & I2 & I3 & I4 & I5 & I6 & I7 & I8 & I9 & I10). cbn [line_of s_line s_fin] in I2, I3.
      exists k', s', o, (x :: b), e, (1 + m)%nat. split; [exact I1|]. split; [cbn [app]; congruence|]. split; [exact I3|]. split; [now apply spent_trans with k1|]. split; [lia|]. split; [cbn [length]; lia|].
      split; [constructor; [destruct I4 as [_ [I4 _]]; lia|exact I7]|]. rewrite <- app_assoc in I8, I9, I10. cbn [app] in I8, I9, I10. split.
      { destruct o as [[resp ok]|]; [|exact I8]. destruct I8 as (-> & J1 & J2). split; [reflexivity|]. split; [intros J; cbn [length]; now rewrite (J1 J)|exact J2]. }
      split.
      * intros c C D. destruct (recv1_cons c (snd x) (map snd b) C) as (c1 & R1 & S1 & E1). rewrite R1. destruct (I9 c1 S1) as (c' & C1 & C2 & C3); [destruct D; [now left|right; congruence]|]. exists c'. rewrite C1. repeat split; congruence.
      * intros c rest D C. destruct (recv1_cons c (snd x) (map snd b ++ rest) C) as (c1 & R1 & S1 & E1). rewrite R1. destruct (I10 c1 rest D S1) as (c' & C1 & C2 & C3). exists c'. rewrite C1. repeat split; congruence.
    + exists k1, s, (Ok (r, false)), [], Closed, 1%nat. split; [reflexivity|]. split; [reflexivity|]. split; [reflexivity|]. split; [exact SP|]. split; [lia|]. split; [cbn; lia|]. split; [constructor|]. split; [split; [now rewrite app_nil_r|split; [discriminate|intros _; split; [exact E|reflexivity]]]|].
      split; [|intros c rest D; exfalso; discriminate]. intros c C [D|D]; [discriminate|]. rewrite recv_nil by exact C. rewrite D. exists c. auto.
    + exists k1, s, (Err SocketTimeout), [], Stalled, 1%nat. split; [reflexivity|]. split; [reflexivity|]. split; [reflexivity|]. split; [exact SP|]. split; [lia|]. split; [cbn; lia|]. split; [constructor|]. split; [split; reflexivity|].
      split; [|intros c rest D; exfalso; discriminate]. intros c C [D|D]; [discriminate|]. rewrite recv_nil by exact C. rewrite D. exists c. auto.
Qed.

Lemma length_seven r : length r = 7%nat -> bytes r -> exists n, get_request_length r = Ok n /\ 0 <= n <= 65535.
Proof.
  intros L B. destruct r as [|a [|b [|x [|e [|n1 [|n2 [|u [|v r]]]]]]]]; try discriminate. unfold get_request_length. change (zlen [a; b; x; e; n1; n2; u] <? 6) with false. cbn iota.
  change (py_slice [a; b; x; e; n1; n2; u] 0 6) with [a; b; x; e; n1; n2]. rewrite third_word_six. eexists. split; [reflexivity|].
  repeat match goal with H : bytes (_ :: _) |- _ => inversion_clear H end. repeat match goal with H : Forall is_byte (_ :: _) |- _ => inversion_clear H end. unfold is_byte in *. lia.
Qed.
Lemma op_spent k : spent t delta 1 k {| k_now := k_now k + lag (k_ops k); k_ops := S (k_ops k) |}.
Proof. pose proof (LAG (k_ops k)). split; cbn [k_now k_ops]; lia. Qed.
Lemma visit_general d k s : bytes (map snd (s_line s)) ->
  exists k' r b e rest n, t_visit lag t d k s = (k', r) /\ spent t delta n k k' /\ (n <= Z.to_nat 65543)%nat /\ (n <= length b + 3)%nat /\ s_line s = b ++ rest /\ Forall (fun x => fst x <= k_now k') b /\
    (forall c, brings b e c -> same_visit (serve_client no_tcp_hooks d c) r rest) /\ match r with TStays s' _ _ _ => s_fin s' = s_fin s | TFailed x => x = SocketTimeout | TGone => s_line s = [] end.
Proof using LAG T.
  intros B. unfold t_visit, serve_client. rewrite missing_nil. destruct (recv_spec k s) as (k0 & SP & [(x & l & E & R & LE)|[[R E]|[R LE]]]); rewrite R.
  2: { exists k0, TGone, [], Closed, [], 1%nat. split; [reflexivity|]. split; [exact SP|]. split; [lia|]. split; [cbn; lia|]. split; [exact E|]. split; [constructor|]. split; [|exact E]. intros c [C1 C2]. rewrite recv_nil by exact C1. rewrite C2. exact I. }
  2: { exists k0, (TFailed SocketTimeout), [], Stalled, (s_line s), 1%nat. split; [reflexivity|]. split; [exact SP|]. split; [lia|]. split; [cbn; lia|]. split; [reflexivity|]. split; [constructor|]. split; [|reflexivity]. intros c [C1 C2]. rewrite recv_nil by exact C1. rewrite C2. reflexivity. }
  destruct (more_general 7 k0 s []) as (k1 & s1 & o & b & e & m & I1 & I2 & I3 & I4 & I5 & I6 & I7 & I8 & I9 & I10). rewrite I1. cbn [app] in I8, I9, I10.
  assert (PK : forall c more, stream c = map snd b ++ more -> (e = Stalled -> b <> [] \/ o = Err SocketTimeout) -> b <> [] -> exists z w, snd (recv 1 c) = Ok (z :: w)).
  { intros c more C _ NE. destruct b as [|y b]; [congruence|]. cbn [map app] in C. destruct (recv1_cons c _ _ C) as (c0 & R0 & _). rewrite R0. cbn [snd]. eauto. }
  destruct b as [|y b].
  { (* the byte that was seen is still there *) exfalso. clear PK. cbn [app] in I2. unfold t_read_more in I1. unfold trecv1 in I1, R. rewrite E in I1, R. destruct x as [a v]. cbn [fst] in LE.
    replace (a <=? k_now k0 + lag (k_ops k0) + t) with true in I1 by (symmetry; apply Z.leb_le; pose proof (LAG (k_ops k0)); lia).
    fold (t_read_more lag 6 t) in I1. set (kk := {| k_now := _; k_ops := _ |}) in I1. destruct (more_general 6 kk (line_of l s) [v]) as (k2 & s2 & o2 & b2 & e2 & m2 & J1 & J2 & _). unfold line_of in J1, J2. cbn [s_line] in J2.
    assert (s2 = s1) by (cbn [app] in I1; change (t_read_more lag 6 t kk {| s_line := l; s_fin := s_fin s |} [v] = (k1, s1, o)) in I1; congruence). subst s2. rewrite E in I2. rewrite J2 in I2. apply (f_equal (@length _)) in I2. cbn [length] in I2. rewrite app_length in I2. lia. }
  assert (NE : y :: b <> []) by discriminate. assert (PK' : forall c more, stream c = map snd (y :: b) ++ more -> exists z w, snd (recv 1 c) = Ok (z :: w)).
  { intros c more C. apply (PK c more C); [|exact NE]. now left. } clear PK.
  assert (SP1 : spent t delta (1 + m) k k1) by (now apply spent_trans with k0).
  destruct o as [[rq ok]|x0].
  2: { destruct I8 as [-> ->]. exists k1, (TFailed SocketTimeout), (y :: b), Stalled, (s_line s1), (1 + m)%nat. split; [reflexivity|]. split; [exact SP1|]. split; [lia|]. split; [lia|]. split; [exact I2|]. split; [exact I7|]. split; [|reflexivity].
       intros c [C1 C2]. destruct (PK' c []) as (z & w & Z0); [now rewrite app_nil_r|]. rewrite Z0. destruct (I9 c C1 (or_intror C2)) as (c' & D1 & _). rewrite D1. reflexivity. }
  destruct I8 as (I8 & J1 & J2). destruct ok.
  2: { destruct (J2 eq_refl) as [J3 J4]. subst e. exists k1, (TStays s1 d None None), (y :: b), Closed, (s_line s1), (1 + m)%nat. split; [reflexivity|]. split; [exact SP1|]. split; [lia|]. split; [lia|]. split; [exact I2|]. split; [exact I7|]. split; [|exact I3].
       intros c [C1 C2]. destruct (PK' c []) as (z & w & Z0); [now rewrite app_nil_r|]. rewrite Z0. destruct (I9 c C1 (or_intror C2)) as (c' & D1 & _). rewrite D1. repeat split. }
  specialize (J1 eq_refl). rewrite I8 in *. clear J2 I8 rq. set (b1 := y :: b) in *. clearbody b1. clear y b.
  assert (Bb : bytes (map snd b1)) by (rewrite I2, map_app in B; now apply bytes_app_inv in B).
  destruct (length_seven (map snd b1)) as (n & G & N); [now rewrite map_length|exact Bb|]. rewrite G.
  destruct (more_general (missing (n + 6) (map snd b1)) k1 s1 (map snd b1)) as (k2 & s2 & o2 & b2 & e2 & m2 & K1 & K2 & K3 & K4 & K5 & K6 & K7 & K8 & K9 & K10). rewrite K1.
  assert (SP2 : spent t delta (1 + m + m2) k k2) by (now apply spent_trans with k1).
  assert (LL : s_line s = (b1 ++ b2) ++ s_line s2) by (now rewrite <- app_assoc, <- K2).
  assert (FF : forall kk, k_now k2 <= k_now kk -> Forall (fun x => fst x <= k_now kk) (b1 ++ b2)).
  { intros kk KK. destruct K4 as [_ [K4 _]]. apply Forall_app. split; (eapply Forall_impl; [|eassumption]); cbn; intros; lia. }
  assert (MM : (1 + m + m2 <= Z.to_nat 65542)%nat) by (unfold missing in K5; replace (zlen (map snd b1)) with 7 in K5 by (unfold zlen; rewrite map_length; lia); lia).
  assert (HE : forall c, brings (b1 ++ b2) e2 c -> exists z w c1, snd (recv 1 c) = Ok (z :: w) /\ read_more 7 c [] = (c1, Ok (map snd b1, true)) /\ brings b2 e2 c1).
  { intros c [C1 C2]. rewrite map_app in C1. destruct (PK' c _ C1) as (z & w & Z0). destruct (I10 c (map snd b2) eq_refl C1) as (c1 & D1 & D2 & D3). exists z, w, c1. split; [exact Z0|]. split; [exact D1|]. split; congruence. }
  destruct o2 as [[rq2 ok2]|x2].
  2: { destruct K8 as [-> ->]. exists k2, (TFailed SocketTimeout), (b1 ++ b2), Stalled, (s_line s2), (1 + m + m2)%nat. split; [reflexivity|]. split; [exact SP2|]. split; [lia|]. split; [rewrite app_length; lia|]. split; [exact LL|]. split; [apply FF; lia|]. split; [|reflexivity].
       intros c C. destruct (HE c C) as (z & w & c1 & H1 & H2 & H3 & H4). rewrite H1, H2. change (replaced (th_after_recv no_tcp_hooks) (map snd b1)) with (map snd b1). rewrite G. destruct (K9 c1 H3 (or_intror H4)) as (c' & D1 & _). rewrite D1. reflexivity. }
  destruct K8 as (K8 & L1 & L2). destruct ok2.
  2: { destruct (L2 eq_refl) as [_ ->]. exists k2, (TStays s2 d None None), (b1 ++ b2), Closed, (s_line s2), (1 + m + m2)%nat. split; [reflexivity|]. split; [exact SP2|]. split; [lia|]. split; [rewrite app_length; lia|]. split; [exact LL|]. split; [apply FF; lia|]. split; [|congruence].
       intros c C. destruct (HE c C) as (z & w & c1 & H1 & H2 & H3 & H4). rewrite H1, H2. change (replaced (th_after_recv no_tcp_hooks) (map snd b1)) with (map snd b1). rewrite G. destruct (K9 c1 H3 (or_intror H4)) as (c' & D1 & _). rewrite D1. repeat split. }
  specialize (L1 eq_refl). destruct (db_handle_request d TCP rq2) as [d' r'] eqn:DB. pose proof (op_spent k2) as SP3. set (kk := {| k_now := _; k_ops := _ |}) in *.
  exists kk, (TStays s2 d' (Some rq2) match r' with Ok resp => sent resp | Err _ => None end), (b1 ++ b2), e2, (s_line s2), (1 + m + m2 + 1)%nat.
  split; [reflexivity|]. split; [now apply spent_trans with k2|]. split; [lia|].
  assert (EX : m = 7%nat /\ m2 = length b2).
  { split; [lia|]. destruct K6. assert (m2 <= length b2)%nat by lia. lia. }
  split; [rewrite app_length; lia|]. split; [exact LL|]. split; [apply FF; destruct SP3; lia|]. split; [|congruence].
  intros c C. destruct (HE c C) as (z & w & c1 & H1 & H2 & H3 & H4). rewrite H1, H2. change (replaced (th_after_recv no_tcp_hooks) (map snd b1)) with (map snd b1). rewrite G.
  destruct (K9 c1 H3) as (c' & D1 & _); [left; now rewrite K8|]. rewrite D1. cbn [no_tcp_hooks th_server th_before_send]. rewrite server_handle_plain, DB. cbn [same_visit]. split; [reflexivity|]. split; [reflexivity|]. split; [|reflexivity].
  destruct r' as [v|]; [|reflexivity]. now destruct (sent v).
Qed.

(** ** a turn *)
Lemma turn_general : forall ready d k, Forall (fun s => bytes (map snd (s_line s))) ready ->
  exists k' d' l n, t_turn lag t d k ready = (k', d', l) /\ spent t delta n k k' /\ (n <= length ready * Z.to_nat 65543)%nat /\ replay TCP d (handled_in l) d'.
Proof using LAG T.
  induction ready as [|s ready IH]; intros d k B; cbn [t_turn].
  - exists k, d, [], 0%nat. split; [reflexivity|]. split; [exact (spent_0 k)|]. split; [cbn; lia|reflexivity].
  - inversion_clear B as [|? ? B1 B2]. destruct (visit_general d k s B1) as (k1 & r & b & e & rest & n & V1 & V2 & V3 & _ & V4 & V5 & V6 & _). rewrite V1. cbn [length]. rewrite Nat.mul_succ_l.
    specialize (V6 {| c_segs := [map snd b]; c_end := e |}). destruct r as [|x|s' d1 h o].
    + exists k1, d, [TGone], n. split; [reflexivity|]. split; [exact V2|]. split; [lia|reflexivity].
    + destruct (IH d k1 B2) as (k' & d' & l & m & W1 & W2 & W3 & W4). rewrite W1. exists k', d', (TFailed x :: l), (n + m)%nat. split; [reflexivity|]. split; [now apply spent_trans with k1|]. split; [lia|exact W4].
    + destruct (IH d1 k1 B2) as (k' & d' & l & m & W1 & W2 & W3 & W4). rewrite W1. exists k', d', (TStays s' d1 h o :: l), (n + m)%nat. split; [reflexivity|]. split; [now apply spent_trans with k1|]. split; [lia|].
      destruct (serve_client no_tcp_hooks d _) as [|u|c' d2 h' o'] eqn:S; (destruct V6 as (-> & -> & -> & _) || (exfalso; apply V6; split; cbn; now rewrite ?app_nil_r)); [split; cbn; now rewrite ?app_nil_r|].
      apply serve_plain in S. destruct h as [rq|]; cbn [handled_in]; [|now subst]. cbn [replay]. rewrite S. cbn [fst snd]. split; [reflexivity|exact W4].
Qed.

(** ** what comes on time is received *)
Lemma recv_on_time k s x l : s_line s = x :: l -> fst x <= k_now k + t ->
  exists k', trecv1 lag t k s = (k', line_of l s, Ok [snd x]) /\ k_ops k' = S (k_ops k) /\ k_now k <= k_now k' /\ fst x <= k_now k' <= Z.max (k_now k) (fst x) + delta.
Proof using LAG T.
  intros E L. pose proof (LAG (k_ops k)). unfold trecv1. rewrite E. destruct x as [a v]. cbn [fst snd] in *. replace (a <=? k_now k + lag (k_ops k) + t) with true by (symmetry; apply Z.leb_le; lia).
  eexists. split; [reflexivity|]. cbn [k_ops k_now]. lia.
Qed.
Lemma on_time_tail x l k now : on_time t k (x :: l) -> fst x <= now -> on_time t now l.
Proof using T. intros [S H] L. destruct l as [|y l]; [split; exact I|]. destruct S as [S1 S2]. split; [exact S2|]. lia. Qed.
(** [delta] per operation *)
Definition quick (n : nat) (upto : Z) (k k' : clock) : Prop := k_ops k' = (k_ops k + n)%nat /\ k_now k <= k_now k' <= Z.max (k_now k) upto + Z.of_nat n * delta.
Lemma quick_trans n m u v a b c : quick n u a b -> quick m v b c -> u <= v -> quick (n + m) v a c.
Proof using LAG. intros [A1 A2] [B1 B2] L. pose proof (LAG 0). split; [lia|]. rewrite Nat2Z.inj_add, Z.mul_add_distr_r. assert (0 <= Z.of_nat n * delta) by (apply Z.mul_nonneg_nonneg; lia). lia. Qed.
Lemma more_on_time U : forall l k s r rest, s_line s = l ++ rest -> on_time t (k_now k) l -> Forall (fun x => fst x <= U) l ->
  exists k', t_read_more lag (length l) t k s r = (k', line_of rest s, Ok (r ++ map snd l, true)) /\ quick (length l) U k k' /\ Forall (fun x => fst x <= k_now k') l.
Proof using LAG T.
  induction l as [|x l IH]; intros k s r rest E O FU; cbn [length t_read_more].
  - exists k. split; [rewrite app_nil_r; destruct s; cbn in *; now subst|]. split; [split; lia|constructor].
  - inversion_clear FU as [|? ? U1 U2]. destruct (recv_on_time k s x (l ++ rest) E (proj2 O)) as (k1 & R1 & R2 & R3 & R4). rewrite R1. cbn [map].
    destruct (IH k1 (line_of (l ++ rest) s) (r ++ [snd x]) rest eq_refl (on_time_tail _ _ _ _ O (proj1 R4)) U2) as (k' & I1 & I2 & I3). cbn [app]. rewrite I1. exists k'. split; [now rewrite <- app_assoc|]. split.
    + change (S (length l)) with (1 + length l)%nat. apply quick_trans with U k1; [split; [lia|]; lia|exact I2|lia].
    + constructor; [destruct I2; lia|exact I3].
Qed.
(** the master's loop on a line that brings [g] on time: as the untimed loop that has all of it *)
Lemma loop_on_time U rest : forall fuel k s g r len c c' resp, s_line s = g ++ rest -> on_time t (k_now k) g -> Forall (fun x => fst x <= U) g -> brings g Stalled c -> tcp_recv_loop fuel c r len = Some (c', Ok resp) ->
  exists k' b g', t_tcp_recv lag fuel t k s r len = Some (k', line_of (g' ++ rest) s, Ok resp) /\ g = b ++ g' /\ brings g' Stalled c' /\ quick (length b) U k k' /\ Forall (fun x => fst x <= k_now k') b.
Proof using LAG T.
  induction fuel as [|fuel IH]; intros k s g r len c c' resp E O FU BR; cbn [t_tcp_recv tcp_recv_loop]; [discriminate|].
  destruct (zlen r <? len) eqn:Q.
  2: { intros [= <- <-]. exists k, [], g. split; [f_equal; f_equal; f_equal; destruct s; cbn in *; now subst|]. split; [reflexivity|]. split; [exact BR|]. split; [split; cbn; lia|constructor]. }
  destruct g as [|x g].
  { destruct BR as [B1 B2]. rewrite recv_nil by exact B1. rewrite B2. discriminate. }
  inversion_clear FU as [|? ? U1 U2]. destruct (recv_on_time k s x (g ++ rest) E (proj2 O)) as (k1 & R1 & R2 & R3 & R4). rewrite R1. apply view_cons in BR as (c1 & C1 & BR1). rewrite C1. cbn [app].
  assert (G : forall len', tcp_recv_loop fuel c1 (r ++ [snd x]) len' = Some (c', Ok resp) -> exists k' b g', t_tcp_recv lag fuel t k1 (line_of (g ++ rest) s) (r ++ [snd x]) len' = Some (k', line_of (g' ++ rest) s, Ok resp) /\ x :: g = b ++ g' /\ brings g' Stalled c' /\ quick (length b) U k k' /\ Forall (fun x => fst x <= k_now k') b).
  { intros len' H. destruct (IH k1 (line_of (g ++ rest) s) g (r ++ [snd x]) len' c1 c' resp eq_refl (on_time_tail _ _ _ _ O (proj1 R4)) U2 BR1 H) as (k' & b & g' & I1 & I2 & I3 & I4 & I5).
    exists k', (x :: b), g'. split; [exact I1|]. split; [cbn [app]; congruence|]. split; [exact I3|]. split; [|constructor; [destruct I4; lia|exact I5]].
    change (length (x :: b)) with (1 + length b)%nat. apply quick_trans with U k1; [split; lia|exact I4|lia]. }
  destruct (zlen (r ++ [snd x]) =? 6); [destruct (third_word (r ++ [snd x])); [|discriminate]|]; apply G.
Qed.
Lemma recv_late k s : nothing_before (k_now k + t + delta) s -> exists k', trecv1 lag t k s = (k', s, Err SocketTimeout) /\ k_ops k' = S (k_ops k) /\ k_now k + t <= k_now k' <= k_now k + t + delta.
Proof using LAG T.
  intros [F1 F2]. pose proof (LAG (k_ops k)). unfold trecv1. destruct (s_line s) as [|[a v] l]; cbn [far fst] in F1.
  - destruct (s_fin s) as [c|].
    + replace (c <=? k_now k + lag (k_ops k) + t) with false by (symmetry; apply Z.leb_gt; lia). eexists. split; [reflexivity|]. cbn [k_ops k_now]. lia.
    + eexists. split; [reflexivity|]. cbn [k_ops k_now]. lia.
  - replace (a <=? k_now k + lag (k_ops k) + t) with false by (symmetry; apply Z.leb_gt; lia). eexists. split; [reflexivity|]. cbn [k_ops k_now]. lia.
Qed.
Lemma nothing_less a b s : b <= a -> nothing_before a s -> nothing_before b s.
Proof. intros L [H1 H2]. split; [exact (far_less _ _ _ L H1)|]. destruct (s_fin s); [lia|exact I]. Qed.
(** and when the line falls silent before the end *)
Lemma loop_stalled rest : forall fuel k s g r len c c', s_line s = g ++ rest -> on_time t (k_now k) g -> nothing_before (Z.max (k_now k) (last_time g) + t + (zlen g + 1) * delta) (line_of rest s) -> g <> [] ->
  brings g Stalled c -> tcp_recv_loop fuel c r len = Some (c', Err SocketTimeout) ->
  exists k', t_tcp_recv lag fuel t k s r len = Some (k', line_of rest s, Err SocketTimeout) /\ k_ops k' = (k_ops k + S (length g))%nat /\ last_time g + t <= k_now k' <= Z.max (k_now k) (last_time g) + t + (zlen g + 1) * delta.
Proof using LAG T.
  induction fuel as [|fuel IH]; intros k s g r len c c' E O NB NE BR; [discriminate|]. cbn [t_tcp_recv tcp_recv_loop].
  destruct (zlen r <? len) eqn:Q; [|discriminate]. destruct g as [|x g]; [congruence|]. pose proof (LAG 0) as D0.
  destruct (recv_on_time k s x (g ++ rest) E (proj2 O)) as (k1 & R1 & R2 & R3 & R4). rewrite R1. apply view_cons in BR as (c1 & C1 & BR1). rewrite C1. cbn [app].
  assert (G : forall len', tcp_recv_loop fuel c1 (r ++ [snd x]) len' = Some (c', Err SocketTimeout) -> exists k', t_tcp_recv lag fuel t k1 (line_of (g ++ rest) s) (r ++ [snd x]) len' = Some (k', line_of rest s, Err SocketTimeout) /\
     k_ops k' = (k_ops k + S (length (x :: g)))%nat /\ last_time (x :: g) + t <= k_now k' <= Z.max (k_now k) (last_time (x :: g)) + t + (zlen (x :: g) + 1) * delta).
  { intros len' H. rewrite zlen_cons in *. destruct g as [|y g].
    - change (last_time [x]) with (fst x) in *. change (zlen (@nil (Z * Z))) with 0 in *. cbn [app] in *. destruct fuel as [|fuel]; [discriminate|]. cbn [t_tcp_recv tcp_recv_loop] in H |- *.
      destruct (zlen (r ++ [snd x]) <? len'); [|discriminate]. destruct (recv_late k1 (line_of rest s)) as (k2 & L1 & L2 & L3).
      { eapply nothing_less; [|exact NB]. lia. }
      rewrite L1. exists k2. split; [reflexivity|]. split; [cbn [length]; lia|]. lia.
    - assert (LT : last_time (x :: y :: g) = last_time (y :: g)) by reflexivity. rewrite LT in *. rewrite zlen_cons in *. pose proof (zlen_nonneg g).
      pose proof (steady_last t _ (proj1 O)) as SL. inversion_clear SL as [|? ? SX _]. rewrite LT in SX.
      destruct (IH k1 (line_of (y :: g ++ rest) s) (y :: g) (r ++ [snd x]) len' c1 c' eq_refl (on_time_tail _ _ _ _ O (proj1 R4))) as (k' & I1 & I2 & I3); [|discriminate|exact BR1|exact H|].
      + eapply nothing_less; [|exact NB]. rewrite zlen_cons. replace ((1 + (1 + zlen g) + 1) * delta) with ((1 + zlen g + 1) * delta + delta) by ring. lia.
      + exists k'. split; [exact I1|]. split; [cbn [length] in *; lia|]. rewrite zlen_cons in I3. replace ((1 + (1 + zlen g) + 1) * delta) with ((1 + zlen g + 1) * delta + delta) by ring. lia. }
  destruct (zlen (r ++ [snd x]) =? 6) eqn:Q6; [|apply G]. assert (W : exists m, third_word (r ++ [snd x]) = Ok m).
  { clear - Q6. remember (r ++ [snd x]) as r'. assert (L6 : length r' = 6%nat) by (unfold zlen in Q6; lia). destruct r' as [|y1 [|y2 [|y3 [|y4 [|y5 [|y6 [|y7 r']]]]]]]; try discriminate. rewrite third_word_six. eauto. }
  destruct W as (m & ->). apply G.
Qed.
Lemma rtu_general : forall fuel k s r expected, s_fin s = None -> zlen r <= 255 -> 255 < zlen r + Z.of_nat fuel ->
  exists k' s' o b n, t_rtu_tcp_recv lag fuel t k s r expected = Some (k', s', o) /\ s_line s = b ++ s_line s' /\ spent t delta n k k' /\ zlen r + Z.of_nat n <= 255 /\ match o with Ok resp => resp = r ++ map snd b | Err x => x = SocketTimeout end /\
    (forall c, brings b Stalled c -> exists c', rtu_tcp_recv_loop fuel c r expected = Some (c', o)).
Proof using LAG T.
  induction fuel as [|fuel IH]; intros k s r expected NF L F; [lia|]. cbn [t_rtu_tcp_recv rtu_tcp_recv_loop]. destruct (zlen r <? 255) eqn:Q.
  2: { exists k, s, (Ok r), [], 0%nat. split; [reflexivity|]. split; [reflexivity|]. split; [exact (spent_0 k)|]. split; [lia|]. split; [now rewrite app_nil_r|]. intros c C. eauto. }
  destruct (recv_spec k s) as (k1 & SP & [(x & l & E & R & LE)|[[R E]|[R LE]]]).
  - rewrite R. assert (R6 : zlen (r ++ [snd x]) = zlen r + 1) by (now rewrite zlen_app). destruct ((0 <=? expected) && (expected <=? zlen (r ++ [snd x])))%bool eqn:QE.
    + exists k1, (line_of l s), (Ok (r ++ [snd x])), [x], 1%nat. split; [reflexivity|]. split; [exact E|]. split; [exact SP|]. split; [lia|]. split; [reflexivity|].
      intros c C. apply view_cons in C as (c1 & C1 & C2). rewrite C1, QE. eauto.
    + destruct (IH k1 (line_of l s) (r ++ [snd x]) expected NF ltac:(lia) ltac:(lia)) as (k' & s' & o & b & n & I1 & I2 & I3 & I4 & I5 & I6). cbn [line_of s_line] in I2.
      exists k', s', o, (x :: b), (1 + n)%nat. split; [exact I1|]. split; [cbn [app]; congruence|]. split; [now apply spent_trans with k1|]. split; [lia|]. split; [destruct o; [|exact I5]; rewrite I5, <- app_assoc; reflexivity|].
      intros c C. apply view_cons in C as (c1 & C1 & C2). rewrite C1, QE. apply I6, C2.
  - exfalso. unfold trecv1 in R. rewrite E, NF in R. discriminate.
  - rewrite R. exists k1, s, (Err SocketTimeout), [], 1%nat. split; [reflexivity|]. split; [reflexivity|]. split; [exact SP|]. split; [lia|]. split; [reflexivity|]. intros c [C1 C2]. rewrite recv_nil by exact C1. rewrite C2. eauto.
Qed.
Lemma visit_on_time d k s g rest : s_line s = g ++ rest -> on_time t (k_now k) g -> self_delimited (map snd g) -> 7 <= zlen g ->
  exists k', t_visit lag t d k s = (k', TStays (line_of rest s) (fst (served_request d TCP (map snd g))) (Some (map snd g)) (snd (served_request d TCP (map snd g)))) /\
    Z.max (k_now k) (last_time g) <= k_now k' <= Z.max (k_now k) (last_time g) + (zlen g + 2) * delta.
Proof using LAG T.
  intros E O SD L7. pose proof (steady_last t g (proj1 O)) as FU. set (U := last_time g) in *.
  assert (SPL : exists g1 g2, g = g1 ++ g2 /\ length g1 = 7%nat) by (exists (firstn 7 g), (skipn 7 g); split; [symmetry; apply firstn_skipn|rewrite firstn_length; unfold zlen in L7; lia]).
  destruct SPL as (g1 & g2 & EG & L1). assert (EL : U <= Z.max U U) by lia. assert (LI : exists z, In z g /\ fst z = U).
  { exists (last g (0, 0)). split; [|reflexivity]. apply (last_in t); [exact (proj1 O)|]. intros ->. cbn in L7. lia. }
  clearbody U. destruct g1 as [|x g1']; [discriminate|]. assert (E1 : s_line s = x :: (g1' ++ g2 ++ rest)) by (rewrite E, EG; now rewrite <- !app_assoc).
  destruct (recv_on_time k s x _ E1) as (k0 & R1 & R2 & R3 & R4); [rewrite EG in O; exact (proj2 O)|].
  unfold t_visit. rewrite R1, missing_nil. set (g1 := x :: g1') in *. assert (Q0 : quick 1 U k k0).
  { split; [lia|]. assert (fst x <= U) by (rewrite EG in FU; now inversion FU). lia. }
  assert (O1 : on_time t (k_now k0) g1 /\ (g1 <> [] -> match g2 with [] => True | z :: _ => steady t g2 /\ exists u, In u g1 /\ fst z <= fst u + t end)).
  { clear - O EG R3 R4 T. rewrite EG in O. destruct O as [O1 O2]. split.
    - split; [|unfold g1 in *; cbn in O2 |- *; lia]. clear - O1. induction g1 as [|a [|b l] IH]; [exact I|exact I|]. destruct O1 as [A B]. split; [exact A|apply IH, B].
    - intros NE. destruct g2 as [|z g2]; [exact I|]. destruct (steady_app t g1 z g2 O1) as [S1 S2]. split; [exact S1|]. destruct (S2 NE) as (u & U1 & U2). exists u. split; [exact U1|]. lia. }
  destruct O1 as [O1 O2]. rewrite EG in FU. apply Forall_app in FU as [FU1 FU2].
  destruct (more_on_time U g1 k0 s [] (g2 ++ rest)) as (k1 & M1 & M2 & M3); [rewrite E, EG; now rewrite <- app_assoc|exact O1|exact FU1|]. rewrite L1 in M1, M2. rewrite M1. cbn [app].
  assert (GL : get_request_length (map snd g1) = Ok (zlen g - 6)).
  { destruct SD as (a & b & c & e & n1 & n2 & body & S1 & S2 & S3). rewrite EG, map_app in S1. assert (M7 : length (map snd g1) = 7%nat) by (now rewrite map_length).
    assert (ZG : zlen g = zlen (map snd g)) by (unfold zlen; now rewrite map_length). rewrite ZG, EG, map_app, S1. rewrite !zlen_cons, S2.
    destruct (map snd g1) as [|y1 [|y2 [|y3 [|y4 [|y5 [|y6 [|y7 [|y8 r]]]]]]]]; try discriminate. cbn [app] in S1. injection S1 as -> -> -> -> -> -> _. unfold get_request_length.
    change (zlen [a; b; c; e; n1; n2; y7] <? 6) with false. cbn iota. change (py_slice [a; b; c; e; n1; n2; y7] 0 6) with [a; b; c; e; n1; n2]. rewrite third_word_six. f_equal. lia. }
  rewrite GL. replace (missing (zlen g - 6 + 6) (map snd g1)) with (length g2).
  2: { unfold missing, zlen. rewrite map_length, L1, EG, app_length, L1. lia. }
  destruct (more_on_time U g2 k1 (line_of (g2 ++ rest) s) (map snd g1) rest eq_refl) as (k2 & N1 & N2 & N3); [|exact FU2|].
  { destruct g2 as [|z g2]; [split; exact I|]. destruct (O2 ltac:(discriminate)) as (S1 & u & U1 & U2). split; [exact S1|]. rewrite Forall_forall in M3. specialize (M3 u U1). lia. }
  rewrite N1. rewrite <- map_app, <- EG. unfold served_request. destruct (db_handle_request d TCP (map snd g)) as [d' r'] eqn:DB. cbn [fst snd]. eexists. split; [reflexivity|]. cbn [k_now].
  pose proof (LAG (k_ops k2)) as LG. destruct (quick_trans _ _ _ _ _ _ _ (quick_trans _ _ _ _ _ _ _ Q0 M2 (Z.le_refl U)) N2 (Z.le_refl U)) as [_ Q3].
  assert (ZZ : Z.of_nat (1 + 7 + length g2) = zlen g + 1) by (rewrite EG, zlen_app; unfold zlen; lia). rewrite ZZ in Q3. replace ((zlen g + 2) * delta) with ((zlen g + 1) * delta + delta) by ring. split; [|lia]. apply Z.max_lub; [lia|].
  destruct LI as (z & Z1 & <-). rewrite EG in Z1. apply in_app_iff in Z1 as [Z1|Z1]; [rewrite Forall_forall in M3; specialize (M3 z Z1); destruct N2; lia|rewrite Forall_forall in N3; specialize (N3 z Z1); lia].
Qed.
End Facts.

(* ------------------------------------------------------------------ C102 *)
(** Whatever the peer does, reading one response ends: after at most 65541 reads, and at most one more than the bytes that came.  What comes back is what the untimed code
    makes of these bytes, ended by a close or by a silence. *)
Theorem C102_master_bound : forall lag t delta k s, (forall n, 0 <= lag n <= delta) -> 0 <= t -> bytes (map snd (s_line s)) ->
  exists k' s' o b e, t_tcp_recv lag tcp_recv_fuel t k s [] 255 = Some (k', s', o) /\ s_line s = b ++ s_line s' /\
    k_now k' <= k_now k + (zlen b + 1) * (t + delta) /\ k_now k' <= k_now k + 65541 * (t + delta) /\ Forall (fun x => fst x <= k_now k') b /\
    (forall c, brings b e c -> exists c', tcp_master_recv no_hook c = Some (c', o)) /\
    match o with Ok resp => resp = map snd b | Err x => x = SocketTimeout end.
Proof.
  intros lag t delta k s LAG T B. destruct (tcp_general lag t delta LAG T tcp_recv_fuel k s [] 255 B ltac:(constructor) ltac:(now right) ltac:(lia) ltac:(cbn; lia)) as (k' & s' & o & b & e & n & I1 & I2 & I3 & I4 & I5 & I6 & I7 & I8 & I9).
  { unfold tcp_recv_fuel. change (zlen (@nil Z)) with 0. lia. }
  exists k', s', o, b, e. split; [exact I1|]. split; [exact I2|]. change (zlen (@nil Z)) with 0 in I5. split.
  - replace (zlen b + 1) with (Z.of_nat (S (length b))) by (unfold zlen; lia). now apply (spent_le lag t delta LAG T n).
  - split; [replace 65541 with (Z.of_nat (Z.to_nat 65541)) by lia; apply (spent_le lag t delta LAG T n); [lia|exact I4]|]. split; [exact I7|]. split; [|exact I8].
    intros c C. destruct (I9 c C) as (c' & C'). unfold tcp_master_recv. rewrite C'. destruct o as [resp|x]; [exists c'; reflexivity|eauto].
Qed.
(** A whole response whose bytes come on time (the first within [t] of the call, each within [t] of the one before) is received, the bytes after it stay; the call returns as
    soon as the last byte is there. *)
Theorem C102_master_prompt : forall lag t delta k s g rest, (forall n, 0 <= lag n <= delta) -> 0 <= t -> s_line s = g ++ rest -> on_time t (k_now k) g -> self_delimited (map snd g) ->
  exists k', t_tcp_recv lag tcp_recv_fuel t k s [] 255 = Some (k', line_of rest s, Ok (map snd g)) /\ Z.max (k_now k) (last_time g) <= k_now k' <= Z.max (k_now k) (last_time g) + zlen g * delta.
Proof.
  intros lag t delta k s g rest LAG T E O SD. destruct (tcp_loop_whole tcp_recv_fuel {| c_segs := [map snd g]; c_end := Stalled |} (map snd g) [] SD (self_delimited_small _ SD)) as (c' & L1 & L2 & L3); [reflexivity|].
  destruct (loop_on_time lag t delta LAG T (last_time g) rest tcp_recv_fuel k s g [] 255 {| c_segs := [map snd g]; c_end := Stalled |} c' (map snd g) E O (steady_last t g (proj1 O))) as (k' & b & g' & I1 & I2 & I3 & I4 & I5); [split; [cbn; now rewrite app_nil_r|reflexivity]|exact L1|].
  destruct I3 as [I3 _]. rewrite L2 in I3. destruct g' as [|? ?]; [|discriminate]. rewrite app_nil_r in I2. subst b. cbn [app] in I1. exists k'. split; [exact I1|].
  destruct I4 as [_ I4]. split; [|unfold zlen; lia]. apply Z.max_lub; [lia|]. rewrite Forall_forall in I5. apply (I5 (last g (0, 0))). apply (last_in t); [exact (proj1 O)|]. intros ->. destruct SD as (? & ? & ? & ? & ? & ? & ? & SD & _). discriminate.
Qed.
(** A silent peer: the timeout exception, after the timeout and no later. *)
Theorem C102_master_silent : forall lag t delta k s, (forall n, 0 <= lag n <= delta) -> 0 <= t -> nothing_before (k_now k + t + delta) s ->
  exists k', t_tcp_recv lag tcp_recv_fuel t k s [] 255 = Some (k', s, Err SocketTimeout) /\ k_now k + t <= k_now k' <= k_now k + t + delta.
Proof.
  intros lag t delta k s LAG T NB. destruct (recv_late lag t delta LAG T k s NB) as (k' & R1 & _ & R2). exists k'. split; [|exact R2].
  assert (F : exists m, tcp_recv_fuel = S m) by (exists (Z.to_nat 65599); unfold tcp_recv_fuel; lia). destruct F as (m & ->). cbn [t_tcp_recv]. change (zlen (@nil Z) <? 255) with true. cbn iota. rewrite R1. reflexivity.
Qed.
(** A response that stops in the middle: the timeout exception, a timeout after its last byte. *)
Theorem C102_master_stalled : forall lag t delta k s g rest more, (forall n, 0 <= lag n <= delta) -> 0 <= t -> s_line s = g ++ rest -> g <> [] -> on_time t (k_now k) g ->
  self_delimited (map snd g ++ more) -> more <> [] -> nothing_before (Z.max (k_now k) (last_time g) + t + (zlen g + 1) * delta) (line_of rest s) ->
  exists k', t_tcp_recv lag tcp_recv_fuel t k s [] 255 = Some (k', line_of rest s, Err SocketTimeout) /\ last_time g + t <= k_now k' <= Z.max (k_now k) (last_time g) + t + (zlen g + 1) * delta.
Proof.
  intros lag t delta k s g rest more LAG T E NE O SD NM NB. assert (F : (length (map snd g) < tcp_recv_fuel)%nat) by (apply self_delimited_small in SD; rewrite app_length in SD; lia).
  destruct (tcp_loop_cut tcp_recv_fuel {| c_segs := [map snd g]; c_end := Stalled |} (map snd g) more SD NM F) as (c' & L1); [cbn; now rewrite app_nil_r|]. cbn [c_end] in L1.
  destruct (loop_stalled lag t delta LAG T rest tcp_recv_fuel k s g [] 255 {| c_segs := [map snd g]; c_end := Stalled |} c' E O NB NE) as (k' & I1 & _ & I2); [split; [cbn; now rewrite app_nil_r|reflexivity]|exact L1|]. eauto.
Qed.
(** The RTU-over-TCP master, as long as the peer does not close: at most 255 reads, and what the untimed code makes of the bytes. *)
Theorem C102_rtu_over_tcp_bound : forall lag t delta k s expected, (forall n, 0 <= lag n <= delta) -> 0 <= t -> s_fin s = None ->
  exists k' s' o b, t_rtu_tcp_recv lag 300 t k s [] expected = Some (k', s', o) /\ s_line s = b ++ s_line s' /\ k_now k' <= k_now k + 255 * (t + delta) /\
    (forall c, brings b Stalled c -> exists c', rtu_tcp_master_recv 300 no_hook expected c = Some (c', o)) /\ match o with Ok resp => resp = map snd b | Err x => x = SocketTimeout end.
Proof.
  intros lag t delta k s expected LAG T NF. destruct (rtu_general lag t delta LAG T 300 k s [] expected NF ltac:(cbn; lia) ltac:(cbn; lia)) as (k' & s' & o & b & n & I1 & I2 & I3 & I4 & I5 & I6).
  exists k', s', o, b. split; [exact I1|]. split; [exact I2|]. change (zlen (@nil Z)) with 0 in I4. split; [change 255 with (Z.of_nat 255); apply (spent_le lag t delta LAG T n); [lia|exact I3]|]. split; [|exact I5].
  intros c C. destruct (I6 c C) as (c' & C'). unfold rtu_tcp_master_recv. rewrite C'. destruct o as [resp|x]; [exists c'; reflexivity|eauto].
Qed.
(** The server: whatever a client does, its visit ends, after at most 65543 operations and at most three more than the bytes it took; and it is the untimed visit of these bytes. *)
Theorem C102_visit_bound : forall lag t delta d k s, (forall n, 0 <= lag n <= delta) -> 0 <= t -> bytes (map snd (s_line s)) ->
  exists k' r b e rest, t_visit lag t d k s = (k', r) /\ s_line s = b ++ rest /\ k_now k' <= k_now k + (zlen b + 3) * (t + delta) /\ k_now k' <= k_now k + 65543 * (t + delta) /\ Forall (fun x => fst x <= k_now k') b /\
    forall c, brings b e c -> same_visit (serve_client no_tcp_hooks d c) r rest.
Proof.
  intros lag t delta d k s LAG T B. destruct (visit_general lag t delta LAG T d k s B) as (k' & r & b & e & rest & n & I1 & I2 & I3 & I4 & I5 & I6 & I7 & _).
  exists k', r, b, e, rest. split; [exact I1|]. split; [exact I5|]. split; [replace (zlen b + 3) with (Z.of_nat (length b + 3)) by (unfold zlen; lia); now apply (spent_le lag t delta LAG T n)|].
  split; [replace 65543 with (Z.of_nat (Z.to_nat 65543)) by lia; now apply (spent_le lag t delta LAG T n)|]. split; [exact I6|exact I7].
Qed.
(** A request whose bytes come on time is handled as soon as its last byte is there. *)
Theorem C102_visit_prompt : forall lag t delta d k s g rest, (forall n, 0 <= lag n <= delta) -> 0 <= t -> s_line s = g ++ rest -> on_time t (k_now k) g -> self_delimited (map snd g) -> 7 <= zlen g ->
  exists k', t_visit lag t d k s = (k', TStays (line_of rest s) (fst (served_request d TCP (map snd g))) (Some (map snd g)) (snd (served_request d TCP (map snd g)))) /\
    Z.max (k_now k) (last_time g) <= k_now k' <= Z.max (k_now k) (last_time g) + (zlen g + 2) * delta.
Proof. intros lag t delta d k s g rest LAG T. exact (visit_on_time lag t delta LAG T d k s g rest). Qed.
(** A whole turn, with select's wait of at most one second: bounded by the number of clients that are ready; in this time the loop does not look at the flag that stop() sets.
    The databank only goes through the requests handled, one after the other. *)
Theorem C102_turn : forall lag t delta second waited d k ready, (forall n, 0 <= lag n <= delta) -> 0 <= t -> 0 <= waited <= second -> Forall (fun s => bytes (map snd (s_line s))) ready ->
  exists k' d' l, t_do_run lag t waited d k ready = (k', d', l) /\ k_now k <= k_now k' <= k_now k + second + delta + Z.of_nat (length ready) * 65543 * (t + delta) /\ replay TCP d (handled_in l) d'.
Proof.
  intros lag t delta second waited d k ready LAG T SEC B. unfold t_do_run. set (k0 := {| k_now := _; k_ops := _ |}). destruct (turn_general lag t delta LAG T ready d k0 B) as (k' & d' & l & n & I1 & I2 & I3 & I4).
  exists k', d', l. split; [exact I1|]. split; [|exact I4]. pose proof (spent_le lag t delta LAG T n _ _ _ I3 I2) as H. destruct I2 as [_ [I2 _]]. pose proof (LAG (k_ops k)). cbn [k0 k_now] in *.
  replace (Z.of_nat (length ready) * 65543) with (Z.of_nat (length ready * Z.to_nat 65543)); [lia|]. rewrite Nat2Z.inj_mul. f_equal.
Qed.

(** ** What a user may expect, and what is false: that a call returns within its timeout, that a client holds the server for a second at most *)
Definition long_frame : list Z := [0; 1; 0; 0; 255; 255] ++ repeat 0 (Z.to_nat 65535).
Lemma long_self : self_delimited long_frame.
Proof.
  exists 0, 1, 0, 0, 255, 255, (repeat 0 (Z.to_nat 65535)). split; [reflexivity|]. split; [unfold zlen; rewrite repeat_length; lia|]. unfold long_frame. apply bytes_app; [apply bytes_compute; reflexivity|].
  apply Forall_forall. intros x H. apply repeat_spec in H. subst. unfold is_byte. lia.
Qed.
Lemma long_len : zlen long_frame = 65541. Proof. unfold long_frame. rewrite zlen_app. unfold zlen. rewrite repeat_length. cbn [length]. lia. Qed.
Lemma stamp_bytes step : forall l start, map snd (stamp start step l) = l.
Proof. induction l as [|x l IH]; intros start; [reflexivity|]. cbn [stamp map snd]. now rewrite IH. Qed.
Lemma stamp_steady step : 0 <= step -> forall l start, steady step (stamp start step l).
Proof. intros P. induction l as [|x [|y l] IH]; intros start; [exact I|exact I|]. specialize (IH (start + step)). cbn [stamp] in *. split; [cbn [fst]; lia|exact IH]. Qed.
Lemma stamp_last step : forall l start, l <> [] -> last_time (stamp start step l) = start + (zlen l - 1) * step.
Proof.
  induction l as [|x l IH]; intros start N; [congruence|]. destruct l as [|y l]; [cbn; ring|]. unfold last_time in *. change (stamp start step (x :: y :: l)) with ((start, x) :: stamp (start + step) step (y :: l)).
  specialize (IH (start + step) ltac:(discriminate)). cbn [stamp] in *. change (last ((start, x) :: (start + step, y) :: stamp (start + step + step) step l) (0, 0)) with (last ((start + step, y) :: stamp (start + step + step) step l) (0, 0)).
  rewrite IH. rewrite !zlen_cons. ring.
Qed.
Lemma long_stamp start step : 0 <= step -> let g := stamp start step long_frame in steady step g /\ self_delimited (map snd g) /\ last_time g = start + 65540 * step /\ zlen g = 65541 /\ match g with [] => True | x :: _ => fst x = start end.
Proof.
  intros P g. unfold g. split; [now apply stamp_steady|]. rewrite stamp_bytes. split; [exact long_self|]. split; [rewrite stamp_last by (unfold long_frame; discriminate); rewrite long_len; ring|]. split; [|reflexivity].
  rewrite <- long_len. unfold zlen. rewrite <- (stamp_bytes step long_frame start) at 2. now rewrite map_length.
Qed.
(** "a call returns, or raises, within its timeout": a peer that sends a byte a timeout long keeps it for 65541 timeouts, without any exception *)
Theorem C102_call_timeout_refuted : forall t, 0 <= t -> exists s k' s' resp, t_tcp_recv no_lag tcp_recv_fuel t (clock_at 0) s [] 255 = Some (k', s', Ok resp) /\ k_now k' = 65541 * t.
Proof.
  intros t T. destruct (long_stamp t t T) as (S1 & S2 & S3 & S4 & S5). set (g := stamp t t long_frame) in *. clearbody g.
  destruct (C102_master_prompt no_lag t 0 (clock_at 0) {| s_line := g; s_fin := None |} g []) as (k' & I1 & I2); [intros n; unfold no_lag; lia|exact T|cbn; now rewrite app_nil_r| |exact S2|].
  - split; [exact S1|]. cbn [clock_at k_now]. destruct g; [exact I|lia].
  - exists {| s_line := g; s_fin := None |}, k', (line_of [] {| s_line := g; s_fin := None |}), (map snd g). split; [exact I1|]. cbn [clock_at k_now] in I2. lia.
Qed.
(** "a client holds the server for a second at most": while the bytes of one client trickle in, a whole request of another, ready from the beginning, waits 65540 timeouts (18 hours) for its turn *)
Theorem C102_other_clients_refuted : forall t d, 0 <= t -> exists dripping waiting k' d' l, t_do_run no_lag t 0 d (clock_at 0) [dripping; waiting] = (k', d', l) /\
  s_line waiting = stamp 0 0 demo_read /\ 65540 * t <= k_now k' /\
  exists r1 s2 d2 out, l = [r1; TStays s2 d2 (Some demo_read) out].
Proof.
  intros t d T. destruct (long_stamp 0 t T) as (S1 & S2 & S3 & S4 & S5). set (g := stamp 0 t long_frame) in *. clearbody g.
  assert (NL : forall n, 0 <= no_lag n <= 0) by (intros n; unfold no_lag; lia).
  pose (k1 := {| k_now := 0 + 0 + 0; k_ops := 1 |}). destruct (C102_visit_prompt no_lag t 0 d k1 {| s_line := g; s_fin := None |} g []) as (k2 & V1 & V2); [exact NL|exact T|cbn; now rewrite app_nil_r| |exact S2|lia|].
  { split; [exact S1|]. cbn [k1 k_now]. destruct g; [exact I|lia]. }
  pose (g2 := stamp 0 0 demo_read). destruct (C102_visit_prompt no_lag t 0 (fst (served_request d TCP (map snd g))) k2 {| s_line := g2; s_fin := None |} g2 []) as (k3 & W1 & W2); [exact NL|exact T|cbn [s_line]; now rewrite app_nil_r| | | |].
  { split; [|cbn; lia]. unfold g2. cbn. lia. }
  { unfold g2. rewrite stamp_bytes. exact (proj1 (proj1 (proj2 C46_ex))). }
  { cbn. lia. }
  exists {| s_line := g; s_fin := None |}, {| s_line := g2; s_fin := None |}. do 3 eexists. split.
  - unfold t_do_run. change {| k_now := k_now (clock_at 0) + no_lag (k_ops (clock_at 0)) + 0; k_ops := S (k_ops (clock_at 0)) |} with k1. cbn [t_turn]. rewrite V1, W1. reflexivity.
  - split; [reflexivity|]. split; [cbn [k_now k1] in *; lia|]. do 4 eexists. unfold g2. rewrite stamp_bytes. reflexivity.
Qed.
(** the hypotheses can be met: a response and a request in pieces, with a program that takes up to 5 per operation; a response that stops; a turn with two clients *)
Definition some_lag (n : nat) : Z := Z.of_nat (n mod 3) * 2.
Example C102_ex :
  (forall n, 0 <= some_lag n <= 5) /\
  (let g := stamp 30 7 demo_response in on_time 50 0 g /\ self_delimited (map snd g) /\
     t_tcp_recv some_lag 40 50 (clock_at 0) {| s_line := g; s_fin := Some 500 |} [] 255 = Some ({| k_now := 100; k_ops := 11 |}, {| s_line := []; s_fin := Some 500 |}, Ok demo_response)) /\
  (let g := stamp 30 7 (firstn 8 demo_response) in nothing_before (Z.max 0 (last_time g) + 50 + (zlen g + 1) * 5) (line_of [(300, 2)] {| s_line := []; s_fin := None |}) /\
     t_tcp_recv some_lag 40 50 (clock_at 0) {| s_line := g ++ [(300, 2)]; s_fin := None |} [] 255 = Some ({| k_now := 133; k_ops := 9 |}, {| s_line := [(300, 2)]; s_fin := None |}, Err SocketTimeout)) /\
  (let '(k, _, l) := t_do_run some_lag 50 40 demo_db (clock_at 0) [{| s_line := stamp 35 3 demo_write; s_fin := None |}; {| s_line := stamp 36 1 demo_read ++ [(400, 0)]; s_fin := None |}] in k_now k = 98 /\ map fst (handled_in l) = [demo_write; demo_read]).
Proof.
  split; [intros n; unfold some_lag; pose proof (Nat.mod_upper_bound n 3 ltac:(lia)); remember (n mod 3)%nat as q; clear Heqq; lia|]. split; [split; [vm_compute; repeat split; discriminate|]; split; [exact (proj1 C45_ex)|vm_compute; reflexivity]|].
  split; [split; [split; [vm_compute; reflexivity|exact I]|vm_compute; reflexivity]|]. vm_compute. split; reflexivity.
Qed.

Print Assumptions C102_master_bound.
Print Assumptions C102_master_prompt.
Print Assumptions C102_master_silent.
Print Assumptions C102_master_stalled.
Print Assumptions C102_rtu_over_tcp_bound.
Print Assumptions C102_visit_bound.
Print Assumptions C102_visit_prompt.
Print Assumptions C102_turn.
Print Assumptions C102_call_timeout_refuted.
Print Assumptions C102_other_clients_refuted.
