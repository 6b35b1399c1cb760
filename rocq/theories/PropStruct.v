(** Property C62 (continued): what the integer data formats mean, exactly: struct.pack and struct.unpack of PyStruct.v against the table of
    the struct module's documentation. *)
From Coq Require Import ZArith Lia ZifyBool ZifyNat String Ascii List.
From Verif Require Import Base BaseFacts Spec PyStruct StructFacts StructMore.
Import ListNotations.
Open Scope string_scope.
Open Scope list_scope.
Open Scope Z_scope.
Ltac Zify.zify_post_hook ::= Z.div_mod_to_equations.

(** ** Specification *)
(** letter, size in bytes, signed *)
Definition table : list (ascii * (nat * bool)) :=
  [("b", (1, true)); ("B", (1, false)); ("h", (2, true)); ("H", (2, false)); ("i", (4, true)); ("I", (4, false)); ("l", (4, true)); ("L", (4, false));
   ("q", (8, true)); ("Q", (8, false))]%char%nat.
(** int.from_bytes, unsigned *)
Definition from_bytes (little : bool) (w : list Z) : Z := fold_left (fun a x => 256 * a + x) (if little then rev w else w) 0.
Definition range (n : nat) (signed : bool) (v : Z) : Prop :=
  if signed then - (256 ^ Z.of_nat n / 2) <= v < 256 ^ Z.of_nat n / 2 else 0 <= v < 256 ^ Z.of_nat n.
Definition stands_for (n : nat) (signed little : bool) (w : list Z) (v : Z) : Prop :=
  length w = n /\ bytes w /\ range n signed v /\ from_bytes little w = if v <? 0 then v + 256 ^ Z.of_nat n else v.
(** the letters, the values, the bytes; [pad]: what a pad byte can be *)
Inductive laid (pad : Z -> Prop) (little : bool) : string -> list Z -> list Z -> Prop :=
| L_end : laid pad little "" [] []
| L_pad x s vals b : pad x -> laid pad little s vals b -> laid pad little (String "x" s) vals (x :: b)
| L_value c n sg v w s vals b : In (c, (n, sg)) table -> stands_for n sg little w v -> laid pad little s vals b -> laid pad little (String c s) (v :: vals) (w ++ b).
Definition letters (s : string) : Prop := forall c, In c (list_ascii_of_string s) -> c = "x"%char \/ exists p, In (c, p) table.

(** ** Proofs *)
Lemma from_val l a : fold_left (fun a x => 256 * a + x) l a = a * 256 ^ zlen l + be_val l.
Proof.
  revert a. induction l as [|x l IH]; intros a; cbn [fold_left be_val]; [change (zlen (@nil Z)) with 0; cbn; lia|]. rewrite IH, zlen_cons. unfold zlen. rewrite Z.add_comm, Z.pow_add_r by lia. rewrite Z.pow_1_r. ring.
Qed.
Lemma from_be little w : from_bytes little w = be_val (if little then rev w else w).
Proof. unfold from_bytes. rewrite from_val. lia. Qed.
Lemma val_bytes l : bytes l -> be_bytes (length l) (be_val l) = l.
Proof.
  assert (P : forall l, bytes l -> 0 <= be_val l < 256 ^ zlen l).
  { clear l. intros l. induction 1 as [|x l Hx H IH]; [cbn; lia|]. cbn [be_val]. rewrite zlen_cons, Z.add_comm, Z.pow_add_r by (unfold zlen; lia). unfold zlen in *. unfold is_byte in Hx. rewrite Z.pow_1_r. nia. }
  assert (Q : forall l y, bytes l -> 0 <= y -> be_bytes (length l) (y * 256 ^ zlen l + be_val l) = l).
  { induction l0 as [|x l0 IH]; intros y B Y; [reflexivity|]. inversion_clear B as [|? ? Bx B']. unfold is_byte in Bx. cbn [length be_bytes be_val]. pose proof (P l0 B') as P0. unfold zlen in *. cbn [length]. rewrite Nat2Z.inj_succ, Z.pow_succ_r by lia.
    set (k := 256 ^ Z.of_nat (length l0)) in *. assert (0 < k) by (subst k; lia). f_equal.
    - replace (y * (256 * k) + (x * k + be_val l0)) with ((y * 256 + x) * k + be_val l0) by ring. rewrite Z.div_add_l, (Z.div_small (be_val l0)) by lia. lia.
    - replace (y * (256 * k) + (x * k + be_val l0)) with ((y * 256 + x) * k + be_val l0) by ring. apply IH; [exact B'|lia]. }
  intros B. specialize (Q l 0 B ltac:(lia)). now rewrite Z.mul_0_l in Q.
Qed.
Lemma be_bytes_mod n v : forall k, be_bytes n (v + k * 256 ^ Z.of_nat n) = be_bytes n v.
Proof.
  induction n as [|n IH]; intros k; [reflexivity|]. cbn [be_bytes]. rewrite Nat2Z.inj_succ, Z.pow_succ_r by lia. set (m := 256 ^ Z.of_nat n) in *. assert (0 < m) by (subst m; lia). f_equal.
  - replace (v + k * (256 * m)) with (k * 256 * m + v) by ring. rewrite Z.div_add_l by lia. replace (k * 256 + v / m) with (v / m + k * 256) by ring. now rewrite Z.mod_add by lia.
  - replace (v + k * (256 * m)) with (v + (k * 256) * m) by ring. apply IH.
Qed.
Lemma bytes_unique n v w : length w = n -> bytes w -> be_val w = v mod 256 ^ Z.of_nat n -> w = be_bytes n v.
Proof.
  intros L B E. rewrite <- (val_bytes w B), L, E. set (m := 256 ^ Z.of_nat n). assert (0 < m) by (subst m; lia). rewrite (Z.div_mod v m) at 2 by lia. rewrite Z.add_comm, Z.mul_comm. symmetry. apply be_bytes_mod.
Qed.
Lemma half n : (0 < n)%nat -> 2 ^ (8 * Z.of_nat n - 1) = 2 ^ (8 * Z.of_nat n) / 2.
Proof.
  intros N. assert (H : 2 ^ (8 * Z.of_nat n) = 2 * 2 ^ (8 * Z.of_nat n - 1)) by (rewrite <- Z.pow_succ_r by lia; f_equal; lia).
  rewrite H. set (k := 2 ^ (8 * Z.of_nat n - 1)). clearbody k. lia.
Qed.
Lemma range_iff n sg v : (0 < n)%nat -> int_in_range n sg v = true <-> range n sg v.
Proof.
  intros N. unfold int_in_range, range. assert (E : 2 ^ (8 * Z.of_nat n) = 256 ^ Z.of_nat n) by (rewrite Z.pow_mul_r by lia; reflexivity).
  assert (E2 : 2 ^ (8 * Z.of_nat n - 1) = 256 ^ Z.of_nat n / 2). { rewrite <- E. exact (half n N). }
  cbv zeta. rewrite E, E2. destruct sg; lia.
Qed.
Lemma range_mod n sg v : (0 < n)%nat -> range n sg v -> v mod 256 ^ Z.of_nat n = if v <? 0 then v + 256 ^ Z.of_nat n else v.
Proof.
  intros N R. unfold range in R. set (m := 256 ^ Z.of_nat n) in *. assert (0 < m) by (subst m; lia). assert (m / 2 < m) by lia.
  destruct (v <? 0) eqn:S.
  - destruct sg; [|lia]. assert (m = 2 * (m / 2)). { subst m. replace (Z.of_nat n) with (Z.succ (Z.of_nat (n - 1))) by lia. rewrite Z.pow_succ_r by lia. lia. }
    symmetry. apply (Z.mod_unique v m (-1)); lia.
  - apply Z.mod_small. destruct sg; lia.
Qed.
Lemma bytes_rev w : bytes w -> bytes (rev w).
Proof. unfold bytes. rewrite !Forall_forall. intros H x I. apply H. now apply in_rev. Qed.
Lemma pack_iff n sg little v w : (0 < n)%nat -> pack_int n sg little v = Ok w <-> stands_for n sg little w v.
Proof.
  intros N. unfold pack_int, stands_for. rewrite from_be. pose proof (range_iff n sg v N) as RI. pose proof (range_mod n sg v N) as RM. destruct (int_in_range n sg v).
  - assert (R : range n sg v) by now apply RI. rewrite <- (RM R). split.
    + intros H. injection H as <-. destruct little.
      * rewrite rev_involutive, rev_length, be_bytes_length, be_val_be_bytes. repeat split; auto. apply bytes_rev, be_bytes_bytes.
      * rewrite be_bytes_length, be_val_be_bytes. repeat split; auto. apply be_bytes_bytes.
    + intros (L & B & _ & E). f_equal. destruct little.
      * rewrite <- (rev_involutive w). f_equal. symmetry. apply bytes_unique; [now rewrite rev_length|now apply bytes_rev|exact E].
      * symmetry. now apply bytes_unique.
  - split; [discriminate|]. intros (_ & _ & R & _). apply RI in R. discriminate R.
Qed.
Lemma unpack_iff n sg little w v : (0 < n)%nat -> length w = n -> bytes w -> unpack_int n sg little w = v <-> stands_for n sg little w v.
Proof.
  intros N L B. assert (U : stands_for n sg little w (unpack_int n sg little w)).
  { unfold stands_for. split; [exact L|]. split; [exact B|]. rewrite from_be. unfold unpack_int, range. cbv zeta.
    assert (E : 2 ^ (8 * Z.of_nat n) = 256 ^ Z.of_nat n) by (rewrite Z.pow_mul_r by lia; reflexivity).
    assert (E2 : 2 ^ (8 * Z.of_nat n - 1) = 256 ^ Z.of_nat n / 2). { rewrite <- E. exact (half n N). }
    rewrite E, E2. assert (P : 0 <= be_val (if little then rev w else w) < 256 ^ Z.of_nat n).
    { assert (LB : length (if little then rev w else w) = n) by (destruct little; [rewrite rev_length|]; exact L). assert (BB : bytes (if little then rev w else w)) by (destruct little; [apply bytes_rev|]; exact B).
      pose proof (val_bytes _ BB) as V. rewrite LB in V. rewrite <- V, be_val_be_bytes. apply Z.mod_pos_bound. lia. }
    set (u := be_val _) in *. set (m := 256 ^ Z.of_nat n) in *. assert (m = 2 * (m / 2)). { subst m. replace (Z.of_nat n) with (Z.succ (Z.of_nat (n - 1))) by lia. rewrite Z.pow_succ_r by lia. lia. }
    destruct sg; cbn [andb]; [destruct (m / 2 <=? u) eqn:C|]; split; try lia; match goal with |- context [?x <? 0] => destruct (x <? 0) eqn:D end; lia. }
  split; [intros <-; exact U|]. intros V. destruct U as (_ & _ & R1 & E1), V as (_ & _ & R2 & E2). rewrite E1 in E2. clear E1. unfold range in R1, R2. set (u := unpack_int n sg little w) in *. clearbody u.
  set (m := 256 ^ Z.of_nat n) in *. assert (m = 2 * (m / 2)). { subst m. replace (Z.of_nat n) with (Z.succ (Z.of_nat (n - 1))) by lia. rewrite Z.pow_succ_r by lia. lia. }
  clearbody m. destruct sg, (u <? 0) eqn:A1, (v <? 0) eqn:A2; lia.
Qed.
(** the letters *)
Lemma letter_item c : (c = "x"%char \/ exists p, In (c, p) table) -> digit_of c = None /\ is_space c = false /\
  ((c = "x"%char /\ code_item c = Ok FPad) \/ exists n sg, code_item c = Ok (FInt n sg) /\ (0 < n)%nat /\ forall p, In (c, p) table <-> p = (n, sg)).
Proof.
  intros H. assert (T : forall p, In ("x"%char, p) table -> False) by (intros p; cbn; intros I; repeat (destruct I as [I|I]; [discriminate I|]); exact I).
  destruct H as [-> | (p & I)]; [split; [reflexivity|]; split; [reflexivity|]; left; split; reflexivity|].
  cbn [table In] in I. repeat (destruct I as [I|I]; [injection I as <- <-; split; [reflexivity|]; split; [reflexivity|]; right; eexists; eexists; split; [reflexivity|]; split; [lia|];
    intros p; cbn; split; [intros J; repeat (destruct J as [J|J]; [try discriminate J; injection J as <-; reflexivity|]); destruct J | intros ->; tauto]|]). destruct I.
Qed.
Lemma parse_letter c s : (c = "x"%char \/ exists p, In (c, p) table) -> parse_items (String c s) None = (it <- code_item c ;; items <- parse_items s None ;; Ok (it :: items)).
Proof. intros H. destruct (letter_item c H) as (D & S & _). cbn [parse_items]. rewrite D, S. destruct (code_item c); cbn [bind]; reflexivity. Qed.
Lemma items_of s : letters s -> exists items, parse_items s None = Ok items /\
  (forall little vals b, pack_items little items vals = Ok b <-> laid (fun x => x = 0) little s vals b) /\
  (forall little b vals, bytes b -> (length b = items_size items /\ unpack_items little items b = vals) <-> laid (fun _ => True) little s vals b) .
Proof.
  induction s as [|c s IH]; intros L.
  - exists []. split; [reflexivity|]. split.
    + intros little vals b. cbn [pack_items]. split; [destruct vals; [intros H; injection H as <-; constructor|discriminate]|]. intros H. inversion H. reflexivity.
    + intros little b vals B. cbn. split; [intros [H <-]; destruct b; [constructor|discriminate H]|]. intros H. inversion H. split; reflexivity.
  - assert (LC : c = "x"%char \/ exists p, In (c, p) table) by (apply L; now left). destruct IH as (items & P & PK & UP); [intros x I; apply L; now right|].
    rewrite (parse_letter c s LC), P. destruct (letter_item c LC) as (_ & _ & [(-> & ->) | (n & sg & -> & N & T)]); cbn [bind].
    + exists (FPad :: items). split; [reflexivity|]. assert (TX : forall p, ~ In ("x"%char, p) table) by (intros p; cbn; intros I; repeat (destruct I as [I|I]; [discriminate I|]); exact I). split.
      * intros little vals b. cbn [pack_items]. split.
        -- destruct (pack_items little items vals) as [r|] eqn:K; cbn [bind]; [|discriminate]. intros H. injection H as <-. constructor; [reflexivity|]. now apply PK.
        -- intros H. inversion H as [|x s' vals' b' X H'|c' n sg v w s' vals' b' I]; subst; [|now destruct (TX (n, sg))]. apply PK in H' as ->. reflexivity.
      * intros little b vals B. cbn [unpack_items items_size fold_right item_size]. fold (items_size items). split.
        -- intros [E U]. destruct b as [|x b]; [discriminate E|]. inversion_clear B as [|? ? _ B']. constructor; [exact Logic.I|]. apply UP; [exact B'|]. split; [cbn in E; lia|exact U].
        -- intros H. inversion H as [|x s' vals' b' X H'|c' n sg v w s' vals' b' I]; subst; [|now destruct (TX (n, sg))]. inversion_clear B as [|? ? _ B']. apply UP in H' as [E U]; [|exact B']. cbn [length skipn]. split; [lia|exact U].
    + exists (FInt n sg :: items). split; [reflexivity|]. assert (TC : In (c, (n, sg)) table) by now apply T.
      assert (NX : c <> "x"%char). { intros ->. cbn in TC. repeat (destruct TC as [TC|TC]; [discriminate TC|]). exact TC. } split.
      * intros little vals b. cbn [pack_items]. split.
        -- destruct vals as [|v vals]; [discriminate|]. destruct (pack_int n sg little v) as [w|] eqn:Q; cbn [bind]; [|discriminate]. destruct (pack_items little items vals) as [r|] eqn:K; cbn [bind]; [|discriminate].
           intros H. injection H as <-. apply L_value with (n := n) (sg := sg); [exact TC| |now apply PK]. now apply pack_iff.
        -- intros H. inversion H as [|x s' vals' b' X H'|c' n' sg' v w s' vals' b' I S H']; subst; [congruence|]. apply T in I. injection I as -> ->. apply pack_iff in S as ->; [|exact N]. apply PK in H' as ->. reflexivity.
      * intros little b vals B. cbn [unpack_items items_size fold_right item_size]. fold (items_size items). split.
        -- intros [E <-]. assert (BF : bytes (firstn n b) /\ bytes (skipn n b)) by (rewrite <- (firstn_skipn n b) in B; now apply bytes_app_inv in B). destruct BF as [B1 B2].
           match goal with |- laid _ _ _ ?V _ => enough (G : laid (fun _ => True) little (String c s) V (firstn n b ++ skipn n b)) by now rewrite firstn_skipn in G end.
           apply L_value with (n := n) (sg := sg); [exact TC| |].
           ++ apply unpack_iff; [exact N|rewrite firstn_length; lia|exact B1|reflexivity].
           ++ apply UP; [exact B2|]. split; [rewrite skipn_length; lia|reflexivity].
        -- intros H. inversion H as [|x s' vals' b' X H'|c' n' sg' v w s' vals' b' I S H']; subst; [congruence|]. apply T in I. injection I as -> ->. apply bytes_app_inv in B as [B1 B2]. pose proof S as (SL & _).
           apply UP in H' as [E U]; [|exact B2]. rewrite app_length. split; [lia|]. rewrite firstn_app, skipn_app, SL, Nat.sub_diag, firstn_O, skipn_O. rewrite <- SL at 2. rewrite firstn_all, app_nil_r. rewrite <- SL at 2. rewrite skipn_all. cbn [app]. rewrite U. f_equal. now apply unpack_iff.
Qed.
Lemma parse_prefix o s : In o [">"; "!"; "<"]%char -> parse_fmt (String o s) = (items <- parse_items s None ;; Ok {| pf_little := Ascii.eqb o "<"; pf_items := items |}).
Proof. cbn [In]. intros [<- | [<- | [<- | []]]]; reflexivity. Qed.
(** C62: struct.pack with such a format gives these bytes for these values (in range, exactly one per letter) and raises otherwise *)
Theorem C62_pack_exact : forall o s vals b, In o [">"; "!"; "<"]%char -> letters s ->
  (pack (String o s) vals = Ok b <-> laid (fun x => x = 0) (Ascii.eqb o "<") s vals b).
Proof. intros o s vals b O L. unfold pack. rewrite (parse_prefix o s O). destruct (items_of s L) as (items & -> & P & _). cbn [bind pf_little pf_items]. apply P. Qed.
(** C62: struct.unpack gives these values for these bytes; the pad bytes do not matter *)
Theorem C62_unpack_exact : forall o s vals b, In o [">"; "!"; "<"]%char -> letters s -> bytes b ->
  (unpack (String o s) b = Ok vals <-> laid (fun _ => True) (Ascii.eqb o "<") s vals b).
Proof.
  intros o s vals b O L B. unfold unpack. rewrite (parse_prefix o s O). destruct (items_of s L) as (items & -> & _ & U). cbn [bind pf_little pf_items]. rewrite <- (U _ b vals B).
  destruct (Nat.eqb_spec (length b) (items_size items)) as [E|E]; split; try discriminate; try (intros [? _]; congruence); [intros H; injection H as <-; auto|intros [_ <-]; reflexivity].
Qed.
Example C62_struct_ex : letters "hxI" /\ pack "<hxI" [-2; 258] = Ok [254; 255; 0; 2; 1; 0; 0] /\ unpack ">hxI" [255; 254; 9; 0; 0; 1; 2] = Ok [-2; 258].
Proof. split; [|split; reflexivity]. intros c. cbn [list_ascii_of_string In]. intros [<- | [<- | [<- | []]]]; [right|left; reflexivity|right]; eexists; cbn; tauto. Qed.
(** White space between the letters of a format means nothing. *)
Theorem C62_spaces : forall (o : ascii) r0 c r vals b, In o [">"; "!"; "<"]%char -> letters r0 -> In (nat_of_ascii c) [32; 9; 10; 11; 12; 13]%nat ->
  pack (String o (r0 ++ String c r)) vals = pack (String o (r0 ++ r)) vals /\ unpack (String o (r0 ++ String c r)) b = unpack (String o (r0 ++ r)) b.
Proof.
  intros o r0 c r vals b O L C.
  assert (E : parse_items (r0 ++ String c r)%string None = parse_items (r0 ++ r)%string None).
  { induction r0 as [|x r0 IH].
    - cbn [append parse_items]. assert (D : digit_of c = None /\ is_space c = true) by (unfold digit_of, is_space; cbn [In] in C; repeat (destruct C as [C|C]; [rewrite <- C; split; reflexivity|]); destruct C).
      destruct D as [-> ->]. reflexivity.
    - cbn [append]. rewrite !parse_letter by (apply L; now left). rewrite IH; [reflexivity|]. intros y Y. apply L. now right. }
  assert (P : parse_fmt (String o (r0 ++ String c r)) = parse_fmt (String o (r0 ++ r))) by (cbn [In] in O; repeat (destruct O as [<-|O]; [cbn [parse_fmt]; rewrite E; reflexivity|]); destruct O).
  unfold pack, unpack. rewrite P. split; reflexivity.
Qed.
Example C62_spaces_ex : pack ">H b" [1; -1] = Ok [0; 1; 255] /\ letters "H".
Proof. split; [reflexivity|]. intros c [<-|[]]. right. exists (2%nat, false). cbn. auto. Qed.
(** A format with a character that is no letter of the struct module, no digit and no white space is refused. *)
Theorem C62_unknown_letter : forall (o : ascii) r0 c r vals b, In o [">"; "!"; "<"]%char -> letters r0 ->
  ~ In (nat_of_ascii c) [32; 9; 10; 11; 12; 13]%nat -> ~ In c (list_ascii_of_string "0123456789xcbB?hHiIlLqQnNefdspP") ->
  pack (String o (r0 ++ String c r)) vals = Err StructError /\ unpack (String o (r0 ++ String c r)) b = Err StructError /\ calcsize (String o (r0 ++ String c r)) = Err StructError.
Proof.
  intros o r0 c r vals b O L C K.
  assert (E : parse_items (r0 ++ String c r)%string None = Err StructError).
  { induction r0 as [|x r0 IH].
    - cbn [append parse_items]. assert (D : digit_of c = None /\ is_space c = false /\ code_item c = Err StructError); [|destruct D as (-> & -> & ->); reflexivity].
      revert C K. clear. destruct c as [[|] [|] [|] [|] [|] [|] [|] [|]]; intros C K; try (exfalso; apply C; cbn; tauto); try (exfalso; apply K; cbn; tauto); repeat split; reflexivity.
    - cbn [append]. rewrite !parse_letter by (apply L; now left). rewrite IH; [|intros y Y; apply L; now right]. destruct (letter_item x ltac:(apply L; now left)) as (_ & _ & [[_ ->] | (n & sg & -> & _)]); reflexivity. }
  assert (P : parse_fmt (String o (r0 ++ String c r)) = Err StructError) by (cbn [In] in O; repeat (destruct O as [<-|O]; [cbn [parse_fmt]; rewrite E; reflexivity|]); destruct O).
  unfold pack, unpack, calcsize. rewrite P. repeat split; reflexivity.
Qed.
Example C62_unknown_letter_ex : ~ In (nat_of_ascii "z") [32; 9; 10; 11; 12; 13]%nat /\ ~ In "z"%char (list_ascii_of_string "0123456789xcbB?hHiIlLqQnNefdspP").
Proof. split; cbn; intros H; repeat (destruct H as [H|H]; [discriminate H|]); exact H. Qed.
Print Assumptions C62_pack_exact.
Print Assumptions C62_unpack_exact.
Print Assumptions C62_spaces.
Print Assumptions C62_unknown_letter.
