(** C103: data_format in the byte order and with the alignment of the machine.  Vocabulary: FloatSpec.v, SlaveSpec.v, EndSpec.v, DbSpec.v and the definitions below. *)
From Coq Require Import Reals Lra ZArith Lia ZifyBool ZifyNat.
From Flocq Require Import Core IEEE754.BinarySingleNaN IEEE754.Binary IEEE754.Bits.
From Verif Require TextModel.
From Verif Require Import Base BaseFacts PyStruct Spec StructFacts StructMore Defines SlaveModel SlaveSpec QueryModel DatabankModel MasterModel DbSpec EndSpec EndProofs MasterSpec MasterProofs PropMaster FloatModel FloatSpec FloatProofs PropDatabank PropFloat NativeModel.
Ltac Zify.zify_post_hook ::= Z.div_mod_to_equations.
Open Scope string_scope.
Open Scope list_scope.
Open Scope Z_scope.

(** ** Spec *)
(** The machines Python runs on: long has 4 or 8 bytes; 8 byte numbers are aligned to 8, or to 4 on 32 bit machines. *)
Definition real_machine (m : machine) : Prop :=
  (m_long m = 4 \/ m_long m = 8)%nat /\ (m_word m = 4 \/ m_word m = 8)%nat /\ (m_align8 m = 8 \/ (m_align8 m = 4 /\ m_long m = 4 /\ m_word m = 4))%nat.
(** The format that says the same with the standard sizes, an explicit byte order and explicit pad bytes. *)
Definition letter (i : nitem) : string :=
  match i with
  | NPad => "x" | NF32 => "f" | NF64 => "d"
  | NCode 1 sg => if sg then "b" else "B"
  | NCode 2 sg => if sg then "h" else "H"
  | NCode 4 sg => if sg then "i" else "I"
  | NCode _ sg => if sg then "q" else "Q"
  end.
Definition spelled (little : bool) (items : list nitem) : string := ((if little then "<" else ">") ++ fold_right (fun i s => letter i ++ s) "" items)%string.
(** The C types of a machine: what each letter is in native mode. *)
Definition c_types (m : machine) : list (ascii * nitem) :=
  [("x", NPad); ("b", NCode 1 true); ("B", NCode 1 false); ("h", NCode 2 true); ("H", NCode 2 false); ("i", NCode 4 true); ("I", NCode 4 false);
   ("l", NCode (m_long m) true); ("L", NCode (m_long m) false); ("n", NCode (m_word m) true); ("N", NCode (m_word m) false);
   ("q", NCode 8 true); ("Q", NCode 8 false); ("f", NF32); ("d", NF64)]%char.
(** the alignment of an item *)
Definition alignment (m : machine) (i : nitem) : nat := if (nitem_size i =? 8)%nat then m_align8 m else nitem_size i.
(** [items] is the layout of the codes of [f], the first one [size] bytes behind the start: every number directly behind the one before, at the next multiple of its alignment. *)
Fixpoint laid_out (m : machine) (size : nat) (f : string) (items : list nitem) : Prop :=
  match f with
  | EmptyString => items = []
  | String c f =>
      if is_space c then laid_out m size f items
      else exists i k items', In (c, i) (c_types m) /\ items = repeat NPad k ++ i :: items' /\ (k < alignment m i)%nat /\ ((size + k) mod alignment m i = 0)%nat /\
           laid_out m (size + k + nitem_size i) f items'
  end.
(** a format without repeat counts *)
Fixpoint plain (f : string) : Prop := match f with EmptyString => True | String c f => digit_of c = None /\ plain f end.

(** ** parsing *)

Definition sized (i : nitem) : Prop := match i with NCode n _ => In n [1; 2; 4; 8]%nat | _ => True end.
Lemma native_sized m c i al : real_machine m -> native_code m c = Ok (i, al) -> sized i /\ al = alignment m i /\ (1 <= al)%nat.
Proof.
  intros (L & W & A) H. destruct m as [ml long wd a8]. cbn [m_long m_word m_align8] in *. unfold native_code in H. unfold alignment. cbn [m_long m_word m_align8] in *.
  destruct c as [b0 b1 b2 b3 b4 b5 b6 b7].
  destruct L as [-> | ->]; destruct W as [-> | ->]; (destruct A as [-> | (-> & A1 & A2)]; [|try discriminate A1; try discriminate A2]);
  repeat (match type of H with context [if ?b then _ else _] => destruct b end); try discriminate H; injection H as <- <-; cbn [sized In nitem_size Nat.eqb]; (split; [tauto|]); (split; [reflexivity|lia]).
Qed.
Lemma native_all_sized m : real_machine m -> forall f cnt size items, native_items m f cnt size = Ok items -> Forall sized items.
Proof.
  intros R. induction f as [|c f IH]; intros cnt size items H; cbn [native_items] in H; [destruct cnt; [discriminate|]; injection H as <-; constructor|].
  destruct (digit_of c); [exact (IH _ _ _ H)|].
  assert (G : forall k n, (ia <- native_code m c;; items <- native_items m f None (k (snd ia) + n * nitem_size (fst ia))%nat;; Ok (repeat NPad (skipped size (snd ia)) ++ repeat (fst ia) n ++ items)) = Ok items -> Forall sized items).
  { intros k n E. destruct (native_code m c) as [[i al]|] eqn:N; [|discriminate E]. cbn [bind fst snd] in E. clear H. destruct (native_items m f None _) as [items'|] eqn:F; [|discriminate E]. injection E as <-. destruct (native_sized m c i al R N) as (S1 & _).
    apply Forall_app. split; [apply Forall_forall; intros x X; apply repeat_spec in X; now subst|]. apply Forall_app. split; [apply Forall_forall; intros x X; apply repeat_spec in X; now subst|exact (IH _ _ _ F)]. }
  destruct (is_space c), cnt; first [exact (IH _ _ _ H)|exact (G (fun al => size + skipped size al)%nat _ H)].
Qed.
Lemma ncode_sized c i : ncode_item c = Ok i -> sized i.
Proof.
  intros H. unfold ncode_item, code_item in H. destruct c as [b0 b1 b2 b3 b4 b5 b6 b7].
  repeat (match type of H with context [if ?b then _ else _] => destruct b end); try discriminate H; injection H as <-; cbn; tauto.
Qed.
Lemma nparse_all_sized : forall f cnt items, nparse_items f cnt = Ok items -> Forall sized items.
Proof.
  induction f as [|c f IH]; intros cnt items H; cbn [nparse_items] in H; [destruct cnt; [discriminate|]; injection H as <-; constructor|].
  destruct (digit_of c); [exact (IH _ _ H)|].
  assert (G : forall n, (it <- ncode_item c;; items <- nparse_items f None;; Ok (repeat it n ++ items)) = Ok items -> Forall sized items).
  { intros n E. destruct (ncode_item c) as [i|] eqn:N; [|discriminate]. cbn [bind] in E. destruct (nparse_items f None) as [items'|] eqn:F; [|discriminate]. injection E as <-. apply ncode_sized in N.
    apply Forall_app. split; [apply Forall_forall; intros x X; apply repeat_spec in X; now subst|exact (IH _ _ F)]. }
  destruct (is_space c), cnt; first [exact (IH _ _ H)|exact (G _ H)].
Qed.
Lemma parse_spelled little items : Forall sized items -> nparse_fmt (spelled little items) = Ok (little, items).
Proof.
  intros F. assert (E : nparse_items (fold_right (fun i s => letter i ++ s)%string "" items) None = Ok items).
  { induction F as [|i items Hi F IH]; [reflexivity|]. cbn [fold_right]. destruct i as [n sg| | |]; cbn [sized] in Hi.
    - cbn [In] in Hi. destruct Hi as [<- | [<- | [<- | [<- | []]]]]; destruct sg; cbn [letter append nparse_items];
      match goal with |- context [digit_of ?c] => change (digit_of c) with (@None nat); change (is_space c) with false; cbn iota; let v := eval vm_compute in (ncode_item c) in change (ncode_item c) with v end; cbn [bind]; rewrite IH; reflexivity.
    - cbn [letter append nparse_items]. change (digit_of "x") with (@None nat). change (is_space "x") with false. cbn iota. change (ncode_item "x") with (Ok NPad). cbn [bind]. rewrite IH. reflexivity.
    - cbn [letter append nparse_items]. change (digit_of "f") with (@None nat). change (is_space "f") with false. cbn iota. change (ncode_item "f") with (Ok NF32). cbn [bind]. rewrite IH. reflexivity.
    - cbn [letter append nparse_items]. change (digit_of "d") with (@None nat). change (is_space "d") with false. cbn iota. change (ncode_item "d") with (Ok NF64). cbn [bind]. rewrite IH. reflexivity. }
  unfold spelled. destruct little; cbn [append nparse_fmt]; rewrite E; reflexivity.
Qed.
Lemma mparse_sized m f nat little items : real_machine m -> mparse_fmt m f = Ok (nat, (little, items)) -> Forall sized items.
Proof.
  intros R H. destruct f as [|c f]; [injection H as <- <- <-; constructor|]. unfold mparse_fmt in H.
  assert (K1 : forall x, (items <- native_items m x None 0;; Ok (true, (m_little m, items))) = Ok (nat, (little, items)) -> Forall sized items).
  { intros x E. destruct (native_items m x None 0) eqn:N; [|discriminate]. injection E as _ _ <-. exact (native_all_sized m R _ _ _ _ N). }
  assert (K2 : (items <- nparse_items f None;; Ok (false, (m_little m, items))) = Ok (nat, (little, items)) -> Forall sized items).
  { intros E. destruct (nparse_items f None) eqn:N; [|discriminate]. injection E as _ _ <-. exact (nparse_all_sized _ _ _ N). }
  assert (K3 : (f0 <- nparse_fmt (String c f);; Ok (false, f0)) = Ok (nat, (little, items)) -> Forall sized items).
  { intros E. destruct (nparse_fmt (String c f)) as [[l its]|] eqn:N; [|discriminate]. injection E as _ _ <-. unfold nparse_fmt in N.
    assert (Q : forall b, (items <- nparse_items f None;; Ok (b, items)) = Ok (l, its) -> Forall sized its) by (intros b E; destruct (nparse_items f None) eqn:N'; [|discriminate]; injection E as _ <-; exact (nparse_all_sized _ _ _ N')).
    destruct c as [b0 b1 b2 b3 b4 b5 b6 b7]. repeat (match type of N with context [if ?b then _ else _] => destruct b end); try discriminate N; exact (Q _ N). }
  destruct c as [b0 b1 b2 b3 b4 b5 b6 b7]. repeat (match type of H with context [if ?b then _ else _] => destruct b end); first [exact (K1 _ H)|exact (K2 H)|exact (K3 H)].
Qed.
(** ** what the calls do with a format *)
Lemma mpack_explicit little : forall items vals, mpack_items false little items vals = npack_items little items vals.
Proof.
  induction items as [|i items IH]; intros vals; [reflexivity|]. destruct i as [n sg| | |]; cbn [mpack_items npack_items]; [|rewrite IH; reflexivity| |]; (destruct vals as [|v vals]; [reflexivity|]); rewrite IH; try reflexivity.
  cbn [mpack_one npack_one]. destruct (as_float v) as [x|e]; [|reflexivity]. cbn [bind]. destruct (narrow x) as [y|[]]; reflexivity.
Qed.
Lemma mpack_native little : forall items vals, mpack_items true little items vals = npack_items little items vals \/ npack_items little items vals = Err PyOverflowError.
Proof.
  induction items as [|i items IH]; intros vals; [now left|].
  assert (G : forall v vs, (b <- npack_one little i v ;; r <- mpack_items true little items vs ;; Ok (b ++ r)) = (b <- npack_one little i v ;; r <- npack_items little items vs ;; Ok (b ++ r)) \/
     (b <- npack_one little i v ;; r <- npack_items little items vs ;; Ok (b ++ r)) = Err PyOverflowError).
  { intros v vs. destruct (npack_one little i v) as [b|e]; [|now left]. cbn [bind]. destruct (IH vs) as [E|E]; rewrite E; [now left|now right]. }
  destruct i as [n sg| | |]; cbn [mpack_items npack_items]; [destruct vals as [|v vals]; [now left|exact (G v vals)]| | |destruct vals as [|v vals]; [now left|exact (G v vals)]].
  - destruct (IH vals) as [E|E]; rewrite E; [now left|now right].
  - destruct vals as [|v vals]; [now left|]. specialize (G v vals). cbn [mpack_one npack_one] in *. destruct (as_float v) as [x|e]; [|now left]. cbn [bind] in *. destruct (narrow x) as [y|e] eqn:N; [exact G|].
    destruct (narrow_too_large x) as [[(y & E) _]|[E _]]; rewrite N in E; [discriminate E|]. injection E as ->. right. reflexivity.
Qed.
Section fmt.
Variables (m : machine) (f : string) (native little : bool) (items : list nitem).
Hypothesis R : real_machine m.
Hypothesis F : mparse_fmt m f = Ok (native, (little, items)).
Let g := spelled little items.
Lemma g_parse : nparse_fmt g = Ok (little, items).
Proof. apply parse_spelled. exact (mparse_sized m f native little items R F). Qed.
Lemma g_full : g <> "".
Proof. unfold g, spelled. destruct little; discriminate. Qed.
Lemma munpack_as b : munpack m f b = nunpack g b.
Proof. unfold munpack, nunpack. rewrite F, g_parse. reflexivity. Qed.
Lemma mcalcsize_as : mcalcsize m f = ncalcsize g.
Proof. unfold mcalcsize, ncalcsize. rewrite F, g_parse. reflexivity. Qed.
Lemma mpack_as vals : mpack m f vals = npack g vals \/ native = true /\ npack g vals = Err PyOverflowError.
Proof.
  unfold mpack, npack. rewrite F, g_parse. cbn [bind fst snd]. destruct native; [|left; apply mpack_explicit]. destruct (mpack_native little items vals) as [E|E]; [now left|now right].
Qed.
Lemma mread_as p last u h a n exchange : f <> "" -> mread m p last u h a n f exchange = nread p last u h a n g exchange.
Proof.
  intros N. unfold mread, nread. replace (dflt_format f (">" ++ py_str_mul n "H")%string) with f by (destruct f; [congruence|reflexivity]). replace (dflt_format g (">" ++ py_str_mul n "H")%string) with g by (pose proof g_full; destruct g; [congruence|reflexivity]).
  unfold ncall. destruct (pack ">BHH" _) as [pdu|e]; [|reflexivity]. destruct (build_request p last pdu u) as [last' [[hdr req]|e]]; [|reflexivity]. f_equal. destruct (exchange req _) as [resp|e]; [|reflexivity]. cbn [bind]. destruct (parse_response hdr resp) as [rp|e]; [|reflexivity]. cbn [bind].
  unfold mdecode, ndecode. destruct (unpack2 ">BB" _) as [[rc b2]|e]; [|reflexivity]. cbn [bind]. destruct (128 <? rc); [reflexivity|]. cbn [andb]. destruct (negb _); [reflexivity|]. apply munpack_as.
Qed.
Lemma mwrite_as p last u a vals exchange : f <> "" -> mpack m f vals = npack g vals -> mwrite m p last u a vals f exchange = nwrite p last u a vals g exchange.
Proof.
  intros N P. unfold mwrite, nwrite. f_equal. unfold mwrite_pdu, nwrite_pdu. replace (str_empty f) with false by (destruct f; [congruence|reflexivity]). replace (str_empty g) with false by (pose proof g_full; destruct g; [congruence|reflexivity]). cbv zeta.
  rewrite mcalcsize_as, P. reflexivity.
Qed.
End fmt.
(* ------------------------------------------------------------------ C103 *)
(** a number that a C float can hold *)
Definition in_float_range (v : num) : Prop :=
  match v with NFloat x => ~ too_large x | NInt z => (Rabs (nearest_float (nearest_double (IZR z))) < bpow radix2 128)%R end.
Lemma in_range_pack little : forall items vals, Forall in_float_range vals -> npack_items little items vals <> Err PyOverflowError.
Proof.
  assert (PI : forall n sg l v, pack_int n sg l v <> Err PyOverflowError) by (intros; unfold pack_int; destruct (int_in_range _ _ _); discriminate).
  assert (P1 : forall i v, in_float_range v -> npack_one little i v <> Err PyOverflowError).
  { intros i v V. destruct i as [n sg| | |]; cbn [npack_one]; [destruct v; [apply PI|discriminate]|discriminate| |].
    - destruct (as_float v) as [x|e] eqn:A; cbn [bind]; [|destruct v; cbn [as_float] in A; [|discriminate]; destruct (is_finite _ _ _) in A; [discriminate|injection A as <-; discriminate]].
      destruct (narrow_too_large x) as [[(y & ->) _]|[_ T]]; [cbn [bind]; apply PI|]. exfalso. destruct v as [z|x']; cbn [in_float_range] in V.
      + destruct (as_float_int z x A) as [_ Rx]. destruct T as [_ T]. rewrite Rx in T. apply (Rlt_not_le _ _ V T).
      + injection A as <-. exact (V T).
    - destruct (as_float v) as [x|e] eqn:A; cbn [bind]; [apply PI|]. destruct v; cbn [as_float] in A; [|discriminate]. destruct (is_finite _ _ _) in A; [discriminate|injection A as <-; discriminate]. }
  induction items as [|i items IH]; intros vals V; [destruct vals; discriminate|].
  assert (G : forall v vs, in_float_range v -> Forall in_float_range vs -> (b <- npack_one little i v ;; r <- npack_items little items vs ;; Ok (b ++ r)) <> Err PyOverflowError).
  { intros v vs H1 H2. specialize (P1 i v H1). specialize (IH vs H2). destruct (npack_one little i v) as [b|e]; cbn [bind]; [|congruence]. destruct (npack_items little items vs) as [r|e]; cbn [bind]; [discriminate|congruence]. }
  destruct i as [n sg| | |]; cbn [npack_items]; [|specialize (IH vals V); destruct (npack_items little items vals); cbn [bind]; [discriminate|congruence]| |];
    (destruct vals as [|v vals]; [discriminate|]; inversion_clear V as [|? ? V1 V2]; exact (G v vals V1 V2)).
Qed.
(** A format that depends on the machine does what the explicit format does that spells it out: byte order, standard sizes, pad bytes. *)
Theorem C103_as_explicit : forall m f native little items, real_machine m -> mparse_fmt m f = Ok (native, (little, items)) -> f <> "" ->
  (forall p last u h a n exchange, mread m p last u h a n f exchange = nread p last u h a n (spelled little items) exchange) /\
  (forall p last u a vals exchange, native = false \/ Forall in_float_range vals -> mwrite m p last u a vals f exchange = nwrite p last u a vals (spelled little items) exchange).
Proof.
  intros m f native little items R F N. split.
  - intros. now apply (mread_as m f native little items R F).
  - intros p last u a vals exchange H. apply (mwrite_as m f native little items R F); [exact N|]. destruct (mpack_as m f native little items R F vals) as [E|[Q E]]; [exact E|]. exfalso. destruct H as [H|H]; [congruence|].
    unfold npack in E. rewrite parse_spelled in E by exact (mparse_sized m f native little items R F). exact (in_range_pack little items vals H E).
Qed.
(** The prefix decides: ">" and "!" high byte first, "<" low byte first, "=" the order of the machine, all with standard sizes and without padding (as in C89); otherwise the order, the
    sizes and the alignment of the machine. *)
Theorem C103_prefix : forall m r,
  mparse_fmt m (String ">" r) = mparse_fmt m (String "!" r) /\
  (forall b : bool, mparse_fmt m (String (if b then "<" else ">")%char r) = match nparse_fmt (String (if b then "<" else ">")%char r) with Ok (_, items) => Ok (false, (b, items)) | Err e => Err e end) /\
  mparse_fmt m (String "=" r) = mparse_fmt m (String (if m_little m then "<" else ">")%char r) /\
  (forall c, ~ In c [">"; "!"; "<"; "="; "@"]%char -> mparse_fmt m (String c r) = mparse_fmt m (String "@" (String c r))).
Proof.
  intros m r. split; [reflexivity|]. split; [|split].
  - intros []; cbn [mparse_fmt nparse_fmt bind]; destruct (nparse_items r None); reflexivity.
  - cbn [mparse_fmt]. destruct (m_little m); cbn [mparse_fmt nparse_fmt bind]; destruct (nparse_items r None); reflexivity.
  - intros c H. cbn [In] in H. unfold mparse_fmt at 1. destruct c as [b0 b1 b2 b3 b4 b5 b6 b7].
    destruct b0, b1, b2, b3, b4, b5, b6, b7; try reflexivity; exfalso; tauto.
Qed.
Lemma native_letter m c i al : real_machine m -> native_code m c = Ok (i, al) -> In (c, i) (c_types m).
Proof.
  intros _ H. destruct m as [ml long wd a8]. unfold native_code in H. cbn [m_long m_word m_align8] in *. destruct c as [b0 b1 b2 b3 b4 b5 b6 b7].
  repeat (match type of H with context [if ?b then _ else _] => destruct b end); try discriminate H; injection H as <- _; cbn [c_types In m_long m_word]; repeat (first [left; reflexivity | right]).
Qed.
Lemma letter_native m c i : real_machine m -> In (c, i) (c_types m) -> native_code m c = Ok (i, alignment m i) /\ digit_of c = None /\ is_space c = false.
Proof.
  intros (L & W & A) I. destruct m as [ml long wd a8]. cbn [m_long m_word m_align8 c_types In] in *. unfold alignment. cbn [m_align8].
  assert (E : forall n : nat, (n = 4 \/ n = 8)%nat -> (a8 = 8 \/ (a8 = 4 /\ n = 4))%nat -> n = (if (n =? 8)%nat then a8 else n)) by (intros n [-> | ->] [-> | (-> & Q)]; try reflexivity; discriminate Q).
  repeat (destruct I as [I|I]; [injection I as <- <-; cbn [native_code nitem_size Nat.eqb m_long m_word m_align8]; split; [|split; reflexivity]; first [reflexivity | rewrite <- E; [reflexivity|assumption|intuition auto]]|]). destruct I.
Qed.
(** Every sequence of these letters is accepted, ... *)
Theorem C103_accepted : forall m r, real_machine m -> (forall c, In c (list_ascii_of_string r) -> exists i, In (c, i) (c_types m)) ->
  exists items, mparse_fmt m (String "@" r) = Ok (true, (m_little m, items)).
Proof.
  intros m r R H. cbn [mparse_fmt]. cut (exists items, native_items m r None 0 = Ok items); [intros (items & ->); now exists items|]. generalize 0%nat.
  induction r as [|c r IH]; intros size; cbn [native_items]; [now exists []|]. destruct (H c (or_introl eq_refl)) as (i & I). destruct (letter_native m c i R I) as (N & D & S). rewrite D, S, N. cbn [bind fst snd].
  destruct (IH (fun c' I' => H c' (or_intror I')) (size + skipped size (alignment m i) + 1 * nitem_size i)%nat) as (items & E). rewrite E. now eexists.
Qed.
(** ... and laid out in native mode: every number at the next multiple of its alignment. *)
Theorem C103_layout : forall m r items, real_machine m -> plain r -> mparse_fmt m (String "@" r) = Ok (true, (m_little m, items)) -> laid_out m 0 r items.
Proof.
  intros m r items R P H. cbn [mparse_fmt] in H. destruct (native_items m r None 0) as [its|] eqn:E; [|discriminate]. injection H as ->. revert P items E. generalize 0%nat.
  induction r as [|c r IH]; intros size P items E; cbn [native_items laid_out] in *; [injection E as <-; reflexivity|]. destruct P as [P1 P2].
  rewrite P1 in E. destruct (is_space c); [exact (IH size P2 items E)|]. destruct (native_code m c) as [[i al]|] eqn:N; [|discriminate E]. cbn [bind fst snd] in E.
  destruct (native_items m r None _) as [its|] eqn:E'; [|discriminate E]. injection E as <-. destruct (native_sized m c i al R N) as (_ & AL & A).
  exists i, (skipped size al), its. split; [now apply (native_letter m c i al R)|]. rewrite <- AL. split; [reflexivity|]. rewrite Nat.mul_1_l in E'. split; [|split; [|exact (IH _ P2 _ E')]].
  - unfold skipped. destruct (size =? 0)%nat; lia.
  - unfold skipped. destruct (size =? 0)%nat eqn:Q; [apply Nat.eqb_eq in Q; subst size; apply Nat.mod_0_l; lia|]. apply Nat.eqb_neq in Q. pose proof (Nat.mod_upper_bound (size - 1) al ltac:(lia)) as U. pose proof (Nat.div_mod (size - 1) al ltac:(lia)) as D.
    replace (size + (al - 1 - (size - 1) mod al))%nat with ((1 + (size - 1) / al) * al)%nat by nia. apply Nat.mod_mul. lia.
Qed.
(** Numbers written with a format and read back with the same format on the same machine come back. *)
Theorem C103_comes_back : forall m p last d u a vals f native little items b n s,
  real_machine m -> 0 <= last <= 65535 -> db_reachable d -> get_slave d u = Ok s -> fits true a -> f <> "" -> vals <> [] ->
  mparse_fmt m f = Ok (native, (little, items)) -> native = false \/ Forall in_float_range vals -> mpack m f vals = Ok b -> zlen b = 2 * n -> 1 <= n <= 123 ->
  (exists old, stored s HOLDING_REGISTERS a n old) ->
  let '(d1, e1) := against p d (mwrite m p last u a vals f) in
  let '(d2, e2) := against p d1 (mread m p (nc_last e1) u true a n f) in
  nc_result e1 = Ok [NInt a; NInt n] /\ (exists vals', nc_result e2 = Ok vals' /\ come_back items vals vals') /\ others_same d d1 u.
Proof.
  intros m p last d u a vals f native little items b n s R L D G Fa N V F Q P Lb Hn St. destruct (C103_as_explicit m f native little items R F N) as [C1 C2].
  set (g := spelled little items) in *. assert (PF : nparse_fmt g = Ok (little, items)) by exact (g_parse m f native little items R F).
  assert (PG : npack g vals = Ok b).
  { destruct (mpack_as m f native little items R F vals) as [E|[E1 E2]]; [fold g in E; congruence|]. exfalso. destruct Q as [Q|Q]; [congruence|]. unfold npack in E2. fold g in E2. rewrite PF in E2. exact (in_range_pack little items vals Q E2). }
  pose proof (C89_floats_come_back p last d u a vals g little items b n s L D G Fa (g_full m f native little items F) V PF PG Lb Hn St) as T. unfold against in *. cbv beta in *. rewrite (C2 _ _ _ _ _ _ Q). cbv zeta in *. rewrite C1. exact T.
Qed.
(** What the format "HH...H" without a prefix puts on the wire: each number in the byte order of the machine. *)
Lemma native_rep m c i : real_machine m -> native_code m c = Ok (i, nitem_size i) -> digit_of c = None -> is_space c = false -> nitem_size i <> O -> forall n k,
  native_items m (str_rep n (String c "")) None (k * nitem_size i) = Ok (repeat i n).
Proof.
  intros R N D SP Z. assert (Sk : forall k, skipped (k * nitem_size i) (nitem_size i) = O).
  { intros k. unfold skipped. destruct (k * nitem_size i =? 0)%nat eqn:Q; [reflexivity|]. apply Nat.eqb_neq in Q. destruct k as [|k]; [cbn in Q; lia|]. set (w := nitem_size i) in *. clearbody w.
    replace (S k * w - 1)%nat with (w - 1 + k * w)%nat by nia. rewrite Nat.mod_add by exact Z. rewrite Nat.mod_small by lia. lia. }
  induction n as [|n IH]; intros k; [reflexivity|]. cbn [str_rep append native_items]. rewrite D, SP, N. cbn [bind fst snd]. rewrite Sk.
  replace (k * nitem_size i + 0 + 1 * nitem_size i)%nat with ((k + 1) * nitem_size i)%nat by lia. rewrite IH. reflexivity.
Qed.
Lemma mparse_rep m c i n : real_machine m -> native_code m c = Ok (i, nitem_size i) -> digit_of c = None -> is_space c = false -> nitem_size i <> O -> ~ In c [">"; "!"; "<"; "="; "@"]%char -> 1 <= n ->
  mparse_fmt m (py_str_mul n (String c "")) = Ok (true, (m_little m, repeat i (Z.to_nat n))).
Proof.
  intros R N D S Z H L. unfold py_str_mul. destruct (Z.to_nat n) as [|k] eqn:K; [lia|]. pose proof (native_rep m c i R N D S Z (Datatypes.S k) 0) as E. cbn [Nat.mul] in E.
  change (str_rep (Datatypes.S k) (String c "")) with (String c (str_rep k (String c ""))) in *. rewrite (proj2 (proj2 (proj2 (C103_prefix m _))) c H). cbn [mparse_fmt]. rewrite E. reflexivity.
Qed.
Definition two_bytes (little : bool) (v : Z) : list Z := if little then [v mod 256; v / 256] else [v / 256; v mod 256].
Theorem C103_registers_sent : forall m p last u a vs exchange, real_machine m -> fits true a -> 0 <= u <= 255 -> 0 <= last <= 65535 -> 1 <= zlen vs <= 123 -> Forall (fits true) vs ->
  nc_sent (mwrite m p last u a (map NInt vs) (py_str_mul (zlen vs) "H") exchange) =
  Some (on_wire (ids_for p last) u (16 :: word a ++ word (zlen vs) ++ 2 * zlen vs :: flat_map (two_bytes (m_little m)) vs), 8).
Proof.
  intros m p last u a vs exchange R Ha Hu Hl Hx Fv.
  assert (F : mparse_fmt m (py_str_mul (zlen vs) "H") = Ok (true, (m_little m, repeat (NCode 2 false) (Z.to_nat (zlen vs))))) by (apply mparse_rep; [exact R|reflexivity|reflexivity|reflexivity|discriminate|cbn [In]; intuition discriminate|lia]).
  assert (NF : py_str_mul (zlen vs) "H" <> "") by (unfold py_str_mul; destruct (Z.to_nat (zlen vs)) eqn:K; [lia|discriminate]).
  assert (Sz : forall k, nitems_size (repeat (NCode 2 false) k) = (2 * k)%nat) by (induction k as [|k IHk]; [reflexivity|cbn [repeat nitems_size fold_right nitem_size]; fold (nitems_size (repeat (NCode 2 false) k)); lia]).
  pose proof (g_parse m _ _ _ _ R F) as PG. set (g := spelled _ _) in *.
  assert (Y : forall l, Forall (fits true) l -> npack_items (m_little m) (repeat (NCode 2 false) (length l)) (map NInt l) = Ok (flat_map (two_bytes (m_little m)) l) /\ bytes (flat_map (two_bytes (m_little m)) l) /\ zlen (flat_map (two_bytes (m_little m)) l) = 2 * zlen l).
  { induction 1 as [|v l Hv Fl (E1 & E2 & E3)]; [repeat split; constructor|]. cbn [length repeat map npack_items npack_one flat_map]. unfold pack_int.
    assert (RG : int_in_range 2 false v = true) by (unfold int_in_range, fits in *; cbn; lia). rewrite RG. cbn [bind be_bytes]. rewrite E1. cbn [bind]. change (256 ^ Z.of_nat 1) with 256. change (256 ^ Z.of_nat 0) with 1. unfold fits in Hv.
    rewrite Z.div_1_r. rewrite (Z.mod_small (v / 256)) by lia. assert (T : bytes (two_bytes (m_little m) v) /\ zlen (two_bytes (m_little m) v) = 2) by (unfold two_bytes; destruct (m_little m); (split; [repeat constructor; unfold is_byte; lia|reflexivity])).
    split; [unfold two_bytes; destruct (m_little m); reflexivity|]. split; [apply bytes_app; tauto|]. rewrite zlen_app, zlen_cons. lia. }
  destruct (Y vs Fv) as (Y1 & Y2 & Y3).
  assert (PK : npack g (map NInt vs) = Ok (flat_map (two_bytes (m_little m)) vs)) by (unfold npack; rewrite PG; cbn [bind fst snd]; replace (Z.to_nat (zlen vs)) with (length vs) by (unfold zlen; lia); exact Y1).
  assert (MP : mpack m (py_str_mul (zlen vs) "H") (map NInt vs) = npack g (map NInt vs)) by (destruct (mpack_as m _ _ _ _ R F (map NInt vs)) as [E|[_ E]]; [exact E|fold g in E; congruence]).
  rewrite (mwrite_as m _ _ _ _ R F p last u a (map NInt vs) exchange NF MP). fold g. apply nwrite_sent; auto; try lia.
  - unfold g, spelled. destruct (m_little m); discriminate.
  - destruct vs; [cbn in Hx; lia|discriminate].
  - unfold ncalcsize. rewrite PG. cbn [bind snd]. rewrite Sz. f_equal. unfold zlen. lia.
Qed.
(** "f" without a prefix (or behind "@") is a C cast: where the explicit formats refuse a number that is too large (C89_too_large), it sends an infinity. *)
Lemma mwrite_sent m p last u a vals f b n exchange : f <> "" -> vals <> [] -> mcalcsize m f = Ok (2 * n) -> mpack m f vals = Ok b -> bytes b -> zlen b = 2 * n -> 1 <= n <= 123 -> fits true a ->
  0 <= u <= 255 -> 0 <= last <= 65535 ->
  nc_sent (mwrite m p last u a vals f exchange) = Some (on_wire (ids_for p last) u (16 :: word a ++ word n ++ 2 * n :: b), 8).
Proof.
  intros NF NV CS P B L Hn Ha Hu Hl. unfold mwrite.
  assert (W : mwrite_pdu m a vals f = Ok (16 :: word a ++ word n ++ 2 * n :: b)).
  { unfold mwrite_pdu. destruct vals as [|v vals]; [congruence|]. destruct f as [|ch f]; [congruence|]. cbn [str_empty negb andb]. rewrite CS. cbn [bind].
    replace (2 * n / 2) with n by lia. rewrite pack_BHHB, byteb_t, !fitsb_t, byteb_t by (auto; unfold fits, is_byte; lia). cbn [andb bind]. rewrite P. cbn [bind].
    rewrite <- !app_comm_cons, <- !app_assoc. reflexivity. }
  rewrite W. unfold ncall. set (pdu := 16 :: _).
  assert (Zp : zlen pdu = 6 + 2 * n) by (unfold pdu, zlen in *; cbn [length]; rewrite !app_length; cbn [length word]; lia).
  assert (Bp : bytes pdu).
  { unfold pdu. constructor; [unfold is_byte; lia|]. apply bytes_app; [apply word_bytes|]. apply bytes_app; [apply word_bytes|]. constructor; [unfold is_byte; lia|exact B]. }
  destruct (build_request_exact p last pdu u Bp (framable_small p pdu ltac:(lia)) Hl Hu) as (h & last' & R & _). rewrite R. reflexivity.
Qed.
Definition cast_to (x : binary64) (y : binary32) : Prop := nearest_to x y \/ (too_large x /\ y = B754_infinity 24 128 (Bsign 53 1024 x)).
Theorem C103_overflow : forall m p last u a xs exchange, real_machine m -> fits true a -> 0 <= u <= 255 -> 0 <= last <= 65535 -> 1 <= zlen xs <= 61 ->
  Forall (fun x => is_number x = true) xs ->
  exists ys, Forall2 cast_to xs ys /\
  nc_sent (mwrite m p last u a (map NFloat xs) (py_str_mul (zlen xs) "f") exchange) =
  Some (on_wire (ids_for p last) u (16 :: word a ++ word (2 * zlen xs) ++ 4 * zlen xs :: flat_map (fun y => four_bytes (m_little m) (bits_of_b32 y)) ys), 8).
Proof.
  intros m p last u a xs exchange R Ha Hu Hl Hx NN. set (little := m_little m).
  assert (F : mparse_fmt m (py_str_mul (zlen xs) "f") = Ok (true, (little, repeat NF32 (Z.to_nat (zlen xs))))) by (apply mparse_rep; [exact R|reflexivity|reflexivity|reflexivity|discriminate|cbn [In]; intuition discriminate|lia]).
  assert (NF : py_str_mul (zlen xs) "f" <> "") by (unfold py_str_mul; destruct (Z.to_nat (zlen xs)) eqn:K; [lia|discriminate]).
  assert (Sz : forall k, nitems_size (repeat NF32 k) = (4 * k)%nat) by (induction k as [|k IHk]; [reflexivity|cbn [repeat nitems_size fold_right nitem_size]; fold (nitems_size (repeat NF32 k)); lia]).
  assert (Y : exists ys, Forall2 cast_to xs ys /\ mpack_items true little (repeat NF32 (length xs)) (map NFloat xs) = Ok (flat_map (fun y => four_bytes little (bits_of_b32 y)) ys)).
  { clearbody little. clear - NN. induction NN as [|x xs Nx NN (ys & F2 & E)]; [exists []; split; [constructor|reflexivity]|].
    assert (Ny : exists y, (narrow x = Ok y /\ nearest_to x y) \/ (narrow x = Err PyOverflowError /\ too_large x /\ y = B754_infinity 24 128 (Bsign 53 1024 x))).
    { destruct x as [s|s|s pl Hp|s m e H]; try discriminate Nx.
      - exists (B754_zero 24 128 s). left. split; [reflexivity|]. repeat split. unfold real. cbn [B2R]. unfold nearest_float. now rewrite round_0 by typeclasses eauto.
      - destruct (narrow_finite s m e H) as [(y & Ey & Fy & Vy & Sy & _)|[N T]]; [exists y; left; split; [exact Ey|]; repeat split; auto|]. eexists. right. split; [exact N|]. split; [exact T|reflexivity]. }
    destruct Ny as (y & Ny). exists (y :: ys). split; [constructor; [|exact F2]; destruct Ny as [[_ Ny]|[_ Ny]]; [now left|now right]|]. cbn [length repeat map mpack_items mpack_one as_float bind flat_map].
    assert (Q : match narrow x with Err PyOverflowError => Ok (B754_infinity 24 128 (Bsign 53 1024 x)) | r => r end = Ok y) by (destruct Ny as [[-> _]|(-> & _ & ->)]; reflexivity).
    rewrite Q. cbn [bind]. rewrite pack_four by apply bits32_in. cbn [bind]. now rewrite E. }
  destruct Y as (ys & F2 & E). exists ys. split; [exact F2|]. assert (Ly : length xs = length ys) by (clear - F2; induction F2; cbn [length]; congruence).
  destruct (flat_ok (fun y => four_bytes little (bits_of_b32 y)) 4 ys (fun y => four_ok little _)) as [Bb Lb].
  replace (4 * zlen xs) with (2 * (2 * zlen xs)) by lia. apply mwrite_sent; auto; try lia.
  - destruct xs; [cbn in Hx; lia|discriminate].
  - unfold mcalcsize. rewrite F. cbn [bind snd]. rewrite Sz. f_equal. unfold zlen. lia.
  - unfold mpack. rewrite F. cbn [bind fst snd]. replace (Z.to_nat (zlen xs)) with (length xs) by (unfold zlen; lia). exact E.
  - unfold zlen in *. rewrite Lb, <- Ly. lia.
Qed.
(** An unusable data_format (unknown letter, count without letter): a write fails before anything is sent. *)
Theorem C103_unusable : forall m p last u a vals f e exchange, mparse_fmt m f = Err e -> f <> "" -> vals <> [] ->
  nc_sent (mwrite m p last u a vals f exchange) = None /\ nc_result (mwrite m p last u a vals f exchange) = Err e /\ nc_last (mwrite m p last u a vals f exchange) = last.
Proof.
  intros m p last u a vals f e exchange F N V. unfold mwrite, mwrite_pdu. destruct vals as [|v vals]; [congruence|]. destruct f as [|c f]; [congruence|]. cbn [str_empty negb andb]. cbv zeta. unfold mcalcsize. rewrite F. repeat split.
Qed.
(** ** repeat counts *)
Lemma digits_app f : forall n r, TextModel.digits f n r = (TextModel.digits f n "" ++ r)%string.
Proof.
  induction f as [|f IH]; intros n r; [reflexivity|]. cbn [TextModel.digits]. cbv zeta. destruct (n <? 10); [reflexivity|]. rewrite IH, (IH _ (String _ "")). clear. induction (TextModel.digits f (n / 10) "") as [|c s IH]; [reflexivity|]. cbn [append]. now rewrite IH.
Qed.
Lemma digit_of_digit d : 0 <= d <= 9 -> digit_of (TextModel.digit d) = Some (Z.to_nat d).
Proof. intros H. assert (C : d = 0 \/ d = 1 \/ d = 2 \/ d = 3 \/ d = 4 \/ d = 5 \/ d = 6 \/ d = 7 \/ d = 8 \/ d = 9) by lia. repeat (destruct C as [-> | C]; [reflexivity|]). subst d. reflexivity. Qed.
Definition next_count (cnt : option nat) (d : nat) : nat := match cnt with None => d | Some n => (10 * n + d)%nat end.
Lemma digits_read {X} (P : string -> option nat -> X) : (forall c d r cnt, digit_of c = Some d -> P (String c r) cnt = P r (Some (next_count cnt d))) ->
  forall f n rest, 0 <= n < 2 ^ Z.of_nat f -> f <> O -> exists k, forall cnt, P (TextModel.digits f n rest) cnt = P rest (Some (match cnt with None => O | Some a => (a * k)%nat end + Z.to_nat n)%nat).
Proof.
  intros HP. induction f as [|f IH]; intros n rest N F; [congruence|]. assert (M : 0 <= n mod 10 < 10) by lia. pose proof (fun r cnt => HP _ _ r cnt (digit_of_digit (n mod 10) ltac:(lia))) as S1.
  cbn [TextModel.digits]. cbv zeta. destruct (n <? 10) eqn:E.
  - exists 10%nat. intros cnt. rewrite S1. unfold next_count. rewrite Z.mod_small by lia. destruct cnt; do 2 f_equal; lia.
  - destruct f as [|f]; [cbn in N; lia|]. destruct (IH (n / 10) (String (TextModel.digit (n mod 10)) rest)) as [k K].
    { split; [apply Z.div_pos; lia|]. apply Z.div_lt_upper_bound; [lia|]. rewrite Nat2Z.inj_succ, Z.pow_succ_r in N by lia. lia. }
    { discriminate. }
    exists (k * 10)%nat. intros cnt. rewrite K, S1. unfold next_count. f_equal. f_equal. destruct cnt; [rewrite Nat.mul_assoc|]; lia.
Qed.
Lemma count_read {X} (P : string -> option nat -> X) : (forall c d r cnt, digit_of c = Some d -> P (String c r) cnt = P r (Some (next_count cnt d))) ->
  forall n rest, 0 <= n -> P (TextModel.py_str n ++ rest)%string None = P rest (Some (Z.to_nat n)).
Proof.
  intros HP n rest N. unfold TextModel.py_str. replace (n <? 0) with false by lia. unfold TextModel.str_of_pos. rewrite <- digits_app. destruct (digits_read P HP (S (Z.to_nat (Z.log2 n))) n rest) as [k K].
  - split; [lia|]. rewrite Nat2Z.inj_succ, Z2Nat.id by apply Z.log2_nonneg. destruct (Z.eq_dec n 0) as [->|]; [reflexivity|]. apply Z.log2_spec. lia.
  - discriminate.
  - rewrite K. reflexivity.
Qed.

Fixpoint ends_well (r : string) : Prop := match r with EmptyString => True | String c EmptyString => digit_of c = None | String _ r => ends_well r end.
Lemma ends_tail c r : ends_well (String c r) -> (r = "" /\ digit_of c = None) \/ (r <> "" /\ ends_well r).
Proof. destruct r as [|c' r]; [left; auto|]. intros H. right. split; [discriminate|exact H]. Qed.
Lemma nparse_front x y : nparse_items x None = nparse_items y None -> forall r0 cnt, ends_well r0 -> (r0 = "" -> cnt = None) -> nparse_items (r0 ++ x)%string cnt = nparse_items (r0 ++ y)%string cnt.
Proof.
  intros E. induction r0 as [|c r0 IH]; intros cnt W C; [rewrite C by reflexivity; exact E|]. cbn [append nparse_items]. destruct (ends_tail c r0 W) as [[-> D]|[N W']].
  - rewrite D. cbn [append]. destruct (is_space c), cnt; rewrite E; reflexivity.
  - destruct (digit_of c); [apply IH; [exact W'|congruence]|]. rewrite (IH None W') by reflexivity. reflexivity.
Qed.
Lemma parse_front x y : parse_items x None = parse_items y None -> forall r0 cnt, ends_well r0 -> (r0 = "" -> cnt = None) -> parse_items (r0 ++ x)%string cnt = parse_items (r0 ++ y)%string cnt.
Proof.
  intros E. induction r0 as [|c r0 IH]; intros cnt W C; [rewrite C by reflexivity; exact E|]. cbn [append parse_items]. destruct (ends_tail c r0 W) as [[-> D]|[N W']].
  - rewrite D. cbn [append]. destruct (is_space c), cnt; rewrite E; reflexivity.
  - destruct (digit_of c); [apply IH; [exact W'|congruence]|]. rewrite (IH None W') by reflexivity. reflexivity.
Qed.
Lemma native_front m x y : (forall size, native_items m x None size = native_items m y None size) -> forall r0 cnt size, ends_well r0 -> (r0 = "" -> cnt = None) -> native_items m (r0 ++ x)%string cnt size = native_items m (r0 ++ y)%string cnt size.
Proof.
  intros E. induction r0 as [|c r0 IH]; intros cnt size W C; [rewrite C by reflexivity; apply E|]. cbn [append native_items]. destruct (ends_tail c r0 W) as [[-> D]|[N W']].
  - rewrite D. cbn [append]. destruct (is_space c), cnt; rewrite ?E; try reflexivity; (destruct (native_code m c); [cbn [bind]; rewrite E; reflexivity|reflexivity]).
  - destruct (digit_of c); [apply IH; [exact W'|congruence]|]. destruct (is_space c), cnt; rewrite ?(IH None) by auto; try reflexivity; (destruct (native_code m c); [cbn [bind]; rewrite (IH None) by auto; reflexivity|reflexivity]).
Qed.
Lemma nparse_times c r : digit_of c = None -> is_space c = false -> forall n, nparse_items (String c r) (Some (S n)) = nparse_items (str_rep (S n) (String c "") ++ r)%string None.
Proof.
  intros D P. induction n as [|n IH].
  - cbn [str_rep append nparse_items]. rewrite D, P. destruct (ncode_item c); reflexivity.
  - change (str_rep (S (S n)) (String c "") ++ r)%string with (String c (str_rep (S n) (String c "") ++ r)). cbn [nparse_items] in IH |- *. rewrite D, P in *. rewrite <- IH. destruct (ncode_item c); [|reflexivity]. cbn [bind]. destruct (nparse_items r None); reflexivity.
Qed.
Lemma parse_times c r : digit_of c = None -> is_space c = false -> forall n, parse_items (String c r) (Some (S n)) = parse_items (str_rep (S n) (String c "") ++ r)%string None.
Proof.
  intros D P. induction n as [|n IH].
  - cbn [str_rep append parse_items]. rewrite D, P. destruct (code_item c); reflexivity.
  - change (str_rep (S (S n)) (String c "") ++ r)%string with (String c (str_rep (S n) (String c "") ++ r)). cbn [parse_items] in IH |- *. rewrite D, P in *. rewrite <- IH. destruct (code_item c); [|reflexivity]. cbn [bind]. destruct (parse_items r None); reflexivity.
Qed.
Lemma skipped_again size al w q : (1 <= al)%nat -> w = (q * al)%nat -> skipped (size + skipped size al + w) al = O.
Proof.
  intros A ->. assert (K : exists j, (size + skipped size al = j * al)%nat).
  { unfold skipped. destruct (size =? 0)%nat eqn:Q; [apply Nat.eqb_eq in Q; exists O; lia|]. apply Nat.eqb_neq in Q. pose proof (Nat.mod_upper_bound (size - 1) al ltac:(lia)). pose proof (Nat.div_mod (size - 1) al ltac:(lia)). exists (1 + (size - 1) / al)%nat. nia. }
  destruct K as (j & ->). replace (j * al + q * al)%nat with ((j + q) * al)%nat by lia. generalize (j + q)%nat. clear j. intros j. unfold skipped. destruct (j * al =? 0)%nat eqn:Q; [reflexivity|]. apply Nat.eqb_neq in Q. destruct j as [|j]; [cbn in Q; lia|].
  replace (S j * al - 1)%nat with (al - 1 + j * al)%nat by nia. rewrite Nat.mod_add by lia. rewrite Nat.mod_small by lia. lia.
Qed.
Lemma native_times m c r : real_machine m -> digit_of c = None -> is_space c = false -> forall n size, native_items m (String c r) (Some (S n)) size = native_items m (str_rep (S n) (String c "") ++ r)%string None size.
Proof.
  intros R D P. destruct (native_code m c) as [[i al]|] eqn:N.
  2:{ intros n size. cbn [str_rep append native_items]. rewrite D, P, N. reflexivity. }
  assert (Q : exists q, nitem_size i = (q * al)%nat).
  { destruct (native_sized m c i al R N) as (_ & -> & _). destruct R as (_ & _ & A). unfold alignment. destruct (nitem_size i =? 8)%nat eqn:Q; [apply Nat.eqb_eq in Q; rewrite Q|exists 1%nat; lia]. destruct A as [-> | [-> _]]; [exists 1%nat|exists 2%nat]; reflexivity. }
  destruct Q as (q & Q). destruct (native_sized m c i al R N) as (_ & _ & A).
  induction n as [|n IH]; intros size.
  - cbn [str_rep append native_items]. rewrite D, P, N. reflexivity.
  - change (str_rep (S (S n)) (String c "") ++ r)%string with (String c (str_rep (S n) (String c "") ++ r)). cbn [native_items] in IH |- *. rewrite D, P, N in *. cbn [bind fst snd] in *. rewrite <- IH. rewrite Nat.mul_1_l. rewrite (skipped_again size al (nitem_size i) q A Q). rewrite Nat.add_0_r.
    replace (size + skipped size al + nitem_size i + S n * nitem_size i)%nat with (size + skipped size al + S (S n) * nitem_size i)%nat by lia. destruct (native_items m r None _); reflexivity.
Qed.
(** A repeat count means what it says: "...4h..." is "...hhhh...", in every byte order, anywhere in the format; here and in the formats of C38, C62 (PyStruct.v). *)
Theorem C103_counts : forall m o r0 n c r, real_machine m -> In o [">"; "!"; "<"; "="; "@"]%char -> ends_well r0 -> 1 <= n -> digit_of c = None -> is_space c = false ->
  mparse_fmt m (String o (r0 ++ TextModel.py_str n ++ String c r)) = mparse_fmt m (String o (r0 ++ py_str_mul n (String c "") ++ r)) /\
  parse_fmt (String o (r0 ++ TextModel.py_str n ++ String c r)) = parse_fmt (String o (r0 ++ py_str_mul n (String c "") ++ r)).
Proof.
  intros m o r0 n c r R O W N D P. unfold py_str_mul. set (k := Z.to_nat n). assert (K : exists j, k = S j) by (exists (k - 1)%nat; lia). destruct K as (j & K).
  assert (E1 : nparse_items (TextModel.py_str n ++ String c r)%string None = nparse_items (str_rep k (String c "") ++ r)%string None).
  { rewrite (count_read nparse_items) by (try lia; intros c' d r' cnt H; cbn [nparse_items]; rewrite H; destruct cnt; reflexivity). fold k. rewrite K. now apply nparse_times. }
  assert (E2 : parse_items (TextModel.py_str n ++ String c r)%string None = parse_items (str_rep k (String c "") ++ r)%string None).
  { rewrite (count_read parse_items) by (try lia; intros c' d r' cnt H; cbn [parse_items]; rewrite H; destruct cnt; reflexivity). fold k. rewrite K. now apply parse_times. }
  assert (E3 : forall size, native_items m (TextModel.py_str n ++ String c r)%string None size = native_items m (str_rep k (String c "") ++ r)%string None size).
  { intros size. rewrite (count_read (fun s cnt => native_items m s cnt size)) by (try lia; intros c' d r' cnt H; cbn [native_items]; rewrite H; destruct cnt; reflexivity). fold k. rewrite K. now apply native_times. }
  pose proof (nparse_front _ _ E1 r0 None W ltac:(auto)) as F1. pose proof (parse_front _ _ E2 r0 None W ltac:(auto)) as F2. pose proof (native_front m _ _ E3 r0 None 0%nat W ltac:(auto)) as F3.
  cbn [In] in O. destruct O as [<- | [<- | [<- | [<- | [<- | []]]]]]; cbn [mparse_fmt nparse_fmt parse_fmt]; rewrite ?F1, ?F2, ?F3; split; reflexivity.
Qed.
(** ** what does not hold *)
Definition linux64 : machine := {| m_little := true; m_long := 8; m_word := 8; m_align8 := 8 |}.
Definition windows64 : machine := {| m_little := true; m_long := 4; m_word := 8; m_align8 := 8 |}.
Definition s390x : machine := {| m_little := false; m_long := 8; m_word := 8; m_align8 := 8 |}.
Lemma linux64_real : real_machine linux64. Proof. unfold real_machine; cbn; lia. Qed.
Lemma windows64_real : real_machine windows64. Proof. unfold real_machine; cbn; lia. Qed.
Lemma s390x_real : real_machine s390x. Proof. unfold real_machine; cbn; lia. Qed.
(** "The data_format "H" stores the numbers in the registers": with the byte order of most machines they are stored with their bytes exchanged, as a read without data_format shows. *)
Theorem C103_prefix_needed_refuted : ~ forall m d u a v, real_machine m -> db_reachable d -> fits true v ->
  nc_result (snd (against TCP d (mwrite m TCP 0 u a [NInt v] "H"))) = Ok [NInt a; NInt 1] ->
  nc_result (snd (against TCP (fst (against TCP d (mwrite m TCP 0 u a [NInt v] "H"))) (mread m TCP 1 u true a 1 ""))) = Ok [NInt v].
Proof.
  intros H. specialize (H linux64 demo_db 3 100 1 linux64_real demo_db_reachable ltac:(unfold fits; lia)).
  assert (A : nc_result (snd (against TCP demo_db (mwrite linux64 TCP 0 3 100 [NInt 1] "H"))) = Ok [NInt 100; NInt 1]) by (vm_compute; reflexivity). specialize (H A).
  assert (B : nc_result (snd (against TCP (fst (against TCP demo_db (mwrite linux64 TCP 0 3 100 [NInt 1] "H"))) (mread linux64 TCP 1 3 true 100 1 ""))) = Ok [NInt 256]) by (vm_compute; reflexivity). rewrite H in B. discriminate B.
Qed.
(** "What was written with a format is read back with it", when the reader runs on another machine: another byte order gives other numbers, another size of long an exception. *)
Theorem C103_other_machine_refuted : ~ forall m1 m2 d u a v, real_machine m1 -> real_machine m2 -> db_reachable d -> fits true v ->
  nc_result (snd (against TCP d (mwrite m1 TCP 0 u a [NInt v] "H"))) = Ok [NInt a; NInt 1] ->
  nc_result (snd (against TCP (fst (against TCP d (mwrite m1 TCP 0 u a [NInt v] "H"))) (mread m2 TCP 1 u true a 1 "H"))) = Ok [NInt v].
Proof.
  intros H. specialize (H linux64 s390x demo_db 3 100 1 linux64_real s390x_real demo_db_reachable ltac:(unfold fits; lia)).
  assert (A : nc_result (snd (against TCP demo_db (mwrite linux64 TCP 0 3 100 [NInt 1] "H"))) = Ok [NInt 100; NInt 1]) by (vm_compute; reflexivity). specialize (H A).
  assert (B : nc_result (snd (against TCP (fst (against TCP demo_db (mwrite linux64 TCP 0 3 100 [NInt 1] "H"))) (mread s390x TCP 1 3 true 100 1 "H"))) = Ok [NInt 256]) by (vm_compute; reflexivity). rewrite H in B. discriminate B.
Qed.
(** "Everywhere an explicit format refuses numbers, the native one does" (see C103_overflow): 1e39 *)
Definition big_float : binary64 := binary_normalize 53 1024 eq_refl eq_refl mode_NE (10 ^ 39) 0 false.
Theorem C103_overflow_refuted : ~ forall m p last u a x exchange, real_machine m -> is_number x = true -> too_large x ->
  nc_result (mwrite m p last u a [NFloat x] "f" exchange) = Err PyOverflowError.
Proof.
  intros H. specialize (H linux64 TCP 0 3 100 big_float (fun req _ => answer demo_db TCP req) linux64_real). assert (A : is_number big_float = true) by (vm_compute; reflexivity). specialize (H A).
  assert (T : too_large big_float). { destruct (narrow_too_large big_float) as [[(y & E) _]|[_ T]]; [|exact T]. exfalso. assert (N : match narrow big_float with Err PyOverflowError => true | _ => false end = true) by (vm_compute; reflexivity). rewrite E in N. discriminate N. }
  specialize (H T). assert (B : match nc_result (mwrite linux64 TCP 0 3 100 [NFloat big_float] "f" (fun req _ => answer demo_db TCP req)) with Ok _ => true | _ => false end = true) by (vm_compute; reflexivity). rewrite H in B. discriminate B.
Qed.
(** The hypotheses are met: sizes and layouts on three machines, a format with padding written and read back. *)
Example C103_ex :
  map (fun f => mcalcsize linux64 f) ["b"; "h"; "i"; "l"; "q"; "n"; "f"; "d"; "bl"; "lb"; "b0l"; "=bl"; "HIh"; "<HIh"; "3h i"; "?"; "z"; "3"] =
    [Ok 1; Ok 2; Ok 4; Ok 8; Ok 8; Ok 8; Ok 4; Ok 8; Ok 16; Ok 9; Ok 8; Ok 5; Ok 10; Ok 8; Ok 12; Err NotModelled; Err StructError; Err StructError] /\
  map (fun f => mcalcsize windows64 f) ["l"; "n"; "bl"] = [Ok 4; Ok 8; Ok 8] /\
  mparse_fmt linux64 "HIh" = Ok (true, (true, [NCode 2 false; NPad; NPad; NCode 4 false; NCode 2 true])) /\ spelled true [NCode 2 false; NPad; NPad; NCode 4 false; NCode 2 true] = "<HxxIh" /\
  mpack linux64 "HIh" [NInt 1; NInt 2; NInt (-3)] = Ok [1; 0; 0; 0; 2; 0; 0; 0; 253; 255] /\ mpack s390x "HIh" [NInt 1; NInt 2; NInt (-3)] = Ok [0; 1; 0; 0; 0; 0; 0; 2; 255; 253] /\
  (let '(d1, e1) := against TCP demo_db (mwrite linux64 TCP 0 3 100 [NInt 1; NInt 2; NInt (-3)] "HIh") in
   nc_result e1 = Ok [NInt 100; NInt 5] /\ nc_result (snd (against TCP d1 (mread linux64 TCP 1 3 true 100 5 "HIh"))) = Ok [NInt 1; NInt 2; NInt (-3)]) /\
  ends_well "3h2x" /\ ends_well "" /\ plain "HIh" /\ Forall in_float_range [NInt 0].
Proof.
  do 6 (split; [vm_compute; reflexivity|]). split; [vm_compute; split; reflexivity|]. split; [reflexivity|]. split; [exact Logic.I|]. split; [cbn; repeat split|].
  constructor; [|constructor]. cbn [in_float_range]. unfold nearest_double, nearest_float. rewrite !round_0 by typeclasses eauto. rewrite Rabs_R0. apply bpow_gt_0.
Qed.

Print Assumptions C103_as_explicit.
Print Assumptions C103_prefix.
Print Assumptions C103_layout.
Print Assumptions C103_comes_back.
Print Assumptions C103_registers_sent.
Print Assumptions C103_overflow.
Print Assumptions C103_unusable.
Print Assumptions C103_counts.
Print Assumptions C103_prefix_needed_refuted.
Print Assumptions C103_other_machine_refuted.
Print Assumptions C103_overflow_refuted.
Print Assumptions C103_accepted.
