(** Property C104: texts, single characters and booleans in registers (data_format with "s", "c", "?").  Model: BytesModel.v. *)
From Coq Require Import ZArith Lia ZifyBool ZifyNat String Ascii List.
From Verif Require TextModel TextProofs.
From Verif Require Import Base BaseFacts Spec Defines StructFacts StructMore PyStruct SlaveModel SlaveSpec QueryModel DatabankModel DatabankProofs DbSpec PropDatabank EndSpec EndProofs MasterModel MasterSpec MasterProofs
  PropSlave PropMaster FloatModel FloatSpec PropFloat PropStruct PropNative BytesModel.
Open Scope string_scope. Open Scope list_scope. Open Scope Z_scope.
Ltac Zify.zify_post_hook ::= Z.div_mod_to_equations.

(** ** Specification *)
(** What a format is made of: a text of n bytes ("ns"), one character ("c"), a boolean ("?"), an integer (a letter of the table of
    PropStruct.v), a pad byte ("x"). *)
Inductive field := Text (n : Z) | Char | Flag | Number (c : ascii) | Gap.
Definition spelt (f : field) : string :=
  match f with Text n => (TextModel.py_str n ++ "s")%string | Char => "c" | Flag => "?" | Number c => String c "" | Gap => "x" end.
Definition format (little : bool) (fs : list field) : string := String (if little then "<" else ">")%char (String.concat "" (map spelt fs)).
Definition sensible (f : field) : Prop := match f with Text n => 0 <= n | Number c => exists p, In (c, p) table | _ => True end.
(** the number an int or a boolean is *)
Definition is_number (v : sval) (z : Z) : Prop := v = SInt z \/ exists b : bool, v = SBool b /\ z = if b then 1 else 0.
Definition true_value (v : sval) : Prop := v <> SInt 0 /\ v <> SBytes [] /\ v <> SBool false.
(** the bytes [w] are the text [l] in n bytes: cut at n, filled with zeros *)
Definition in_bytes (n : Z) (l w : list Z) : Prop := zlen w = n /\ forall k, 0 <= k < n -> nth (Z.to_nat k) w 0 = nth (Z.to_nat k) l 0.
(** the bytes of a value in a field *)
Definition put (little : bool) (f : field) (v : sval) (w : list Z) : Prop :=
  match f with
  | Text n => exists l, v = SBytes l /\ in_bytes n l w
  | Char => exists x, v = SBytes [x] /\ w = [x]
  | Flag => (true_value v /\ w = [1]) \/ (~ true_value v /\ w = [0])
  | Number c => exists n sg z, In (c, (n, sg)) table /\ is_number v z /\ stands_for n sg little w z
  | Gap => False
  end.
Inductive put_all (little : bool) : list field -> list sval -> list Z -> Prop :=
| P_end : put_all little [] [] []
| P_gap fs vals b : put_all little fs vals b -> put_all little (Gap :: fs) vals (0 :: b)
| P_value f v w fs vals b : f <> Gap -> put little f v w -> put_all little fs vals b -> put_all little (f :: fs) (v :: vals) (w ++ b).
(** what is read where [v] was written *)
Definition seen_as (f : field) (v w : sval) : Prop :=
  match f with
  | Text n => exists l m, v = SBytes l /\ w = SBytes m /\ in_bytes n l m
  | Char => w = v
  | Flag => exists b, w = SBool b /\ (b = true <-> true_value v)
  | Number c => exists z, is_number v z /\ w = SInt z
  | Gap => False
  end.
Inductive seen_all : list field -> list sval -> list sval -> Prop :=
| S_end : seen_all [] [] []
| S_gap fs vals ws : seen_all fs vals ws -> seen_all (Gap :: fs) vals ws
| S_value f v w fs vals ws : f <> Gap -> seen_as f v w -> seen_all fs vals ws -> seen_all (f :: fs) (v :: vals) (w :: ws).
Definition real_value (v : sval) : Prop := match v with SBytes l => bytes l | _ => True end.

(** ** Proofs *)
Lemma concat_cons x l : String.concat "" (x :: l) = (x ++ String.concat "" l)%string.
Proof. destruct l; cbn [String.concat]; [now rewrite TextProofs.app_nil_str|reflexivity]. Qed.
Definition item_of (f : field) : sitem :=
  match f with
  | Text n => SStr (Z.to_nat n) | Char => SChar | Flag => SFlag | Gap => SCode FPad
  | Number c => SCode (match code_item c with Ok i => i | Err _ => FPad end)
  end.
Lemma parse_fields fs : Forall sensible fs -> sparse_items (String.concat "" (map spelt fs)) None = Ok (map item_of fs).
Proof.
  induction 1 as [|f fs H F IH]; [reflexivity|]. cbn [map]. rewrite concat_cons. set (r := String.concat "" (map spelt fs)) in *. destruct f as [n| | |c|]; cbn [spelt].
  - rewrite TextProofs.app_assoc_str. rewrite (count_read sparse_items) by (try exact H; intros c d r' cnt D; cbn [sparse_items]; rewrite D; destruct cnt; reflexivity).
    cbn [append sparse_items]. change (digit_of "s") with (@None nat). change (is_space "s") with false. cbv iota. cbn [scode_items bind]. rewrite IH. reflexivity.
  - cbn [append sparse_items]. change (digit_of "c") with (@None nat). change (is_space "c") with false. cbv iota. cbn [scode_items bind repeat]. rewrite IH. reflexivity.
  - cbn [append sparse_items]. change (digit_of "?") with (@None nat). change (is_space "?") with false. cbv iota. cbn [scode_items bind repeat]. rewrite IH. reflexivity.
  - destruct H as (p & T). destruct (letter_item c (or_intror (ex_intro _ p T))) as (D & S & K). cbn [append sparse_items]. rewrite D, S. destruct K as [(-> & _) | (n & sg & C & _)].
    { exfalso. cbn in T. repeat (destruct T as [T|T]; [discriminate T|]). exact T. }
    assert (E : scode_items c 1 = Ok [SCode (FInt n sg)]). { cbn [table In] in T. repeat (destruct T as [T|T]; [injection T as <- <-; cbn in C; injection C as <- <-; reflexivity|]). destruct T. }
    cbn [item_of]. rewrite E, C, IH. reflexivity.
  - cbn [append sparse_items]. change (digit_of "x") with (@None nat). change (is_space "x") with false. cbv iota. cbn [scode_items code_item bind repeat]. rewrite IH. reflexivity.
Qed.
Lemma parse_format little fs : Forall sensible fs -> sparse_fmt (format little fs) = Ok (little, map item_of fs).
Proof. intros F. unfold format. destruct little; cbn [sparse_fmt]; rewrite (parse_fields fs F); reflexivity. Qed.
Lemma number_item c : (exists p, In (c, p) table) -> exists n sg, item_of (Number c) = SCode (FInt n sg) /\ (0 < n)%nat /\ forall p, In (c, p) table <-> p = (n, sg).
Proof.
  intros (p & T). destruct (letter_item c (or_intror (ex_intro _ p T))) as (_ & _ & [(-> & _) | (n & sg & C & N & K)]).
  - exfalso. cbn in T. repeat (destruct T as [T|T]; [discriminate T|]). exact T.
  - exists n, sg. cbn [item_of]. rewrite C. auto.
Qed.
Lemma in_bytes_iff n l w : 0 <= n -> in_bytes n l w <-> w = firstn (Z.to_nat n) l ++ repeat 0 (Z.to_nat n - length l).
Proof.
  intros N. set (m := Z.to_nat n). assert (LL : length (firstn m l ++ repeat 0 (m - length l)) = m) by (rewrite app_length, firstn_length, repeat_length; lia).
  assert (NTH : forall k, (k < m)%nat -> nth k (firstn m l ++ repeat 0 (m - length l)) 0 = nth k l 0).
  { intros k K. destruct (Nat.lt_ge_cases k (length l)) as [Q|Q].
    - rewrite app_nth1 by (rewrite firstn_length; lia). clear -K. revert k K l. induction m as [|m IH]; intros k K l; [lia|]. destruct l as [|x l]; [destruct k; reflexivity|]. destruct k; [reflexivity|]. cbn. apply IH. lia.
    - rewrite app_nth2 by (rewrite firstn_length; lia). rewrite nth_repeat. symmetry. now apply nth_overflow. }
  unfold in_bytes. split.
  - intros [L H]. apply (nth_ext _ _ 0 0); [unfold zlen in L; lia|]. intros k K. rewrite NTH by (unfold zlen in L; lia). specialize (H (Z.of_nat k)). rewrite Nat2Z.id in H. apply H. unfold zlen in L. lia.
  - intros ->. split; [unfold zlen; lia|]. intros k K. apply NTH. lia.
Qed.
Lemma truth_iff v : struth v = true <-> true_value v.
Proof.
  unfold true_value. destruct v as [z|[|x l]|[|]]; cbn; split; try discriminate; try (intros _; repeat split; discriminate); try (intros (H1 & H2 & H3); congruence).
  - intros H. repeat split; try discriminate. intros E. injection E as ->. discriminate H.
  - intros (H & _). destruct z; [congruence|reflexivity..].
Qed.
Lemma put_iff little f v w : f <> Gap -> sensible f -> spack_one little (item_of f) v = Ok w <-> put little f v w.
Proof.
  intros G S. destruct f as [n| | |c|]; cbn [item_of put]; [..|congruence].
  - cbn [sensible] in S. cbn [spack_one]. destruct v as [z|l|b]; cbn [spack_one]; try (split; [discriminate|intros (l & E & _); discriminate E]).
    split; [intros H; injection H as <-; exists l; split; [reflexivity|]; now apply in_bytes_iff|]. intros (l' & E & H). injection E as <-. apply in_bytes_iff in H as ->; auto.
  - destruct v as [z|[|x [|y l]]|b]; cbn [spack_one]; (split; [try discriminate; intros H; injection H as <-; eauto|intros (x' & E & ->); try discriminate E; injection E as ->; reflexivity]).
  - cbn [spack_one]. pose proof (truth_iff v) as T. destruct (struth v).
    + split; [intros H; injection H as <-; left; split; [now apply T|reflexivity]|]. intros [[_ ->]|[H _]]; [reflexivity|exfalso; apply H; now apply T].
    + assert (NT : ~ true_value v) by (intros H; apply T in H; discriminate H). split; [intros H; injection H as <-; right; auto|]. intros [[H _]|[_ ->]]; [contradiction|reflexivity].
  - destruct (number_item c S) as (n & sg & E & N & K). cbn [item_of] in E. rewrite E. split.
    + intros H. destruct v as [z|l|b]; cbn [spack_one] in H; [| discriminate H|].
      * exists n, sg, z. split; [now apply K|]. split; [now left|]. now apply pack_iff.
      * exists n, sg, (if b then 1 else 0). split; [now apply K|]. split; [right; eauto|]. now apply pack_iff.
    + intros (n' & sg' & z & I & V & ST). apply K in I. injection I as -> ->. apply pack_iff in ST; [|exact N]. destruct V as [-> | (b & -> & ->)]; exact ST.
Qed.
Lemma spack_cons little f fs v vals : f <> Gap -> sensible f -> spack_items little (item_of f :: map item_of fs) (v :: vals) = (b <- spack_one little (item_of f) v ;; r <- spack_items little (map item_of fs) vals ;; Ok (b ++ r)).
Proof. intros G S. destruct f as [n| | |c|]; try reflexivity; [|congruence]. destruct (number_item c S) as (n & sg & E & _). rewrite E. reflexivity. Qed.
Lemma spack_none little f fs : f <> Gap -> sensible f -> spack_items little (item_of f :: map item_of fs) [] = Err StructError.
Proof. intros G S. destruct f as [n| | |c|]; try reflexivity; [|congruence]. destruct (number_item c S) as (n & sg & E & _). rewrite E. reflexivity. Qed.
Lemma field_gap f : {f = Gap} + {f <> Gap}.
Proof. destruct f; (left; reflexivity) || (right; discriminate). Qed.
Lemma pack_fields little fs : Forall sensible fs -> forall vals b, spack_items little (map item_of fs) vals = Ok b <-> put_all little fs vals b.
Proof.
  induction 1 as [|f fs H F IH]; intros vals b.
  - cbn. destruct vals; (split; [try discriminate; intros E; injection E as <-; constructor|intros E; inversion E; reflexivity]).
  - cbn [map]. destruct (field_gap f) as [->|G].
    + cbn [item_of spack_items]. split.
      * destruct (spack_items little (map item_of fs) vals) as [r|] eqn:E; [|discriminate]. intros Q. injection Q as <-. constructor. now apply IH.
      * intros Q. inversion Q as [|fs' vals' b' P|]; subst; [|congruence]. apply IH in P as ->. reflexivity.
    + destruct vals as [|v vals]; [rewrite spack_none by auto; split; [discriminate|intros Q; inversion Q; subst; congruence]|]. rewrite spack_cons by auto. split.
      * destruct (spack_one little (item_of f) v) as [w|] eqn:W; [|discriminate]. cbn [bind]. destruct (spack_items little (map item_of fs) vals) as [r|] eqn:E; [|discriminate]. intros Q. injection Q as <-.
        constructor; [exact G|now apply put_iff|now apply IH].
      * intros Q. inversion Q as [|fs' vals' b' P|f' v' w fs' vals' b' G' P R]; subst; [congruence|]. apply put_iff in P as ->; auto. apply IH in R as ->. reflexivity.
Qed.
Lemma spack_error little fs vals e : spack_items little (map item_of fs) vals = Err e -> e = StructError.
Proof.
  revert vals. induction fs as [|f fs IH]; intros vals; cbn [map spack_items]; [destruct vals; congruence|].
  assert (O : forall v, spack_one little (item_of f) v = Err e -> e = StructError).
  { intros v. destruct (item_of f) as [[n sg|]|n| |], v as [z|[|x [|y l]]|b]; cbn [spack_one]; unfold pack_int; try congruence; destruct (int_in_range _ _ _); congruence. }
  assert (GEN : (match vals with [] => Err StructError | v :: vs => b <- spack_one little (item_of f) v ;; r <- spack_items little (map item_of fs) vs ;; Ok (b ++ r) end) = Err e -> e = StructError).
  { destruct vals as [|v vals]; [congruence|]. destruct (spack_one little (item_of f) v) eqn:W; cbn [bind]; [|intros Q; injection Q as <-; now apply (O v)]. destruct (spack_items little (map item_of fs) vals) eqn:Q; cbn [bind]; [discriminate|]. intros X. injection X as <-. now apply (IH vals). }
  destruct (item_of f) as [[n sg|]|n| |]; try exact GEN. destruct (spack_items little (map item_of fs) vals) eqn:Q; cbn [bind]; [discriminate|]. intros X. injection X as <-. now apply (IH vals).
Qed.
(** sizes, bytes, and reading back *)
Lemma put_seen little f v w : f <> Gap -> sensible f -> real_value v -> put little f v w -> length w = sitem_size (item_of f) /\ bytes w /\ seen_as f v (sunpack_one little (item_of f) w).
Proof.
  intros G S R P. destruct f as [n| | |c|]; cbn [put] in P; [..|congruence].
  - destruct P as (l & -> & P). cbn [item_of sitem_size sunpack_one seen_as sensible] in *. pose proof P as P'. apply in_bytes_iff in P'; [|exact S]. split; [destruct P as [P _]; unfold zlen in P; lia|]. split; [|eauto].
    rewrite P'. apply bytes_app; [|apply Forall_forall; intros x X; apply repeat_spec in X as ->; unfold is_byte; lia]. cbn in R. unfold bytes in *. rewrite Forall_forall in *. intros x X. apply R. rewrite <- (firstn_skipn (Z.to_nat n) l). apply in_or_app. now left.
  - destruct P as (x & -> & ->). cbn in R |- *. auto.
  - assert (T : exists b, w = [if b : bool then 1 else 0] /\ (b = true <-> true_value v)). { destruct P as [[T ->]|[T ->]]; [exists true|exists false]; split; try reflexivity; split; try discriminate; auto. }
    destruct T as (b & -> & T). split; [reflexivity|]. split; [constructor; [destruct b; unfold is_byte; lia|constructor]|]. cbn [item_of sunpack_one seen_as hd]. exists b. split; [now destruct b|exact T].
  - destruct P as (n & sg & z & I & V & ST). destruct (number_item c S) as (n' & sg' & E & N & K). apply K in I. injection I as -> ->. rewrite E. pose proof ST as (L & B & _). split; [exact L|]. split; [exact B|]. cbn [sunpack_one seen_as]. exists z. split; [exact V|]. f_equal. now apply unpack_iff.
Qed.
Lemma sunpack_cons little f fs b : f <> Gap -> sensible f -> sunpack_items little (item_of f :: map item_of fs) b = sunpack_one little (item_of f) (firstn (sitem_size (item_of f)) b) :: sunpack_items little (map item_of fs) (skipn (sitem_size (item_of f)) b).
Proof. intros G S. destruct f as [n| | |c|]; try reflexivity; [|congruence]. destruct (number_item c S) as (n & sg & E & _). rewrite E. reflexivity. Qed.
Lemma all_seen little fs vals b : Forall sensible fs -> Forall real_value vals -> put_all little fs vals b -> length b = sitems_size (map item_of fs) /\ bytes b /\ seen_all fs vals (sunpack_items little (map item_of fs) b).
Proof.
  intros S R P. induction P as [|fs vals b P IH|f v w fs vals b G Q P IH].
  - split; [reflexivity|]. split; [constructor|constructor].
  - inversion_clear S as [|? ? _ S']. destruct (IH S' R) as (L & B & A). cbn [map item_of sitems_size fold_right sitem_size item_size length sunpack_items skipn]. fold (sitems_size (map item_of fs)). split; [lia|]. split; [constructor; [unfold is_byte; lia|exact B]|]. now constructor.
  - inversion_clear S as [|? ? S1 S']. inversion_clear R as [|? ? R1 R']. destruct (IH S' R') as (L & B & A). destruct (put_seen little f v w G S1 R1 Q) as (L1 & B1 & A1).
    cbn [map]. rewrite sunpack_cons by auto. cbn [sitems_size fold_right]. fold (sitems_size (map item_of fs)). rewrite app_length. split; [lia|]. split; [now apply bytes_app|].
    rewrite <- L1. rewrite firstn_app, skipn_app, Nat.sub_diag, firstn_O, skipn_O, firstn_all, skipn_all, app_nil_r. cbn [app]. now constructor.
Qed.
Lemma format_nonempty little fs : format little fs <> "".
Proof. discriminate. Qed.

(** ** The calls *)
Lemma sunpack_HH data : sunpack ">HH" data = match unpack ">HH" data with Ok l => Ok (map SInt l) | Err e => Err e end.
Proof.
  unfold sunpack, unpack. change (sparse_fmt ">HH") with (@Ok (bool * list sitem) (false, [SCode (FInt 2 false); SCode (FInt 2 false)])).
  change (parse_fmt ">HH") with (Ok {| pf_little := false; pf_items := [FInt 2 false; FInt 2 false] |}). cbn [bind fst snd sitems_size fold_right sitem_size pf_items items_size item_size].
  destruct (length data =? 2 + (2 + 0))%nat; reflexivity.
Qed.
Lemma swrite_as p last u a vals f b n exchange : f <> "" -> vals <> [] -> scalcsize f = Ok (zlen b) -> spack f vals = Ok b -> bytes b -> zlen b = 2 * n -> 1 <= n <= 123 -> fits true a ->
  let e := execute p last (write_formatted u a b (">" ++ py_str_mul (zlen b) "B")) exchange in
  let e' := swrite p last u a vals f exchange in
  nc_last e' = ex_last e /\ nc_sent e' = ex_sent e /\ forall x y, ex_result e = Some (Ok (RTuple [x; y])) -> nc_result e' = Ok [SInt x; SInt y].
Proof.
  intros NF NV CS P B L Hn Ha. cbv zeta. pose proof (pack_rep_B b B) as PB. destruct (words_of_bytes b (Z.to_nat n) B ltac:(unfold zlen in L; lia)) as (ws & Lw & Fw & ->).
  assert (Zw : zlen ws = n) by (unfold zlen; lia). assert (NB : words ws <> []) by (destruct ws; [cbn in Zw; lia|discriminate]).
  set (g := (">" ++ _)%string). assert (NG : g <> "") by (unfold g; discriminate).
  pose proof (build_write_formatted u a (words ws) g ws PB NB NG Ha ltac:(lia)) as BW.
  assert (W : swrite_pdu a vals f = Ok (16 :: word a ++ word (zlen ws) ++ 2 * zlen ws :: words ws)).
  { unfold swrite_pdu. destruct vals as [|v vals]; [congruence|]. destruct f as [|ch f]; [congruence|]. cbn [str_empty negb andb]. rewrite CS. cbn [bind]. rewrite words_zlen.
    replace (2 * zlen ws / 2) with (zlen ws) by lia. rewrite pack_BHHB, byteb_t, !fitsb_t, byteb_t by (auto; unfold fits, is_byte; lia). cbn [andb bind]. rewrite P. cbn [bind].
    rewrite <- !app_comm_cons, <- !app_assoc. reflexivity. }
  unfold swrite, ncall, execute. rewrite W, BW. cbn [bl_pdu]. change (ea_slave (write_formatted u a (words ws) g)) with u.
  destruct (build_request p last _ u) as [last' [[hdr request]|er]]; cbn [nc_last nc_sent nc_result ex_last ex_sent ex_result bl_expected]; [|repeat split; intros; discriminate].
  split; [reflexivity|]. split; [reflexivity|]. intros x y. destruct (exchange request 8) as [response|]; [|discriminate]. cbn [bind]. destruct (parse_response hdr response) as [rp|]; [|discriminate]. cbn [bind].
  unfold execute_decode, sdecode. destruct (unpack2 ">BB" (py_slice rp 0 2)) as [[rc b2]|]; [|discriminate]. cbn [bind]. destruct (128 <? rc); [discriminate|].
  cbn [bl_is_read andb negb bl_format bl_digits]. change (ea_fc (write_formatted u a (words ws) g)) with 16. change (16 =? DEVICE_INFO) with false. change (ea_raw (write_formatted u a (words ws) g)) with false.
  cbn iota. rewrite sunpack_HH. destruct (unpack ">HH" _) as [l|]; [|discriminate]. change (0 <? 0) with false. change (16 =? READ_FILE_RECORD) with false. cbn iota. intros E. injection E as ->. reflexivity.
Qed.
Lemma sread_as p last u a n f g exchange : g <> "" -> fits true a -> fits true n ->
  let e := execute p last (read_formatted u a n g true) exchange in
  let e' := sread p last u true a n f exchange in
  nc_last e' = ex_last e /\ nc_sent e' = ex_sent e /\ forall data, ex_result e = Some (Ok (RRaw data)) -> nc_result e' = sunpack (dflt_format f (">" ++ py_str_mul n "H")) data.
Proof.
  intros NG Ha Hn. cbv zeta. pose proof (build_read_formatted u a n g true Ha Hn NG) as BR.
  unfold sread, ncall, execute. rewrite BR. cbn [bl_pdu]. change (ea_slave (read_formatted u a n g true)) with u.
  rewrite pack_BHH, byteb_t, !fitsb_t by (auto; unfold is_byte; lia). cbn [andb].
  change ([3] ++ word a ++ word n) with (3 :: word a ++ word n).
  destruct (build_request p last _ u) as [last' [[hdr request]|er]]; cbn [nc_last nc_sent nc_result ex_last ex_sent ex_result bl_expected]; [|repeat split; intros; discriminate].
  split; [reflexivity|]. split; [reflexivity|]. intros data. destruct (exchange request (2 * n + 5)) as [response|]; [|discriminate]. cbn [bind]. destruct (parse_response hdr response) as [rp|]; [|discriminate]. cbn [bind].
  unfold execute_decode, sdecode. destruct (unpack2 ">BB" (py_slice rp 0 2)) as [[rc b2]|]; [|discriminate]. cbn [bind]. destruct (128 <? rc); [discriminate|].
  cbn [bl_is_read andb negb bl_format bl_digits]. destruct (negb (b2 =? zlen (py_from rp 2))); [discriminate|]. change (ea_raw (read_formatted u a n g true)) with true. cbn iota. intros E. injection E as <-. reflexivity.
Qed.
(** the write, then a read of the same registers with any format *)
Lemma write_then_read p last d u a vals little fs b n s g : 0 <= last <= 65535 -> db_reachable d -> get_slave d u = Ok s -> fits true a ->
  Forall sensible fs -> Forall real_value vals -> vals <> [] -> put_all little fs vals b -> zlen b = 2 * n -> 1 <= n <= 123 ->
  (exists old, stored s HOLDING_REGISTERS a n old) ->
  let '(d1, e1) := against p d (swrite p last u a vals (format little fs)) in
  let '(d2, e2) := against p d1 (sread p (nc_last e1) u true a n g) in
  nc_result e1 = Ok [SInt a; SInt n] /\ nc_result e2 = sunpack (dflt_format g (">" ++ py_str_mul n "H")) b /\ others_same d d1 u.
Proof.
  intros T D G Ha SF RV NV PA L Hn St. destruct (all_seen little fs vals b SF RV PA) as (LB & B & _). set (f := format little fs). assert (NF : f <> "") by discriminate. pose proof (parse_format little fs SF) as PF. fold f in PF.
  assert (CS : scalcsize f = Ok (zlen b)) by (unfold scalcsize; rewrite PF; cbn [bind snd]; unfold zlen; now rewrite LB).
  assert (P : spack f vals = Ok b) by (unfold spack; rewrite PF; cbn [bind fst snd]; now apply pack_fields). clearbody f.
  assert (NB : b <> []) by (intros ->; change (zlen (@nil Z)) with 0 in L; lia). set (h := (">" ++ py_str_mul (zlen b) "B")%string). assert (NH : h <> "") by (unfold h; discriminate).
  pose proof (C62_format_round_trip p last d u a b h b n s true T D G Ha NH NB (pack_rep_B b B) L Hn St) as RT.
  unfold against, round_trip_args in *.
  destruct (swrite_as p last u a vals f b n (fun request _ => answer d p request) NF NV CS P B L Hn Ha) as (W1 & W2 & W3). fold h in W1, W2, W3.
  set (e1 := execute p last (write_formatted u a b h) _) in *. set (e1' := swrite p last u a vals f _) in *. cbv beta iota zeta in RT |- *. rewrite W2, W1.
  set (d1 := match ex_sent e1 with Some _ => _ | None => _ end) in *.
  destruct (sread_as p (ex_last e1) u a n g h (fun request _ => answer d1 p request) NH Ha ltac:(unfold fits; lia)) as (R1 & R2 & R3).
  set (e2 := execute p (ex_last e1) (read_formatted u a n h true) _) in *. destruct RT as (Q1 & Q2 & Q3).
  split; [now apply W3|]. split; [|exact Q3]. rewrite (R3 b Q2). reflexivity.
Qed.
Lemma words_pairs b : forall n, zlen b = 2 * Z.of_nat n -> bytes b -> sunpack (">" ++ py_str_mul (Z.of_nat n) "H") b = Ok (map (fun k => SInt (256 * nth (2 * k) b 0 + nth (2 * k + 1) b 0)) (seq 0 n)).
Proof.
  intros n L B. unfold py_str_mul. rewrite Nat2Z.id. cbn [append]. unfold sunpack. cbn [sparse_fmt].
  assert (E : sparse_items (str_rep n "H") None = Ok (repeat (SCode (FInt 2 false)) n)).
  { clear. induction n as [|n IH]; [reflexivity|]. cbn [str_rep append sparse_items]. change (digit_of "H"%char) with (@None nat). change (is_space "H"%char) with false. cbv iota. cbn [scode_items code_item bind repeat]. rewrite IH. reflexivity. }
  rewrite E. cbn [bind fst snd]. assert (Z0 : sitems_size (repeat (SCode (FInt 2 false)) n) = (2 * n)%nat) by (clear; induction n as [|n IH]; [reflexivity|]; cbn [repeat sitems_size fold_right sitem_size item_size]; fold (sitems_size (repeat (SCode (FInt 2 false)) n)); lia).
  rewrite Z0. replace (length b =? 2 * n)%nat with true by (symmetry; apply Nat.eqb_eq; unfold zlen in L; lia). f_equal. clear E Z0.
  revert b L B. induction n as [|n IH]; intros b L B; [reflexivity|]. destruct b as [|x [|y b]]; [cbn in L; lia|cbn in L; lia|]. cbn [repeat sunpack_items sitem_size item_size firstn skipn seq map]. f_equal.
  - cbn [sunpack_one]. f_equal. unfold unpack_int. cbv zeta. cbn [andb]. rewrite be_val_2. change (nth (2 * 0) (x :: y :: b) 0) with x. change (nth (2 * 0 + 1) (x :: y :: b) 0) with y. lia.
  - rewrite IH.
    + rewrite <- seq_shift, map_map. apply map_ext. intros k. f_equal. replace (2 * S k)%nat with (S (S (2 * k))) by lia. cbn [nth]. replace (S (S (2 * k)) + 1)%nat with (S (S (2 * k + 1))) by lia. reflexivity.
    + rewrite !zlen_cons in L. lia.
    + inversion_clear B as [|? ? _ B1]. now inversion_clear B1.
Qed.

(** ** Theorems *)
(** Values written with such a format and read with the same format: numbers and characters come back, booleans as their truth, texts as
    they fit in the field. *)
Theorem C104_comes_back : forall p last d u a vals little fs b n s,
  0 <= last <= 65535 -> db_reachable d -> get_slave d u = Ok s -> fits true a ->
  Forall sensible fs -> Forall real_value vals -> vals <> [] -> put_all little fs vals b -> zlen b = 2 * n -> 1 <= n <= 123 ->
  (exists old, stored s HOLDING_REGISTERS a n old) ->
  let '(d1, e1) := against p d (swrite p last u a vals (format little fs)) in
  let '(d2, e2) := against p d1 (sread p (nc_last e1) u true a n (format little fs)) in
  nc_result e1 = Ok [SInt a; SInt n] /\ (exists vals', nc_result e2 = Ok vals' /\ seen_all fs vals vals') /\ others_same d d1 u.
Proof.
  intros p last d u a vals little fs b n s T D G Ha SF RV NV PA L Hn St. destruct (all_seen little fs vals b SF RV PA) as (LB & B & SA).
  pose proof (write_then_read p last d u a vals little fs b n s (format little fs) T D G Ha SF RV NV PA L Hn St) as H.
  destruct (against p d _) as [d1 e1]. destruct (against p d1 _) as [d2 e2]. destruct H as (H1 & H2 & H3). split; [exact H1|]. split; [|exact H3]. eexists. split; [|exact SA].
  rewrite H2. change (dflt_format (format little fs) (">" ++ py_str_mul n "H")) with (format little fs).
  unfold sunpack. rewrite (parse_format little fs SF). cbn [bind fst snd]. now rewrite LB, Nat.eqb_refl.
Qed.
(** The registers themselves: two bytes each, the first one high, whatever the byte order of the format. *)
Theorem C104_registers : forall p last d u a vals little fs b n s,
  0 <= last <= 65535 -> db_reachable d -> get_slave d u = Ok s -> fits true a ->
  Forall sensible fs -> Forall real_value vals -> vals <> [] -> put_all little fs vals b -> zlen b = 2 * n -> 1 <= n <= 123 ->
  (exists old, stored s HOLDING_REGISTERS a n old) ->
  let '(d1, e1) := against p d (swrite p last u a vals (format little fs)) in
  let '(d2, e2) := against p d1 (sread p (nc_last e1) u true a n "") in
  nc_result e2 = Ok (map (fun k => SInt (256 * nth (2 * k) b 0 + nth (2 * k + 1) b 0)) (seq 0 (Z.to_nat n))).
Proof.
  intros p last d u a vals little fs b n s T D G Ha SF RV NV PA L Hn St. destruct (all_seen little fs vals b SF RV PA) as (LB & B & _).
  pose proof (write_then_read p last d u a vals little fs b n s "" T D G Ha SF RV NV PA L Hn St) as H.
  destruct (against p d _) as [d1 e1]. destruct (against p d1 _) as [d2 e2]. destruct H as (_ & H2 & _). rewrite H2. change (dflt_format "" (">" ++ py_str_mul n "H")) with (">" ++ py_str_mul n "H")%string.
  rewrite <- (Z2Nat.id n) at 1 by lia. apply words_pairs; [lia|exact B].
Qed.
(** ** What goes out, and what is refused *)
Lemma swrite_pdu_ok a vals little fs b : Forall sensible fs -> Forall real_value vals -> vals <> [] -> fits true a -> put_all little fs vals b -> zlen b <= 255 ->
  swrite_pdu a vals (format little fs) = Ok (16 :: word a ++ word (zlen b / 2) ++ zlen b :: b).
Proof.
  intros SF RV NV Ha PA L. destruct (all_seen little fs vals b SF RV PA) as (LB & B & _). set (f := format little fs). assert (NF : f <> "") by discriminate. pose proof (parse_format little fs SF) as PF. fold f in PF.
  assert (CS : scalcsize f = Ok (zlen b)) by (unfold scalcsize; rewrite PF; cbn [bind snd]; unfold zlen; now rewrite LB).
  assert (P : spack f vals = Ok b) by (unfold spack; rewrite PF; cbn [bind fst snd]; now apply pack_fields). clearbody f.
  unfold swrite_pdu. destruct vals as [|v vals]; [congruence|]. destruct f as [|ch f]; [congruence|]. cbn [str_empty negb andb]. rewrite CS. cbn [bind]. pose proof (zlen_nonneg b).
  rewrite pack_BHHB, byteb_t, !fitsb_t, byteb_t by (auto; unfold fits, is_byte; lia). cbn [andb bind]. rewrite P. cbn [bind]. rewrite <- !app_comm_cons, <- !app_assoc. reflexivity.
Qed.
Lemma write_pdu_bytes a b : bytes b -> zlen b <= 255 -> bytes (16 :: word a ++ word (zlen b / 2) ++ zlen b :: b) /\ zlen (16 :: word a ++ word (zlen b / 2) ++ zlen b :: b) <= 65534.
Proof.
  intros B L. pose proof (zlen_nonneg b). split.
  - constructor; [unfold is_byte; lia|]. apply bytes_app; [apply word_bytes|]. apply bytes_app; [apply word_bytes|]. constructor; [unfold is_byte; lia|exact B].
  - unfold zlen in *; cbn [length]; rewrite !app_length; cbn [length word]; lia.
Qed.
(** The request: the address, the number of registers, the number of bytes, the bytes of the values. *)
Theorem C104_sent : forall p last u a vals little fs b exchange,
  0 <= last <= 65535 -> 0 <= u <= 255 -> fits true a -> Forall sensible fs -> Forall real_value vals -> vals <> [] -> put_all little fs vals b -> zlen b <= 255 ->
  nc_sent (swrite p last u a vals (format little fs) exchange) = Some (on_wire (ids_for p last) u (16 :: word a ++ word (zlen b / 2) ++ zlen b :: b), 8).
Proof.
  intros p last u a vals little fs b exchange Hl Hu Ha SF RV NV PA L. unfold swrite. rewrite (swrite_pdu_ok a vals little fs b) by auto. unfold ncall.
  destruct (all_seen little fs vals b SF RV PA) as (_ & B & _). destruct (write_pdu_bytes a b B L) as (Bp & Zp). set (pdu := 16 :: _) in *.
  destruct (build_request_exact p last pdu u Bp (framable_small p pdu Zp) Hl Hu) as (h & last' & R & _). rewrite R. reflexivity.
Qed.
(** Values that the format does not take (too many, too few, a wrong type, a number outside its range, a "c" with no or several bytes), and
    more than 255 bytes: struct.error, and nothing is sent. *)
Theorem C104_refused : forall p last u a vals little fs exchange,
  Forall sensible fs -> vals <> [] -> (forall b, put_all little fs vals b -> 255 < zlen b) -> Forall real_value vals ->
  nc_sent (swrite p last u a vals (format little fs) exchange) = None /\ nc_result (swrite p last u a vals (format little fs) exchange) = Err StructError.
Proof.
  intros p last u a vals little fs exchange SF NV NO RV. unfold swrite. enough (E : swrite_pdu a vals (format little fs) = Err StructError) by (rewrite E; now split).
  pose proof (parse_format little fs SF) as PF. unfold swrite_pdu. destruct vals as [|v vals]; [congruence|]. change (str_empty (format little fs)) with false. cbn [negb andb].
  unfold scalcsize, spack. rewrite PF. cbn [bind fst snd]. rewrite pack_BHHB. destruct (_ && _) eqn:C; [|reflexivity]. cbn [bind].
  destruct (spack_items little (map item_of fs) (v :: vals)) as [b|e] eqn:P; [|apply spack_error in P as ->; reflexivity]. exfalso.
  apply (pack_fields little fs SF) in P. pose proof (NO b P) as X. destruct (all_seen little fs (v :: vals) b SF RV P) as (LB & _). rewrite !andb_true_iff, !byte_b_iff in C. unfold is_byte, zlen in *. lia.
Qed.
Lemma ncall_answered {R} p last d u pdu k (decode : list Z -> res R) s r : bytes pdu -> zlen pdu <= 65534 -> 0 <= last <= 65535 -> 1 <= u <= 255 -> get_slave d u = Ok s -> snd (handle_request s pdu false) = Ok r ->
  let '(d1, e) := against p d (fun exchange => ncall p last u (Ok pdu) k exchange decode) in
  d1 = put_slave d u (fst (handle_request s pdu false)) /\ nc_result e = decode r.
Proof.
  intros B F T U G H. destruct (build_request_exact p last pdu u B (framable_small p pdu F) T ltac:(lia)) as (h & last' & E & S & T' & PR).
  unfold against, ncall. rewrite E. cbn [nc_sent nc_result].
  assert (Q : proto_of (ids_for p last) = p) by (now destruct p).
  assert (DB : db_handle_request d p (on_wire (ids_for p last) u pdu) = (put_slave d u (fst (handle_request s pdu false)), Ok (Some (on_wire (ids_for p last) u r)))).
  { rewrite <- Q at 1. rewrite (db_present d (ids_for p last) u pdu s S U G), H. reflexivity. }
  rewrite DB. split; [reflexivity|]. unfold answer. rewrite DB. cbn [snd].
  destruct (on_wire (ids_for p last) u r) as [|x l] eqn:W; [now apply on_wire_nonempty in W|]. cbn [sent bind]. rewrite <- W.
  assert (Sr : sendable (ids_for p last) r).
  { apply (sendable_response _ s pdu false (fst (handle_request s pdu false))); [exact S|]. rewrite <- H. now destruct (handle_request s pdu false). }
  assert (Bw : bytes (on_wire (ids_for p last) u r)) by (apply on_wire_bytes; [unfold is_byte; lia|exact Sr]).
  rewrite (proj2 (PR _ Bw r)); [reflexivity|]. split; [|reflexivity]. destruct p; cbn in *; [exact Logic.I|]. destruct Sr as [_ Sr]. lia.
Qed.
(** A size that is not that of 1 to 123 registers (an odd number of bytes, no byte, more than 246): the request goes out, the slave answers
    "illegal data value" (the call raises ModbusError 3) and nothing changes. *)
Theorem C104_odd : forall p last d u a vals little fs b s,
  0 <= last <= 65535 -> db_reachable d -> get_slave d u = Ok s -> has_table s HOLDING_REGISTERS -> fits true a ->
  Forall sensible fs -> Forall real_value vals -> vals <> [] -> put_all little fs vals b -> zlen b <= 255 -> (forall n, 1 <= n <= 123 -> zlen b <> 2 * n) ->
  let '(d1, e1) := against p d (swrite p last u a vals (format little fs)) in
  nc_result e1 = Err (ModbusError 3) /\ forall v, get_slave d1 v = get_slave d v.
Proof.
  intros p last d u a vals little fs b s Hl D G HT Ha SF RV NV PA L O. destruct (all_seen little fs vals b SF RV PA) as (_ & B & _). destruct (write_pdu_bytes a b B L) as (Bp & Zp).
  destruct (db_reachable_slave d u s D G) as [Rs U]. pose proof (zlen_nonneg b).
  destruct (C13_write_registers s a Rs HT Ha) as (_ & W & _). specialize (W (zlen b / 2) (zlen b) b ltac:(unfold fits; lia)).
  assert (NW : ~ (1 <= zlen b / 2 <= 123 /\ zlen b = 2 * (zlen b / 2))) by (intros [X Y]; now apply (O _ X)). specialize (W NW).
  set (pdu := 16 :: _) in *. pose proof (ncall_answered p last d u pdu 8 (sdecode false ">HH") s [144; 3] Bp Zp Hl ltac:(lia) G ltac:(now rewrite W)) as N.
  unfold swrite. rewrite (swrite_pdu_ok a vals little fs b) by auto. fold pdu. destruct (against p d _) as [d1 e1]. destruct N as (N1 & N2). rewrite N2. split; [reflexivity|]. rewrite N1, W. cbn [fst]. now apply get_slave_put_id.
Qed.
(** A bytes object without data_format: TypeError (it is compared with 0), and nothing is sent. *)
Theorem C104_needs_format : forall p last u a vals1 l vals2 exchange,
  Forall (fun v => exists z, is_number v z /\ -32768 <= z <= 65535) vals1 -> fits true a -> zlen (vals1 ++ SBytes l :: vals2) <= 127 ->
  nc_sent (swrite p last u a (vals1 ++ SBytes l :: vals2) "" exchange) = None /\ nc_result (swrite p last u a (vals1 ++ SBytes l :: vals2) "" exchange) = Err PyTypeError.
Proof.
  intros p last u a vals1 l vals2 exchange F Ha L. set (vals := vals1 ++ SBytes l :: vals2) in *. unfold swrite, swrite_pdu. rewrite andb_false_r. cbn [bind]. pose proof (zlen_nonneg vals).
  replace (2 * zlen vals / 2) with (zlen vals) by lia. rewrite pack_BHHB, byteb_t, !fitsb_t, byteb_t by (auto; unfold fits, is_byte; lia). cbn [andb bind].
  assert (E : spack_registers vals = Err PyTypeError).
  { unfold vals. clear - F. induction F as [|v vals1 (z & V & R) F IH]; [reflexivity|]. cbn [app spack_registers]. rewrite IH.
    assert (PH : forall x, 0 <= x <= 65535 -> exists w, pack ">H" [x] = Ok w) by (intros x X; unfold pack; change (parse_fmt ">H") with (Ok {| pf_little := false; pf_items := [FInt 2 false] |}); cbn [bind pf_items pf_little pack_items]; unfold pack_int, int_in_range; change (2 ^ (8 * Z.of_nat 2)) with 65536; destruct ((0 <=? x) && _) eqn:Q; [cbn [bind]; eauto|lia]).
    assert (Ph : forall x, -32768 <= x < 0 -> exists w, pack ">h" [x] = Ok w) by (intros x X; unfold pack; change (parse_fmt ">h") with (Ok {| pf_little := false; pf_items := [FInt 2 true] |}); cbn [bind pf_items pf_little pack_items]; unfold pack_int, int_in_range; change (2 ^ (8 * Z.of_nat 2 - 1)) with 32768; destruct ((- _ <=? x) && _) eqn:Q; [cbn [bind]; eauto|lia]).
    destruct V as [-> | (b & -> & ->)].
    - destruct (0 <=? z) eqn:Z0; [destruct (PH z ltac:(lia)) as (w & W)|destruct (Ph z ltac:(lia)) as (w & W)]; rewrite W; reflexivity.
    - destruct (PH (if b then 1 else 0) ltac:(destruct b; lia)) as (w & W). rewrite W. reflexivity. }
  rewrite E. now split.
Qed.
(** ** What is not so *)
(** A repeat count means what it says: "...3c..." is "...ccc...", and so for booleans, integers and pad bytes; before "s" it is the length of one text. *)
Lemma parse_front_fields fs r : Forall sensible fs -> sparse_items (String.concat "" (map spelt fs) ++ r)%string None = (items <- sparse_items r None ;; Ok (map item_of fs ++ items)).
Proof.
  induction 1 as [|f fs H F IH]; [cbn [map String.concat append]; destruct (sparse_items r None); reflexivity|]. cbn [map]. rewrite concat_cons, TextProofs.app_assoc_str.
  set (r' := (String.concat "" (map spelt fs) ++ r)%string) in *. destruct f as [n| | |c|]; cbn [spelt].
  - rewrite TextProofs.app_assoc_str. rewrite (count_read sparse_items) by (try exact H; intros c d r'' cnt D; cbn [sparse_items]; rewrite D; destruct cnt; reflexivity).
    cbn [append sparse_items]. change (digit_of "s") with (@None nat). change (is_space "s") with false. cbv iota. cbn [scode_items bind]. rewrite IH. destruct (sparse_items r None); reflexivity.
  - cbn [append sparse_items]. change (digit_of "c") with (@None nat). change (is_space "c") with false. cbv iota. cbn [scode_items bind repeat]. rewrite IH. destruct (sparse_items r None); reflexivity.
  - cbn [append sparse_items]. change (digit_of "?") with (@None nat). change (is_space "?") with false. cbv iota. cbn [scode_items bind repeat]. rewrite IH. destruct (sparse_items r None); reflexivity.
  - destruct H as (p & T). destruct (letter_item c (or_intror (ex_intro _ p T))) as (D & S & K). cbn [append sparse_items]. rewrite D, S. destruct K as [(-> & _) | (n & sg & C & _)].
    { exfalso. cbn in T. repeat (destruct T as [T|T]; [discriminate T|]). exact T. }
    assert (E : scode_items c 1 = Ok [SCode (FInt n sg)]). { cbn [table In] in T. repeat (destruct T as [T|T]; [injection T as <- <-; cbn in C; injection C as <- <-; reflexivity|]). destruct T. }
    cbn [item_of]. rewrite E, C, IH. destruct (sparse_items r None); reflexivity.
  - cbn [append sparse_items]. change (digit_of "x") with (@None nat). change (is_space "x") with false. cbv iota. cbn [scode_items code_item bind repeat]. rewrite IH. destruct (sparse_items r None); reflexivity.
Qed.
Lemma map_rep {A B} (g : A -> B) x n : map g (repeat x n) = repeat (g x) n.
Proof. induction n; cbn [repeat map]; [reflexivity|now rewrite IHn]. Qed.
Theorem C104_counts : forall (little : bool) fs f n fs', Forall sensible fs -> Forall sensible fs' -> sensible f -> (forall k, f <> Text k) -> 0 <= n ->
  sparse_fmt (String (if little then "<" else ">")%char (String.concat "" (map spelt fs) ++ TextModel.py_str n ++ spelt f ++ String.concat "" (map spelt fs'))%string) =
  sparse_fmt (format little (fs ++ repeat f (Z.to_nat n) ++ fs')).
Proof.
  intros little fs f n fs' S S' Sf NT N. assert (R : Forall sensible (repeat f (Z.to_nat n))) by (apply Forall_forall; intros x X; apply repeat_spec in X; now subst x).
  rewrite parse_format by (repeat (apply Forall_app; split); assumption).
  assert (E : sparse_items (String.concat "" (map spelt fs) ++ TextModel.py_str n ++ spelt f ++ String.concat "" (map spelt fs'))%string None = Ok (map item_of (fs ++ repeat f (Z.to_nat n) ++ fs'))).
  { rewrite (parse_front_fields fs _ S), (count_read sparse_items) by (try exact N; intros c d r'' cnt D; cbn [sparse_items]; rewrite D; destruct cnt; reflexivity).
    pose proof (parse_fields fs' S') as P. set (r := String.concat "" (map spelt fs')) in *. rewrite !map_app, map_rep. destruct f as [k| | |c|]; cbn [spelt append].
    - now destruct (NT k).
    - cbn [sparse_items]. change (digit_of "c") with (@None nat). change (is_space "c") with false. cbv iota. cbn [scode_items bind]. rewrite P. reflexivity.
    - cbn [sparse_items]. change (digit_of "?") with (@None nat). change (is_space "?") with false. cbv iota. cbn [scode_items bind]. rewrite P. reflexivity.
    - destruct Sf as (p & T). destruct (letter_item c (or_intror (ex_intro _ p T))) as (D & Sp & K). cbn [append sparse_items]. rewrite D, Sp. destruct K as [(-> & _) | (m & sg & C & _)].
      { exfalso. cbn in T. repeat (destruct T as [T|T]; [discriminate T|]). exact T. }
      assert (E : forall j, scode_items c j = Ok (repeat (SCode (FInt m sg)) j)). { intros j. cbn [table In] in T. repeat (destruct T as [T|T]; [injection T as <- <-; cbn in C; injection C as <- <-; reflexivity|]). destruct T. }
      cbn [item_of]. rewrite E, C, P. reflexivity.
    - cbn [sparse_items]. change (digit_of "x") with (@None nat). change (is_space "x") with false. cbv iota. cbn [scode_items code_item bind]. rewrite P. reflexivity. }
  destruct little; cbn [sparse_fmt]; rewrite E; reflexivity.
Qed.
Example C104_counts_ex : sparse_fmt ">3c12?2s" = sparse_fmt ">ccc????????????2s" /\ Forall sensible [Text 2] /\ sparse_fmt ">3c12?2s" <> sparse_fmt ">3c12?ss".
Proof. split; [reflexivity|]. split; [repeat constructor; cbn; lia|discriminate]. Qed.
(** "A text comes back as it was written": shorter than its field, it comes back with zero bytes behind it ... *)
Theorem C104_short_refuted : ~ forall p d u a l n, db_reachable d -> bytes l -> 1 <= n <= 123 -> zlen l <= 2 * n ->
  let '(d1, e1) := against p d (swrite p 0 u a [SBytes l] (format false [Text (2 * n)])) in
  nc_result e1 = Ok [SInt a; SInt n] -> nc_result (snd (against p d1 (sread p (nc_last e1) u true a n (format false [Text (2 * n)])))) = Ok [SBytes l].
Proof.
  intros H. specialize (H TCP demo_db 3 100 [104; 105] 2 demo_db_reachable ltac:(repeat constructor; unfold is_byte; lia) ltac:(lia) ltac:(cbn; lia)).
  assert (A : nc_result (snd (against TCP demo_db (swrite TCP 0 3 100 [SBytes [104; 105]] (format false [Text 4])))) = Ok [SInt 100; SInt 2]) by (vm_compute; reflexivity).
  assert (B : nc_result (snd (against TCP (fst (against TCP demo_db (swrite TCP 0 3 100 [SBytes [104; 105]] (format false [Text 4])))) (sread TCP 1 3 true 100 2 (format false [Text 4])))) = Ok [SBytes [104; 105; 0; 0]]) by (vm_compute; reflexivity).
  assert (C : nc_last (snd (against TCP demo_db (swrite TCP 0 3 100 [SBytes [104; 105]] (format false [Text 4])))) = 1) by (vm_compute; reflexivity).
  change (2 * 2) with 4 in H. destruct (against TCP demo_db _) as [d1 e1]. cbn [fst snd] in A, B, C. rewrite C in H. rewrite (H A) in B. discriminate B.
Qed.
(** ... and longer than its field it is cut, and no exception tells so. *)
Theorem C104_long_refuted : ~ forall p d u a l n, db_reachable d -> bytes l -> 1 <= n <= 123 -> 2 * n < zlen l ->
  exists e, nc_result (snd (against p d (swrite p 0 u a [SBytes l] (format false [Text (2 * n)])))) = Err e.
Proof.
  intros H. specialize (H TCP demo_db 3 100 [104; 105; 33] 1 demo_db_reachable ltac:(repeat constructor; unfold is_byte; lia) ltac:(lia) ltac:(cbn; lia)). destruct H as (e & H).
  assert (A : nc_result (snd (against TCP demo_db (swrite TCP 0 3 100 [SBytes [104; 105; 33]] (format false [Text 2])))) = Ok [SInt 100; SInt 1]) by (vm_compute; reflexivity).
  change (2 * 1) with 2 in H. rewrite H in A. discriminate A.
Qed.
(** A text of the length of its field does come back. *)
Theorem C104_text_partial : forall p last d u a l n s,
  0 <= last <= 65535 -> db_reachable d -> get_slave d u = Ok s -> fits true a -> bytes l -> zlen l = 2 * n -> 1 <= n <= 123 -> (exists old, stored s HOLDING_REGISTERS a n old) ->
  let '(d1, e1) := against p d (swrite p last u a [SBytes l] (format false [Text (2 * n)])) in
  nc_result (snd (against p d1 (sread p (nc_last e1) u true a n (format false [Text (2 * n)])))) = Ok [SBytes l].
Proof.
  intros p last d u a l n s Hl D G Ha B L Hn St. assert (IB : in_bytes (2 * n) l l) by (split; [exact L|reflexivity]).
  assert (PA : put_all false [Text (2 * n)] [SBytes l] l). { rewrite <- (app_nil_r l) at 2. apply P_value; [discriminate| |constructor]. exists l. auto. }
  pose proof (C104_comes_back p last d u a [SBytes l] false [Text (2 * n)] l n s Hl D G Ha ltac:(constructor; [cbn [sensible]; lia|constructor]) ltac:(constructor; [exact B|constructor]) ltac:(discriminate) PA L Hn St) as H.
  destruct (against p d _) as [d1 e1]. destruct (against p d1 _) as [d2 e2]. cbn [snd]. destruct H as (_ & (vals' & E & S) & _). rewrite E. f_equal.
  inversion S as [| |? ? w ? ? ws _ SA S2]; subst. destruct SA as (l1 & m & X & -> & Q). injection X as <-. inversion S2; subst. f_equal. f_equal. apply (in_bytes_iff (2 * n)) in Q; [|lia]. apply in_bytes_iff in IB; [|lia]. congruence.
Qed.
(** The hypotheses are met: formats as they are written, a mixed record written and read back, its registers. *)
Definition a_record : list field := [Text 5; Char; Flag; Gap; Number "h"%char; Text 0].
Example C104_ex :
  format false a_record = ">5sc?xh0s" /\ format true [Text 12; Number "I"%char] = "<12sI" /\ scalcsize ">5sc?xh0s" = Ok 10 /\ scalcsize ">ssss" = Ok 4 /\
  spack ">4s" [SBytes [1; 2; 3; 4]] = Ok [1; 2; 3; 4] /\ spack ">ssss" [SBytes [1; 2; 3; 4]] = Err StructError /\ spack ">2c" [SBytes [1; 2]] = Err StructError /\ spack ">H" [SBool true] = Ok [0; 1] /\
  put_all false a_record [SBytes [104; 105]; SBytes [33]; SInt 7; SInt (-2); SBytes [9]] [104; 105; 0; 0; 0; 33; 1; 0; 255; 254] /\
  (let '(d1, e1) := against TCP demo_db (swrite TCP 0 3 100 [SBytes [104; 105]; SBytes [33]; SInt 7; SInt (-2); SBytes [9]] ">5sc?xh0s") in
   nc_result e1 = Ok [SInt 100; SInt 5] /\ nc_result (snd (against TCP d1 (sread TCP 1 3 true 100 5 ">5sc?xh0s"))) = Ok [SBytes [104; 105; 0; 0; 0]; SBytes [33]; SBool true; SInt (-2); SBytes []] /\
   nc_result (snd (against TCP d1 (sread TCP 1 3 true 100 5 ""))) = Ok [SInt 26729; SInt 0; SInt 33; SInt 256; SInt 65534]) /\
  nc_result (snd (against TCP demo_db (swrite TCP 0 3 100 [SBytes [1; 2; 3]] ">3s"))) = Err (ModbusError 3).
Proof.
  do 8 (split; [vm_compute; reflexivity|]). split; [|vm_compute; repeat split; reflexivity].
  apply (pack_fields false a_record); [repeat constructor; cbn; try lia; eexists; cbn; eauto 20|vm_compute; reflexivity].
Qed.

Print Assumptions C104_comes_back.
Print Assumptions C104_registers.
Print Assumptions C104_sent.
Print Assumptions C104_refused.
Print Assumptions C104_odd.
Print Assumptions C104_needs_format.
Print Assumptions C104_short_refuted.
Print Assumptions C104_long_refuted.
Print Assumptions C104_text_partial.
Print Assumptions C104_counts.
