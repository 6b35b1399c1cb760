(** C107: the consoles of examples/tcpslave_example.py and examples/rtuslave_example.py.  Vocabulary: [console] (ConsoleModel.v: the lines typed so far, what was printed and
    whether the program still waits for a line), the calls of the API (DatabankModel.v, SlaveModel.v) and the definitions below. *)
From Verif Require Import Base BaseFacts SlaveModel SlaveInv BlockSpec SlaveMore AtomicProofs DatabankModel DbSpec DatabankProofs TextModel SimulatorModel TextProofs SimulatorProofs PropSimulator ConsoleModel.
From Coq Require Import Lia.
Open Scope string_scope.
Open Scope list_scope.
Open Scope Z_scope.

(** ** Spec *)
Inductive wish := AddSlave (id : Z) | AddBlock (id : Z) (name : string) (block_type start length : Z) | SetValues (id : Z) (name : string) (a : Z) (vs : list Z) | GetValues (id : Z) (name : string) (a n : Z).
(** how the user types it *)
Definition in_words (w : wish) : list string :=
  match w with
  | AddSlave id => ["add_slave"; py_str id]
  | AddBlock id name t start length => ["add_block"; py_str id; name; py_str t; py_str start; py_str length]
  | SetValues id name a vs => ["set_values"; py_str id; name; py_str a] ++ map py_str vs
  | GetValues id name a n => ["get_values"; py_str id; name; py_str a; py_str n]
  end.
Definition name_of (w : wish) : string := match w with AddBlock _ name _ _ _ | SetValues _ name _ _ | GetValues _ name _ _ => name | _ => "" end.
Definition typed (w : wish) (line : string) : Prop := no_space (name_of w) = true /\ exists t, all_chars is_crlf t = true /\ line = append (String.concat " " (in_words w)) t.
(** a tuple as Python shows it *)
Definition tuple_text (l : list Z) : string := match l with [v] => "(" ++ py_str v ++ ",)" | _ => "(" ++ String.concat ", " (map py_str l) ++ ")" end%string.
(** the calls of the API that the wish stands for, and what the user is told *)
Definition carried_out (d : databank) (w : wish) (d' : databank) (said : string) : Prop :=
  match w with
  | AddSlave id => add_slave d id true None = (d', Ok tt) /\ said = ("done: slave " ++ py_str id ++ " added")%string
  | AddBlock id name t start length =>
      exists s s', get_slave d id = Ok s /\ add_block s name t start length = (s', Ok tt) /\ d' = put_slave d id s' /\ said = ("done: block " ++ name ++ " added")%string
  | SetValues id name a vs =>
      exists s s' vs', get_slave d id = Ok s /\ set_values s name a (SvSeq vs) = (s', Ok tt) /\ get_values s' name a (zlen vs) = Ok vs' /\ d' = put_slave d id s' /\ said = ("done: values written: " ++ tuple_text vs')%string
  | GetValues id name a n => exists s vs, get_slave d id = Ok s /\ get_values s name a n = Ok vs /\ d' = d /\ said = ("done: values read: " ++ tuple_text vs)%string
  end.

(** ** Proofs *)
Lemma tuple_shown l : py_str_tuple l = tuple_text l.
Proof.
  destruct l as [|v [|w l]]; [reflexivity|reflexivity|]. unfold py_str_tuple, tuple_text.
  assert (K : forall l acc, fold_left (fun s w => s ++ ", " ++ py_str w)%string l acc = String.concat ", " (acc :: map py_str l)).
  { clear. induction l as [|w l IH]; intros acc; [reflexivity|]. cbn [fold_left]. rewrite IH. cbn [map String.concat]. destruct (map py_str l); cbn [String.concat]; now rewrite ?app_assoc_str. }
  rewrite K. reflexivity.
Qed.
Lemma crlf_no_space t : all_chars is_crlf t = true -> no_space t = true.
Proof.
  unfold no_space. apply all_chars_impl. intros c H. destruct (is_space c) eqn:E; [|reflexivity]. exfalso. revert H E. unfold is_crlf, is_space.
  set (n := code c). destruct (n =? 32) eqn:N; [apply Z.eqb_eq in N; rewrite N; discriminate|discriminate].
Qed.
Lemma split_typed l x t : Forall (fun w => no_space w = true) l -> no_space x = true -> all_chars is_crlf t = true ->
  split_space (append (String.concat " " (l ++ [x])) t) = l ++ [append x t].
Proof.
  intros F X T. assert (E : append (String.concat " " (l ++ [x])) t = sentence (l ++ [append x t])).
  { unfold sentence. clear F. induction l as [|y l IH]; [reflexivity|]. cbn [app String.concat]. destruct (l ++ [x]) as [|p q] eqn:Q; [destruct l; discriminate Q|].
    destruct (l ++ [append x t]) as [|p' q'] eqn:Q'; [destruct l; discriminate Q'|]. rewrite !app_assoc_str, IH. reflexivity. }
  rewrite E. apply split_words; [destruct l; discriminate|]. apply Forall_app. split; [exact F|]. constructor; [|constructor].
  unfold no_space in *. rewrite all_chars_app, X. apply crlf_no_space in T. exact T.
Qed.
Lemma int_typed z t : all_chars is_crlf t = true -> py_int (append (py_str z) t) = Ok z.
Proof.
  intros T. rewrite <- (int_of_str z). unfold py_int, strip. f_equal.
  assert (W : all_chars is_white t = true) by (revert T; apply all_chars_impl; exact white_crlf).
  assert (NW : py_str z <> "") by apply solid_num. pose proof (solid_num z) as [_ NW2].
  assert (L : forall u, lstrip is_white (append (py_str z) u) = append (py_str z) u).
  { intros u. destruct (py_str z) as [|c r]; [congruence|]. cbn [append]. apply lstrip_id. cbn in NW2. now destruct (is_white c). }
  rewrite L. pose proof (L "") as L0. rewrite app_nil_str in L0. rewrite L0. now rewrite rstrip_all.
Qed.
Lemma int_nth l i w z : nth_error l i = Some w -> py_int w = Ok z -> int_arg l i = Ok z.
Proof. intros H P. unfold int_arg, arg. now rewrite H. Qed.
Lemma ints_typed vs v t : all_chars is_crlf t = true -> ints (map py_str vs ++ [append (py_str v) t]) = Ok (vs ++ [v]).
Proof. intros T. induction vs as [|w vs IH]; cbn [map app ints]; [rewrite (int_typed v t T)|rewrite int_of_str; cbn [bind]; rewrite IH]; reflexivity. Qed.
Lemma turn_shape d line rest : console d (line :: rest) =
  match console_turn d line with
  | (d', out, Next) => let '(d'', out', e) := console d' rest in (d'', out ++ out', e)
  | (d', out, Break) => (d', out, Quit)
  | (d', out, Raise e) => (d', out, Died e)
  end.
Proof. reflexivity. Qed.
Lemma set_failed sl name a vs sl' e : set_values sl name a (SvSeq vs) = (sl', Err e) -> sl' = sl.
Proof.
  unfold set_values. destruct (get_block sl name) as [[[t i] b]|]; [|intros V; now injection V].
  destruct ((a - b_start b <? 0) || (b_size b <? a - b_start b + zlen vs)); intros V; now injection V.
Qed.
Lemma add_failed sl nm bt st len sl' e : add_block sl nm bt st len = (sl', Err e) -> sl' = sl.
Proof.
  unfold add_block. destruct (len <=? 0); [intros V; now injection V|]. destruct (st <? 0); [intros V; now injection V|].
  destruct (assoc String.eqb nm (sl_names sl)); [intros V; now injection V|]. destruct (btype_of_Z bt); [|intros V; now injection V].
  destruct (mem_get sl b); [|intros V; now injection V]. destruct (add_block_scan _ _ _ _); [discriminate|intros V; now injection V].
Qed.
Lemma set_turn d id name a vs args t0 : db_reachable d -> String.prefix "quit" t0 = false -> split_space t0 = args -> hd "" args = "set_values" ->
  int_arg args 1 = Ok id -> arg args 2 = Ok name -> int_arg args 3 = Ok a -> ints (skipn 4 args) = Ok vs ->
  (forall d' said, carried_out d (SetValues id name a vs) d' said -> console_turn d t0 = (d', [append said crlf], Next)) /\
  (~ (exists d' said, carried_out d (SetValues id name a vs) d' said) -> exists e, console_turn d t0 = (d, [], Raise e)).
Proof.
  intros D Q SP HD I1 I2 I3 I4. unfold console_turn. rewrite SP, Q. cbv zeta. rewrite HD. change (String.eqb "set_values" "add_slave") with false. change (String.eqb "set_values" "add_block") with false.
  change (String.eqb "set_values" "set_values") with true. cbv iota. rewrite I1, I2, I3, I4. cbn [ask]. unfold carried_out.
  destruct (get_slave d id) as [s|e] eqn:G; cbn [ask].
  - destruct (set_values s name a (SvSeq vs)) as [s' [[]|e]] eqn:V.
    + destruct (db_reachable_slave d id s D G) as [R _]. apply reachable_inv in R. destruct (set_get s name a (SvSeq vs) s' R V) as [K _]. cbn [sv_list] in K. rewrite K. cbn [ask]. split.
      * intros d' said (s0 & s1 & vs' & E0 & E1 & E2 & -> & ->). injection E0 as <-. rewrite V in E1. injection E1 as <-. rewrite K in E2. injection E2 as <-. unfold says. now rewrite tuple_shown.
      * intros N. exfalso. apply N. do 2 eexists. do 3 eexists. repeat split; eauto.
    + split; [intros d' said (s0 & s1 & vs' & E0 & E1 & _); injection E0 as <-; congruence|]. intros _. exists e. rewrite (set_failed _ _ _ _ _ _ V), (put_same _ _ _ G). reflexivity.
  - split; [intros d' said (s0 & _ & _ & E0 & _); discriminate|]. intros _. now exists e.
Qed.
Lemma command_turn d w line : db_reachable d -> typed w line ->
  (forall d' said, carried_out d w d' said -> console_turn d line = (d', [append said crlf], Next)) /\
  (~ (exists d' said, carried_out d w d' said) -> exists e, console_turn d line = (d, [], Raise e)).
Proof.
  intros D (N & t & T & ->). destruct w as [id|id name ty st len|id name a vs|id name a n]; cbn [name_of] in N.
  - pose proof (split_typed ["add_slave"] (py_str id) t ltac:(repeat constructor) (py_str_no_space id) T) as SP. cbn [app] in SP.
    unfold console_turn. cbn [in_words]. rewrite SP. change (String.prefix "quit" _) with false. cbv zeta. cbn [hd]. change (String.eqb "add_slave" "add_slave") with true. cbv iota.
    rewrite (int_nth ["add_slave"; append (py_str id) t] 1 _ id eq_refl (int_typed id t T)). cbn [ask]. unfold carried_out. destruct (add_slave d id true None) as [d1 [[]|e]] eqn:A.
    + split; [intros d' said (E & ->); injection E as <-; reflexivity|]. intros X. exfalso. apply X. do 2 eexists. split; reflexivity.
    + split; [intros d' said (E & _); discriminate|]. intros _. exists e. f_equal. f_equal. revert A. unfold add_slave. destruct ((id <=? 0) || (255 <? id)); [intros A; now injection A|].
      destruct (assoc Z.eqb id (db_slaves d)); [intros A; now injection A|discriminate].
  - pose proof (split_typed ["add_block"; py_str id; name; py_str ty; py_str st] (py_str len) t ltac:(repeat constructor; first [exact N|apply py_str_no_space]) (py_str_no_space len) T) as SP. cbn [app] in SP.
    unfold console_turn. cbn [in_words]. rewrite SP. change (String.prefix "quit" _) with false. cbv zeta. cbn [hd]. change (String.eqb "add_block" "add_slave") with false. change (String.eqb "add_block" "add_block") with true. cbv iota.
    set (args := [_; _; _; _; _; _]). rewrite (int_nth args 1 (py_str id) id eq_refl (int_of_str id)), (int_nth args 3 _ ty eq_refl (int_of_str ty)), (int_nth args 4 _ st eq_refl (int_of_str st)), (int_nth args 5 _ len eq_refl (int_typed len t T)).
    change (arg args 2) with (@Ok string name). cbn [ask]. unfold carried_out.
    destruct (get_slave d id) as [s|e] eqn:G; cbn [ask]; [|split; [intros d' said (s0 & _ & E0 & _); discriminate|]; intros _; now exists e].
    destruct (add_block s name ty st len) as [s' [[]|e]] eqn:V.
    + split; [intros d' said (s0 & s1 & E0 & E1 & -> & ->); injection E0 as <-; rewrite V in E1; injection E1 as <-; reflexivity|]. intros X. exfalso. apply X. do 4 eexists. repeat split; eauto.
    + split; [intros d' said (s0 & s1 & E0 & E1 & _); injection E0 as <-; congruence|]. intros _. exists e. rewrite (add_failed _ _ _ _ _ _ _ V), (put_same _ _ _ G). reflexivity.
  - destruct (rev vs) as [|v l] eqn:RV.
    + assert (vs = []) by (rewrite <- (rev_involutive vs), RV; reflexivity). subst vs.
      pose proof (split_typed ["set_values"; py_str id; name] (py_str a) t ltac:(repeat constructor; first [exact N|apply py_str_no_space]) (py_str_no_space a) T) as SP. cbn [app] in SP.
      eapply (set_turn d id name a [] _ _ D); [|exact SP|reflexivity|eapply (int_nth _ 1 (py_str id)); [reflexivity|apply int_of_str]|reflexivity|eapply (int_nth _ 3 (append (py_str a) t)); [reflexivity|now apply int_typed]|reflexivity]. reflexivity.
    + assert (E : vs = rev l ++ [v]) by (rewrite <- (rev_involutive vs), RV; reflexivity). rewrite E. clear E RV. set (k := rev l). clearbody k.
      pose proof (split_typed (["set_values"; py_str id; name; py_str a] ++ map py_str k) (py_str v) t ltac:(apply Forall_app; split; [repeat constructor; first [exact N|apply py_str_no_space]|apply nums_no_space]) (py_str_no_space v) T) as SP.
      rewrite <- !app_assoc in SP. assert (Q : ["set_values"; py_str id; name; py_str a] ++ map py_str k ++ [py_str v] = in_words (SetValues id name a (k ++ [v]))) by (cbn [in_words]; now rewrite map_app). rewrite Q in SP.
      eapply (set_turn d id name a (k ++ [v]) _ _ D); [|exact SP|reflexivity|eapply (int_nth _ 1 (py_str id)); [reflexivity|apply int_of_str]|reflexivity|eapply (int_nth _ 3 (py_str a)); [reflexivity|apply int_of_str]|exact (ints_typed k v t T)]. reflexivity.
  - pose proof (split_typed ["get_values"; py_str id; name; py_str a] (py_str n) t ltac:(repeat constructor; first [exact N|apply py_str_no_space]) (py_str_no_space n) T) as SP. cbn [app] in SP.
    unfold console_turn. cbn [in_words]. rewrite SP. change (String.prefix "quit" _) with false. cbv zeta. cbn [hd]. change (String.eqb "get_values" "add_slave") with false. change (String.eqb "get_values" "add_block") with false. change (String.eqb "get_values" "set_values") with false. change (String.eqb "get_values" "get_values") with true. cbv iota.
    set (args := [_; _; _; _; _]). rewrite (int_nth args 1 (py_str id) id eq_refl (int_of_str id)), (int_nth args 3 _ a eq_refl (int_of_str a)), (int_nth args 4 _ n eq_refl (int_typed n t T)).
    change (arg args 2) with (@Ok string name). cbn [ask]. unfold carried_out.
    destruct (get_slave d id) as [s|e] eqn:G; cbn [ask]; [|split; [intros d' said (s0 & _ & E0 & _); discriminate|]; intros _; now exists e].
    destruct (get_values s name a n) as [vs|e] eqn:V; cbn [ask].
    + split; [intros d' said (s0 & vs' & E0 & E1 & -> & ->); injection E0 as <-; rewrite V in E1; injection E1 as <-; unfold says; now rewrite tuple_shown|]. intros X. exfalso. apply X. do 4 eexists. repeat split; eauto.
    + split; [intros d' said (s0 & vs' & E0 & E1 & _); injection E0 as <-; congruence|]. intros _. now exists e.
Qed.
(* ------------------------------------------------------------------ C107 *)
(** A command that can be carried out is carried out and confirmed, and the next line is read; one that cannot changes nothing, and ends the program and its server. *)
Theorem C107_command : forall d w line rest, db_reachable d -> typed w line ->
  (forall d' said, carried_out d w d' said ->
     console d (line :: rest) = (let '(d'', out, e) := console d' rest in (d'', append said crlf :: out, e))) /\
  (~ (exists d' said, carried_out d w d' said) -> exists e, console d (line :: rest) = (d, [], Died e)).
Proof.
  intros d w line rest D T. destruct (command_turn d w line D T) as [H1 H2]. split.
  - intros d' said C. rewrite turn_shape, (H1 d' said C). destruct (console d' rest) as [[d'' out] e]. reflexivity.
  - intros N. destruct (H2 N) as [e E]. exists e. now rewrite turn_shape, E.
Qed.
Lemma carried_reachable d w d' said : db_reachable d -> carried_out d w d' said -> db_reachable d'.
Proof.
  intros D. destruct w as [id|id name ty st len|id name a vs|id name a n]; cbn [carried_out].
  - intros (E & _). pose proof (db_call d (DbAdd id true None) I D) as R. cbn [db_step] in R. now rewrite E in R.
  - intros (s & s' & G & V & -> & _). pose proof (db_call d (DbCall id (OpAddBlock name ty st len)) I D) as R. cbn [db_step] in R. rewrite G in R. cbn [slave_step] in R. now rewrite V in R.
  - intros (s & s' & vs' & G & V & _ & -> & _). pose proof (db_call d (DbCall id (OpSetValues name a (SvSeq vs))) I D) as R. cbn [db_step] in R. rewrite G in R. cbn [slave_step] in R. now rewrite V in R.
  - intros (s & vs & _ & _ & -> & _). exact D.
Qed.
(** A session: the wishes are carried out one after the other ... *)
Inductive all_carried_out : databank -> list wish -> databank -> list string -> Prop :=
| NoMore d : all_carried_out d [] d []
| OneMore d w d1 said ws d2 out : carried_out d w d1 said -> all_carried_out d1 ws d2 out -> all_carried_out d (w :: ws) d2 (append said crlf :: out).
(** ... and the program goes on from there, unless the next line ends it. *)
Theorem C107_session : forall d ws lines d' out rest, db_reachable d -> Forall2 typed ws lines -> all_carried_out d ws d' out ->
  db_reachable d' /\ console d (lines ++ rest) = (let '(d'', out', e) := console d' rest in (d'', out ++ out', e)).
Proof.
  intros d ws lines d' out rest D T C. revert lines T D. induction C as [d|d w d1 said ws d2 out C1 C IH]; intros lines T D.
  - inversion T; subst. split; [exact D|]. cbn [app]. destruct (console d rest) as [[d'' out'] e]. reflexivity.
  - inversion T as [|w0 l ws0 ls T1 T2]; subst. destruct (IH ls T2 (carried_reachable _ _ _ _ D C1)) as [D2 E]. split; [exact D2|]. cbn [app].
    destruct (C107_command d w l (ls ++ rest) D T1) as [H _]. rewrite (H d1 said C1), E. destruct (console d2 rest) as [[d'' out'] e]. reflexivity.
Qed.
(** A line that begins with "quit" ends the program. *)
Theorem C107_quit : forall d line rest, String.prefix "quit" line = true -> console d (line :: rest) = (d, [append "bye-bye" crlf], Quit) /\ serving_still (snd (console d (line :: rest))) = false.
Proof. intros d line rest Q. rewrite turn_shape. unfold console_turn. now rewrite Q. Qed.
(** Any other line is answered (with its line end) and has no effect. *)
Theorem C107_unknown : forall d line rest, String.prefix "quit" line = false -> ~ In (hd "" (split_space line)) ["add_slave"; "add_block"; "set_values"; "get_values"] ->
  console d (line :: rest) = (let '(d', out, e) := console d rest in (d', append "unknown command " (append (hd "" (split_space line)) crlf) :: out, e)).
Proof.
  intros d line rest Q N. rewrite turn_shape. unfold console_turn. rewrite Q. cbv zeta.
  assert (K : forall x, In x ["add_slave"; "add_block"; "set_values"; "get_values"] -> String.eqb (hd "" (split_space line)) x = false).
  { intros x X. apply String.eqb_neq. intros E. apply N. now rewrite E. }
  rewrite !K by (cbn; auto). unfold says. destruct (console d rest) as [[d' out] e]. cbn [app]. now rewrite app_assoc_str.
Qed.
(** A mistyped command is not reported: it ends the program, and the server with it. *)
Theorem C107_error_refuted : ~ (forall d line, db_reachable d -> String.prefix "quit" line = false -> serving_still (snd (console d [line])) = true).
Proof.
  intros H. assert (D : db_reachable (new_databank true)) by (exists true, []; split; [constructor|reflexivity]).
  specialize (H (new_databank true) "get_values 1 0 0 10" D eq_refl). vm_compute in H. discriminate H.
Qed.
(** ... even two spaces between the values do. *)
Theorem C107_spaces_refuted : exists d, db_reachable d /\ console d [append "set_values 1 0 0 7" crlf] = (fst (fst (console d [append "set_values 1 0 0 7" crlf])), [append "done: values written: (7,)" crlf], Waiting) /\
  console d [append "set_values 1 0 0  7" crlf] = (d, [], Died PyValueError).
Proof.
  exists (db_run (new_databank true) [DbAdd 1 true None; DbCall 1 (OpAddBlock "0" 3 0 100)]). split; [eexists true, _; split; [|reflexivity]; repeat constructor|]. split; vm_compute; reflexivity.
Qed.
(** At the end of the input readline() returns "" at once, every time: the program prints "unknown command" again and again and never ends. *)
Theorem C107_end_of_input_refuted : forall d lines d' out, console d lines = (d', out, Waiting) ->
  forall n, console d (lines ++ repeat "" n) = (d', out ++ repeat (append "unknown command " crlf) n, Waiting).
Proof.
  intros d lines. revert d. induction lines as [|l lines IH]; intros d d' out H n.
  - injection H as <- <-. cbn [app]. induction n as [|n IHn]; [reflexivity|]. cbn [repeat]. rewrite turn_shape. change (console_turn d "") with (says d "unknown command "). unfold says. rewrite IHn. reflexivity.
  - cbn [app]. rewrite turn_shape in H. rewrite turn_shape. destruct (console_turn d l) as [[d1 o1] [| |e]]; [|discriminate H|discriminate H].
    destruct (console d1 lines) as [[d2 o2] e2] eqn:E. injection H as <- <- ->. rewrite (IH d1 d2 o2 E n). now rewrite app_assoc.
Qed.
Example C107_ex : exists d' out, typed (AddSlave 2) (append "add_slave 2" crlf) /\ typed (AddBlock 2 "b" 3 0 10) "add_block 2 b 3 0 10" /\ typed (SetValues 2 "b" 4 [7; -8]) "set_values 2 b 4 7 -8" /\ typed (GetValues 2 "b" 3 2) "get_values 2 b 3 2" /\
  all_carried_out (new_databank true) [AddSlave 2; AddBlock 2 "b" 3 0 10; SetValues 2 "b" 4 [7; -8]; GetValues 2 "b" 3 2] d' out /\
  out = map (fun s => append s crlf) ["done: slave 2 added"; "done: block b added"; "done: values written: (7, -8)"; "done: values read: (0, 7)"].
Proof.
  do 2 eexists. split; [split; [reflexivity|]; exists crlf; split; reflexivity|]. do 3 (split; [split; [reflexivity|]; exists ""; split; reflexivity|]). split.
  - eapply OneMore; [split; [vm_compute; reflexivity|reflexivity]|]. eapply OneMore; [do 2 eexists; split; [vm_compute; reflexivity|]; split; [vm_compute; reflexivity|]; split; reflexivity|].
    eapply OneMore; [do 3 eexists; split; [vm_compute; reflexivity|]; split; [vm_compute; reflexivity|]; split; [vm_compute; reflexivity|]; split; reflexivity|].
    eapply OneMore; [do 2 eexists; split; [vm_compute; reflexivity|]; split; [vm_compute; reflexivity|]; split; reflexivity|]. apply NoMore.
  - vm_compute. reflexivity.
Qed.

Print Assumptions C107_command.
Print Assumptions C107_session.
Print Assumptions C107_quit.
Print Assumptions C107_unknown.
Print Assumptions C107_error_refuted.
Print Assumptions C107_spaces_refuted.
Print Assumptions C107_end_of_input_refuted.
