(** Properties C56, C57, C72, C73, C74: the simulator's commands and its RPC client.  Vocabulary: [whole], [solid], [no_space]
    (SimulatorProofs.v, TextProofs.v), [inside] (BlockSpec.v), [db_reachable] (DbSpec.v). *)
From Verif Require Import Base BaseFacts SlaveModel DatabankModel HooksModel TextModel SimulatorModel TextProofs SimulatorProofs.
From Verif Require Import BlockSpec DbSpec AtomicProofs SlaveMore DatabankProofs.
Open Scope string_scope.
Open Scope list_scope.
Open Scope Z_scope.

(** The simulator's commands: the builtin ones, and custom ones under other names. *)
Definition standard (cmds : list (string * fct)) : Prop :=
  forall n f, assoc String.eqb n builtin_cmds = Some f -> assoc String.eqb n cmds = Some f.
Lemma standard_builtin : standard builtin_cmds.
Proof. intros n f H. exact H. Qed.
(** a custom command: "ping" answers "pong" *)
Definition ping : fct := fun s _ => (s, Ok (Some "pong")).
Definition with_ping := add_command builtin_cmds "ping" ping.
Lemma standard_ping : standard with_ping.
Proof.
  intros n f H. unfold with_ping, add_command. cbn [builtin_cmds assoc_put String.eqb Ascii.eqb Bool.eqb].
  cbn [assoc builtin_cmds] in H |- *.
  repeat match type of H with (if ?b then _ else _) = _ => destruct b; [exact H|] end. discriminate.
Qed.
(** What str() makes of the exceptions does not matter. *)
Definition some_text (e : exn) : string := "oops".

(* ------------------------------------------------------------------ C72 *)
Lemma words_rstrip_nums vs : rstrip is_crlf (sentence (map py_str vs)) = sentence (map py_str vs).
Proof.
  apply rstrip_none. induction vs as [|v vs IH]; [reflexivity|]. destruct vs as [|u vs].
  - exact (all_chars_impl _ _ _ num_not_crlf (py_str_chars v)).
  - cbn [map] in *. rewrite words_cons, all_chars_app. rewrite (all_chars_impl _ _ _ num_not_crlf (py_str_chars v)). exact IH.
Qed.
Lemma nums_no_space vs : Forall (fun w => no_space w = true) (map py_str vs).
Proof. induction vs; constructor; [apply py_str_no_space|assumption]. Qed.
Lemma last_num x vs : solid (last (py_str x :: map py_str vs) "").
Proof.
  revert x. induction vs as [|v vs IH]; intros x; [apply solid_num|]. exact (IH v).
Qed.
Local Ltac nospaces := repeat (apply Forall_cons; [first [assumption|apply py_str_no_space|reflexivity]|]); first [apply Forall_nil|apply nums_no_space].
(** [cmd] run over RPC: E0 is its execution *)
Local Ltac rpc text cmds n1 n2 s w l last E0 A H1 :=
  let G := fresh "G" in
  match type of E0 with ?f _ _ = (?s', ?r) =>
    assert (G : (forall a, r = Ok a -> rstrip is_crlf (show a) = show a /\ whole n2 (append w (append " done: " (append (show a) crlf)))) ->
      rpc_call text cmds n1 n2 s (sentence (w :: l)) = (s', match r with Ok a => Ok (show a) | Err _ => Err GenericException end));
    [ intros R; apply (rpc_general text cmds n1 n2 s w l f s' r);
      [split; [discriminate|reflexivity] | nospaces | apply last | reflexivity | exact A | exact H1 | exact E0 | exact R] | ];
    rewrite G; clear G
  end.
Local Lemma num_rstrip z : rstrip is_crlf (py_str z) = py_str z.
Proof. apply rstrip_none. exact (all_chars_impl _ _ _ num_not_crlf (py_str_chars z)). Qed.
Lemma same_db s : with_db s (sm_db s) = s.
Proof. now destruct s. Qed.

Theorem C72_add_slave : forall text cmds n1 n2 s id, standard cmds ->
  whole n1 (q_add_slave id) -> whole n2 (append "add_slave done: " (append (py_str id) crlf)) ->
  rpc_call text cmds n1 n2 s (q_add_slave id) =
  (with_db s (fst (add_slave (sm_db s) id true None)),
   match snd (add_slave (sm_db s) id true None) with Ok _ => Ok (py_str id) | Err _ => Err GenericException end).
Proof.
  intros text cmds n1 n2 s id C H1 H2.
  pose proof (C "add_slave" _ eq_refl) as A.
  unfold q_add_slave. destruct (do_add_slave s ["add_slave"; py_str id]) as [s' r] eqn:E.
  pose proof E as E0. unfold do_add_slave in E. rewrite (int_arg_num _ _ id) in E by reflexivity. cbn [need] in E.
  destruct (add_slave (sm_db s) id true None) as [d' r'] eqn:AS. injection E as <- <-.
  rpc text cmds n1 n2 s "add_slave" [py_str id] solid_num E0 A H1.
  - cbn [fst snd]. now destruct r'.
  - intros a Ea. destruct r'; [|discriminate]. injection Ea as <-. split; [apply num_rstrip|exact H2].
Qed.

Theorem C72_remove_slave : forall text cmds n1 n2 s id, standard cmds ->
  whole n1 (q_remove_slave id) -> whole n2 (append "remove_slave done: " crlf) ->
  rpc_call text cmds n1 n2 s (q_remove_slave id) =
  (with_db s (fst (remove_slave (sm_db s) id)),
   match snd (remove_slave (sm_db s) id) with Ok _ => Ok "" | Err _ => Err GenericException end).
Proof.
  intros text cmds n1 n2 s id C H1 H2.
  pose proof (C "remove_slave" _ eq_refl) as A.
  unfold q_remove_slave. destruct (do_remove_slave s ["remove_slave"; py_str id]) as [s' r] eqn:E.
  pose proof E as E0. unfold do_remove_slave in E. rewrite (int_arg_num _ _ id) in E by reflexivity. cbn [need] in E.
  destruct (remove_slave (sm_db s) id) as [d' r'] eqn:AS. injection E as <- <-.
  rpc text cmds n1 n2 s "remove_slave" [py_str id] solid_num E0 A H1.
  - cbn [fst snd]. now destruct r'.
  - intros a Ea. destruct r'; [|discriminate]. injection Ea as <-. split; [reflexivity|exact H2].
Qed.

Local Lemma word_solid : solid "remove_all_slaves".
Proof. split; [discriminate|reflexivity]. Qed.
Theorem C72_remove_all_slaves : forall text cmds n1 n2 s, standard cmds ->
  whole n1 q_remove_all_slaves -> whole n2 (append "remove_all_slaves done: " crlf) ->
  rpc_call text cmds n1 n2 s q_remove_all_slaves = (with_db s (remove_all_slaves (sm_db s)), Ok "").
Proof.
  intros text cmds n1 n2 s C H1 H2.
  pose proof (C "remove_all_slaves" _ eq_refl) as A.
  change q_remove_all_slaves with (sentence ["remove_all_slaves"]).
  assert (E0 : do_remove_all_slaves s ["remove_all_slaves"] = (with_db s (remove_all_slaves (sm_db s)), Ok (Some ""))) by reflexivity.
  rpc text cmds n1 n2 s "remove_all_slaves" (@nil string) word_solid E0 A H1; [reflexivity|].
  intros a Ea. injection Ea as <-. split; [reflexivity|exact H2].
Qed.

Theorem C72_has_slave : forall text cmds n1 n2 s id, standard cmds ->
  whole n1 (q_has_slave id) -> whole n2 (append "has_slave done: 1" crlf) ->
  client_has_slave text cmds n1 n2 s id =
  (s, Ok (match get_slave (sm_db s) id with Ok _ => true | Err _ => false end)).
Proof.
  intros text cmds n1 n2 s id C H1 H2.
  pose proof (C "has_slave" _ eq_refl) as A. unfold client_has_slave, q_has_slave.
  destruct (do_has_slave s ["has_slave"; py_str id]) as [s' r] eqn:E.
  pose proof E as E0. unfold do_has_slave in E. rewrite (int_arg_num _ _ id) in E by reflexivity. cbn [need] in E.
  injection E as <- <-.
  rpc text cmds n1 n2 s "has_slave" [py_str id] solid_num E0 A H1.
  - cbn [fst snd]. now destruct (get_slave (sm_db s) id).
  - intros a Ea. injection Ea as <-. destruct (get_slave (sm_db s) id); split; solve [reflexivity|exact H2].
Qed.

(** a direct call on the slave's object *)
Definition on_slave {A} (s : sim) (id : Z) (f : slave -> slave * res A) : sim * res A :=
  match get_slave (sm_db s) id with
  | Ok sl => (with_db s (put_slave (sm_db s) id (fst (f sl))), snd (f sl))
  | Err e => (s, Err e)
  end.

Theorem C72_add_block : forall text cmds n1 n2 s id name block_type start length, standard cmds -> solid name ->
  whole n1 (q_add_block id name block_type start length) -> whole n2 (append "add_block done: " (append name crlf)) ->
  rpc_call text cmds n1 n2 s (q_add_block id name block_type start length) =
  (fst (on_slave s id (fun sl => add_block sl name block_type start length)),
   match snd (on_slave s id (fun sl => add_block sl name block_type start length)) with Ok _ => Ok name | Err _ => Err GenericException end).
Proof.
  intros text cmds n1 n2 s id name bt st len C N H1 H2.
  pose proof (C "add_block" _ eq_refl) as A. unfold q_add_block.
  set (args := ["add_block"; py_str id; name; py_str bt; py_str st; py_str len]) in *.
  destruct (do_add_block s args) as [s' r] eqn:E.
  pose proof E as E0. unfold do_add_block in E. rewrite (int_arg_num args 1 id), (int_arg_num args 3 bt), (int_arg_num args 4 st), (int_arg_num args 5 len) in E by reflexivity.
  cbn [need arg nth_error args] in E. unfold on_slave.
  pose proof (not_white_no_space _ (proj2 N)) as NS.
  subst args. rpc text cmds n1 n2 s "add_block" [py_str id; name; py_str bt; py_str st; py_str len] solid_num E0 A H1.
  - destruct (get_slave (sm_db s) id) as [sl|e]; cbn [need] in E; [|injection E as <- <-; reflexivity].
    destruct (add_block sl name bt st len) as [sl' r']. injection E as <- <-. cbn [fst snd]. now destruct r'.
  - intros a ->. destruct (get_slave (sm_db s) id) as [sl|e]; cbn [need] in E; [|discriminate].
    destruct (add_block sl name bt st len) as [sl' r']. destruct r'; [|discriminate]. injection E as _ <-. cbn [show].
    split; [|exact H2]. apply rstrip_none, not_white_not_crlf, N.
Qed.

Theorem C72_remove_block : forall text cmds n1 n2 s id name, standard cmds -> solid name ->
  whole n1 (q_remove_block id name) -> whole n2 (append "remove_block done: None" crlf) ->
  rpc_call text cmds n1 n2 s (q_remove_block id name) =
  (fst (on_slave s id (fun sl => remove_block sl name)),
   match snd (on_slave s id (fun sl => remove_block sl name)) with Ok _ => Ok "None" | Err _ => Err GenericException end).
Proof.
  intros text cmds n1 n2 s id name C N H1 H2.
  pose proof (C "remove_block" _ eq_refl) as A. unfold q_remove_block.
  set (args := ["remove_block"; py_str id; name]) in *.
  destruct (do_remove_block s args) as [s' r] eqn:E.
  pose proof E as E0. unfold do_remove_block in E. rewrite (int_arg_num args 1 id) in E by reflexivity.
  cbn [need arg nth_error args] in E. unfold on_slave.
  pose proof (not_white_no_space _ (proj2 N)) as NS.
  subst args. rpc text cmds n1 n2 s "remove_block" [py_str id; name] N E0 A H1.
  - destruct (get_slave (sm_db s) id) as [sl|e]; cbn [need] in E; [|injection E as <- <-; reflexivity].
    destruct (remove_block sl name) as [sl' r']. injection E as <- <-. cbn [fst snd]. now destruct r'.
  - intros a ->. destruct (get_slave (sm_db s) id) as [sl|e]; cbn [need] in E; [|discriminate].
    destruct (remove_block sl name) as [sl' r']. destruct r'; [|discriminate]. injection E as _ <-. split; [reflexivity|exact H2].
Qed.

Theorem C72_remove_all_blocks : forall text cmds n1 n2 s id, standard cmds ->
  whole n1 (q_remove_all_blocks id) -> whole n2 (append "remove_all_blocks done: None" crlf) ->
  rpc_call text cmds n1 n2 s (q_remove_all_blocks id) =
  (fst (on_slave s id (fun sl => (remove_all_blocks sl, Ok tt))),
   match get_slave (sm_db s) id with Ok _ => Ok "None" | Err _ => Err GenericException end).
Proof.
  intros text cmds n1 n2 s id C H1 H2.
  pose proof (C "remove_all_blocks" _ eq_refl) as A. unfold q_remove_all_blocks.
  set (args := ["remove_all_blocks"; py_str id]) in *.
  destruct (do_remove_all_blocks s args) as [s' r] eqn:E.
  pose proof E as E0. unfold do_remove_all_blocks in E. rewrite (int_arg_num args 1 id) in E by reflexivity.
  cbn [need] in E. unfold on_slave.
  subst args. rpc text cmds n1 n2 s "remove_all_blocks" [py_str id] solid_num E0 A H1.
  - destruct (get_slave (sm_db s) id) as [sl|e]; cbn [need] in E; injection E as <- <-; reflexivity.
  - intros a ->. destruct (get_slave (sm_db s) id) as [sl|e]; cbn [need] in E; [|discriminate].
    injection E as _ <-. split; [reflexivity|exact H2].
Qed.

Lemma q_set_values_words id name address values :
  q_set_values id name address values = sentence ("set_values" :: py_str id :: name :: py_str address :: map py_str values).
Proof. unfold q_set_values. rewrite fold_words. reflexivity. Qed.
(** set_values answers with the values read back. *)
Theorem C72_set_values : forall text cmds n1 n2 s id name address values, standard cmds -> no_space name = true ->
  db_reachable (sm_db s) ->
  whole n1 (q_set_values id name address values) ->
  whole n2 (append "set_values done: " (append (sentence (map py_str values)) crlf)) ->
  rpc_call text cmds n1 n2 s (q_set_values id name address values) =
  (fst (on_slave s id (fun sl => set_values sl name address (SvSeq values))),
   match snd (on_slave s id (fun sl => set_values sl name address (SvSeq values))) with
   | Ok _ => Ok (sentence (map py_str values))
   | Err _ => Err GenericException
   end).
Proof.
  intros text cmds n1 n2 s id name address values C N D H1 H2.
  pose proof (C "set_values" _ eq_refl) as A. rewrite q_set_values_words in *.
  set (args := "set_values" :: py_str id :: name :: py_str address :: map py_str values) in *.
  destruct (do_set_values s args) as [s' r] eqn:E.
  pose proof E as E0. unfold do_set_values in E. rewrite (int_arg_num args 1 id), (int_arg_num args 3 address) in E by reflexivity.
  cbn [need arg nth_error args skipn] in E. rewrite ints_of_strs in E. cbn [need] in E. unfold on_slave.
  assert (K : forall sl, get_slave (sm_db s) id = Ok sl -> forall sl', set_values sl name address (SvSeq values) = (sl', Ok tt) ->
              get_values sl' name address (zlen values) = Ok values).
  { intros sl G sl' V. destruct (db_reachable_slave _ _ _ D G) as [R _]. apply reachable_inv in R.
    now destruct (set_get sl name address (SvSeq values) sl' R V). }
  subst args. rpc text cmds n1 n2 s "set_values" (py_str id :: name :: py_str address :: map py_str values) (last_num address values) E0 A H1.
  - destruct (get_slave (sm_db s) id) as [sl|e]; cbn [need] in E; [|injection E as <- <-; reflexivity].
    destruct (set_values sl name address (SvSeq values)) as [sl' r'] eqn:V. injection E as <- <-. cbn [fst snd]. destruct r' as [[]|]; [|reflexivity].
    cbn [bind]. rewrite (K sl eq_refl sl' V). cbn [bind show]. now rewrite tuple_words.
  - intros a ->. destruct (get_slave (sm_db s) id) as [sl|e]; cbn [need] in E; [|discriminate].
    destruct (set_values sl name address (SvSeq values)) as [sl' r'] eqn:V. destruct r' as [[]|]; [|discriminate].
    cbn [bind] in E. rewrite (K sl eq_refl sl' V) in E. cbn [bind] in E. injection E as _ <-. cbn [show]. rewrite tuple_words.
    split; [apply words_rstrip_nums|exact H2].
Qed.

Theorem C72_get_values : forall text cmds n1 n2 s id name address length, standard cmds -> no_space name = true ->
  whole n1 (q_get_values id name address length) ->
  (forall sl vs, get_slave (sm_db s) id = Ok sl -> get_values sl name address length = Ok vs ->
     vs <> [] /\ whole n2 (append "get_values done: " (append (sentence (map py_str vs)) crlf))) ->
  client_get_values text cmds n1 n2 s id name address length =
  (s, match get_slave (sm_db s) id with
      | Ok sl => match get_values sl name address length with Ok vs => Ok vs | Err _ => Err GenericException end
      | Err _ => Err GenericException
      end).
Proof.
  intros text cmds n1 n2 s id name address length C N H1 H2.
  pose proof (C "get_values" _ eq_refl) as A. unfold client_get_values, q_get_values in *.
  set (args := ["get_values"; py_str id; name; py_str address; py_str length]) in *.
  destruct (do_get_values s args) as [s' r] eqn:E.
  pose proof E as E0. unfold do_get_values in E.
  rewrite (int_arg_num args 1 id), (int_arg_num args 3 address), (int_arg_num args 4 length) in E by reflexivity.
  cbn [need arg nth_error args] in E.
  subst args. rpc text cmds n1 n2 s "get_values" [py_str id; name; py_str address; py_str length] solid_num E0 A H1.
  - destruct (get_slave (sm_db s) id) as [sl|e] eqn:G; cbn [need] in E; [|injection E as <- <-; reflexivity].
    destruct (get_values sl name address length) as [vs|e] eqn:V; injection E as <- <-; [|reflexivity].
    cbn [bind show]. rewrite tuple_words. destruct (H2 sl vs eq_refl V) as [N0 _]. unfold parse_values. cbn [bind].
    rewrite split_words; [now rewrite ints_of_strs| |apply nums_no_space]. destruct vs; [congruence|discriminate].
  - intros a ->. destruct (get_slave (sm_db s) id) as [sl|e] eqn:G; cbn [need] in E; [|discriminate].
    destruct (get_values sl name address length) as [vs|e] eqn:V; [|discriminate]. injection E as _ <-. cbn [show]. rewrite tuple_words.
    split; [apply words_rstrip_nums|]. now apply (H2 sl vs).
Qed.

Theorem C72_install_hook : forall text cmds n1 n2 s hook_name fct_name, standard cmds -> no_space hook_name = true -> solid fct_name ->
  whole n1 (q_install_hook hook_name fct_name) -> whole n2 (append "install_hook done: None" crlf) ->
  rpc_call text cmds n1 n2 s (q_install_hook hook_name fct_name) =
  match assoc String.eqb fct_name (sm_fcts s) with
  | Some f => (with_hooks s (install_hook (sm_hooks s) hook_name f), Ok "None")
  | None => (s, Err GenericException)
  end.
Proof.
  intros text cmds n1 n2 s hn fn C N1 N2 H1 H2.
  pose proof (C "install_hook" _ eq_refl) as A. unfold q_install_hook in *.
  destruct (do_install_hook s ["install_hook"; hn; fn]) as [s' r] eqn:E.
  pose proof E as E0. unfold do_install_hook in E. cbn [need arg nth_error] in E.
  pose proof (not_white_no_space _ (proj2 N2)) as NS.
  rpc text cmds n1 n2 s "install_hook" [hn; fn] N2 E0 A H1.
  - destruct (assoc String.eqb fn (sm_fcts s)) as [f|]; injection E as <- <-; reflexivity.
  - intros a ->. destruct (assoc String.eqb fn (sm_fcts s)) as [f|]; [|discriminate]. injection E as _ <-. split; [reflexivity|exact H2].
Qed.

(** uninstall_hook removes every function of the hook, whatever function is named. *)
Theorem C74_all_partial : forall text cmds n1 n2 s hook_name fct_name, standard cmds ->
  solid hook_name -> fct_name = "" \/ solid fct_name ->
  whole n1 (q_uninstall_hook hook_name fct_name) -> whole n2 (append "uninstall_hook done: None" crlf) ->
  rpc_call text cmds n1 n2 s (q_uninstall_hook hook_name fct_name) =
  (with_hooks s (fst (uninstall_hook (sm_hooks s) hook_name None)), Ok "None").
Proof.
  intros text cmds n1 n2 s hn fn C N1 N2 H1 H2.
  pose proof (C "uninstall_hook" _ eq_refl) as A. unfold q_uninstall_hook in *.
  pose proof (not_white_no_space _ (proj2 N1)) as NS1.
  assert (R : forall a : answer, @Ok answer None = Ok a -> rstrip is_crlf (show a) = show a /\ whole n2 (append "uninstall_hook" (append " done: " (append (show a) crlf)))).
  { intros a Ea. injection Ea as <-. split; [reflexivity|exact H2]. }
  destruct N2 as [-> |N2].
  - change (sentence ["uninstall_hook"; hn; ""]) with (append "uninstall_hook " (append hn " ")) in *.
    replace (append "uninstall_hook " (append hn " ")) with (append (sentence ["uninstall_hook"; hn]) " ") in * by reflexivity.
    apply (rpc_general_t text cmds n1 n2 s "uninstall_hook" [hn] " " do_uninstall_hook _ (Ok None));
      [reflexivity|reflexivity|split; [discriminate|reflexivity]|nospaces|exact N1|reflexivity|exact A|exact H1|reflexivity|exact R].
  - pose proof (not_white_no_space _ (proj2 N2)) as NS2.
    apply (rpc_general text cmds n1 n2 s "uninstall_hook" [hn; fn] do_uninstall_hook _ (Ok None));
      [split; [discriminate|reflexivity]|nospaces|exact N2|reflexivity|exact A|exact H1|reflexivity|exact R].
Qed.
Example C72_ex :
  (** add a slave, add a block to it, write and read it, all over RPC; writing out of the block fails *)
  let call s q := rpc_call some_text with_ping 1460 1460 s q in
  let s0 := {| sm_db := new_databank true; sm_hooks := []; sm_fcts := []; sm_verbose := 0 |} in
  let s1 := fst (call s0 (q_add_slave 12)) in
  let s2 := fst (call s1 (q_add_block 12 "toto" 1 0 100)) in
  let s3 := fst (call s2 (q_set_values 12 "toto" 0 [5; -8; 70000])) in
  snd (call s0 (q_add_slave 12)) = Ok "12" /\ snd (call s1 (q_add_slave 12)) = Err GenericException /\
  snd (call s1 (q_add_block 12 "toto" 1 0 100)) = Ok "toto" /\
  snd (call s2 (q_set_values 12 "toto" 0 [5; -8; 70000])) = Ok "5 -8 70000" /\
  snd (client_get_values some_text with_ping 1460 1460 s3 12 "toto" 1 2) = Ok [-8; 70000] /\
  call s3 (q_set_values 12 "toto" 99 [1; 2]) = (s3, Err GenericException) /\
  client_has_slave some_text with_ping 1460 1460 s3 12 = (s3, Ok true) /\
  snd (call s3 q_remove_all_slaves) = Ok "".
Proof. vm_compute. repeat split; reflexivity. Qed.

(* ------------------------------------------------------------------ C57 *)
(** The whole of every message must be there when it is read, and fit in 1024 bytes. *)
Theorem C57_round_trip_partial : forall text cmds n1 n2 n3 n4 s id sl name address values, standard cmds ->
  db_reachable (sm_db s) -> get_slave (sm_db s) id = Ok sl -> registered sl name -> inside sl name address (zlen values) ->
  no_space name = true -> values <> [] ->
  whole n1 (q_set_values id name address values) ->
  whole n2 (append "set_values done: " (append (sentence (map py_str values)) crlf)) ->
  whole n3 (q_get_values id name address (zlen values)) ->
  whole n4 (append "get_values done: " (append (sentence (map py_str values)) crlf)) ->
  exists s', rpc_call text cmds n1 n2 s (q_set_values id name address values) = (s', Ok (sentence (map py_str values))) /\
    client_get_values text cmds n3 n4 s' id name address (zlen values) = (s', Ok values).
Proof.
  intros text cmds n1 n2 n3 n4 s id sl name address values C D G Reg I N V H1 H2 H3 H4.
  destruct (db_reachable_slave _ _ _ D G) as [R _]. apply reachable_inv in R.
  destruct (set_values_cases sl name address (SvSeq values) R) as (_ & K & _).
  destruct (K Reg) as [sl' E]; [now apply inside_iff|].
  exists (with_db s (put_slave (sm_db s) id sl')). split.
  - rewrite C72_set_values by assumption. unfold on_slave. rewrite G, E. reflexivity.
  - assert (V' : get_values sl' name address (zlen values) = Ok values) by now destruct (set_get sl name address (SvSeq values) sl' R E).
    rewrite C72_get_values; auto.
    + cbn [with_db sm_db]. rewrite get_slave_put_same, V'. reflexivity.
    + cbn [with_db sm_db]. intros sl2 vs G2 V2. rewrite get_slave_put_same in G2. injection G2 as <-. rewrite V' in V2. injection V2 as <-. auto.
Qed.
(** A number written as text is read back, whatever it is. *)
Theorem C57_numbers : forall z, py_int (py_str z) = Ok z.
Proof. exact int_of_str. Qed.
Theorem C57_numbers_distinct : forall y z, py_str y = py_str z -> y = z.
Proof. intros y z E. pose proof (int_of_str y) as H. rewrite E, int_of_str in H. now injection H. Qed.

(** a simulator with slave 12, block "regs" of 400 registers at 0 *)
Definition sim_db (vals : list Z) : databank :=
  db_run (new_databank true) [DbAdd 12 true None; DbCall 12 (OpAddBlock "regs" 3 0 400); DbCall 12 (OpSetValues "regs" 0 (SvSeq vals))].
Definition sim_of (vals : list Z) : sim := {| sm_db := sim_db vals; sm_hooks := []; sm_fcts := [("print_me", 7)]; sm_verbose := 0 |}.
Lemma sim_of_reachable vals : db_reachable (sm_db (sim_of vals)).
Proof. eexists true, _. split; [|reflexivity]. repeat constructor. Qed.
Example C57_ex : exists sl s', get_slave (sm_db (sim_of [])) 12 = Ok sl /\ registered sl "regs" /\ inside sl "regs" 5 3 /\
  whole 1460 (q_set_values 12 "regs" 5 [65535; -1; 0]) /\
  rpc_call some_text builtin_cmds 1460 1460 (sim_of []) (q_set_values 12 "regs" 5 [65535; -1; 0]) = (s', Ok "65535 -1 0") /\
  client_get_values some_text builtin_cmds 1460 1460 s' 12 "regs" 5 3 = (s', Ok [65535; -1; 0]).
Proof.
  destruct (get_slave (sm_db (sim_of [])) 12) as [sl|] eqn:G; [|discriminate G].
  pose proof (db_reachable_slave _ _ _ (sim_of_reachable []) G) as [R _]. apply reachable_inv in R.
  assert (Reg : registered sl "regs") by (injection G as <-; discriminate).
  assert (I : inside sl "regs" 5 3).
  { apply (inside_iff _ _ _ _ R). injection G as <-.
    eexists HOLDING_REGISTERS, [], _, []. split.
    - exists 0. split; [reflexivity|]. split; [discriminate|]. split; [reflexivity|]. split; [reflexivity|intros c []].
    - split; vm_compute; discriminate. }
  exists sl. destruct (C57_round_trip_partial some_text builtin_cmds 1460 1460 1460 1460 (sim_of []) 12 sl "regs" 5 [65535; -1; 0] standard_builtin
    (sim_of_reachable []) G Reg I) as (s' & E1 & E2); try reflexivity; try discriminate; try (split; apply Nat.leb_le; vm_compute; reflexivity).
  exists s'. split; [reflexivity|]. split; [exact Reg|]. split; [exact I|]. split; [split; apply Nat.leb_le; vm_compute; reflexivity|]. split; [exact E1|exact E2].
Qed.

(** The value written is not the one asked for when the query comes in two pieces, and it is reported as a success. *)
Theorem C57_split_query_refuted :
  ~ (forall n1 s id name address values s' a, rpc_call some_text builtin_cmds n1 1460 s (q_set_values id name address values) = (s', Ok a) ->
       (0 < n1)%nat -> a = sentence (map py_str values)).
Proof.
  intros H. specialize (H 24%nat (sim_of []) 12 "regs" 5 [12345]
    (fst (rpc_call some_text builtin_cmds 24 1460 (sim_of []) (q_set_values 12 "regs" 5 [12345]))) "123").
  assert (E : rpc_call some_text builtin_cmds 24 1460 (sim_of []) (q_set_values 12 "regs" 5 [12345]) =
    (fst (rpc_call some_text builtin_cmds 24 1460 (sim_of []) (q_set_values 12 "regs" 5 [12345])), Ok "123")) by (vm_compute; reflexivity).
  specialize (H E ltac:(lia)). vm_compute in H. discriminate H.
Qed.
(** A long answer is cut: fewer values than asked for are returned, and the last one is wrong. *)
Theorem C57_long_answer_refuted :
  ~ (forall s id sl name address length vs n1 n2 s' l, db_reachable (sm_db s) -> get_slave (sm_db s) id = Ok sl ->
       get_values sl name address length = Ok vs -> (2000 <= n1)%nat -> (3000 <= n2)%nat ->
       client_get_values some_text builtin_cmds n1 n2 s id name address length = (s', Ok l) -> l = vs).
Proof.
  intros H. set (vals := 1 :: repeat 12345 399).
  destruct (get_slave (sm_db (sim_of vals)) 12) as [sl|] eqn:G; [|vm_compute in G; discriminate G].
  assert (V : get_values sl "regs" 0 400 = Ok vals) by (vm_compute in G; injection G as <-; vm_compute; reflexivity).
  assert (E : client_get_values some_text builtin_cmds 2000 3000 (sim_of vals) 12 "regs" 0 400 =
     (sim_of vals, Ok (1 :: repeat 12345 167 ++ [123]))).
  { vm_compute. reflexivity. }
  specialize (H (sim_of vals) 12 sl "regs" 0 400 vals 2000%nat 3000%nat _ _ (sim_of_reachable vals) G V ltac:(lia) ltac:(lia) E).
  vm_compute in H. discriminate H.
Qed.
(** Reading no value at all raises. *)
Theorem C57_empty_refuted :
  ~ (forall s id sl name address vs, db_reachable (sm_db s) -> get_slave (sm_db s) id = Ok sl ->
       get_values sl name address (zlen vs) = Ok vs ->
       snd (client_get_values some_text builtin_cmds 1460 1460 s id name address (zlen vs)) = Ok vs).
Proof.
  intros H. destruct (get_slave (sm_db (sim_of [])) 12) as [sl|] eqn:G; [|vm_compute in G; discriminate G].
  assert (V : get_values sl "regs" 0 0 = Ok []) by (vm_compute in G; injection G as <-; reflexivity).
  specialize (H (sim_of []) 12 sl "regs" 0 [] (sim_of_reachable []) G V). vm_compute in H. discriminate H.
Qed.
(** uninstall_hook(name, function) removes the other functions too. *)
Theorem C74_one_refuted :
  ~ (forall s hook_name fct_name f, assoc String.eqb fct_name (sm_fcts s) = Some f ->
       let s' := fst (rpc_call some_text builtin_cmds 1460 1460 s (q_uninstall_hook hook_name fct_name)) in
       forall g, g <> f -> forall l l', assoc String.eqb hook_name (sm_hooks s) = Some l ->
         assoc String.eqb hook_name (sm_hooks s') = Some l' -> In g l -> In g l').
Proof.
  intros H. set (s := {| sm_db := new_databank true; sm_hooks := [("h", [7; 8])]; sm_fcts := [("a", 7); ("b", 8)]; sm_verbose := 0 |}).
  specialize (H s "h" "a" 7 eq_refl 8 ltac:(discriminate) [7; 8] [] eq_refl). vm_compute in H.
  apply H; auto.
Qed.

(* ------------------------------------------------------------------ C56 *)
(** the first word of a command line *)
Definition command_word (line : string) : string := hd "" (split_space (strip is_crlf line)).
(** the answer belongs to the command *)
Definition answers_to (cmds : list (string * fct)) (line answer : string) : Prop :=
  let w := command_word line in
  (assoc String.eqb w cmds <> None /\
     exists x, answer = append w (append " done: " (append x crlf)) \/ answer = append w (append " error: " (append x crlf))) \/
  (assoc String.eqb w cmds = None /\ answer = append "error: unknown command " (append w crlf)).
(** For every set of commands (custom ones included, which may raise), from every state: lines that do not begin with
    "quit" get one answer each, in order, and the simulator goes on. *)
Theorem C56_one_answer_each_partial : forall text cmds s lines,
  Forall (fun line => String.prefix "quit" line = false) lines ->
  exists s' out, sim_run text cmds s (map Text lines) = (s', out, Running) /\ Forall2 (answers_to cmds) lines out.
Proof.
  intros text cmds s lines F. revert s. induction F as [|c l Q F IH]; intros s; [cbn; eauto|].
  cbn [map sim_run]. unfold sim_step. rewrite Q. unfold answers_to, command_word.
  destruct (assoc String.eqb (hd "" (split_space (strip is_crlf c))) cmds) as [f|] eqn:A.
  - destruct (f s (split_space (strip is_crlf c))) as [s1 [a|e]];
      destruct (IH s1) as (s' & out & -> & O); do 2 eexists; (split; [reflexivity|]); (constructor; [|exact O]);
      left; (split; [rewrite A; discriminate|]); eauto.
  - destruct (IH s) as (s' & out & -> & O). do 2 eexists. split; [reflexivity|]. constructor; [|exact O].
    right. split; [exact A|reflexivity].
Qed.
(** The answer tells whether the command worked, and carries its result or its error. *)
Theorem C56_tells : forall text cmds s line (f : fct), String.prefix "quit" line = false -> assoc String.eqb (command_word line) cmds = Some f ->
  forall s' r, f s (split_space (strip is_crlf line)) = (s', r) ->
  sim_run text cmds s [Text line] = (s', [append (command_word line) (append (match r with Ok a => append " done: " (show a) | Err e => append " error: " (text e) end) crlf)], Running).
Proof.
  intros text cmds s line f Q A s' r F. cbn [sim_run]. unfold sim_step. rewrite Q. unfold command_word in *. cbv zeta. rewrite A, F. destruct r; rewrite ?app_assoc_str; reflexivity.
Qed.
Example C56_tells_ex : exists f s', String.prefix "quit" "has_slave 12" = false /\ assoc String.eqb (command_word "has_slave 12") builtin_cmds = Some f /\
  fst (f (sim_of []) (split_space (strip is_crlf "has_slave 12"))) = s'.
Proof. do 2 eexists. repeat split; reflexivity. Qed.
(** Commands are executed one after the other: what follows starts from the state the first ones left. *)
Theorem C56_in_sequence : forall text cmds s l1 l2 s1 out1, sim_run text cmds s l1 = (s1, out1, Running) ->
  forall s2 out2 st, sim_run text cmds s1 l2 = (s2, out2, st) -> sim_run text cmds s (l1 ++ l2) = (s2, out1 ++ out2, st).
Proof.
  intros text cmds s l1. revert s. induction l1 as [|c l1 IH]; intros s l2 s1 out1 H s2 out2 st H2.
  - injection H as <- <-. exact H2.
  - cbn [app sim_run] in *. destruct (sim_step text cmds s c) as [s' o]. destruct o as [a|a|e]; [|discriminate|discriminate].
    destruct (sim_run text cmds s' l1) as [[s'' o''] st''] eqn:R. injection H as <- <- ->.
    now rewrite (IH _ l2 _ _ R _ _ _ H2).
Qed.
(** set_verbose sets the verbosity and nothing else, and says so. *)
Theorem C56_set_verbose : forall text s z,
  sim_run text builtin_cmds s [Text (sentence ["set_verbose"; py_str z])] =
  ({| sm_db := sm_db s; sm_hooks := sm_hooks s; sm_fcts := sm_fcts s; sm_verbose := z |}, [append "set_verbose done: " (append (py_str z) crlf)], Running).
Proof.
  intros text s z. cbn [sim_run]. unfold sim_step.
  rewrite (strip_words is_crlf "set_verbose" [py_str z]); [|exact white_crlf|split; [discriminate|reflexivity]|exact (solid_num z)].
  rewrite split_words; [|discriminate|repeat constructor; apply py_str_no_space]. cbv zeta. cbn [hd].
  change (String.prefix "quit" (sentence ["set_verbose"; py_str z])) with false. change (assoc String.eqb "set_verbose" builtin_cmds) with (Some do_set_verbose). cbv iota.
  unfold do_set_verbose. rewrite (int_arg_num ["set_verbose"; py_str z] 1 z eq_refl). cbn [need show]. reflexivity.
Qed.
(** "quit" ends it with one answer. *)
Theorem C56_quit : forall text cmds s rest, sim_run text cmds s (Text "quit" :: rest) = (s, [append "bye-bye" crlf], Stopped).
Proof. reflexivity. Qed.
Example C56_ex :
  let failing : fct := fun s _ => (s, Err PyZeroDivisionError) in
  let out := snd (fst (sim_run some_text (add_command builtin_cmds "boom" failing) (sim_of [])
    [Text "boom"; Text "add_slave 300"; Text "has_slave 12"; Text "nonsense 1 2"; Text ""])) in
  out = map (fun s => append s crlf) ["boom error: oops"; "add_slave error: oops"; "has_slave done: 1"; "error: unknown command nonsense"; "error: unknown command "].
Proof. vm_compute. reflexivity. Qed.
(** Any line that begins with "quit" ends the simulator, although "quit" is not its command word. *)
Theorem C56_quit_prefix_refuted :
  ~ (forall text cmds s line, command_word line <> "quit" -> exists s' a, sim_run text cmds s [Text line] = (s', [a], Running)).
Proof.
  intros H. destruct (H some_text (add_command builtin_cmds "quit_alarm" ping) (sim_of []) "quit_alarm 3") as (s' & a & E); [discriminate|].
  vm_compute in E. discriminate E.
Qed.
(** In Python 3 a command received over RPC is bytes: it ends the simulator without an answer. *)
Theorem C56_rpc_python3_refuted :
  ~ (forall text cmds s line rest, exists s' a out st, sim_run text cmds s (Bytes line :: rest) = (s', a :: out, st)).
Proof. intros H. destruct (H some_text builtin_cmds (sim_of []) [104] []) as (s' & a & out & st & E). discriminate E. Qed.

(* ------------------------------------------------------------------ C73 *)
Lemma zput_same {V} k (v : V) l : assoc Z.eqb k l = Some v -> assoc_put Z.eqb k v l = l.
Proof.
  induction l as [|[k' v'] l IH]; [discriminate|]. cbn. destruct (k =? k'); [intros E; injection E as ->; reflexivity|].
  intros E. now rewrite (IH E).
Qed.
Lemma put_same d id sl : get_slave d id = Ok sl -> put_slave d id sl = d.
Proof.
  unfold get_slave, put_slave. destruct (assoc Z.eqb id (db_slaves d)) eqn:A; [|discriminate]. intros E. injection E as ->.
  rewrite (zput_same _ _ _ A). now destruct d.
Qed.
(** A builtin command that fails has done nothing. *)
Theorem C73_failed_command_changes_nothing : forall s name f args s' e, db_reachable (sm_db s) ->
  assoc String.eqb name builtin_cmds = Some f -> f s args = (s', Err e) -> s' = s.
Proof.
  intros s name f args s' e D B E.
  assert (NE : forall A (r : res A) k, need s r k = (s', Err e) -> (forall a, r = Ok a -> k a = (s', Err e) -> s' = s) -> s' = s).
  { intros A r k H K. unfold need in H. destruct r as [a|x]; [now apply (K a)|]. now injection H. }
  assert (I : forall id sl, get_slave (sm_db s) id = Ok sl -> inv sl).
  { intros id sl G. destruct (db_reachable_slave _ _ _ D G) as [R _]. now apply reachable_inv. }
  cbn [assoc builtin_cmds] in B.
  repeat match type of B with (if ?b then _ else _) = _ => destruct b; [injection B as <-|] end; [..|discriminate B].
  - apply NE in E; [exact E|]. intros id _ H. unfold add_slave in H. destruct ((id <=? 0) || (255 <? id)).
    + injection H as <- _. apply same_db.
    + destruct (assoc Z.eqb id (db_slaves (sm_db s))); [|discriminate]. injection H as <- _. apply same_db.
  - apply NE in E; [exact E|]. discriminate.
  - apply NE in E; [exact E|]. intros id _ H. unfold remove_slave in H. destruct (assoc Z.eqb id (db_slaves (sm_db s))); [discriminate|].
    injection H as <- _. apply same_db.
  - discriminate.
  - apply NE in E; [exact E|]. intros id _ E1. apply NE in E1; [exact E1|]. intros nm _ E2. apply NE in E2; [exact E2|].
    intros bt _ E3. apply NE in E3; [exact E3|]. intros st _ E4. apply NE in E4; [exact E4|]. intros len _ E5.
    apply NE in E5; [exact E5|]. intros sl G H.
    assert (K : forall x, snd (add_block sl nm bt st len) = Err x -> fst (add_block sl nm bt st len) = sl).
    { intros x. unfold add_block. destruct (len <=? 0); [reflexivity|]. destruct (st <? 0); [reflexivity|].
      destruct (assoc String.eqb nm (sl_names sl)); [reflexivity|]. destruct (btype_of_Z bt); [|reflexivity].
      destruct (mem_get sl b); [|reflexivity]. destruct (add_block_scan a 0 st len); [discriminate|reflexivity]. }
    destruct (add_block sl nm bt st len) as [sl' [u|x]]; [discriminate|]. cbn in K. rewrite (K x eq_refl), (put_same _ _ _ G), same_db in H. now injection H.
  - apply NE in E; [exact E|]. intros id _ E1. apply NE in E1; [exact E1|]. intros nm _ E2. apply NE in E2; [exact E2|]. intros sl G H.
    destruct (remove_block_spec sl nm (I _ _ G)) as [K1 K2].
    destruct (assoc String.eqb nm (sl_names sl)) eqn:A.
    + destruct K2 as (sl' & ? & ? & ? & ? & KR & _); [unfold registered; rewrite A; discriminate|]. rewrite KR in H. discriminate H.
    + rewrite K1 in H by (unfold registered; rewrite A; auto). rewrite (put_same _ _ _ G), same_db in H. now injection H.
  - apply NE in E; [exact E|]. intros id _ E1. apply NE in E1; [exact E1|]. discriminate.
  - apply NE in E; [exact E|]. intros id _ E1. apply NE in E1; [exact E1|]. intros nm _ E2. apply NE in E2; [exact E2|].
    intros ad _ E3. apply NE in E3; [exact E3|]. intros vs _ E4. apply NE in E4; [exact E4|]. intros sl G H.
    destruct (set_values sl nm ad (SvSeq vs)) as [sl' [[]|x]] eqn:V.
    + destruct (set_get sl nm ad (SvSeq vs) sl' (I _ _ G) V) as [R _]. cbn [sv_list] in R. cbn [bind] in H. rewrite R in H. discriminate.
    + assert (sl' = sl) as ->.
      { revert V. unfold set_values. destruct (get_block sl nm) as [[[t i] b]|]; [|intros V; now injection V].
        destruct ((ad - b_start b <? 0) || (b_size b <? ad - b_start b + zlen vs)); intros V; now injection V. }
      rewrite (put_same _ _ _ G), same_db in H. now injection H.
  - apply NE in E; [exact E|]. intros id _ E1. apply NE in E1; [exact E1|]. intros nm _ E2. apply NE in E2; [exact E2|].
    intros ad _ E3. apply NE in E3; [exact E3|]. intros len _ E4. apply NE in E4; [exact E4|]. intros sl G H. now injection H.
  - apply NE in E; [exact E|]. intros hn _ E1. apply NE in E1; [exact E1|]. intros fn _ H.
    destruct (assoc String.eqb fn (sm_fcts s)); [discriminate|]. now injection H.
  - apply NE in E; [exact E|]. discriminate.
  - apply NE in E; [exact E|]. discriminate.
Qed.
(** The databank the commands work on stays reachable. *)
Lemma db_call d o : sane_op o -> db_reachable d -> db_reachable (db_step d o).
Proof.
  intros S (e & ops & F & ->). exists e, (ops ++ [o]). split; [apply Forall_app; auto|].
  unfold db_run. now rewrite fold_left_app.
Qed.
Theorem C73_reachable : forall s name f args, db_reachable (sm_db s) ->
  assoc String.eqb name builtin_cmds = Some f -> db_reachable (sm_db (fst (f s args))).
Proof.
  intros s name f args D B.
  assert (NE : forall A (r : res A) k, (forall a, db_reachable (sm_db (fst (k a : sim * res answer)))) -> db_reachable (sm_db (fst (need s r k)))).
  { intros A [a|x] k K; [apply K|exact D]. }
  cbn [assoc builtin_cmds] in B.
  repeat match type of B with (if ?b then _ else _) = _ => destruct b; [injection B as <-|] end; [..|discriminate B].
  - apply NE. intros id. pose proof (db_call (sm_db s) (DbAdd id true None) Logic.I D) as H. cbn [db_step] in H.
    destruct (add_slave (sm_db s) id true None); exact H.
  - apply NE. intros id. exact D.
  - apply NE. intros id. pose proof (db_call (sm_db s) (DbRemove id) Logic.I D) as H. cbn [db_step] in H.
    destruct (remove_slave (sm_db s) id); exact H.
  - exact (db_call (sm_db s) DbRemoveAll Logic.I D).
  - apply NE. intros id. apply NE. intros nm. apply NE. intros bt. apply NE. intros st. apply NE. intros len.
    pose proof (db_call (sm_db s) (DbCall id (OpAddBlock nm bt st len)) Logic.I D) as H. cbn [db_step slave_step] in H.
    destruct (get_slave (sm_db s) id) as [sl|]; [|exact D]. cbn [need]. destruct (add_block sl nm bt st len); exact H.
  - apply NE. intros id. apply NE. intros nm.
    pose proof (db_call (sm_db s) (DbCall id (OpRemoveBlock nm)) Logic.I D) as H. cbn [db_step slave_step] in H.
    destruct (get_slave (sm_db s) id) as [sl|]; [|exact D]. cbn [need]. destruct (remove_block sl nm); exact H.
  - apply NE. intros id. pose proof (db_call (sm_db s) (DbCall id OpRemoveAll) Logic.I D) as H. cbn [db_step slave_step] in H.
    destruct (get_slave (sm_db s) id) as [sl|]; [exact H|exact D].
  - apply NE. intros id. apply NE. intros nm. apply NE. intros ad. apply NE. intros vs.
    pose proof (db_call (sm_db s) (DbCall id (OpSetValues nm ad (SvSeq vs))) Logic.I D) as H. cbn [db_step slave_step] in H.
    destruct (get_slave (sm_db s) id) as [sl|]; [|exact D]. cbn [need]. destruct (set_values sl nm ad (SvSeq vs)); exact H.
  - apply NE. intros id. apply NE. intros nm. apply NE. intros ad. apply NE. intros len. apply NE. intros sl. exact D.
  - apply NE. intros hn. apply NE. intros fn. destruct (assoc String.eqb fn (sm_fcts s)); exact D.
  - apply NE. intros hn. exact D.
  - apply NE. intros v. exact D.
Qed.
Example C73_ex : db_reachable (sm_db (sim_of [])) /\
  do_set_values (sim_of []) ["set_values"; "12"; "regs"; "399"; "1"; "2"] = (sim_of [], Err OutOfModbusBlockError) /\
  do_set_values (sim_of []) ["set_values"; "12"; "regs"; "39"; "1"; "x"] = (sim_of [], Err PyValueError).
Proof. split; [apply sim_of_reachable|]. vm_compute. split; reflexivity. Qed.

Print Assumptions C72_add_slave.
Print Assumptions C72_remove_slave.
Print Assumptions C72_remove_all_slaves.
Print Assumptions C72_has_slave.
Print Assumptions C72_add_block.
Print Assumptions C72_remove_block.
Print Assumptions C72_remove_all_blocks.
Print Assumptions C72_set_values.
Print Assumptions C72_get_values.
Print Assumptions C72_install_hook.
Print Assumptions C74_all_partial.
Print Assumptions C57_round_trip_partial.
Print Assumptions C57_numbers.
Print Assumptions C57_numbers_distinct.
Print Assumptions C57_split_query_refuted.
Print Assumptions C57_long_answer_refuted.
Print Assumptions C57_empty_refuted.
Print Assumptions C74_one_refuted.
Print Assumptions C56_one_answer_each_partial.
Print Assumptions C56_tells.
Print Assumptions C56_in_sequence.
Print Assumptions C56_set_verbose.
Print Assumptions C56_quit.
Print Assumptions C56_quit_prefix_refuted.
Print Assumptions C56_rpc_python3_refuted.
Print Assumptions C73_failed_command_changes_nothing.
Print Assumptions C73_reachable.
