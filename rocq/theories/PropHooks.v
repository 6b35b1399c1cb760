(** Properties C50, C51, C68: hooks.  Vocabulary: HooksSpec.v. *)
From Coq Require Import Lia ZifyBool ZifyNat.
From Verif Require Import PropDatabank TransportProofs.
From Verif Require Import Base BaseFacts PyStruct Spec StructFacts StructMore Defines SlaveModel SlaveSpec BlockSpec HandlerProofs RequestProofs GeneralProofs SlaveInv SlaveMore QueryModel QueryProofs DatabankModel DatabankProofs DbSpec TransportModel TransportSpec HooksModel HooksSpec.
Open Scope string_scope.
Open Scope list_scope.
Open Scope Z_scope.

(* ------------------------------------------------------------------ C50 *)
Lemma installed_put r n m l : installed (assoc_put String.eqb n l r) m = if String.eqb m n then l else installed r m.
Proof.
  unfold installed. induction r as [|[k v] r IH]; cbn.
  - destruct (String.eqb m n); reflexivity.
  - destruct (String.eqb n k) eqn:E; cbn.
    + apply String.eqb_eq in E. subst k. destruct (String.eqb m n); reflexivity.
    + destruct (String.eqb m k) eqn:F; [|exact IH]. destruct (String.eqb m n) eqn:G; [|reflexivity].
      apply String.eqb_eq in F. apply String.eqb_eq in G. subst. rewrite String.eqb_refl in E. discriminate.
Qed.
Lemma remove_first_spec x l : match remove_first x l with
  | Some l' => exists a b, l = a ++ x :: b /\ ~ In x a /\ l' = a ++ b
  | None => ~ In x l
  end.
Proof.
  induction l as [|y t IH]; cbn; [tauto|]. destruct (y =? x) eqn:E.
  - apply Z.eqb_eq in E. subst. exists [], t. cbn. tauto.
  - apply Z.eqb_neq in E. destruct (remove_first x t).
    + destruct IH as (a & b & -> & N & ->). exists (y :: a), b. cbn. repeat split; auto. intros [C|C]; [congruence|tauto].
    + intros [C|C]; [congruence|tauto].
Qed.
Lemma perform_changes name r e : changes name e (installed r name) (installed (perform r e) name).
Proof.
  destruct (String.eqb name (names_event e)) eqn:Q.
  - apply String.eqb_eq in Q. destruct e as [n f|n f|n]; cbn in Q; subst n; cbn [perform].
    + unfold install_hook, installed. destruct (assoc String.eqb name r) as [l|] eqn:A.
      * fold (installed (assoc_put String.eqb name (l ++ [f]) r) name). rewrite installed_put, String.eqb_refl. constructor.
      * fold (installed (assoc_put String.eqb name [f] r) name). rewrite installed_put, String.eqb_refl. apply (ch_install name f []).
    + unfold uninstall_hook. destruct (assoc String.eqb name r) as [l|] eqn:A.
      * pose proof (remove_first_spec f l) as R. replace (installed r name) with l by (unfold installed; now rewrite A).
        destruct (remove_first f l) as [l'|]; cbn [fst].
        -- rewrite installed_put, String.eqb_refl. destruct R as (a & b & -> & N & ->). now constructor.
        -- replace (installed r name) with l by (unfold installed; now rewrite A). now constructor.
      * cbn [fst]. unfold installed. rewrite A. now constructor.
    + unfold uninstall_hook. destruct (assoc String.eqb name r) as [l|] eqn:A; cbn [fst].
      * rewrite installed_put, String.eqb_refl. constructor.
      * unfold installed. rewrite A. constructor.
  - assert (N : names_event e <> name) by (intros C; rewrite C, String.eqb_refl in Q; discriminate).
    replace (installed (perform r e) name) with (installed r name); [now constructor|]. symmetry.
    destruct e as [n f|n f|n]; cbn [names_event perform] in *.
    + unfold install_hook. destruct (assoc String.eqb n r); rewrite installed_put, Q; reflexivity.
    + unfold uninstall_hook. destruct (assoc String.eqb n r) as [l|]; [|reflexivity]. destruct (remove_first f l); cbn [fst]; [rewrite installed_put, Q|]; reflexivity.
    + unfold uninstall_hook. destruct (assoc String.eqb n r) as [l|]; [|reflexivity]. cbn [fst]. rewrite installed_put, Q. reflexivity.
Qed.
Lemma changes_fun name e l l1 l2 : changes name e l l1 -> changes name e l l2 -> l1 = l2.
Proof.
  intros A B. destruct A; inversion B; subst; cbn in *; try congruence; try reflexivity.
  - assert (G : forall a b a' b', ~ In f a -> ~ In f a' -> a' ++ f :: b' = a ++ f :: b -> a ++ b = a' ++ b').
    { clear. induction a as [|x a IH]; intros b [|x' a'] b' N N' E; cbn in E.
      - now injection E as ->.
      - injection E as -> E. cbn in N'. tauto.
      - injection E as <- E. cbn in N. tauto.
      - injection E as -> E. cbn in *. f_equal. apply IH; tauto. }
    apply G; auto.
  - exfalso. match goal with H : ~ In _ _ |- _ => apply H end. apply in_or_app. right. now left.
  - exfalso. match goal with H : ~ In _ (_ ++ _ :: _) |- _ => apply H end. apply in_or_app. right. now left.
Qed.
(** After any history of install_hook and uninstall_hook, the functions under a name are exactly those
    the events naming it leave there. *)
Theorem C50_history : forall name es l, leaves name es l <-> installed (perform_all es) name = l.
Proof.
  assert (E : forall name es, leaves name es (installed (perform_all es) name)).
  { intros name es. induction es as [|e es IH] using rev_ind; [constructor|]. unfold perform_all. rewrite fold_left_app. cbn [fold_left].
    econstructor; [exact IH|]. apply perform_changes. }
  intros name es l. split; [|intros <-; apply E]. intros L. specialize (E name es). revert L E. generalize (installed (perform_all es) name).
  intros l2 L. revert l2. induction L as [|es e l l' L IH C]; intros l2 M; inversion M as [Q1 Q2|es2 e2 l3 l3' L2 C2 Q1 Q2]; subst; auto.
  - destruct es2; discriminate.
  - destruct es; discriminate.
  - apply app_inj_tail in Q1 as [-> ->]. rewrite (IH _ L2) in C2. eapply changes_fun; eauto.
Qed.
Example C50_history_ex : leaves "a" [Installs "a" 1; Installs "b" 7; Installs "a" 2; Uninstalls "a" 1; UninstallsAll "b"] [2].
Proof. apply C50_history. reflexivity. Qed.
(** Errors of uninstall_hook, and nothing else. *)
Theorem C50_uninstall_errors : forall es name f,
  snd (uninstall_hook (perform_all es) name f) <> Ok tt ->
  (forall g, ~ In (Installs name g) es) \/ (exists g l, f = Some g /\ leaves name es l /\ ~ In g l).
Proof.
  intros es name f H. unfold uninstall_hook in H. destruct (assoc String.eqb name (perform_all es)) as [l|] eqn:A.
  - destruct f as [g|]; [|cbn in H; tauto]. pose proof (remove_first_spec g l) as R. destruct (remove_first g l); [cbn in H; tauto|].
    right. exists g, l. split; [reflexivity|]. split; [|exact R]. apply C50_history. unfold installed. now rewrite A.
  - left. intros g I. clear H. revert A. unfold perform_all.
    assert (G : forall es r, (exists l, assoc String.eqb name r = Some l) \/ In (Installs name g) es -> exists l, assoc String.eqb name (fold_left perform es r) = Some l).
    { clear. induction es as [|e es IH]; intros r [H|H]; cbn [fold_left]; [exact H|destruct H| |]; apply IH.
      - left. destruct H as (l & A). assert (P : forall n l', exists l2, assoc String.eqb name (assoc_put String.eqb n l' r) = Some l2).
        { intros n l'. clear - A. induction r as [|[k v] r IH]; cbn in *; [discriminate|]. destruct (String.eqb name k) eqn:Q.
          - destruct (String.eqb n k) eqn:Q2; cbn; rewrite Q; eexists; reflexivity.
          - destruct (String.eqb n k) eqn:Q2; cbn; rewrite Q; [eexists; exact A|now apply IH]. }
        destruct e as [n f|n f|n]; cbn [perform]; unfold install_hook, uninstall_hook; destruct (assoc String.eqb n r) as [l1|]; try apply P; try (eexists; exact A).
        + destruct (remove_first f l1); cbn [fst]; [apply P|eexists; exact A].
      - destruct H as [->|H]; [|now right]. left. cbn [perform]. unfold install_hook.
        assert (P : forall l', exists l2, assoc String.eqb name (assoc_put String.eqb name l' r) = Some l2).
        { intros l'. clear. induction r as [|[k v] r IH]; cbn; [rewrite String.eqb_refl; eexists; reflexivity|].
          destruct (String.eqb name k) eqn:Q; cbn; rewrite Q; [eexists; reflexivity|exact IH]. }
        destruct (assoc String.eqb name r); apply P. }
    destruct (G es [] (or_intror I)) as (l & ->). discriminate.
Qed.

Section Calls.
Context {W A V : Type}.
Variable beh : Z -> A -> registry * W -> (registry * W) * res (option V).
Lemma call_loop_quiet name args : leave_registry_alone beh -> forall l i fuel st st' r,
  skipn i (installed (fst st) name) = l -> (length l < fuel)%nat -> consulted beh args l st st' r -> r <> Err PyKeyError ->
  call_loop beh fuel name args i st = Some (st', r).
Proof.
  intros Q. induction l as [|f l IH]; intros i fuel st st' r S F C N; destruct fuel as [|m]; cbn [length] in F; try lia; cbn [call_loop].
  - inversion C; subst. unfold installed in S. destruct (assoc String.eqb name (fst st')) as [l0|]; [|reflexivity].
    destruct (nth_error l0 i) eqn:E; [|reflexivity]. assert (i < length l0)%nat by (apply nth_error_Some; congruence).
    pose proof (skipn_length i l0) as L. rewrite S in L. cbn in L. lia.
  - assert (Nx : forall l0 : list Z, skipn i l0 = f :: l -> nth_error l0 i = Some f /\ skipn (Datatypes.S i) l0 = l).
    { clear. induction i as [|i IH]; intros [|x l0] H; cbn in *; try discriminate; [injection H as -> ->; auto|]. apply IH in H. exact H. }
    unfold installed in S. destruct (assoc String.eqb name (fst st)) as [l0|] eqn:E; [|rewrite skipn_nil in S; discriminate].
    destruct (Nx l0 S) as [-> S']. inversion C; subst.
    + match goal with H : beh _ _ _ = _ |- _ => rewrite H; pose proof (Q f args st) as K; rewrite H in K; cbn in K end.
      apply IH; [|lia|assumption|assumption]. unfold installed. now rewrite K, E.
    + match goal with H : beh _ _ _ = _ |- _ => rewrite H end. reflexivity.
    + match goal with H : beh _ _ _ = _ |- _ => rewrite H end. destruct e; congruence.
Qed.
(** The functions installed under the name are asked in order of installation until one answers or
    raises; that is the result.  KeyError is left out: see the refutation. *)
Theorem C50_first_answer_partial : leave_registry_alone beh -> forall name args st,
  exists st' r, consulted beh args (installed (fst st) name) st st' r /\
    (r <> Err PyKeyError -> forall fuel, (length (installed (fst st) name) < fuel)%nat -> call_hooks beh fuel name args st = Some (st', r)).
Proof.
  intros Q name args st.
  assert (T : forall l st, exists st' r, consulted beh args l st st' r).
  { clear. induction l as [|f l IH]; intros st; [repeat econstructor|]. destruct (beh f args st) as [st1 [[v|]|e]] eqn:B.
    - exists st1, (Ok (Some v)). now constructor.
    - destruct (IH st1) as (st2 & r & C). exists st2, r. econstructor; eauto.
    - exists st1, (Err e). now constructor. }
  destruct (T (installed (fst st) name) st) as (st' & r & C). exists st', r. split; [exact C|]. intros N fuel F.
  unfold call_hooks. apply (call_loop_quiet name args Q (installed (fst st) name)); auto.
Qed.
(** Nothing installed under the name: None, and nothing happens. *)
Theorem C50_nobody : forall name args st fuel, installed (fst st) name = [] -> (0 < fuel)%nat -> call_hooks beh fuel name args st = Some (st, Ok None).
Proof.
  intros name args st fuel I F. unfold call_hooks. destruct fuel; [lia|]. cbn. unfold installed in I. destruct (assoc String.eqb name (fst st)); [subst l|]; reflexivity.
Qed.
End Calls.

(** A KeyError raised by a hook function does not propagate, and the functions after it are not asked. *)
Theorem C50_keyerror_refuted : exists (beh : Z -> unit -> registry * unit -> (registry * unit) * res (option Z)) st st',
  leave_registry_alone beh /\ consulted beh tt (installed (fst st) "n") st st' (Err PyKeyError) /\
  forall fuel, (0 < fuel)%nat -> call_hooks beh fuel "n" tt st = Some (st', Ok None).
Proof.
  exists (fun f _ st => (st, if f =? 1 then Err PyKeyError else Ok (Some 5))), ([("n", [1; 2])], tt), ([("n", [1; 2])], tt).
  split; [intros f args st; reflexivity|]. split; [apply co_raises; reflexivity|]. intros [|m] H; [lia|reflexivity].
Qed.
(** A function that uninstalls itself makes the next one be skipped. *)
Definition uninstalls_itself (f : Z) (_ : unit) (st : registry * unit) : (registry * unit) * res (option Z) :=
  if f =? 1 then ((fst (uninstall_hook (fst st) "n" (Some 1)), tt), Ok None) else (st, Ok (Some 5)).
Theorem C50_self_uninstall_refuted : exists st st', installed (fst st) "n" = [1; 2] /\
  consulted uninstalls_itself tt [1; 2] st st' (Ok (Some 5)) /\
  forall fuel, (1 < fuel)%nat -> call_hooks uninstalls_itself fuel "n" tt st = Some (st', Ok None).
Proof.
  exists ([("n", [1; 2])], tt), ([("n", [2])], tt). split; [reflexivity|]. split.
  - eapply co_declines; [reflexivity|]. apply co_answers. reflexivity.
  - intros [|[|m]] H; try lia. reflexivity.
Qed.
(** A function that installs itself again when called is called for ever. *)
Definition installs_itself (f : Z) (_ : unit) (st : registry * unit) : (registry * unit) * res (option Z) :=
  ((install_hook (fst st) "n" f, tt), Ok None).
Theorem C50_self_install_refuted : forall fuel, call_hooks installs_itself fuel "n" tt ([("n", [1])], tt) = None.
Proof.
  intros fuel. unfold call_hooks.
  assert (G : forall fuel l i, (i < length l)%nat -> call_loop installs_itself fuel "n" tt i ([("n", l)], tt) = None).
  { clear. induction fuel as [|m IH]; intros l i L; [reflexivity|]. cbn [call_loop fst assoc]. change (String.eqb "n" "n") with true. cbn iota beta.
    destruct (nth_error l i) as [f|] eqn:E; [|apply nth_error_None in E; lia]. cbn [installs_itself fst]. change (install_hook [("n", l)] "n" f) with [("n", l ++ [f])].
    apply IH. rewrite app_length. cbn. lia. }
  apply G. cbn. lia.
Qed.
Example C50_first_answer_ex : let beh := fun f (_ : unit) (st : registry * list Z) => ((fst st, f :: snd st), if f =? 2 then Ok (Some 20) else Ok (@None Z)) in
  leave_registry_alone beh /\ installed (perform_all [Installs "n" 1; Installs "n" 2; Installs "n" 3]) "n" = [1; 2; 3] /\
  call_hooks beh 9 "n" tt (perform_all [Installs "n" 1; Installs "n" 2; Installs "n" 3], []) = Some ((perform_all [Installs "n" 1; Installs "n" 2; Installs "n" 3], [2; 1]), Ok (Some 20)).
Proof. split; [intros f args st; reflexivity|]. split; reflexivity. Qed.

(* ------------------------------------------------------------------ C51 *)
Section Observers.
Variable h : hooks.
Hypothesis O : observers h.
Lemma obs_set b data i v : h_set h b data i v = py_set data i v.
Proof. unfold h_set. destruct O as (_ & _ & -> & _). reflexivity. Qed.
Lemma obs_regs b fmt pdu base off n : forall i data, h_write_regs_loop h b fmt pdu base off n i data = write_regs_loop fmt pdu base off n i data.
Proof.
  induction n as [|n IH]; intros i data; cbn; [reflexivity|]. destruct (unpack1 _ _); [|reflexivity]. rewrite obs_set. destruct (py_set _ _ _); auto.
Qed.
Lemma obs_inner b fuel bv pos q : forall j c data, h_write_bits_inner h b fuel bv pos j c q data = write_bits_inner fuel bv pos j c q data.
Proof.
  induction fuel as [|n IH]; intros j c data; cbn; [reflexivity|]. destruct (q <=? c); [reflexivity|]. rewrite obs_set. destruct (py_set _ _ _); auto.
Qed.
Lemma obs_outer b n fmt pdu off q : forall i c data, h_write_bits_outer h b n fmt pdu off i c q data = write_bits_outer n fmt pdu off i c q data.
Proof.
  induction n as [|n IH]; intros i c data; cbn [h_write_bits_outer write_bits_outer]; [reflexivity|]. destruct (q <=? c); [reflexivity|]. destruct (unpack1 _ _); [|reflexivity]. rewrite obs_inner.
  destruct (write_bits_inner _ _ _ _ _ _ _) as [d [x|]]; auto.
Qed.
Lemma obs_body fc s pdu : match h_fn_code_map h fc, fn_code_map fc with
  | Some f, Some g => f s pdu = g s pdu | None, None => True | _, _ => False end.
Proof.
  unfold h_fn_code_map, h_body. destruct O as (_ & H & _).
  destruct (fc =? WRITE_SINGLE_COIL) eqn:E5; [apply Z.eqb_eq in E5; subst; cbn; rewrite H; unfold h_write_single_coil, write_single_coil; destruct (unpack2 _ _) as [[a v]|]; [|reflexivity]; destruct (get_block_and_offset _ _ _ _) as [[[i b] o]|]; [|reflexivity]; rewrite !obs_set; reflexivity|].
  destruct (fc =? WRITE_SINGLE_REGISTER) eqn:E6; [apply Z.eqb_eq in E6; subst; cbn; rewrite H; unfold h_write_single_register, write_single_register; destruct (unpack2 _ _) as [[a v]|]; [|reflexivity]; destruct (get_block_and_offset _ _ _ _) as [[[i b] o]|]; [|reflexivity]; rewrite !obs_set; reflexivity|].
  destruct (fc =? WRITE_MULTIPLE_COILS) eqn:E15; [apply Z.eqb_eq in E15; subst; cbn; rewrite H; unfold h_write_multiple_coils, write_multiple_coils; destruct (unpack3 _ _) as [[[a q] bc]|]; [|reflexivity]; destruct (_ || _); [reflexivity|]; destruct (get_block_and_offset _ _ _ _) as [[[i b] o]|]; [|reflexivity]; rewrite !obs_outer; reflexivity|].
  destruct (fc =? WRITE_MULTIPLE_REGISTERS) eqn:E16; [apply Z.eqb_eq in E16; subst; cbn; rewrite H; unfold h_write_multiple_registers, write_multiple_registers; destruct (unpack3 _ _) as [[[a q] bc]|]; [|reflexivity]; destruct (_ || _); [reflexivity|]; destruct (get_block_and_offset _ _ _ _) as [[[i b] o]|]; [|reflexivity]; rewrite !obs_regs; reflexivity|].
  destruct (fc =? MASK_WRITE_REGISTER) eqn:E22; [apply Z.eqb_eq in E22; subst; cbn; rewrite H; unfold h_mask_write_register, mask_write_register; destruct (unpack3 _ _) as [[[a q] bc]|]; [|reflexivity]; destruct (get_block_and_offset _ _ _ _) as [[[i b] o]|]; [|reflexivity]; destruct (py_get _ _); [|reflexivity]; rewrite !obs_set; reflexivity|].
  destruct (fc =? READ_WRITE_MULTIPLE_REGISTERS) eqn:E23.
  { apply Z.eqb_eq in E23; subst; cbn; rewrite H; unfold h_read_write_multiple_registers, read_write_multiple_registers. destruct (unpack5 _ _) as [[[[[ra rq] wa] wq] bc]|]; [|reflexivity].
    destruct (_ || _); [reflexivity|]. destruct (get_block_and_offset _ _ ra _) as [[[i b] o]|]; [|reflexivity]. destruct (bind _ _); [|reflexivity]. destruct (_ || _); [reflexivity|].
    destruct (get_block_and_offset _ _ wa _) as [[[i' b'] o']|]; [|reflexivity]. rewrite !obs_regs. reflexivity. }
  destruct (fn_code_map fc); [|exact I]. now rewrite H.
Qed.
Lemma obs_catch fc r : h_catch h fc r = catch_modbus_error fc r.
Proof. destruct r as [l|e]; [reflexivity|]. destruct e; try reflexivity. cbn. destruct O as (_ & _ & _ & _ & -> & _). reflexivity. Qed.
Lemma obs_request s pdu bc : h_handle_request h s pdu bc = handle_request s pdu bc.
Proof.
  unfold h_handle_request, handle_request. destruct O as (-> & _ & _ & B & _). destruct (unpack1 _ _) as [fc|]; [|reflexivity].
  pose proof (obs_body fc s pdu) as Q. destruct (h_fn_code_map h fc) as [f|], (fn_code_map fc) as [g|]; try (destruct Q; fail).
  - rewrite Q. destruct (_ && _); [reflexivity|]. destruct (g s pdu) as [s' [r|e]]; [|now rewrite obs_catch]. destruct r; [reflexivity|]. destruct bc; [|reflexivity]. rewrite B. reflexivity.
  - now rewrite obs_catch.
Qed.
Lemma obs_set_values s n a v : h_set_values h s n a v = set_values s n a v.
Proof.
  unfold h_set_values, set_values. destruct (get_block s n) as [[[t i] b]|]; [|reflexivity]. destruct O as (_ & _ & -> & _). destruct v; reflexivity.
Qed.
Lemma obs_db_catch e pdu : h_db_catch h e pdu = db_catch e pdu.
Proof. destruct O as (_ & _ & _ & _ & _ & E). destruct e; cbn; rewrite ?E; reflexivity. Qed.
Lemma obs_broadcast l pdu : h_broadcast_loop h l pdu = broadcast_loop l pdu.
Proof. induction l as [|[k s] t IH]; cbn; [reflexivity|]. rewrite obs_request. destruct (handle_request s pdu true) as [s' [r|e]]; [|reflexivity]. now rewrite IH. Qed.
Lemma obs_db d p req : h_db_handle_request h d p req = db_handle_request d p req.
Proof.
  unfold h_db_handle_request, db_handle_request. destruct (parse_request p req) as [[[hdr u] pdu]|]; [|now rewrite obs_db_catch].
  destruct (u =? 0); [rewrite obs_broadcast; destruct (broadcast_loop _ _) as [l [r|e]]; [reflexivity|now rewrite obs_db_catch]|].
  destruct (get_slave d u) as [s|e].
  - rewrite obs_request. destruct (handle_request s pdu false) as [s' r]. destruct (bind _ _); [reflexivity|now rewrite obs_db_catch].
  - destruct e; rewrite ?obs_db_catch; try reflexivity.
Qed.
End Observers.
(** The hook returns None. *)
Definition declines {A B} : A -> res (option B) := fun _ => Ok None.
(** Hooks that return None and do not raise change nothing. *)
Theorem C51_observers : forall h, observers h ->
  (forall s pdu broadcast, h_handle_request h s pdu broadcast = handle_request s pdu broadcast) /\
  (forall s name a v, h_set_values h s name a v = set_values s name a v) /\
  (forall d p request, h_server_handle h declines declines d p request = db_handle_request d p request).
Proof.
  intros h O. split; [intros; now apply obs_request|]. split; [intros; now apply obs_set_values|]. intros d p r. unfold h_server_handle, declines.
  rewrite (obs_db h O). destruct (db_handle_request d p r) as [d' [x|e]]; reflexivity.
Qed.
Example C51_observers_ex : observers no_hooks.
Proof. repeat split. Qed.
(** An answer of the "modbus.Slave.handle_request" hook is sent to the client, even an empty one, and
    the slave is not touched. *)
Theorem C51_slave_answer : forall h d i u pdu s answer, sendable i pdu -> sendable i answer -> 1 <= u <= 255 -> get_slave d u = Ok s ->
  h_request h pdu = Ok (Some answer) ->
  h_handle_request h s pdu false = (s, Ok answer) /\
  snd (h_db_handle_request h d (proto_of i) (on_wire i u pdu)) = Ok (Some (on_wire i u answer)) /\
  forall v, get_slave (fst (h_db_handle_request h d (proto_of i) (on_wire i u pdu))) v = get_slave d v.
Proof.
  intros h d i u pdu s answer S1 S2 U G H. assert (E : h_handle_request h s pdu false = (s, Ok answer)) by (unfold h_handle_request; now rewrite H).
  split; [exact E|]. unfold h_db_handle_request. rewrite parse_on_wire by (auto; unfold is_byte; lia). destruct (u =? 0) eqn:Z0; [lia|]. rewrite G, E. cbn [bind].
  rewrite build_on_wire by (auto; unfold is_byte; lia). cbn [fst snd]. split; [reflexivity|]. intros v. destruct (Z.eq_dec v u) as [->|N]; [rewrite get_slave_put_same; now rewrite G|now apply get_slave_put_other].
Qed.
(** before_handle_request: a non-empty replacement is handled in place of the request. *)
Theorem C51_before_partial : forall h before after d p request b t, before request = Ok (Some (b :: t)) ->
  h_server_handle h before after d p request = h_server_handle h declines after d p (b :: t).
Proof. intros h before after d p request b t H. unfold h_server_handle. rewrite H. reflexivity. Qed.
(** after_handle_request: a non-empty replacement is sent in place of the response. *)
Theorem C51_after_partial : forall h before after d p request resp b t,
  snd (h_server_handle h before declines d p request) = Ok resp -> after resp = Ok (Some (b :: t)) ->
  h_server_handle h before after d p request = (fst (h_server_handle h before declines d p request), Ok (Some (b :: t))).
Proof.
  intros h before after d p request resp b t. unfold h_server_handle, declines.
  destruct (before request) as [v|e]; [|discriminate]. destruct (h_db_handle_request h d p _) as [d' [r|e]]; cbn [fst snd truthy]; [|discriminate].
  intros [= ->] ->. reflexivity.
Qed.
(** What the request stores does not depend on after_handle_request, nor on the hooks of the send: it stays stored if the after hook raises, or if
    the request itself ends with an exception after having stored something; only before_handle_request can prevent it, by raising. *)
Theorem C51_after_stored : forall h before after d p request,
  (forall e, before request = Err e -> h_server_handle h before after d p request = (d, Err e)) /\
  (forall retval, before request = Ok retval ->
    fst (h_server_handle h before after d p request) = fst (h_db_handle_request h d p match retval with Some (b :: t) => b :: t | _ => request end)).
Proof.
  intros h before after d p request. unfold h_server_handle. split.
  - intros e ->. reflexivity.
  - intros retval ->. destruct (h_db_handle_request h d p _) as [d' [r|e]]; [|reflexivity]. destruct (after r); reflexivity.
Qed.
Example C51_after_stored_ex : exists d request, let raises := fun _ : response => Err (A := option (list Z)) PyValueError in
  snd (h_server_handle no_hooks declines raises d RTU request) = Err PyValueError /\
  fst (h_server_handle no_hooks declines raises d RTU request) <> d.
Proof.
  exists demo_db, (on_wire None 3 (6 :: word 101 ++ word 7)). split; [vm_compute; reflexivity|vm_compute; discriminate].
Qed.
(** An empty replacement is ignored: the request is handled and the response sent all the same. *)
Theorem C51_empty_refuted : exists d request b, let suppress := fun _ => Ok (Some []) in
  snd (h_server_handle no_hooks suppress (fun _ => Ok (Some [])) d RTU request) = Ok (Some b) /\ b <> [] /\
  fst (h_server_handle no_hooks suppress (fun _ => Ok (Some [])) d RTU request) <> d.
Proof.
  exists demo_db, (on_wire None 3 (6 :: word 101 ++ word 7)), (on_wire None 3 (6 :: word 101 ++ word 7)).
  split; [vm_compute; reflexivity|]. split; [vm_compute; discriminate|]. vm_compute. discriminate.
Qed.
(** before_send of the TCP server, before_write of the RTU server: any replacement is used, an empty one
    suppresses the answer of the RTU server. *)
Theorem C51_tcp_before_send : forall h d c c' d' r out,
  serve_client {| th_server := th_server h; th_after_recv := th_after_recv h; th_before_send := no_hook |} d c = Stays c' d' r (Some out) ->
  serve_client h d c = Stays c' d' r (Some (match th_before_send h out with Some x => x | None => out end)).
Proof.
  intros h d c c' d' r out. unfold serve_client. cbn [th_server th_after_recv th_before_send]. destruct (snd (recv 1 c)) as [[|x l]|]; try discriminate.
  destruct (read_more _ c []) as [c1 [[rq ok]|e]]; try discriminate. destruct ok; try discriminate. destruct (get_request_length _) as [n|]; try discriminate.
  destruct (read_more _ c1 _) as [c2 [[rq2 ok2]|e]]; try discriminate. destruct ok2; try discriminate. destruct (server_handle _ d TCP rq2) as [d2 [resp|e]]; try discriminate.
  destruct (sent resp) as [b|]; try discriminate. intros [= <- <- <- <-]. reflexivity.
Qed.
Theorem C51_rtu_before_write : forall h block d p t resp,
  rtu_do_run {| rh_server := rh_server h; rh_after_read := rh_after_read h; rh_before_write := fun _ => None |} block false d p = Some t ->
  (forall request, rt_handled t = Some request -> snd (server_handle (rh_server h) d RTU request) = Ok resp) -> rt_handled t <> None ->
  exists t', rtu_do_run h block false d p = Some t' /\ rt_db t' = rt_db t /\ rt_handled t' = rt_handled t /\ rt_line t' = rt_line t /\
    rt_written t' = match rh_before_write h resp with Some [] => None | Some b => Some b | None => rt_written t end.
Proof.
  intros h block d p t resp.
  assert (R : forall q rq, rtu_rest {| rh_server := rh_server h; rh_after_read := rh_after_read h; rh_before_write := fun _ => None |} false d q rq = Some t ->
    (forall request, rt_handled t = Some request -> snd (server_handle (rh_server h) d RTU request) = Ok resp) -> rt_handled t <> None ->
    exists t', rtu_rest h false d q rq = Some t' /\ rt_db t' = rt_db t /\ rt_handled t' = rt_handled t /\ rt_line t' = rt_line t /\
      rt_written t' = match rh_before_write h resp with Some [] => None | Some b => Some b | None => rt_written t end).
  { intros q rq. unfold rtu_rest. cbn [rh_server rh_after_read rh_before_write]. destruct (rtu_read_rest _ q rq) as [[q' [[|x l]|e]]|]; try discriminate; try (intros [= <-] _ H; cbn in H; congruence).
    destruct (server_handle _ d RTU _) as [d' [r|e]] eqn:S; intros [= <-] K _; cbn [rt_handled rt_written rt_db rt_line] in *; specialize (K _ eq_refl); rewrite S in K; cbn in K; [|discriminate].
    injection K as ->. eexists. split; [reflexivity|]. cbn. repeat (split; [reflexivity|]). destruct (rh_before_write h resp) as [[|y m]|]; reflexivity. }
  unfold rtu_do_run. destruct block; [|apply R]. destruct (serial_read_blocking p) as [[p' [b|[]]]|]; try discriminate; try apply R.
  intros [= <-] _ H. cbn in H. congruence.
Qed.
(** after_recv of the masters: any replacement is used. *)
Theorem C51_master_after_recv : forall hook c fuel n p tmo late,
  tcp_master_recv hook c = match tcp_master_recv no_hook c with Some (c', Ok r) => Some (c', Ok (match hook r with Some x => x | None => r end)) | o => o end /\
  rtu_tcp_master_recv fuel hook n c = match rtu_tcp_master_recv fuel no_hook n c with Some (c', Ok r) => Some (c', Ok (match hook r with Some x => x | None => r end)) | o => o end /\
  rtu_master_recv hook tmo late n p = match rtu_master_recv no_hook tmo late n p with Some (p', Ok r) => Some (p', Ok (match hook r with Some x => x | None => r end)) | o => o end.
Proof.
  intros hook c fuel n p tmo late. unfold tcp_master_recv, rtu_tcp_master_recv, rtu_master_recv, replaced, no_hook. repeat split.
  - destruct (tcp_recv_loop _ c [] 255) as [[c' [r|]]|]; reflexivity.
  - destruct (rtu_tcp_recv_loop fuel c [] n) as [[c' [r|]]|]; reflexivity.
  - destruct (rtu_recv_loop _ tmo late n p [] 0) as [[c' [r|]]|]; reflexivity.
Qed.

(** after_read of the RTU server: any replacement is what is handled. *)
Theorem C51_rtu_after_read : forall h block pending d p t request,
  rtu_do_run {| rh_server := rh_server h; rh_after_read := no_hook; rh_before_write := rh_before_write h |} block pending d p = Some t ->
  rt_handled t = Some request ->
  let used := match rh_after_read h request with Some x => x | None => request end in
  exists t', rtu_do_run h block pending d p = Some t' /\ rt_line t' = rt_line t /\ rt_handled t' = Some used /\
    rt_db t' = fst (server_handle (rh_server h) d RTU used).
Proof.
  intros h block pending d p t request.
  assert (R : forall q rq, rtu_rest {| rh_server := rh_server h; rh_after_read := no_hook; rh_before_write := rh_before_write h |} pending d q rq = Some t ->
    rt_handled t = Some request -> let used := match rh_after_read h request with Some x => x | None => request end in
    exists t', rtu_rest h pending d q rq = Some t' /\ rt_line t' = rt_line t /\ rt_handled t' = Some used /\ rt_db t' = fst (server_handle (rh_server h) d RTU used)).
  { intros q rq. unfold rtu_rest. cbn [rh_server rh_after_read rh_before_write]. destruct (rtu_read_rest _ q rq) as [[q' [[|x l]|e]]|]; try discriminate; try (intros [= <-] H; cbn in H; congruence).
    unfold replaced. cbn [no_hook].
    destruct (server_handle (rh_server h) d RTU (x :: l)) as [d1 [r1|e1]]; intros [= <-] K; cbn [rt_handled rt_line] in *; injection K as <-; cbn zeta;
      (destruct (server_handle (rh_server h) d RTU (match rh_after_read h (x :: l) with Some y => y | None => x :: l end)) as [d2 [r2|e2]]; (eexists; split; [reflexivity|]; cbn [rt_line rt_handled rt_db fst]; auto)). }
  unfold rtu_do_run. destruct block; [|apply R]. destruct (serial_read_blocking p) as [[p' [b|[]]]|]; try discriminate; try apply R.
  intros [= <-] H. cbn in H. congruence.
Qed.
(** after_recv of the TCP server sees the seven bytes of the header; a replacement is used in their place, also for the number of bytes
    that are read after it. *)
Theorem C51_tcp_after_recv : forall h d c hdr hdr' body rest,
  zlen hdr = 7 -> th_after_recv h hdr = Some hdr' -> zlen hdr' = 7 -> self_delimited (hdr' ++ body) -> stream c = hdr ++ body ++ rest ->
  exists c' out, serve_client h d c = Stays c' (fst (server_handle (th_server h) d TCP (hdr' ++ body))) (Some (hdr' ++ body)) out /\ stream c' = rest.
Proof.
  intros h d c hdr hdr' body rest Z1 Hk Z2 (a & b & x & e & n1 & n2 & bd & Q & L & B) H.
  destruct hdr as [|h0 [|h1 [|h2 [|h3 [|h4 [|h5 [|h6 [|h7 hdr]]]]]]]]; try (cbn in Z1; lia).
  destruct hdr' as [|k0 [|k1 [|k2 [|k3 [|k4 [|k5 [|k6 [|k7 hdr']]]]]]]]; try (cbn in Z2; lia).
  cbn [app] in Q. injection Q as <- <- <- <- <- <- <-.
  unfold serve_client. rewrite missing_nil. cbn [app] in H.
  destruct (recv1_cons c _ _ H) as (c0 & E0 & _). rewrite E0. cbn [snd].
  destruct (read_more_take [h0; h1; h2; h3; h4; h5; h6] c [] (body ++ rest) H) as (c1 & E1 & S1 & N1).
  change (length [h0; h1; h2; h3; h4; h5; h6]) with 7%nat in E1. rewrite E1. cbn [app]. unfold replaced at 1 2 3. rewrite Hk.
  unfold get_request_length. change (zlen [k0; k1; k2; k3; k4; k5; k6] <? 6) with false. cbn iota.
  change (py_slice [k0; k1; k2; k3; k4; k5; k6] 0 6) with [k0; k1; k2; k3; k4; k5]. rewrite third_word_six.
  replace (missing (k4 * 256 + k5 + 6) [k0; k1; k2; k3; k4; k5; k6]) with (length body).
  2: { unfold missing. change (zlen [k0; k1; k2; k3; k4; k5; k6]) with 7. rewrite zlen_cons in L. unfold zlen in L. lia. }
  destruct (read_more_take body c1 [k0; k1; k2; k3; k4; k5; k6] rest S1) as (c2 & E2 & S2 & N2). rewrite E2. cbn [app].
  destruct (server_handle (th_server h) d TCP _) as [d' r]. cbn [fst snd]. eexists _, _. split; [reflexivity|exact S2].
Qed.
(** before_send of TcpMaster: any replacement is what is sent, and the rest of the sending is the same. *)
Theorem C51_tcp_master_before_send : forall hook b reopen request,
  tcp_master_send hook b reopen request = tcp_master_send no_hook b reopen (match hook request with Some x => x | None => request end) /\
  forall on out, tcp_master_send hook b reopen request = Ok (on, out) -> out = match hook request with Some x => x | None => request end.
Proof.
  intros hook b reopen request. unfold tcp_master_send, replaced. cbn [no_hook]. split; [reflexivity|].
  intros on out. destruct (flush_socket b 3) as [b' [u|e]]; [congruence|]. destruct reopen; congruence.
Qed.

(* ------------------------------------------------------------------ C68 *)
(** A ModbusError raised by the hook of a handler becomes the exception response with its code, and
    nothing is written. *)
Theorem C68_handler_refuses : forall h s fc rest code, supported fc -> 0 <= code <= 255 ->
  h_request h (fc :: rest) = Ok None -> h_handler h fc (fc :: rest) = Err (ModbusError code) -> h_exception h fc code = Ok tt ->
  h_handle_request h s (fc :: rest) false = (s, Ok [fc + 128; code]).
Proof.
  intros h s fc rest code S C H1 H2 H3. unfold h_handle_request. rewrite H1. assert (B : is_byte fc) by (unfold supported, is_byte in *; cbn in S; lia).
  destruct (h_body h fc) as [f|] eqn:F.
  - rewrite unpack_fc.
    unfold h_fn_code_map. rewrite F, H2. cbn [andb]. unfold h_catch. rewrite H3. cbn [bind]. f_equal. rewrite pack_BB, !(proj2 (byte_b_iff _)); [reflexivity|..]; try (unfold is_byte in *; unfold supported in S; cbn in S; lia).
  - exfalso. unfold h_body in F. repeat match type of F with context [if ?b then _ else _] => destruct b; [discriminate|] end. apply fn_none_iff in F. tauto.
Qed.
(** Refused by the setitem hook: single writes and set_values change nothing. *)
Theorem C68_setitem_refuses_partial : forall h s, (forall b i v, exists code, h_setitem h b i v = Err (ModbusError code)) ->
  (forall pdu fc rest, pdu = fc :: rest -> In fc [5; 6; 22] -> fst (h_handle_request h s pdu false) = s) /\
  (forall name a v, fst (h_set_values h s name a v) = s /\ snd (h_set_values h s name a v) <> Ok tt).
Proof.
  intros h s H. assert (HS : forall b data i v, exists code, h_set h b data i v = Err (ModbusError code)).
  { intros b data i v. unfold h_set. destruct (H b i [v]) as (code & ->). eexists. reflexivity. }
  split.
  - intros pdu fc rest -> I. unfold h_handle_request. destruct (h_request h _) as [[r|]|[]]; try reflexivity. destruct (unpack1 ">B" _) as [f|] eqn:U; [|reflexivity].
    rewrite unpack_fc in U. injection U as <-. unfold h_fn_code_map. assert (W : forall body, h_body h fc = Some body -> fst (body s (fc :: rest)) = s).
    { intros body. unfold h_body. cbn in I. destruct I as [<-|[<-|[<-|[]]]]; cbn; intros [= <-].
      - unfold h_write_single_coil. destruct (unpack2 _ _) as [[a v]|]; [|reflexivity]. destruct (get_block_and_offset _ _ _ _) as [[[i b] o]|]; [|reflexivity].
        destruct (HS (b_start b) (b_data b) o 0) as (c0 & ->). destruct (HS (b_start b) (b_data b) o 1) as (c1 & ->). destruct (v =? 0); [reflexivity|]. destruct (v =? 65280); reflexivity.
      - unfold h_write_single_register. destruct (unpack2 _ _) as [[a v]|]; [|reflexivity]. destruct (get_block_and_offset _ _ _ _) as [[[i b] o]|]; [|reflexivity].
        destruct (HS (b_start b) (b_data b) o v) as (c0 & ->). reflexivity.
      - unfold h_mask_write_register. destruct (unpack3 _ _) as [[[a v] w]|]; [|reflexivity]. destruct (get_block_and_offset _ _ _ _) as [[[i b] o]|]; [|reflexivity].
        destruct (py_get _ _) as [old|]; [|reflexivity]. match goal with |- context [h_set h ?b ?d ?o ?v] => destruct (HS b d o v) as (c0 & ->) end. reflexivity. }
    destruct (h_body h fc) as [f|]; [|reflexivity]. specialize (W f eq_refl). cbn [andb]. destruct (h_handler h fc _); [|reflexivity].
    destruct (f s (fc :: rest)) as [s' [[|x r]|e]]; cbn in *; auto.
  - intros name a v. unfold h_set_values. destruct (get_block s name) as [[[t i] b]|]; [|split; [reflexivity|discriminate]]. destruct (_ || _); [split; [reflexivity|discriminate]|].
    match goal with |- context [h_setitem h ?b ?o ?v] => destruct (H b o v) as (c0 & ->) end. split; [reflexivity|discriminate].
Qed.
(** A multiple write refused by the setitem hook at its second cell: exception response, first cell
    written. *)
Theorem C68_setitem_refuses_refuted : exists h s s', reachable s /\ (forall b i v, i <> 1 -> h_setitem h b i v = Ok tt) /\
  h_handle_request h s (16 :: word 100 ++ word 2 ++ 4 :: words [7; 8]) false = (s', Ok [144; 4]) /\
  get_values s "r" 100 2 = Ok [0; 0] /\ get_values s' "r" 100 2 = Ok [7; 0].
Proof.
  exists {| h_request := h_request no_hooks; h_handler := h_handler no_hooks; h_setitem := fun _ i _ => if i =? 1 then Err (ModbusError 4) else Ok tt; h_broadcast := h_broadcast no_hooks; h_exception := h_exception no_hooks; h_error := h_error no_hooks |}, (slave_run (new_slave true None) [OpAddBlock "r" 3 100 10]).
  eexists. split; [|split; [|split; [vm_compute; reflexivity|split; vm_compute; reflexivity]]].
  - eexists (new_slave true None), _. split; [constructor|reflexivity].
  - intros b i v N. cbn. destruct (i =? 1) eqn:E; [lia|reflexivity].
Qed.
(** A ModbusError raised by the "modbus.Slave.handle_request" hook does not become its exception response:
    the client gets an unframed "slave device failure". *)
Theorem C68_request_hook_refuted : exists h, (forall pdu, h_request h pdu = Err (ModbusError 6)) /\
  forall d i u fc rest s, sendable i (fc :: rest) -> 0 <= fc < 128 -> 1 <= u <= 255 -> get_slave d u = Ok s ->
  h_handle_request h s (fc :: rest) false = (s, Err PyNameError) /\
  snd (h_db_handle_request h d (proto_of i) (on_wire i u (fc :: rest))) = Ok (Some [fc + 128; 4]).
Proof.
  exists {| h_request := fun _ => Err (ModbusError 6); h_handler := h_handler no_hooks; h_setitem := h_setitem no_hooks; h_broadcast := h_broadcast no_hooks; h_exception := h_exception no_hooks; h_error := h_error no_hooks |}.
  split; [reflexivity|]. intros d i u fc rest s S F U G. split; [reflexivity|].
  unfold h_db_handle_request. rewrite parse_on_wire by (auto; unfold is_byte; lia). destruct (u =? 0) eqn:Z0; [lia|]. rewrite G. cbn [h_handle_request h_request bind snd h_db_catch h_error no_hooks].
  unfold failure_response. replace (unpack_one ">B" (py_slice (fc :: rest) 0 1)) with (Ok fc).
  2:{ symmetry. exact (unpack_fc fc rest). }
  cbn [bind]. change SLAVE_DEVICE_FAILURE with 4. rewrite pack_BB, !(proj2 (byte_b_iff _)); [reflexivity|..]; try (unfold is_byte in *; lia).
Qed.

(* ------------------------------------------------------------------ C69 *)
(** [d'] is [d] except for the cells lo .. lo+n-1. *)
Definition inside_only (d d' : list Z) (lo n : Z) : Prop :=
  length d' = length d /\ forall k, Z.of_nat k < lo \/ lo + n <= Z.of_nat k -> nth_error d' k = nth_error d k.
Lemma inside_only_refl d lo n : inside_only d d lo n.
Proof. split; reflexivity. Qed.
Lemma inside_only_trans d d' d'' lo n : inside_only d d' lo n -> inside_only d' d'' lo n -> inside_only d d'' lo n.
Proof. intros [L1 H1] [L2 H2]. split; [lia|]. intros k K. rewrite H2, H1; auto. Qed.
Lemma py_set_inside d i v d' lo n : 0 <= lo -> lo <= i < lo + n -> py_set d i v = Ok d' -> inside_only d d' lo n.
Proof.
  intros Z0 I. unfold py_set. destruct (i <? 0) eqn:E; [lia|]. destruct (_ || _) eqn:E2; [discriminate|]. intros [= <-]. split.
  - apply list_upd_length.
  - intros k K. apply list_upd_other. lia.
Qed.
Lemma h_set_inside h b d i v d' lo n : 0 <= lo -> lo <= i < lo + n -> h_set h b d i v = Ok d' -> inside_only d d' lo n.
Proof. intros Z0 I. unfold h_set. destruct (h_setitem h b i [v]); [|discriminate]. cbn [bind]. now apply py_set_inside. Qed.
Lemma h_regs_inside h b fmt pdu base off q : 0 <= off -> forall n i d, 0 <= i -> i + Z.of_nat n <= q ->
  inside_only d (fst (h_write_regs_loop h b fmt pdu base off n i d)) off q.
Proof.
  intros Z0. induction n as [|n IH]; intros i d I N; cbn [h_write_regs_loop fst]; [apply inside_only_refl|].
  destruct (unpack1 _ _) as [v|]; [|apply inside_only_refl]. destruct (h_set h b d (off + i) v) as [d'|] eqn:E; [|apply inside_only_refl].
  eapply inside_only_trans; [|apply IH; lia]. eapply h_set_inside; [| |exact E]; lia.
Qed.
Lemma h_inner_inside h b bv off q : 0 <= off -> forall fuel pos j c d, 0 <= j -> pos + j = off + c -> 0 <= c ->
  let r := h_write_bits_inner h b fuel bv pos j c q d in
  inside_only d (fst r) off q /\ forall c', snd r = Ok c' -> c' = Z.min q (c + Z.of_nat fuel) \/ (q <= c /\ c' = c).
Proof.
  intros Z0. induction fuel as [|n IH]; intros pos j c d J P C; cbn [h_write_bits_inner fst snd]; [split; [apply inside_only_refl|]; intros c' [= <-]; lia|].
  destruct (q <=? c) eqn:Q; [split; [apply inside_only_refl|]; intros c' [= <-]; lia|].
  set (v := if _ =? 0 then 0 else 1). destruct (h_set h b d (pos + j) v) as [d'|] eqn:E; [|split; [apply inside_only_refl|discriminate]].
  destruct (IH pos (j + 1) (c + 1) d' ltac:(lia) ltac:(lia) ltac:(lia)) as [I K]. split.
  - eapply inside_only_trans; [|exact I]. eapply h_set_inside; [| |exact E]; lia.
  - intros c' H. destruct (K c' H); lia.
Qed.
Lemma h_outer_inside h b fmt pdu off q : 0 <= off -> forall n i c d, 0 <= i -> (c = 8 * i \/ q <= c) -> 0 <= c ->
  inside_only d (fst (h_write_bits_outer h b n fmt pdu off i c q d)) off q.
Proof.
  intros Z0. induction n as [|n IH]; intros i c d I C P; cbn [h_write_bits_outer]; [apply inside_only_refl|].
  destruct (q <=? c) eqn:Q; [apply inside_only_refl|]. destruct (unpack1 _ _) as [bv|]; [|apply inside_only_refl].
  destruct (h_inner_inside h b bv off q Z0 8 (off + i * 8) 0 c d ltac:(lia) ltac:(lia) P) as [K1 K2].
  destruct (h_write_bits_inner h b 8 bv (off + i * 8) 0 c q d) as [d' [c'|e]]; cbn [fst snd] in *; [|exact K1].
  eapply inside_only_trans; [exact K1|]. destruct (K2 c' eq_refl) as [->|[? ->]]; apply IH; lia.
Qed.
(** what a handler may do to a slave *)
Definition confined (s s' : slave) (t0 : btype) (a n : Z) : Prop :=
  same_layout s s' /\ wf_slave s' /\
  forall t i b b' x, nth_error (blocks s t) i = Some b -> nth_error (blocks s' t) i = Some b' -> cell b' x <> cell b x ->
    same_table s t0 t /\ a <= x < a + n.
Lemma confined_refl s t a n : wf_slave s -> confined s s t a n.
Proof.
  intros W. split; [|split; [exact W|]].
  - unfold same_layout. repeat split. intros t0. apply Forall2_same_shape_refl.
  - intros t0 i b b' x H1 H2 H3. congruence.
Qed.
Lemma confined_put s t a n l1 b l2 d : wf_slave s -> has_table s t -> serving (blocks s t) a n l1 b l2 ->
  inside_only (b_data b) d (a - b_start b) n -> confined s (put_block_data s t (length l1) b d) t a n.
Proof.
  intros W T S [L I]. pose proof (wf_served _ _ _ _ _ _ _ W S) as (H1 & H2 & H3).
  assert (U : upd1 s t l1 b l2 (with_data b d) (put_block_data s t (length l1) b d)).
  { split; [exact T|]. split; [apply S|]. split; [repeat split; exact L|]. apply put_block_data_blocks; [exact T|apply S]. }
  split; [now apply upd1_layout in U|]. split; [now apply upd1_wf in U|]. intros t' i c c' x N1 N2 D.
  destruct (upd1_cells _ _ _ _ _ _ _ U _ _ _ _ _ N1 N2 D) as (Q & -> & -> & Dx). split; [exact Q|].
  unfold cell in Dx. cbn [with_data b_start b_data] in Dx. destruct (x <? b_start b) eqn:X; [congruence|].
  destruct (Z.lt_ge_cases x a) as [K|K]; [exfalso; apply Dx, I; lia|]. destruct (Z.lt_ge_cases x (a + n)) as [K2|K2]; [lia|]. exfalso. apply Dx, I. lia.
Qed.
Ltac served s t a n := let H := fresh "Gb" in destruct (get_block_and_offset s t a n) as [[[? ?] ?]|] eqn:H; [|now apply confined_refl];
  destruct (gbo_inv s t a n _ H) as [[? _]|[[? _]|(l1 & blk & l2 & HT & SV & HE)]]; [discriminate|discriminate|]; injection HE as -> -> ->.
Lemma served_off s t a n l1 b l2 : serving (blocks s t) a n l1 b l2 -> 0 <= a - b_start b.
Proof. intros (_ & [H _] & _). lia. Qed.
Lemma h_body_confined h s fc rest f : wf_slave s -> h_body h fc = Some f ->
  exists t a n, confined s (fst (f s (fc :: rest))) t a n /\ (fst (f s (fc :: rest)) = s \/ write_range (fc :: rest) = Some (t, a, n)).
Proof.
  intros W. unfold h_body. change WRITE_SINGLE_COIL with 5. change WRITE_SINGLE_REGISTER with 6. change WRITE_MULTIPLE_COILS with 15.
  change WRITE_MULTIPLE_REGISTERS with 16. change MASK_WRITE_REGISTER with 22. change READ_WRITE_MULTIPLE_REGISTERS with 23.
  destruct (fc =? 5) eqn:E5.
  { apply Z.eqb_eq in E5. subst fc. intros [= <-]. exists COILS, (be16 (5 :: rest) 1), 1. split; [|right; reflexivity]. unfold h_write_single_coil.
    destruct (unpack2 _ _) as [[a v]|] eqn:U; [|now apply confined_refl]. apply (unpack2_inv ">HH" false _ _ _ eq_refl) in U as (_ & -> & _). served s COILS (be16 (5 :: rest) 1) 1. pose proof (served_off _ _ _ _ _ _ _ SV).
    assert (K : forall x, confined s (fst (match h_set h (b_start blk) (b_data blk) (be16 (5 :: rest) 1 - b_start blk) x with Ok d => (put_block_data s COILS (length l1) blk d, Ok (py_from (5 :: rest) 1)) | Err e => (s, Err e) end)) COILS (be16 (5 :: rest) 1) 1).
    { intros x. destruct (h_set _ _ _ _ _) as [d|] eqn:Q; [|now apply confined_refl]. apply (confined_put s COILS _ _ _ _ l2); auto. eapply h_set_inside; [| |exact Q]; lia. }
    destruct (v =? 0); [apply K|]. destruct (v =? 65280); [apply K|now apply confined_refl]. }
  destruct (fc =? 6) eqn:E6.
  { apply Z.eqb_eq in E6. subst fc. intros [= <-]. exists HOLDING_REGISTERS, (be16 (6 :: rest) 1), 1. split; [|right; reflexivity]. unfold h_write_single_register.
    destruct (unpack2 _ _) as [[a v]|] eqn:U; [|now apply confined_refl]. assert (a = be16 (6 :: rest) 1) as -> by (destruct (sl_unsigned s); [apply (unpack2_inv ">HH" false _ _ _ eq_refl) in U|apply (unpack2_inv ">Hh" true _ _ _ eq_refl) in U]; tauto).
    served s HOLDING_REGISTERS (be16 (6 :: rest) 1) 1. pose proof (served_off _ _ _ _ _ _ _ SV).
    destruct (h_set _ _ _ _ _) as [d|] eqn:Q; [|now apply confined_refl]. apply (confined_put s HOLDING_REGISTERS _ _ _ _ l2); auto. eapply h_set_inside; [| |exact Q]; lia. }
  destruct (fc =? 15) eqn:E15.
  { apply Z.eqb_eq in E15. subst fc. intros [= <-]. exists COILS, (be16 (15 :: rest) 1), (be16 (15 :: rest) 3). split; [|right; reflexivity]. unfold h_write_multiple_coils.
    destruct (unpack3 _ _) as [[[a q] bc]|] eqn:U; [|now apply confined_refl]. apply unpack3_inv in U as (_ & -> & -> & _). destruct (_ || _); [now apply confined_refl|].
    served s COILS (be16 (15 :: rest) 1) (be16 (15 :: rest) 3). pose proof (served_off _ _ _ _ _ _ _ SV) as O.
    match goal with |- context [h_write_bits_outer h ?b ?n ?f ?p ?o 0 0 ?q ?d] => pose proof (h_outer_inside h b f p o q O n 0 0 d ltac:(lia) ltac:(lia) ltac:(lia)) as K; destruct (h_write_bits_outer h b n f p o 0 0 q d) as [d' [r|]] end; cbn [fst] in *;
      apply (confined_put s COILS _ _ _ _ l2); auto. }
  destruct (fc =? 16) eqn:E16.
  { apply Z.eqb_eq in E16. subst fc. intros [= <-]. exists HOLDING_REGISTERS, (be16 (16 :: rest) 1), (be16 (16 :: rest) 3). split; [|right; reflexivity]. unfold h_write_multiple_registers.
    destruct (unpack3 _ _) as [[[a q] bc]|] eqn:U; [|now apply confined_refl]. apply unpack3_inv in U as (_ & -> & -> & _). destruct (_ || _) eqn:G; [now apply confined_refl|].
    served s HOLDING_REGISTERS (be16 (16 :: rest) 1) (be16 (16 :: rest) 3). pose proof (served_off _ _ _ _ _ _ _ SV) as O.
    match goal with |- context [h_write_regs_loop h ?b ?f ?p ?base ?o ?n 0 ?d] => pose proof (h_regs_inside h b f p base o (be16 (16 :: rest) 3) O n 0 d ltac:(lia) ltac:(lia)) as K; destruct (h_write_regs_loop h b f p base o n 0 d) as [d' [r|]] end; cbn [fst] in *;
      apply (confined_put s HOLDING_REGISTERS _ _ _ _ l2); auto. }
  destruct (fc =? 22) eqn:E22.
  { apply Z.eqb_eq in E22. subst fc. intros [= <-]. exists HOLDING_REGISTERS, (be16 (22 :: rest) 1), 1. split; [|right; reflexivity]. unfold h_mask_write_register.
    destruct (unpack3 _ _) as [[[a am] om]|] eqn:U; [|now apply confined_refl]. apply unpack3m_inv in U as (_ & -> & _).
    served s HOLDING_REGISTERS (be16 (22 :: rest) 1) 1. pose proof (served_off _ _ _ _ _ _ _ SV). destruct (py_get _ _) as [old|]; [|now apply confined_refl].
    destruct (h_set _ _ _ _ _) as [d|] eqn:Q; [|now apply confined_refl]. apply (confined_put s HOLDING_REGISTERS _ _ _ _ l2); auto. eapply h_set_inside; [| |exact Q]; lia. }
  destruct (fc =? 23) eqn:E23.
  { apply Z.eqb_eq in E23. subst fc. intros [= <-]. exists HOLDING_REGISTERS, (be16 (23 :: rest) 5), (be16 (23 :: rest) 7). split; [|right; reflexivity]. unfold h_read_write_multiple_registers.
    destruct (unpack5 _ _) as [[[[[ra rq] wa] wq] bc]|] eqn:U; [|now apply confined_refl]. apply unpack5_inv in U as (_ & -> & -> & -> & -> & _). destruct (_ || _); [now apply confined_refl|].
    destruct (get_block_and_offset s HOLDING_REGISTERS (be16 (23 :: rest) 1) _) as [[[? ?] ?]|]; [|now apply confined_refl]. destruct (bind _ _); [|now apply confined_refl]. destruct (_ || _) eqn:G; [now apply confined_refl|].
    served s HOLDING_REGISTERS (be16 (23 :: rest) 5) (be16 (23 :: rest) 7). pose proof (served_off _ _ _ _ _ _ _ SV) as O.
    match goal with |- context [h_write_regs_loop h ?b ?f ?p ?base ?o ?n 0 ?d] => pose proof (h_regs_inside h b f p base o (be16 (23 :: rest) 7) O n 0 d ltac:(lia) ltac:(lia)) as K; destruct (h_write_regs_loop h b f p base o n 0 d) as [d' [r|]] end; cbn [fst] in *;
      apply (confined_put s HOLDING_REGISTERS _ _ _ _ l2); auto. }
  intros F. exists COILS, 0, 0. assert (E : fst (f s (fc :: rest)) = s); [|rewrite E; split; [now apply confined_refl|now left]].
  revert F. unfold fn_code_map. change WRITE_SINGLE_COIL with 5. change WRITE_SINGLE_REGISTER with 6. change WRITE_MULTIPLE_COILS with 15.
  change WRITE_MULTIPLE_REGISTERS with 16. change MASK_WRITE_REGISTER with 22. change READ_WRITE_MULTIPLE_REGISTERS with 23. rewrite E5, E6, E15, E16, E22, E23.
  repeat (match goal with |- context [if ?b then _ else _] => destruct b end; [intros [= <-]; reflexivity|]). discriminate.
Qed.
(** Whatever the hooks return or raise, a request changes no cell outside those it names. *)
Theorem C69_only_named_cells : forall h s pdu broadcast, reachable s ->
  let s' := fst (h_handle_request h s pdu broadcast) in
  same_layout s s' /\
  forall t i b b' x, nth_error (blocks s t) i = Some b -> nth_error (blocks s' t) i = Some b' -> cell b' x <> cell b x ->
    exists t0 a n, write_range pdu = Some (t0, a, n) /\ same_table s t0 t /\ a <= x < a + n.
Proof.
  intros h s pdu bc R. apply reachable_wf in R. cbn zeta.
  assert (D : fst (h_handle_request h s pdu bc) = s \/ exists t a n, confined s (fst (h_handle_request h s pdu bc)) t a n /\ write_range pdu = Some (t, a, n)).
  { unfold h_handle_request. destruct (h_request h pdu) as [[r|]|[]]; try (now left). destruct pdu as [|fc rest]; [now left|]. rewrite unpack_fc. unfold h_fn_code_map. destruct (h_body h fc) as [f|] eqn:F; [|now left].
    destruct (_ && _); [now left|]. destruct (h_handler h fc _) as [[]|]; [|now left]. destruct (h_body_confined h s fc rest f R F) as (t & a & n & C & E).
    destruct (f s (fc :: rest)) as [s' [[|x y]|e]]; cbn [fst] in *; try destruct bc; cbn [fst] in *; (destruct E as [E|E]; [now left|right]; exists t, a, n; split; assumption). }
  destruct D as [->|(t & a & n & (L & _ & C) & WR)].
  - destruct (confined_refl s COILS 0 0 R) as (L & _ & _). split; [exact L|]. intros t i b b' x H1 H2 H3. congruence.
  - split; [exact L|]. intros t' i b b' x H1 H2 H3. exists t, a, n. split; [exact WR|]. eapply C; eauto.
Qed.
(** a hook raising in the middle of a write: one of the two named cells is written *)
Example C69_ex : write_range (16 :: word 100 ++ word 2 ++ 4 :: words [7; 8]) = Some (HOLDING_REGISTERS, 100, 2) /\
  exists h s s', reachable s /\ h_handle_request h s (16 :: word 100 ++ word 2 ++ 4 :: words [7; 8]) false = (s', Ok [144; 4]) /\ s' <> s.
Proof.
  split; [reflexivity|]. destruct C68_setitem_refuses_refuted as (h & s & s' & R & _ & H & G1 & G2). exists h, s, s'. split; [exact R|]. split; [exact H|].
  intros ->. rewrite G1 in G2. discriminate.
Qed.
Example C68_ex : let h := {| h_request := h_request no_hooks; h_handler := fun _ _ => Err (ModbusError 6); h_setitem := h_setitem no_hooks; h_broadcast := h_broadcast no_hooks; h_exception := h_exception no_hooks; h_error := h_error no_hooks |} in
  supported 6 /\ h_handle_request h (slave_run (new_slave true None) [OpAddBlock "r" 3 100 10]) (6 :: word 100 ++ word 7) false =
    (slave_run (new_slave true None) [OpAddBlock "r" 3 100 10], Ok [134; 6]).
Proof. split; [unfold supported; cbn; tauto|vm_compute; reflexivity]. Qed.
Example C51_ex : snd (h_server_handle no_hooks (fun _ => Ok (Some (on_wire None 3 (6 :: word 102 ++ word 5)))) declines demo_db RTU [1; 2; 3]) =
  Ok (Some (on_wire None 3 (6 :: word 102 ++ word 5))) /\
  h_db_handle_request {| h_request := fun _ => Ok (Some [99]); h_handler := h_handler no_hooks; h_setitem := h_setitem no_hooks; h_broadcast := h_broadcast no_hooks; h_exception := h_exception no_hooks; h_error := h_error no_hooks |}
    demo_db RTU (on_wire None 3 (6 :: word 102 ++ word 5)) = (demo_db, Ok (Some (on_wire None 3 [99]))).
Proof. split; vm_compute; reflexivity. Qed.

(** In the databank, whatever the hooks do: a request for unit [u] leaves the other slaves alone, and changes in slave [u] only what it
    names. *)
Theorem C69_routed : forall h d i u pdu, db_reachable d -> sendable i pdu -> 1 <= u <= 255 ->
  let d' := fst (h_db_handle_request h d (proto_of i) (on_wire i u pdu)) in
  (forall v, v <> u -> get_slave d' v = get_slave d v) /\
  (forall e, get_slave d u = Err e -> get_slave d' u = Err e) /\
  (forall s, get_slave d u = Ok s -> exists s', get_slave d' u = Ok s' /\ same_layout s s' /\
     forall t i b b' x, nth_error (blocks s t) i = Some b -> nth_error (blocks s' t) i = Some b' -> cell b' x <> cell b x ->
       exists t0 a n, write_range pdu = Some (t0, a, n) /\ same_table s t0 t /\ a <= x < a + n).
Proof.
  intros h d i u pdu D S U. unfold h_db_handle_request. rewrite parse_on_wire by (auto; unfold is_byte; lia). destruct (u =? 0) eqn:Z0; [lia|].
  destruct (get_slave d u) as [s|e] eqn:G.
  - pose proof (C69_only_named_cells h s pdu false (proj1 (db_reachable_slave d u s D G))) as C. cbn zeta in C.
    destruct (h_handle_request h s pdu false) as [s' r]. cbn [fst] in C.
    destruct (response_pdu <- r ;; build_response (hdr_of i u pdu) response_pdu); cbn [fst];
      (split; [intros v V; now apply get_slave_put_other|]; split; [discriminate|]; intros x [= <-]; exists s'; split; [apply get_slave_put_same|exact C]).
  - pose proof (get_slave_err _ _ _ G) as Q. subst e. destruct (db_error_on_missing d); cbn [fst]; (split; [reflexivity|]); (split; [intros e' [= <-]; exact G|discriminate]).
Qed.

Print Assumptions C50_history.
Print Assumptions C50_uninstall_errors.
Print Assumptions C50_first_answer_partial.
Print Assumptions C50_nobody.
Print Assumptions C50_keyerror_refuted.
Print Assumptions C50_self_uninstall_refuted.
Print Assumptions C50_self_install_refuted.
Print Assumptions C51_observers.
Print Assumptions C51_slave_answer.
Print Assumptions C51_before_partial.
Print Assumptions C51_after_partial.
Print Assumptions C51_after_stored.
Print Assumptions C51_empty_refuted.
Print Assumptions C51_tcp_before_send.
Print Assumptions C51_rtu_before_write.
Print Assumptions C51_master_after_recv.
Print Assumptions C51_rtu_after_read.
Print Assumptions C51_tcp_after_recv.
Print Assumptions C51_tcp_master_before_send.
Print Assumptions C68_handler_refuses.
Print Assumptions C68_setitem_refuses_partial.
Print Assumptions C68_setitem_refuses_refuted.
Print Assumptions C68_request_hook_refuted.
Print Assumptions C69_only_named_cells.
Print Assumptions C69_routed.
