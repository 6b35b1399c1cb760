(** The length of a slave's answers. *)
From Coq Require Import Lia ZifyBool ZifyNat.
From Verif Require Import Base BaseFacts PyStruct Spec StructFacts Defines SlaveModel SlaveSpec SlaveProofs HandlerProofs RequestProofs GeneralProofs SlaveMore MasterModel MasterSpec EndProofs.
Ltac Zify.zify_post_hook ::= Z.div_mod_to_equations.
Open Scope string_scope.
Open Scope list_scope.
Open Scope Z_scope.

Lemma read_registers_len s t fc a n rest r : wf_slave s -> fits true a -> fits true n ->
  read_registers s t (fc :: word a ++ word n ++ rest) = Ok r -> zlen r = 1 + 2 * n.
Proof.
  intros W A N. unfold read_registers. rewrite unpack2_head by assumption. cbn [bind].
  destruct ((n <=? 0) || (125 <? n)) eqn:E; [discriminate|].
  destruct (gbo_inv s t a n _ eq_refl) as [[-> _]|[[-> _]|(l1 & b & l2 & Ht & Sv & ->)]]; try discriminate.
  pose proof Sv as (_ & [Hc1 Hc2] & _).
  cbn [bind]. rewrite values_at_slice by lia. rewrite pack_B_ok by (unfold is_byte; lia). cbn [bind].
  assert (L : zlen (values_at b a n) = n) by (apply (values_at_zlen s t); [exact W|eexists _, _; exact Sv|lia]).
  destruct (fits_all_dec (sl_unsigned s) (values_at b a n)) as [Hf|Hf].
  - rewrite pack_regs_loop_ok by assumption. intros H; apply Ok_inj in H; subst r. rewrite zlen_app, words_zlen, L. reflexivity.
  - rewrite pack_regs_loop_err by assumption. discriminate.
Qed.
Lemma read_digital_len s t fc a n rest r : wf_slave s -> fits true a -> fits true n ->
  read_digital s t (fc :: word a ++ word n ++ rest) = Ok r -> zlen r = 1 + bytes_for_bits n.
Proof.
  intros W A N. unfold read_digital. rewrite unpack2_head by assumption. cbn [bind].
  destruct ((n <=? 0) || (2000 <? n)) eqn:E; [discriminate|].
  destruct (gbo_inv s t a n _ eq_refl) as [[-> _]|[[-> _]|(l1 & b & l2 & Ht & Sv & ->)]]; try discriminate.
  pose proof Sv as (_ & [Hc1 Hc2] & _). cbn [bind]. rewrite values_at_slice by lia.
  assert (L : zlen (values_at b a n) = n) by (apply (values_at_zlen s t); [exact W|eexists _, _; exact Sv|lia]).
  assert (Hbc : 0 <= bit_byte_count n <= 250).
  { unfold bit_byte_count. destruct (0 <? n mod 8) eqn:E8; lia. }
  rewrite pack_B_ok by (unfold is_byte; lia). cbn [bind].
  destruct (pack_bits_loop_ok s (values_at b a n) [] [bit_byte_count n]) as (out & Ho & (Hl & Hby & _)); [reflexivity|].
  change (zlen (@nil Z)) with 0 in Ho. change (bits_val []) with 0 in Ho. rewrite Ho.
  intros H; apply Ok_inj in H; subst r. rewrite zlen_app, Hl. cbn [app]. rewrite L. reflexivity.
Qed.
Lemma pack_HH_len a q r : pack ">HH" [a; q] = Ok r -> zlen r = 4.
Proof.
  change (pack ">HH" [a; q]) with (pack_items false [FInt 2 false; FInt 2 false] [a; q]).
  rewrite !pack_items_H_cons. cbn [negb]. destruct (fits_b true a); [|discriminate]. destruct (fits_b true q); [|discriminate].
  cbn. intros H; injection H as <-. reflexivity.
Qed.
(** what handle_request adds *)
Lemma hr_shape s fc rest s' r : handle_request s (fc :: rest) false = (s', Ok r) ->
  (exists code, r = [fc + 128; code]) \/
  (exists f d, fn_code_map fc = Some f /\ f s (fc :: rest) = (s', Ok d) /\ zlen r = 1 + zlen d).
Proof.
  intros H. unfold handle_request in H. rewrite unpack_fc in H.
  assert (Hex : forall c, pack ">BB" [fc + 128; c] = Ok r -> exists code, r = [fc + 128; code]).
  { intros c Hp. rewrite pack_BB in Hp. destruct (byte_b (fc + 128) && byte_b c); [|discriminate]. injection Hp as <-. eauto. }
  destruct (fn_code_map fc) as [f|] eqn:Ef.
  - cbn [andb] in H. destruct (f s (fc :: rest)) as [s1 [resp|e]] eqn:Er.
    + destruct resp as [|y l]; [discriminate|]. pose proof (fn_code_map_range _ _ Ef). rewrite pack_B_ok in H by (unfold is_byte; lia).
      injection H as <- <-. right. exists f, (y :: l). split; [reflexivity|]. split; [exact Er|]. cbn [app]. rewrite !zlen_cons. lia.
    + left. destruct e; cbn [catch_modbus_error] in H; try discriminate. injection H as _ H. eapply Hex; eauto.
  - left. cbn [catch_modbus_error] in H. injection H as _ H. eapply Hex; eauto.
Qed.
Ltac step :=
  match goal with
  | |- (match ?x with _ => _ end) = _ -> _ => let E := fresh "E" in destruct x eqn:E; try discriminate
  end.
Lemma hr_length s c pdu s' r : wf_slave s -> encodable c -> prescribed c pdu -> (forall raw, c <> Raw raw) ->
  handle_request s pdu false = (s', Ok r) -> (exists code, r = [fc_of c + 128; code]) \/ response_length c = Some (zlen r).
Proof.
  intros W E P NR H.
  assert (K : forall fc rest n, pdu = fc :: rest -> fc_of c = fc -> response_length c = Some (1 + n) ->
    (forall f d, fn_code_map fc = Some f -> f s pdu = (s', Ok d) -> zlen d = n) ->
    (exists code, r = [fc_of c + 128; code]) \/ response_length c = Some (zlen r)).
  { intros fc rest n -> -> R F. destruct (hr_shape s fc rest s' r H) as [Q|(f & d & Ef & Ed & L)]; [now left|]. right. rewrite R, L. now rewrite (F f d Ef Ed). }
  assert (U : forall fc rest, pdu = fc :: rest -> fc_of c = fc -> fn_code_map fc = None -> (exists code, r = [fc_of c + 128; code]) \/ response_length c = Some (zlen r)).
  { intros fc rest -> -> F. left. destruct (hr_shape s fc rest s' r H) as [Q|(f & d & Ef & _)]; [exact Q|congruence]. }
  destruct c as [coils a n|holding a n|subs|a v|a v|a am om|a vals|a vals| |sub data|a n wa vals|code object|raw]; cbn [encodable prescribed fc_of response_length] in *.
  - destruct E as [Ea En]. eapply K; [exact P|reflexivity|f_equal; instantiate (1 := 1 + bytes_for_bits n); lia|].
    intros f d Ef Ed. rewrite <- (app_nil_r (word n)) in P. subst pdu.
    destruct coils; injection Ef as <-; injection Ed as _ Ed; now apply read_digital_len in Ed.
  - destruct E as [Ea En]. eapply K; [exact P|reflexivity|f_equal; instantiate (1 := 1 + 2 * n); lia|].
    intros f d Ef Ed. rewrite <- (app_nil_r (word n)) in P. subst pdu.
    destruct holding; injection Ef as <-; injection Ed as _ Ed; now apply read_registers_len in Ed.
  - eapply U; [exact P|reflexivity|reflexivity].
  - eapply K; [exact P|reflexivity|f_equal; instantiate (1 := 4); lia|]. intros f d Ef. injection Ef as <-. unfold write_single_coil.
    destruct (unpack2 _ _) as [[x y]|]; [|discriminate]. destruct (get_block_and_offset _ _ _ _) as [[[i b] o]|]; [|discriminate].
    repeat step; intros [= _ <-]; rewrite P, py_from_cons; destruct (v =? 0); reflexivity.
  - eapply K; [exact P|reflexivity|f_equal; instantiate (1 := 4); lia|]. intros f d Ef. injection Ef as <-. unfold write_single_register. cbv zeta.
    destruct (unpack2 _ _) as [[x y]|]; [|discriminate]. destruct (get_block_and_offset _ _ _ _) as [[[i b] o]|]; [|discriminate]. step. intros [= _ <-]; rewrite P, py_from_cons; reflexivity.
  - eapply K; [exact P|reflexivity|f_equal; instantiate (1 := 6); lia|]. intros f d Ef. injection Ef as <-. unfold mask_write_register.
    destruct (unpack3 _ _) as [[[x y] z]|]; [|discriminate]. destruct (get_block_and_offset _ _ _ _) as [[[i b] o]|]; [|discriminate]. step. cbv zeta. step. intros [= _ <-]; rewrite P, py_from_cons; reflexivity.
  - destruct P as (out & Po & P). eapply K; [exact P|reflexivity|f_equal; instantiate (1 := 4); lia|]. intros f d Ef. injection Ef as <-. unfold write_multiple_coils.
    destruct (unpack3 _ _) as [[[x y] z]|]; [|discriminate]. step. destruct (get_block_and_offset _ _ _ _) as [[[i b] o]|]; [|discriminate]. destruct (write_bits_outer _ _ _ _ _ _ _ _) as [d' [c|e]]; [|discriminate].
    intros [= _ Hp]. now apply pack_HH_len in Hp.
  - eapply K; [exact P|reflexivity|f_equal; instantiate (1 := 4); lia|]. intros f d Ef. injection Ef as <-. unfold write_multiple_registers.
    destruct (unpack3 _ _) as [[[x y] z]|]; [|discriminate]. step. destruct (get_block_and_offset _ _ _ _) as [[[i b] o]|]; [|discriminate]. destruct (write_regs_loop _ _ _ _ _ _ _) as [d' [c|e]]; [|discriminate].
    intros [= _ Hp]. now apply pack_HH_len in Hp.
  - eapply K; [exact P|reflexivity|f_equal; instantiate (1 := 1); lia|]. intros f d Ef. injection Ef as <-. intros Ed. apply (f_equal snd) in Ed. cbn [snd] in Ed. assert (Hr : d = [0]) by (vm_compute in Ed; congruence). now subst d.
  - eapply U; [exact P|reflexivity|reflexivity].
  - destruct E as (Ea & En & Ew & El & Ev). eapply K; [exact P|reflexivity|f_equal; instantiate (1 := 1 + 2 * n); lia|]. intros f d Ef. injection Ef as <-. unfold read_write_multiple_registers.
    rewrite P. rewrite unpack5_head; try assumption. 2: { unfold fits. pose proof (zlen_nonneg vals). lia. }
    destruct ((n <=? 0) || (125 <? n)) eqn:Q; [discriminate|].
    destruct (gbo_inv s HOLDING_REGISTERS a n _ eq_refl) as [[-> _]|[[-> _]|(l1 & b & l2 & Ht & Sv & ->)]]; try discriminate.
    pose proof Sv as (_ & [Hc1 Hc2] & _). rewrite values_at_slice by lia. rewrite pack_B_ok by (unfold is_byte; lia). cbn [bind].
    assert (L : zlen (values_at b a n) = n) by (apply (values_at_zlen s HOLDING_REGISTERS); [exact W|eexists _, _; exact Sv|lia]).
    destruct (fits_all_dec (sl_unsigned s) (values_at b a n)) as [Hf|Hf];
      [rewrite pack_regs_loop_ok by assumption|rewrite pack_regs_loop_err by assumption; discriminate].
    step. destruct (get_block_and_offset _ _ _ _) as [[[i c] o]|]; [|discriminate]. destruct (write_regs_loop _ _ _ _ _ _ _) as [d' [c'|e]]; [|discriminate].
    intros Hd; apply pair_Ok_inj in Hd; subst d. rewrite zlen_app, words_zlen, L. reflexivity.
  - eapply U; [exact P|reflexivity|reflexivity].
  - now destruct (NR raw).
Qed.
