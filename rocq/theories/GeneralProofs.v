(** Properties of Slave.handle_request over all PDUs. *)
From Verif Require Export RequestProofs.

(** [s'] differs from [s] at most in cells a..a+n-1 of one block of table [t]. *)
Definition touch (s s' : slave) (t : btype) (a n : Z) (vals : list Z) : Prop :=
  exists l1 b l2, has_table s t /\ serving (blocks s t) a n l1 b l2 /\ zlen vals <= n /\
    s' = mem_set s t (l1 ++ overlay b a vals :: l2).

Lemma touch_put s t a n l1 b l2 vals :
  has_table s t -> serving (blocks s t) a n l1 b l2 -> zlen vals <= n ->
  touch s (put_block_data s t (length l1) b (set_cells (b_data b) (Z.to_nat (a - b_start b)) vals)) t a n vals.
Proof.
  intros Ht Hs Hn. exists l1, b, l2. repeat split; auto; try apply Hs.
  rewrite (put_block_data_blocks s t l1 b l2) by (auto; apply Hs).
  f_equal. f_equal. f_equal. apply with_data_overlay.
  rewrite <- overlay_set_cells by apply Hs. reflexivity.
Qed.

(** unpacking the head of an arbitrary PDU *)
Ltac list_shape pdu n :=
  match n with
  | O => idtac
  | S ?m => destruct pdu as [|? pdu]; [|list_shape pdu m]
  end.

Lemma unpack2_inv f sg pdu x y :
  parse_fmt f = Ok {| pf_little := false; pf_items := [FInt 2 false; FInt 2 sg] |} ->
  unpack2 f (py_slice pdu 1 5) = Ok (x, y) ->
  (5 <= length pdu)%nat /\ x = be16 pdu 1 /\ y = (if sg then reg_of_word false (be16 pdu 3) else be16 pdu 3).
Proof.
  intros Hp H. unfold unpack2 in H.
  rewrite py_slice_nonneg in H by lia. change (Z.to_nat (5 - 1)) with 4%nat in H.
  change (Z.to_nat 1) with 1%nat in H.
  destruct pdu as [|p0 [|p1 [|p2 [|p3 [|p4 pdu]]]]];
    try (cbn [skipn firstn] in H; erewrite unpack_len_err in H;
         [discriminate|exact Hp|cbn; lia]).
  cbn [skipn firstn] in H. split; [cbn; lia|].
  erewrite unpack_len_ok in H; [|exact Hp|reflexivity].
  cbn [pf_little pf_items unpack_items firstn skipn bind] in H. injection H as <- <-.
  unfold unpack_int, be16. cbn [andb nth]. rewrite !be_val_2. split; [reflexivity|].
  destruct sg; cbn [andb]; [|reflexivity].
  unfold reg_of_word. change (2 ^ (8 * Z.of_nat 2 - 1)) with 32768. change (2 ^ (8 * Z.of_nat 2)) with 65536.
  destruct (32768 <=? p3 * 256 + p4) eqn:E1, (p3 * 256 + p4 <? 32768) eqn:E2; lia.
Qed.
Lemma unpack2_short f pf pdu :
  parse_fmt f = Ok pf -> forall e, unpack2 f pdu = Err e -> e = StructError \/ e = PyValueError.
Proof.
  intros Hp e H. unfold unpack2 in H. destruct (unpack f pdu) as [l|e'] eqn:E.
  - cbn [bind] in H. destruct l as [|? [|? [|? ?]]]; try congruence; injection H as <-; auto.
  - cbn [bind] in H. injection H as <-. left. eapply unpack_err; eauto.
Qed.
Lemma unpack3_inv pdu x y z :
  unpack3 ">HHB" (py_slice pdu 1 6) = Ok (x, y, z) ->
  (6 <= length pdu)%nat /\ x = be16 pdu 1 /\ y = be16 pdu 3 /\ z = nth 5 pdu 0.
Proof.
  intros H. unfold unpack3 in H.
  rewrite py_slice_nonneg in H by lia. change (Z.to_nat (6 - 1)) with 5%nat in H.
  change (Z.to_nat 1) with 1%nat in H.
  destruct pdu as [|p0 [|p1 [|p2 [|p3 [|p4 [|p5 pdu]]]]]];
    try (cbn [skipn firstn] in H; erewrite unpack_len_err in H;
         [discriminate|reflexivity|cbn; lia]).
  cbn [skipn firstn] in H. rewrite unpack_HHB in H. cbn [bind] in H. injection H as <- <- <-.
  split; [cbn; lia|]. auto.
Qed.
Lemma unpack3m_inv pdu x y z :
  unpack3 ">HHH" (py_slice pdu 1 7) = Ok (x, y, z) ->
  (7 <= length pdu)%nat /\ x = be16 pdu 1 /\ y = be16 pdu 3 /\ z = be16 pdu 5.
Proof.
  intros H. unfold unpack3 in H.
  rewrite py_slice_nonneg in H by lia. change (Z.to_nat (7 - 1)) with 6%nat in H.
  change (Z.to_nat 1) with 1%nat in H.
  destruct pdu as [|p0 [|p1 [|p2 [|p3 [|p4 [|p5 [|p6 pdu]]]]]]];
    try (cbn [skipn firstn] in H; erewrite unpack_len_err in H;
         [discriminate|reflexivity|cbn; lia]).
  cbn [skipn firstn] in H. rewrite unpack_HHH in H. cbn [bind] in H. injection H as <- <- <-.
  split; [cbn; lia|]. auto.
Qed.
Lemma unpack5_inv pdu v w x y z :
  unpack5 ">HHHHB" (py_slice pdu 1 10) = Ok (v, w, x, y, z) ->
  (10 <= length pdu)%nat /\ v = be16 pdu 1 /\ w = be16 pdu 3 /\ x = be16 pdu 5 /\ y = be16 pdu 7
  /\ z = nth 9 pdu 0.
Proof.
  intros H. unfold unpack5 in H.
  rewrite py_slice_nonneg in H by lia. change (Z.to_nat (10 - 1)) with 9%nat in H.
  change (Z.to_nat 1) with 1%nat in H.
  destruct pdu as [|p0 [|p1 [|p2 [|p3 [|p4 [|p5 [|p6 [|p7 [|p8 [|p9 pdu]]]]]]]]]];
    try (cbn [skipn firstn] in H; erewrite unpack_len_err in H;
         [discriminate|reflexivity|cbn; lia]).
  cbn [skipn firstn] in H. rewrite unpack_HHHHB in H. cbn [bind] in H. injection H as <- <- <- <- <-.
  split; [cbn; lia|]. auto 6.
Qed.
Lemma unpack3_err f pf b e : parse_fmt f = Ok pf -> unpack3 f b = Err e -> e = StructError \/ e = PyValueError.
Proof.
  intros Hp H. unfold unpack3 in H. destruct (unpack f b) as [l|e'] eqn:E.
  - cbn [bind] in H. destruct l as [|? [|? [|? [|? ?]]]]; try congruence; injection H as <-; auto.
  - cbn [bind] in H. injection H as <-. left. eapply unpack_err; eauto.
Qed.
Lemma unpack5_err f pf b e : parse_fmt f = Ok pf -> unpack5 f b = Err e -> e = StructError \/ e = PyValueError.
Proof.
  intros Hp H. unfold unpack5 in H. destruct (unpack f b) as [l|e'] eqn:E.
  - cbn [bind] in H. destruct l as [|? [|? [|? [|? [|? [|? ?]]]]]]; try congruence; injection H as <-; auto.
  - cbn [bind] in H. injection H as <-. left. eapply unpack_err; eauto.
Qed.

(** What any handler may do: summary used by all the general theorems.
    [fits_ok]: on byte PDUs the written values fit the slave's signedness. *)
Definition benign (e : exn) : Prop := e = StructError \/ e = PyValueError \/ e = PyKeyError.

Record handler_effect (s : slave) (pdu : list Z) (s' : slave) (r : res (list Z))
  (t : btype) (a n : Z) : Prop := {
  he_state : s' = s \/
    exists vals, touch s s' t a n vals /\ (bytes pdu -> hd 0 pdu <> 22 -> Forall (fits (sl_unsigned s)) vals) /\
      (r = Err StructError \/ (zlen vals = n /\ is_ok r = true));
  he_err : forall e, r = Err e ->
    benign e \/ (s' = s /\ exists c, e = ModbusError c /\ (c = 2 \/ c = 3));
  he_ok : forall resp, r = Ok resp -> resp <> []
}.

Ltac gbo_cases :=
  match goal with
  | |- context [get_block_and_offset ?s ?t ?a ?n] =>
      let H := fresh "Hgbo" in
      destruct (gbo_inv s t a n _ eq_refl) as [[H ?]|[[H [? ?]]|(? & ? & ? & ? & ? & H)]]; rewrite H
  end.

Lemma effect_err s pdu s' t a n e :
  s' = s -> (benign e \/ exists c, e = ModbusError c /\ (c = 2 \/ c = 3)) ->
  handler_effect s pdu s' (Err e) t a n.
Proof.
  intros -> He. constructor.
  - now left.
  - intros e' H. injection H as <-. destruct He as [He|He]; auto.
  - discriminate.
Qed.

Lemma fits_bit u v : v = 0 \/ v = 1 -> fits u v.
Proof. unfold fits. destruct u; lia. Qed.

Lemma write_one_effect s pdu t a v l1 b l2 resp :
  wf_slave s -> has_table s t -> serving (blocks s t) a 1 l1 b l2 -> resp <> [] ->
  (bytes pdu -> hd 0 pdu <> 22 -> fits (sl_unsigned s) v) ->
  exists d, py_set (b_data b) (a - b_start b) v = Ok d /\
  handler_effect s pdu (put_block_data s t (length l1) b d) (Ok resp) t a 1.
Proof.
  intros Hw Ht Hs Hr Hv. pose proof (wf_served _ _ _ _ _ _ _ Hw Hs) as (H1 & H2 & H3).
  pose proof Hs as (_ & (H4 & H5) & _).
  rewrite py_set_in by lia. eexists. split; [reflexivity|].
  constructor; [|discriminate|intros ? H; injection H as <-; exact Hr].
  right. exists [v]. split; [|split].
  - rewrite <- (overlay_upd b a (Z.to_nat (a - b_start b)) v) by (unfold zlen in H3; lia).
    rewrite overlay_set_cells by lia. apply touch_put with (l2 := l2); auto. cbn. lia.
  - intros Hb Hn. constructor; [auto|constructor].
  - right. split; reflexivity.
Qed.

Lemma write_single_register_effect s pdu :
  wf_slave s ->
  handler_effect s pdu (fst (write_single_register s pdu)) (snd (write_single_register s pdu))
    HOLDING_REGISTERS (be16 pdu 1) 1.
Proof.
  intros Hw. unfold write_single_register.
  set (fmt := (if sl_unsigned s then ">HH" else ">Hh")%string).
  assert (Hp : parse_fmt fmt = Ok {| pf_little := false; pf_items := [FInt 2 false; FInt 2 (negb (sl_unsigned s))] |})
    by (unfold fmt; destruct (sl_unsigned s); reflexivity).
  destruct (unpack2 fmt (py_slice pdu 1 5)) as [[a v]|e] eqn:E.
  - apply (unpack2_inv _ _ _ _ _ Hp) in E as (Hl & -> & Hv).
    gbo_cases; cbn [fst snd].
    + apply effect_err; [auto|left; unfold benign; auto].
    + apply effect_err; [auto|right; eexists; split; [reflexivity|now left]].
    + destruct (write_one_effect s pdu HOLDING_REGISTERS (be16 pdu 1) v _ _ _ (py_from pdu 1) Hw H H0) as (d & Hd & He).
      * destruct pdu as [|p0 [|p1 pdu]]; cbn in Hl; try lia. rewrite py_from_cons. discriminate.
      * intros Hb _. subst v. unfold bytes in Hb. rewrite Forall_forall in Hb.
        assert (H3 : is_byte (nth 3 pdu 0)) by (apply Hb, nth_In; lia).
        assert (H4 : is_byte (nth 4 pdu 0)) by (apply Hb, nth_In; lia).
        unfold be16, is_byte in *. unfold fits, reg_of_word.
        destruct (sl_unsigned s); cbn [negb]; [lia|]. destruct (_ <? 32768) eqn:?; lia.
      * rewrite Hd. exact He.
  - apply effect_err; [auto|]. left. unfold benign.
    apply (unpack2_short _ _ _ Hp) in E. tauto.
Qed.

Lemma write_single_coil_effect s pdu :
  wf_slave s ->
  handler_effect s pdu (fst (write_single_coil s pdu)) (snd (write_single_coil s pdu))
    COILS (be16 pdu 1) 1.
Proof.
  intros Hw. unfold write_single_coil.
  destruct (unpack2 ">HH" (py_slice pdu 1 5)) as [[a v]|e] eqn:E.
  - apply (unpack2_inv ">HH" false _ _ _ eq_refl) in E as (Hl & -> & Hv).
    assert (Hne : py_from pdu 1 <> []).
    { destruct pdu as [|p0 [|p1 pdu]]; cbn in Hl; try lia. rewrite py_from_cons. discriminate. }
    gbo_cases; cbn [fst snd].
    + apply effect_err; [auto|left; unfold benign; auto].
    + apply effect_err; [auto|right; eexists; split; [reflexivity|now left]].
    + destruct (v =? 0) eqn:E0; [|destruct (v =? 65280) eqn:E1].
      * destruct (write_one_effect s pdu COILS (be16 pdu 1) 0 _ _ _ (py_from pdu 1) Hw H H0 Hne) as (d & Hd & He).
        { intros _ _. apply fits_bit. auto. }
        rewrite Hd. exact He.
      * destruct (write_one_effect s pdu COILS (be16 pdu 1) 1 _ _ _ (py_from pdu 1) Hw H H0 Hne) as (d & Hd & He).
        { intros _ _. apply fits_bit. auto. }
        rewrite Hd. exact He.
      * apply effect_err; [auto|right; eexists; split; [reflexivity|now right]].
  - apply effect_err; [auto|]. left. unfold benign.
    apply (unpack2_short ">HH" _ _ eq_refl) in E. tauto.
Qed.

Lemma mask_write_effect s pdu :
  wf_slave s -> hd 0 pdu = 22 ->
  handler_effect s pdu (fst (mask_write_register s pdu)) (snd (mask_write_register s pdu))
    HOLDING_REGISTERS (be16 pdu 1) 1.
Proof.
  intros Hw Hfc. unfold mask_write_register.
  destruct (unpack3 ">HHH" (py_slice pdu 1 7)) as [[[a am] om]|e] eqn:E.
  - apply unpack3m_inv in E as (Hl & -> & Ham & Hom).
    assert (Hne : py_from pdu 1 <> []).
    { destruct pdu as [|p0 [|p1 pdu]]; cbn in Hl; try lia. rewrite py_from_cons. discriminate. }
    gbo_cases; cbn [fst snd].
    + apply effect_err; [auto|left; unfold benign; auto].
    + apply effect_err; [auto|right; eexists; split; [reflexivity|now left]].
    + pose proof (wf_served _ _ _ _ _ _ _ Hw H0) as (H1 & H2 & H3).
      pose proof H0 as (_ & (H4 & H5) & _).
      destruct (py_get_in (b_data x0) (be16 pdu 1 - b_start x0)) as (old & Hold & Hget); [lia|].
      rewrite Hget.
      destruct (write_one_effect s pdu HOLDING_REGISTERS (be16 pdu 1)
                  (Z.lor (Z.land old am) (Z.land om (Z.lnot am))) _ _ _ (py_from pdu 1) Hw H H0 Hne) as (d & Hd & He).
      { intros _ Hn. congruence. }
      rewrite Hd. exact He.
  - apply effect_err; [auto|]. left. unfold benign.
    apply (unpack3_err ">HHH" _ _ _ eq_refl) in E. tauto.
Qed.

Lemma pack_HH_ok_ne a q : pack ">HH" [a; q] = Err StructError \/
  exists r, pack ">HH" [a; q] = Ok r /\ r <> [].
Proof.
  change (pack ">HH" [a; q]) with
    (x <- (if fits_b true a then Ok (be_bytes 2 a) else Err StructError) ;;
     r <- (y <- (if fits_b true q then Ok (be_bytes 2 q) else Err StructError) ;; Ok (y ++ [])) ;;
     Ok (x ++ r)).
  destruct (fits_b true a), (fits_b true q); cbn [bind]; auto.
  right. eexists. split; [reflexivity|]. discriminate.
Qed.

Lemma write_multiple_registers_effect s pdu :
  wf_slave s ->
  handler_effect s pdu (fst (write_multiple_registers s pdu)) (snd (write_multiple_registers s pdu))
    HOLDING_REGISTERS (be16 pdu 1) (be16 pdu 3).
Proof.
  intros Hw. unfold write_multiple_registers.
  destruct (unpack3 ">HHB" (py_slice pdu 1 6)) as [[[a q] bc]|e] eqn:E.
  - apply unpack3_inv in E as (Hl & -> & -> & ->).
    destruct (_ || negb _) eqn:Eq.
    { apply effect_err; [auto|right; eexists; split; [reflexivity|now right]]. }
    gbo_cases; cbn [fst snd].
    + apply effect_err; [auto|left; unfold benign; auto].
    + apply effect_err; [auto|right; eexists; split; [reflexivity|now left]].
    + pose proof (wf_served _ _ _ _ _ _ _ Hw H0) as (H1 & H2 & H3).
      pose proof H0 as (_ & (H4 & H5) & _).
      destruct (write_regs_loop_any s pdu 6 (be16 pdu 1 - b_start x0) (Z.to_nat (be16 pdu 3)) (b_data x0) [])
        as (vals & r & Hlen & HL & Hr & Hfit).
      { lia. }
      { cbn [length]. unfold zlen in *. lia. }
      rewrite set_cells_nil in HL. change (zlen (@nil Z)) with 0 in HL. cbn [app] in HL.
      rewrite HL.
      assert (Hv : zlen vals <= be16 pdu 3) by (unfold zlen; lia).
      pose proof (touch_put s _ _ _ _ _ _ vals H H0 Hv) as Htouch.
      destruct Hr as [[-> Hr]| ->]; cbn [fst snd].
      * destruct (pack_HH_ok_ne (be16 pdu 1) (be16 pdu 3)) as [-> | (rr & -> & Hrr)].
        -- constructor.
           ++ right. exists vals. auto.
           ++ intros e' He'. injection He' as <-. left. unfold benign. auto.
           ++ discriminate.
        -- constructor.
           ++ right. exists vals. split; [assumption|]. split; [auto|]. right. split; [unfold zlen; lia|reflexivity].
           ++ discriminate.
           ++ intros ? Hx. injection Hx as <-. exact Hrr.
      * constructor.
        -- right. exists vals. auto.
        -- intros e' He'. injection He' as <-. left. unfold benign. auto.
        -- discriminate.
  - apply effect_err; [auto|]. left. unfold benign.
    apply (unpack3_err ">HHB" _ _ _ eq_refl) in E. tauto.
Qed.

Lemma write_multiple_coils_effect s pdu :
  wf_slave s ->
  handler_effect s pdu (fst (write_multiple_coils s pdu)) (snd (write_multiple_coils s pdu))
    COILS (be16 pdu 1) (be16 pdu 3).
Proof.
  intros Hw. unfold write_multiple_coils.
  destruct (unpack3 ">HHB" (py_slice pdu 1 6)) as [[[a q] bc]|e] eqn:E.
  - apply unpack3_inv in E as (Hl & -> & -> & ->).
    destruct (_ || negb _) eqn:Eq.
    { apply effect_err; [auto|right; eexists; split; [reflexivity|now right]]. }
    gbo_cases; cbn [fst snd].
    + apply effect_err; [auto|left; unfold benign; auto].
    + apply effect_err; [auto|right; eexists; split; [reflexivity|now left]].
    + pose proof (wf_served _ _ _ _ _ _ _ Hw H0) as (H1 & H2 & H3).
      pose proof H0 as (_ & (H4 & H5) & _).
      destruct (write_bits_outer_any s pdu (b_data x0) (be16 pdu 1 - b_start x0) (be16 pdu 3)
                  ltac:(lia) ltac:(lia) ltac:(lia) (Z.to_nat (nth 5 pdu 0)) 0 [])
        as (vals & r & HL & Hle & Hr & Hb).
      { left. reflexivity. }
      { cbn. lia. }
      rewrite set_cells_nil in HL. change (zlen (@nil Z)) with 0 in HL. cbn [app] in HL, Hle, Hr.
      rewrite HL.
      pose proof (touch_put s _ _ _ _ _ _ vals H H0 Hle) as Htouch.
      assert (Hf : bytes pdu -> hd 0 pdu <> 22 -> Forall (fits (sl_unsigned s)) vals).
      { intros _ _. eapply Forall_impl; [|exact Hb]. intros v. apply fits_bit. }
      destruct Hr as [[-> Hr]| ->]; cbn [fst snd].
      * assert (Hfull : zlen vals = be16 pdu 3).
        { destruct Hr as [Hr|Hr]; [exact Hr|].
          unfold bit_byte_count in Eq. destruct (0 <? be16 pdu 3 mod 8) eqn:?; lia. }
        destruct (pack_HH_ok_ne (be16 pdu 1) (zlen vals)) as [-> | (rr & -> & Hrr)].
        -- constructor.
           ++ right. exists vals. auto.
           ++ intros e' He'. injection He' as <-. left. unfold benign. auto.
           ++ discriminate.
        -- constructor.
           ++ right. exists vals. split; [assumption|]. split; [auto|]. right. split; [assumption|reflexivity].
           ++ discriminate.
           ++ intros ? Hx. injection Hx as <-. exact Hrr.
      * constructor.
        -- right. exists vals. auto.
        -- intros e' He'. injection He' as <-. left. unfold benign. auto.
        -- discriminate.
  - apply effect_err; [auto|]. left. unfold benign.
    apply (unpack3_err ">HHB" _ _ _ eq_refl) in E. tauto.
Qed.

Lemma read_pack_cases s vals q :
  (exists resp, (header <- pack ">B" [2 * q] ;; pack_regs_loop (fmtH s) vals header) = Ok resp /\ resp <> []) \/
  (header <- pack ">B" [2 * q] ;; pack_regs_loop (fmtH s) vals header) = Err StructError.
Proof.
  rewrite pack_B. destruct (byte_b (2 * q)); cbn [bind]; [|auto].
  destruct (fits_all_dec (sl_unsigned s) vals) as [H|H].
  - rewrite pack_regs_loop_ok by assumption. left. eexists. split; [reflexivity|discriminate].
  - rewrite pack_regs_loop_err by assumption. auto.
Qed.

Lemma read_write_effect s pdu :
  wf_slave s ->
  handler_effect s pdu (fst (read_write_multiple_registers s pdu)) (snd (read_write_multiple_registers s pdu))
    HOLDING_REGISTERS (be16 pdu 5) (be16 pdu 7).
Proof.
  intros Hw. unfold read_write_multiple_registers.
  destruct (unpack5 ">HHHHB" (py_slice pdu 1 10)) as [[[[[ra rq] wa] wq] bc]|e] eqn:E.
  - apply unpack5_inv in E as (Hl & -> & -> & -> & -> & ->).
    destruct ((be16 pdu 3 <=? 0) || (125 <? be16 pdu 3)) eqn:Eq.
    { apply effect_err; [auto|right; eexists; split; [reflexivity|now right]]. }
    destruct (gbo_inv s HOLDING_REGISTERS (be16 pdu 1) (be16 pdu 3) _ eq_refl)
      as [[Hg ?]|[[Hg [? ?]]|(r1 & rb & r2 & Hrt & Hrs & Hg)]]; rewrite Hg; cbn [fst snd].
    + apply effect_err; [auto|left; unfold benign; auto].
    + apply effect_err; [auto|right; eexists; split; [reflexivity|now left]].
    + destruct (read_pack_cases s (py_slice (b_data rb) (be16 pdu 1 - b_start rb) (be16 pdu 1 - b_start rb + be16 pdu 3)) (be16 pdu 3))
        as [(resp & Hresp & Hne)|Hresp]; rewrite Hresp; cbn [fst snd].
      2:{ apply effect_err; [auto|left; unfold benign; auto]. }
      destruct (_ || negb _) eqn:Eq2.
      { apply effect_err; [auto|right; eexists; split; [reflexivity|now right]]. }
      gbo_cases; cbn [fst snd].
      * apply effect_err; [auto|left; unfold benign; auto].
      * apply effect_err; [auto|right; eexists; split; [reflexivity|now left]].
      * pose proof (wf_served _ _ _ _ _ _ _ Hw H0) as (H1 & H2 & H3).
        pose proof H0 as (_ & (H4 & H5) & _).
        destruct (write_regs_loop_any s pdu 10 (be16 pdu 5 - b_start x0) (Z.to_nat (be16 pdu 7)) (b_data x0) [])
          as (vals & r & Hlen & HL & Hr & Hfit).
        { lia. }
        { cbn [length]. unfold zlen in *. lia. }
        rewrite set_cells_nil in HL. change (zlen (@nil Z)) with 0 in HL. cbn [app] in HL.
        rewrite HL.
        assert (Hv : zlen vals <= be16 pdu 7) by (unfold zlen; lia).
        pose proof (touch_put s _ _ _ _ _ _ vals H H0 Hv) as Htouch.
        destruct Hr as [[-> Hr]| ->]; cbn [fst snd].
        -- constructor.
           ++ right. exists vals. split; [assumption|]. split; [auto|]. right. split; [unfold zlen; lia|reflexivity].
           ++ discriminate.
           ++ intros ? Hx. injection Hx as <-. exact Hne.
        -- constructor.
           ++ right. exists vals. auto.
           ++ intros e' He'. injection He' as <-. left. unfold benign. auto.
           ++ discriminate.
  - apply effect_err; [auto|]. left. unfold benign.
    apply (unpack5_err ">HHHHB" _ _ _ eq_refl) in E. tauto.
Qed.

(** reads *)
Lemma read_registers_res s t pdu :
  (exists resp, read_registers s t pdu = Ok resp /\ resp <> []) \/
  (exists e, read_registers s t pdu = Err e /\ (benign e \/ exists c, e = ModbusError c /\ (c = 2 \/ c = 3))).
Proof.
  unfold read_registers.
  destruct (unpack2 ">HH" (py_slice pdu 1 5)) as [[a q]|e] eqn:E; cbn [bind].
  - destruct ((q <=? 0) || (125 <? q)) eqn:Eq.
    { right. eexists. split; [reflexivity|]. right. eexists. split; [reflexivity|now right]. }
    gbo_cases; cbn [bind].
    + right. eexists. split; [reflexivity|]. left. unfold benign. auto.
    + right. eexists. split; [reflexivity|]. right. eexists. split; [reflexivity|now left].
    + destruct (read_pack_cases s (py_slice (b_data x0) (a - b_start x0) (a - b_start x0 + q)) q)
        as [(resp & Hresp & Hne)|Hresp]; rewrite Hresp.
      * left. eauto.
      * right. eexists. split; [reflexivity|]. left. unfold benign. auto.
  - right. eexists. split; [reflexivity|]. left. apply (unpack2_short ">HH" _ _ eq_refl) in E. unfold benign. tauto.
Qed.
Lemma pack_bits_any s vals resp :
  exists out, pack_bits_loop vals 0 0 resp (fmtB s) = Ok (resp ++ out).
Proof.
  destruct (pack_bits_loop_ok s vals [] resp) as (out & Ho & _); [reflexivity|]. exists out. exact Ho.
Qed.
Lemma read_digital_res s t pdu :
  (exists resp, read_digital s t pdu = Ok resp /\ resp <> []) \/
  (exists e, read_digital s t pdu = Err e /\ (benign e \/ exists c, e = ModbusError c /\ (c = 2 \/ c = 3))).
Proof.
  unfold read_digital.
  destruct (unpack2 ">HH" (py_slice pdu 1 5)) as [[a q]|e] eqn:E; cbn [bind].
  - destruct ((q <=? 0) || (2000 <? q)) eqn:Eq.
    { right. eexists. split; [reflexivity|]. right. eexists. split; [reflexivity|now right]. }
    gbo_cases; cbn [bind].
    + right. eexists. split; [reflexivity|]. left. unfold benign. auto.
    + right. eexists. split; [reflexivity|]. right. eexists. split; [reflexivity|now left].
    + rewrite pack_B. destruct (byte_b (bit_byte_count q)) eqn:Eb; cbn [bind].
      * destruct (pack_bits_any s (py_slice (b_data x0) (a - b_start x0) (a - b_start x0 + q)) [bit_byte_count q])
          as (out & ->). left. eexists. split; [reflexivity|discriminate].
      * right. eexists. split; [reflexivity|]. left. unfold benign. auto.
  - right. eexists. split; [reflexivity|]. left. apply (unpack2_short ">HH" _ _ eq_refl) in E. unfold benign. tauto.
Qed.
Lemma read_effect s pdu r t a n :
  (exists resp, r = Ok resp /\ resp <> []) \/
  (exists e, r = Err e /\ (benign e \/ exists c, e = ModbusError c /\ (c = 2 \/ c = 3))) ->
  handler_effect s pdu s r t a n.
Proof.
  intros [(resp & -> & Hne)|(e & -> & He)].
  - constructor; [now left|discriminate|]. intros ? H. injection H as <-. exact Hne.
  - now apply effect_err.
Qed.

(** ** all handlers at once *)
Lemma fn_effect s fc rest f :
  wf_slave s -> fn_code_map fc = Some f ->
  exists t a n,
    handler_effect s (fc :: rest) (fst (f s (fc :: rest))) (snd (f s (fc :: rest))) t a n /\
    (fst (f s (fc :: rest)) = s \/ write_range (fc :: rest) = Some (t, a, n)).
Proof.
  intros Hw. unfold fn_code_map, READ_COILS, READ_DISCRETE_INPUTS, READ_INPUT_REGISTERS, READ_HOLDING_REGISTERS,
    READ_EXCEPTION_STATUS, WRITE_SINGLE_COIL, WRITE_SINGLE_REGISTER, WRITE_MULTIPLE_COILS,
    WRITE_MULTIPLE_REGISTERS, MASK_WRITE_REGISTER, READ_WRITE_MULTIPLE_REGISTERS.
  destruct (fc =? 1) eqn:E1.
  { intros H; injection H as <-. exists COILS, 0, 0. split; [|now left]. cbn [fst snd]. apply read_effect, read_digital_res. }
  destruct (fc =? 2) eqn:E2.
  { intros H; injection H as <-. exists COILS, 0, 0. split; [|now left]. cbn [fst snd]. apply read_effect, read_digital_res. }
  destruct (fc =? 4) eqn:E4.
  { intros H; injection H as <-. exists COILS, 0, 0. split; [|now left]. cbn [fst snd]. apply read_effect, read_registers_res. }
  destruct (fc =? 3) eqn:E3.
  { intros H; injection H as <-. exists COILS, 0, 0. split; [|now left]. cbn [fst snd]. apply read_effect, read_registers_res. }
  destruct (fc =? 7) eqn:E7.
  { intros H; injection H as <-. exists COILS, 0, 0. split; [|now left]. cbn [fst snd]. apply read_effect.
    left. exists [0]. split; [reflexivity|discriminate]. }
  destruct (fc =? 5) eqn:E5.
  { intros H; injection H as <-. assert (fc = 5) as -> by lia.
    do 3 eexists. split; [apply write_single_coil_effect; exact Hw|]. right. reflexivity. }
  destruct (fc =? 6) eqn:E6.
  { intros H; injection H as <-. assert (fc = 6) as -> by lia.
    do 3 eexists. split; [apply write_single_register_effect; exact Hw|]. right. reflexivity. }
  destruct (fc =? 15) eqn:E15.
  { intros H; injection H as <-. assert (fc = 15) as -> by lia.
    do 3 eexists. split; [apply write_multiple_coils_effect; exact Hw|]. right. reflexivity. }
  destruct (fc =? 16) eqn:E16.
  { intros H; injection H as <-. assert (fc = 16) as -> by lia.
    do 3 eexists. split; [apply write_multiple_registers_effect; exact Hw|]. right. reflexivity. }
  destruct (fc =? 22) eqn:E22.
  { intros H; injection H as <-. assert (fc = 22) as -> by lia.
    do 3 eexists. split; [apply mask_write_effect; [exact Hw|reflexivity]|]. right. reflexivity. }
  destruct (fc =? 23) eqn:E23; [|discriminate].
  intros H; injection H as <-. assert (fc = 23) as -> by lia.
  do 3 eexists. split; [apply read_write_effect; exact Hw|]. right. reflexivity.
Qed.

Lemma fn_none_iff fc : fn_code_map fc = None <-> ~ supported fc.
Proof.
  unfold supported, fn_code_map, READ_COILS, READ_DISCRETE_INPUTS, READ_INPUT_REGISTERS, READ_HOLDING_REGISTERS,
    READ_EXCEPTION_STATUS, WRITE_SINGLE_COIL, WRITE_SINGLE_REGISTER, WRITE_MULTIPLE_COILS,
    WRITE_MULTIPLE_REGISTERS, MASK_WRITE_REGISTER, READ_WRITE_MULTIPLE_REGISTERS. cbn [In].
  destruct (fc =? 1) eqn:?; [split; [discriminate|lia]|].
  destruct (fc =? 2) eqn:?; [split; [discriminate|lia]|].
  destruct (fc =? 4) eqn:?; [split; [discriminate|lia]|].
  destruct (fc =? 3) eqn:?; [split; [discriminate|lia]|].
  destruct (fc =? 7) eqn:?; [split; [discriminate|lia]|].
  destruct (fc =? 5) eqn:?; [split; [discriminate|lia]|].
  destruct (fc =? 6) eqn:?; [split; [discriminate|lia]|].
  destruct (fc =? 15) eqn:?; [split; [discriminate|lia]|].
  destruct (fc =? 16) eqn:?; [split; [discriminate|lia]|].
  destruct (fc =? 22) eqn:?; [split; [discriminate|lia]|].
  destruct (fc =? 23) eqn:?; [split; [discriminate|lia]|].
  split; [|reflexivity]. intros _ H. lia.
Qed.

(** ** what handle_request may do *)
Lemma hr_nil s bc : handle_request s [] bc = (s, Err StructError).
Proof. reflexivity. Qed.

(** the state after a request *)
Lemma hr_state s pdu bc :
  wf_slave s ->
  fst (handle_request s pdu bc) = s \/
  exists fc rest t a n vals,
    pdu = fc :: rest /\ write_range pdu = Some (t, a, n) /\
    touch s (fst (handle_request s pdu bc)) t a n vals /\
    (bytes pdu -> fc <> 22 -> Forall (fits (sl_unsigned s)) vals) /\
    (snd (handle_request s pdu bc) = Err StructError \/ zlen vals = n).
Proof.
  intros Hw. destruct pdu as [|fc rest]; [left; reflexivity|].
  unfold handle_request. rewrite unpack_fc.
  destruct (fn_code_map fc) as [f|] eqn:Ef; [|left; reflexivity].
  destruct (bc && cant_be_broadcasted fc); [left; reflexivity|].
  destruct (fn_effect s fc rest f Hw Ef) as (t & a & n & He & Hrange).
  destruct (f s (fc :: rest)) as [s' r] eqn:Er. cbn [fst snd] in *.
  match goal with |- fst ?m = s \/ _ =>
    assert (Hst : fst m = s') by (destruct r as [[|x l]|e]; [|destruct bc|]; reflexivity);
    rewrite Hst
  end.
  destruct (he_state _ _ _ _ _ _ _ He) as [->|(vals & Ht & Hf & Hr)]; [now left|].
  destruct Hrange as [->|Hrange]; [now left|].
  right. exists fc, rest, t, a, n, vals. split; [reflexivity|]. split; [exact Hrange|].
  split; [exact Ht|]. split; [intros; apply Hf; auto|].
  destruct Hr as [->|[Hz _]]; [left; reflexivity|right; exact Hz].
Qed.

(** exception responses *)
Lemma hr_exception s pdu bc s' x resp :
  wf_slave s -> handle_request s pdu bc = (s', Ok (x :: resp)) -> 128 <= x ->
  exists fc rest c, pdu = fc :: rest /\ x = fc + 128 /\ resp = [c] /\ s' = s /\
    (c = 1 /\ ~ supported fc \/ (c = 2 \/ c = 3) /\ supported fc).
Proof.
  intros Hw H Hx. destruct pdu as [|fc rest]; [discriminate|].
  unfold handle_request in H. rewrite unpack_fc in H.
  destruct (fn_code_map fc) as [f|] eqn:Ef.
  - assert (Hsup : supported fc).
    { destruct (in_dec Z.eq_dec fc [1; 2; 3; 4; 5; 6; 7; 15; 16; 22; 23]) as [Hi|Hi]; [exact Hi|].
      apply fn_none_iff in Hi. congruence. }
    destruct (bc && cant_be_broadcasted fc); [discriminate|].
    destruct (fn_effect s fc rest f Hw Ef) as (t & a & n & He & _).
    destruct (f s (fc :: rest)) as [s1 r] eqn:Er. cbn [fst snd] in *.
    pose proof (fn_code_map_range _ _ Ef) as Hfc.
    destruct r as [resp0|e].
    + destruct resp0 as [|y resp0]; [discriminate|]. destruct bc; [discriminate|].
      rewrite pack_B_ok in H by (unfold is_byte; lia). cbn [bind] in H. cbn [app] in H. injection H as _ H1 _. lia.
    + destruct (he_err _ _ _ _ _ _ _ He e eq_refl) as [Hb|(-> & c & -> & Hc)].
      * unfold benign in Hb. destruct Hb as [->|[->| ->]]; discriminate.
      * cbn [catch_modbus_error] in H. rewrite pack_BB in H.
        replace (byte_b (fc + 128)) with true in H by (unfold byte_b; lia).
        replace (byte_b c) with true in H by (unfold byte_b; lia). cbn [andb] in H.
        injection H as <- <- <-. exists fc, rest, c. repeat split; auto.
  - cbn [catch_modbus_error] in H. rewrite pack_BB in H.
    destruct (byte_b (fc + 128) && byte_b ILLEGAL_FUNCTION); [|discriminate].
    injection H as <- <- <-. exists fc, rest, 1. repeat split; auto.
    left. split; [reflexivity|]. now apply fn_none_iff.
Qed.

(** error results *)
Lemma hr_error s pdu bc s' e :
  wf_slave s -> handle_request s pdu bc = (s', Err e) ->
  benign e \/ (e = ModbusInvalidRequestError /\ bc = true /\ s' = s).
Proof.
  intros Hw H. destruct pdu as [|fc rest]; [injection H as <- <-; left; unfold benign; auto|].
  unfold handle_request in H. rewrite unpack_fc in H.
  destruct (fn_code_map fc) as [f|] eqn:Ef.
  - destruct (bc && cant_be_broadcasted fc) eqn:Eb.
    { injection H as <- <-. right. destruct bc; [auto|discriminate]. }
    destruct (fn_effect s fc rest f Hw Ef) as (t & a & n & He & _).
    destruct (f s (fc :: rest)) as [s1 r] eqn:Er. cbn [fst snd] in *.
    pose proof (fn_code_map_range _ _ Ef) as Hfc.
    destruct r as [resp0|e0].
    + pose proof (he_ok _ _ _ _ _ _ _ He _ eq_refl) as Hne.
      destruct resp0 as [|y resp0]; [congruence|]. destruct bc; [discriminate|].
      rewrite pack_B_ok in H by (unfold is_byte; lia). discriminate.
    + destruct (he_err _ _ _ _ _ _ _ He e0 eq_refl) as [Hb|(-> & c & -> & Hc)].
      * left. unfold benign in *. destruct Hb as [->|[->| ->]]; cbn in H; injection H as _ <-; auto.
      * cbn [catch_modbus_error] in H. rewrite pack_BB in H.
        replace (byte_b (fc + 128)) with true in H by (unfold byte_b; lia).
        replace (byte_b c) with true in H by (unfold byte_b; lia). discriminate.
  - cbn [catch_modbus_error] in H. rewrite pack_BB in H.
    destruct (byte_b (fc + 128) && byte_b ILLEGAL_FUNCTION); [discriminate|].
    injection H as <- <-. left. unfold benign. auto.
Qed.
