(** Lemmas for the end-to-end properties. *)
From Coq Require Import Lia ZifyBool ZifyNat.
From Verif Require Import Base BaseFacts PyStruct Spec StructFacts StructMore Defines SlaveModel SlaveSpec BlockSpec HandlerProofs RequestProofs SlaveInv SlaveMore.
From Verif Require Import FrameSpec CrcSpec QueryModel DatabankModel MasterModel MasterSpec DbSpec DatabankProofs MasterProofs DecodeProofs EndSpec.
Ltac Zify.zify_post_hook ::= Z.div_mod_to_equations.
Open Scope string_scope.
Open Scope list_scope.
Open Scope Z_scope.

Lemma round_trip_present p last d u c pdu s r :
  encodable c -> prescribed c pdu -> p = RTU \/ zlen pdu <= 65534 -> 0 <= last <= 65535 -> 1 <= u <= 255 -> get_slave d u = Ok s ->
  snd (handle_request s pdu false) = Ok r ->
  fst (round_trip p last d u c) = put_slave d u (fst (handle_request s pdu false)) /\
  0 <= ex_last (snd (round_trip p last d u c)) <= 65535 /\
  ex_result (snd (round_trip p last d u c)) = execute_decode (file_fuel r) (args_of u c) (built_as c pdu) r.
Proof.
  intros E P L T U G H. destruct (execute_call p last u c pdu E P L T ltac:(lia)) as (i & last' & Pi & S & T' & X).
  destruct (X (fun request _ => answer d p request)) as (X1 & X2 & X3 & _). unfold round_trip, round_trip_args. cbn [fst snd]. rewrite X2, X1.
  assert (DB : db_handle_request d p (on_wire i u pdu) = (put_slave d u (fst (handle_request s pdu false)), Ok (Some (on_wire i u r)))).
  { rewrite <- Pi. rewrite (db_present d i u pdu s S U G), H. reflexivity. }
  rewrite DB. split; [reflexivity|]. split; [exact T'|]. apply X3.
  - apply (sendable_response i s pdu false (fst (handle_request s pdu false))); [exact S|]. rewrite <- H. now destruct (handle_request s pdu false).
  - unfold answer. rewrite DB. cbn [snd]. destruct (on_wire i u r) as [|x l] eqn:W; [now apply on_wire_nonempty in W|]. reflexivity.
Qed.

Lemma get_slave_put_id d u s : get_slave d u = Ok s -> forall v, get_slave (put_slave d u s) v = get_slave d v.
Proof. intros G v. destruct (Z.eq_dec v u) as [->|N]; [now rewrite get_slave_put_same|now apply get_slave_put_other]. Qed.

Lemma packs_bits_read vals out : packs_bits vals out -> bits_of out (length vals) = map as_bit vals.
Proof.
  intros (L & _ & Hb). apply nth_ext with (d := bit_of out (Z.of_nat 0)) (d' := as_bit 0).
  - unfold bits_of. now rewrite !map_length, seq_length.
  - intros k Hk. unfold bits_of in *. rewrite map_length, seq_length in Hk. rewrite (map_nth (fun k => bit_of out (Z.of_nat k))), map_nth.
    rewrite seq_nth by exact Hk. cbn [Nat.add]. unfold bit_of, as_bit. rewrite Hb.
    + rewrite Nat2Z.id. now destruct (nth k vals 0 =? 0).
    + unfold bytes_for_bits, zlen in *. lia.
Qed.

Lemma values_at_zlen s t a n b : wf_slave s -> served_by s t a n b -> 0 <= n -> zlen (values_at b a n) = n.
Proof.
  intros W (l1 & l2 & Hs) Hn. pose proof (wf_served _ _ _ _ _ _ _ W Hs) as (H1 & H2 & H3). destruct Hs as (_ & [C1 C2] & _).
  unfold values_at, zlen. rewrite firstn_length, skipn_length. unfold zlen in H3. lia.
Qed.

Lemma rt_read_regs p last d u (holding : bool) a n s b t : 0 <= last <= 65535 -> 1 <= u <= 255 -> get_slave d u = Ok s -> wf_slave s ->
  t = (if holding then HOLDING_REGISTERS else ANALOG_INPUTS) -> has_table s t -> fits true a -> 1 <= n <= 125 ->
  served_by s t a n b -> Forall (fits (sl_unsigned s)) (values_at b a n) ->
  fst (round_trip p last d u (ReadRegs holding a n)) = put_slave d u s /\
  0 <= ex_last (snd (round_trip p last d u (ReadRegs holding a n))) <= 65535 /\
  ex_result (snd (round_trip p last d u (ReadRegs holding a n))) = Some (Ok (RTuple (map as_word (values_at b a n)))).
Proof.
  intros T U G W -> Ht Ha Hn Hs Hf. set (fc := if holding then 3 else 4). set (t := if holding then HOLDING_REGISTERS else ANALOG_INPUTS) in *.
  assert (RT : reg_table fc t) by (destruct holding; constructor). assert (Fn : fits true n) by (unfold fits; lia).
  pose proof (hr_read_registers s fc t a n b [] RT Ht Ha Hn Hs Hf) as H. rewrite app_nil_r in H.
  assert (P : prescribed (ReadRegs holding a n) (fc :: word a ++ word n)) by reflexivity.
  pose proof (values_at_zlen s t a n b W Hs ltac:(lia)) as VL.
  assert (E : encodable (ReadRegs holding a n)) by (split; assumption).
  assert (PL : zlen (fc :: word a ++ word n) = 5) by reflexivity.
  destruct (round_trip_present p last d u (ReadRegs holding a n) _ s _ E P ltac:(right; lia) T U G ltac:(rewrite H; reflexivity)) as (R1 & R2 & R3).
  rewrite H in R1. cbn [fst] in R1. split; [exact R1|]. split; [exact R2|]. rewrite R3.
  rewrite decode_read by (try reflexivity; unfold fc; destruct holding; lia). rewrite words_zlen, VL, Z.eqb_refl. cbn [format_call digits_call].
  rewrite unpack_rep_H by exact VL. change (0 <? 0) with false. cbn iota. cbv zeta.
  replace (fc_of (ReadRegs holding a n) =? READ_FILE_RECORD) with false by (destruct holding; reflexivity). reflexivity.
Qed.

Lemma rt_read_bits p last d u (coils : bool) a n s b t : 0 <= last <= 65535 -> 1 <= u <= 255 -> get_slave d u = Ok s -> wf_slave s ->
  t = (if coils then COILS else DISCRETE_INPUTS) -> has_table s t -> fits true a -> 1 <= n <= 2000 -> served_by s t a n b ->
  fst (round_trip p last d u (ReadBits coils a n)) = put_slave d u s /\
  0 <= ex_last (snd (round_trip p last d u (ReadBits coils a n))) <= 65535 /\
  ex_result (snd (round_trip p last d u (ReadBits coils a n))) = Some (Ok (RTuple (map as_bit (values_at b a n)))).
Proof.
  intros T U G W -> Ht Ha Hn Hs. set (fc := if coils then 1 else 2). set (t := if coils then COILS else DISCRETE_INPUTS) in *.
  assert (BT : bit_table fc t) by (destruct coils; constructor). assert (Fn : fits true n) by (unfold fits; lia).
  destruct (hr_read_digital s fc t a n b [] BT Ht Ha Hn Hs) as (out & H & PB). rewrite app_nil_r in H.
  assert (P : prescribed (ReadBits coils a n) (fc :: word a ++ word n)) by reflexivity.
  pose proof (values_at_zlen s t a n b W Hs ltac:(lia)) as VL.
  assert (E : encodable (ReadBits coils a n)) by (split; assumption).
  assert (PL : zlen (fc :: word a ++ word n) = 5) by reflexivity.
  destruct (round_trip_present p last d u (ReadBits coils a n) _ s _ E P ltac:(right; lia) T U G ltac:(rewrite H; reflexivity)) as (R1 & R2 & R3).
  rewrite H in R1. cbn [fst] in R1. split; [exact R1|]. split; [exact R2|]. rewrite R3. pose proof PB as (OL & _). rewrite VL in OL.
  rewrite decode_read by (try reflexivity; unfold fc; destruct coils; lia). rewrite OL, Z.eqb_refl. cbn [format_call digits_call].
  rewrite unpack_rep_B by exact OL. replace (0 <? n) with true by lia. cbv zeta.
  replace (fc_of (ReadBits coils a n) =? READ_FILE_RECORD) with false by (destruct coils; reflexivity).
  rewrite digits_loop_bits by (rewrite OL; unfold bytes_for_bits; lia).
  replace (Z.to_nat n) with (length (values_at b a n)) by (unfold zlen in VL; lia). now rewrite packs_bits_read.
Qed.

(** ** Writes *)
Lemma words_mod l : words l = words (map as_word l).
Proof.
  induction l as [|v l IH]; [reflexivity|]. cbn [words flat_map map]. fold (words l). fold (words (map as_word l)). rewrite IH. f_equal.
  unfold word, as_word. f_equal; [|f_equal]; lia.
Qed.
Lemma as_word_fits l : Forall (fits true) (map as_word l).
Proof. apply Forall_map, Forall_forall. intros v _. unfold fits, as_word. lia. Qed.

(** reading back what was written *)
Lemma wrote_stored s t a vals s' : wf_slave s -> has_table s t -> wrote s t a vals s' -> stored s' t a (zlen vals) vals.
Proof.
  intros W Ht (l1 & b & l2 & Hs & Hb & Hf). pose proof (wf_served _ _ _ _ _ _ _ W Hs) as (H1 & H2 & H3). destruct Hs as (L & [C1 C2] & N).
  split; [unfold has_table in *; destruct Hf as (_ & _ & -> & _); exact Ht|]. exists (overlay b a vals). split.
  - exists l1, l2. split; [exact Hb|]. split; [|exact N]. split; exact C1 || exact C2.
  - unfold values_at, overlay. cbn [b_start b_data]. unfold zlen in *. rewrite Nat2Z.id.
    assert (LF : length (firstn (Z.to_nat (a - b_start b)) (b_data b)) = Z.to_nat (a - b_start b)) by (rewrite firstn_length; lia).
    rewrite skipn_app, LF, Nat.sub_diag. rewrite (skipn_all2 (firstn _ _)) by lia. cbn [app skipn].
    rewrite firstn_app, Nat.sub_diag, firstn_all. cbn [firstn]. apply app_nil_r.
Qed.

Lemma unpack_HH_words a b : unpack ">HH" (word a ++ word b) = Ok [as_word a; as_word b].
Proof. change (word a ++ word b) with [(a / 256) mod 256; a mod 256; (b / 256) mod 256; b mod 256]. rewrite unpack_HH. unfold as_word. do 2 f_equal; [|f_equal]; lia. Qed.

(** the four plain writes: the words of the echo, what is stored, and where *)
Inductive plain_write (unsigned : bool) : call -> btype -> Z -> list Z -> Z -> Prop :=
| PWCoil a v : plain_write unsigned (WriteCoil a v) COILS a [as_bit v] (if v =? 0 then 0 else 65280)
| PWCoils a vals : 1 <= zlen vals <= 1968 -> plain_write unsigned (WriteCoils a vals) COILS a (map on_off vals) (zlen vals)
| PWReg a v : plain_write unsigned (WriteReg a v) HOLDING_REGISTERS a [reg_of_word unsigned (as_word v)] (as_word v)
| PWRegs a vals : 1 <= zlen vals <= 123 ->
    plain_write unsigned (WriteRegs a vals) HOLDING_REGISTERS a (map (fun v => reg_of_word unsigned (as_word v)) vals) (zlen vals).

Lemma rt_write p last d u c t a vals echo s : 0 <= last <= 65535 -> 1 <= u <= 255 -> get_slave d u = Ok s -> wf_slave s ->
  plain_write (sl_unsigned s) c t a vals echo -> encodable c -> has_table s t -> (exists b, served_by s t a (zlen vals) b) ->
  exists s', wrote s t a vals s' /\ fst (round_trip p last d u c) = put_slave d u s' /\
  0 <= ex_last (snd (round_trip p last d u c)) <= 65535 /\
  ex_result (snd (round_trip p last d u c)) = Some (Ok (RTuple [a; echo])).
Proof.
  intros T U G W PW E Ht Hs.
  assert (K : forall pdu s' resp, prescribed c pdu -> zlen pdu <= 65534 -> handle_request s pdu false = (s', Ok resp) -> wrote s t a vals s' ->
    resp = fc_of c :: word a ++ word echo -> 0 <= a < 65536 -> 0 <= echo < 65536 ->
    is_read_call c = false -> format_call c = ">HH" -> fc_of c <= 43 -> fc_of c <> 43 ->
    exists s', wrote s t a vals s' /\ fst (round_trip p last d u c) = put_slave d u s' /\
    0 <= ex_last (snd (round_trip p last d u c)) <= 65535 /\ ex_result (snd (round_trip p last d u c)) = Some (Ok (RTuple [a; echo]))).
  { intros pdu s' resp P L H Hw R Ba Be IR FC F43 F43'. exists s'. split; [exact Hw|].
    destruct (round_trip_present p last d u c pdu s resp E P ltac:(right; exact L) T U G ltac:(rewrite H; reflexivity)) as (R1 & R2 & R3).
    rewrite H in R1. cbn [fst] in R1. split; [exact R1|]. split; [exact R2|]. rewrite R3, R.
    change (fc_of c :: word a ++ word echo) with (fc_of c :: ((a / 256) mod 256) :: (a mod 256) :: word echo).
    rewrite decode_other by (auto; lia). rewrite FC. change (((a / 256) mod 256) :: (a mod 256) :: word echo) with (word a ++ word echo).
    rewrite unpack_HH_words. unfold as_word. do 4 f_equal; [lia|]. f_equal. lia. }
  assert (WL : forall x, zlen (word x) = 2) by reflexivity.
  destruct PW as [a v|a vals L|a v|a vals L]; cbn [encodable] in E.
  - assert (Ha := E). unfold fits in Ha. set (w := if v =? 0 then 0 else 65280) in *.
    destruct (hr_write_coil s a w [] W Ht E ltac:(unfold w; destruct (v =? 0); auto) Hs) as (s' & H & Hw). rewrite app_nil_r in H.
    assert (AB : [if w =? 0 then 0 else 1] = [as_bit v]) by (unfold w, as_bit; now destruct (v =? 0)). rewrite AB in Hw.
    assert (PL : zlen (5 :: word a ++ word w) <= 65534) by (rewrite zlen_cons, zlen_app, !WL; lia).
    apply (K (5 :: word a ++ word w) s' _) with (2 := PL) (3 := H); auto; try lia; try (cbn; lia).
    + cbn [prescribed]. unfold w. now destruct (v =? 0).
    + unfold w. destruct (v =? 0); lia.
  - destruct E as [Ha Hl]. assert (Ha' := Ha). unfold fits in Ha'. rewrite zlen_map in *.
    destruct (pack_coils_ok vals [] ltac:(reflexivity)) as (out & _ & PB). cbn [app] in PB. pose proof PB as (OL & Bo & _). rewrite zlen_map in OL.
    destruct (hr_write_coils s a (zlen vals) out [] W Ht Ha L Bo OL Hs) as (s' & H & Hw). rewrite app_nil_r in H.
    assert (AB : bits_of out (Z.to_nat (zlen vals)) = map on_off vals).
    { replace (Z.to_nat (zlen vals)) with (length (map on_off vals)) by (rewrite map_length; unfold zlen; lia). rewrite (packs_bits_read _ _ PB), map_map.
      apply map_ext. intros x. unfold as_bit, on_off. destruct (0 <? x); reflexivity. }
    rewrite AB in Hw. apply (K (15 :: word a ++ word (zlen vals) ++ zlen out :: out) s' _) with (3 := H); auto; try lia; try (cbn; lia).
    + exists out. split; [exact PB|reflexivity].
    + rewrite zlen_cons, !zlen_app, !WL, zlen_cons, OL. unfold bytes_for_bits. lia.
  - destruct E as [Ha Hv]. assert (Ha' := Ha). unfold fits in Ha'.
    destruct (hr_write_register s a (as_word v) [] W Ht Ha ltac:(unfold fits, as_word; lia) Hs) as (s' & H & Hw). rewrite app_nil_r in H.
    assert (AB : word (as_word v) = word v) by (unfold word, as_word; f_equal; [|f_equal]; lia).
    assert (PL : zlen (6 :: word a ++ word (as_word v)) <= 65534) by (rewrite zlen_cons, zlen_app, !WL; lia).
    apply (K (6 :: word a ++ word (as_word v)) s' _) with (2 := PL) (3 := H); auto; try lia; try (cbn; lia);
      try (cbn [prescribed]; now rewrite AB); unfold as_word; lia.
  - destruct E as (Ha & Hl & Hv). assert (Ha' := Ha). unfold fits in Ha'. rewrite zlen_map in *.
    assert (ML : zlen (map as_word vals) = zlen vals) by apply zlen_map.
    destruct (hr_write_registers s a (map as_word vals) [] W Ht Ha ltac:(lia) (as_word_fits _)) as (s' & H & Hw); [now rewrite ML|].
    rewrite app_nil_r, ML, <- words_mod in H. rewrite map_map in Hw.
    assert (PL : zlen (16 :: word a ++ word (zlen vals) ++ 2 * zlen vals :: words vals) <= 65534)
      by (rewrite zlen_cons, !zlen_app, !WL, zlen_cons, words_zlen; lia).
    apply (K (16 :: word a ++ word (zlen vals) ++ 2 * zlen vals :: words vals) s' _) with (2 := PL) (3 := H); auto; try lia; try (cbn; lia); reflexivity.
Qed.

Lemma overlay_wf b a vals : wf_block b -> covers b a (zlen vals) -> wf_block (overlay b a vals).
Proof.
  intros (H1 & H2 & H3) [C1 C2]. pose proof (zlen_nonneg vals). split; [exact H1|]. split; [exact H2|]. unfold overlay. cbn [b_data b_size].
  unfold zlen in *. rewrite !app_length, firstn_length, skipn_length. lia.
Qed.
Lemma wrote_wf s t a vals s' : wf_slave s -> wrote s t a vals s' -> wf_slave s'.
Proof.
  intros W (l1 & b & l2 & (L & C & _) & Hb & (_ & _ & _ & F1 & F2)) t'.
  assert (D : same_table s t t' \/ ~ same_table s t t').
  { unfold same_table. destruct (get4 (sl_alias s) t) as [x|], (get4 (sl_alias s) t') as [y|]; try (right; discriminate); try (left; reflexivity).
    destruct x, y; (left; reflexivity) || (right; discriminate). }
  destruct D as [D|D]; [rewrite (F1 _ D), Hb|rewrite (F2 _ D); apply W].
  pose proof (W t) as Wt. rewrite L in Wt. apply Forall_app in Wt as [Wa Wb]. inversion_clear Wb as [|? ? Wx Wr].
  apply Forall_app. split; [exact Wa|]. constructor; [now apply overlay_wf|exact Wr].
Qed.

(** a slave that raises: whatever comes back is no answer frame *)
Lemma db_catch_short e pdu r b : db_catch e pdu = Ok r -> sent r = Some b -> exists x, b = [x; 4] /\ is_byte x.
Proof.
  intros H S. assert (K : failure_response pdu = Ok r -> exists x, b = [x; 4] /\ is_byte x).
  { unfold failure_response. destruct (match pdu with [] => Ok 1 | _ => _ end) as [f|]; [|discriminate]. cbn [bind]. rewrite pack_BB.
    destruct (byte_b (f + 128)) eqn:Bf; [|discriminate]. cbn. intros [= <-]. cbn in S. injection S as <-. exists (f + 128).
    split; [reflexivity|]. now apply byte_b_iff. }
  unfold db_catch in H. destruct e; try (now apply K); injection H as <-; discriminate.
Qed.
Lemma round_trip_raises p last d u c pdu s e : encodable c -> prescribed c pdu -> framable p pdu -> 0 <= last <= 65535 -> 1 <= u <= 255 ->
  get_slave d u = Ok s -> snd (handle_request s pdu false) = Err e -> exists x, ex_result (snd (round_trip p last d u c)) = Some (Err x).
Proof.
  intros E P F T U G H. destruct (execute_exact p last u c pdu E P F T ltac:(lia)) as (h & last' & _ & S & PR & R).
  unfold round_trip, round_trip_args. rewrite R. cbn [fst snd ex_result]. set (w := on_wire (ids_for p last) u pdu).
  assert (DB : snd (db_handle_request d p w) = db_catch e pdu).
  { unfold w. assert (Q : p = proto_of (ids_for p last)) by (now destruct p). rewrite Q at 1.
    rewrite (db_present d (ids_for p last) u pdu s S U G), H. reflexivity. }
  unfold answer. rewrite DB. destruct (db_catch e pdu) as [r|] eqn:DC; [|eexists; reflexivity].
  destruct (sent r) as [b|] eqn:Sr; [|eexists; reflexivity]. cbn [bind].
  destruct (parse_response h b) as [rp|] eqn:PB; [|eexists; reflexivity]. exfalso.
  destruct (db_catch_short e pdu r b DC Sr) as (x & -> & Bx).
  apply PR in PB; [|repeat (constructor; [first [exact Bx|unfold is_byte; lia]|]); constructor].
  destruct PB as [_ PB]. assert (L : zlen (on_wire (ids_for p last) u rp) = 2) by (rewrite <- PB; reflexivity). pose proof (zlen_nonneg rp).
  destruct p; cbn [ids_for on_wire] in L.
  - unfold sealed in L. rewrite zlen_app, zlen_cons in L. change (zlen (crc_bytes _)) with 2 in L. lia.
  - unfold tcp_frame in L. rewrite !zlen_app, zlen_cons in L. change (zlen (word _)) with 2 in L. lia.
Qed.

(** ** Calls with other optional arguments *)
Lemma execute_built p last a b u : execute_build a = Ok b -> ea_slave a = u -> bytes (bl_pdu b) -> framable p (bl_pdu b) -> 0 <= last <= 65535 -> 0 <= u <= 255 ->
  exists h last', 0 <= last' <= 65535 /\ sendable (ids_for p last) (bl_pdu b) /\
    (forall r, bytes r -> forall rp, parse_response h r = Ok rp <-> (framable p rp /\ r = on_wire (ids_for p last) u rp)) /\
    forall exchange, execute p last a exchange =
      {| ex_last := last'; ex_sent := Some (on_wire (ids_for p last) u (bl_pdu b), bl_expected b);
         ex_result :=
           match (response <- exchange (on_wire (ids_for p last) u (bl_pdu b)) (bl_expected b) ;; parse_response h response) with
           | Err e => Some (Err e)
           | Ok rp => execute_decode (file_fuel rp) a b rp
           end |}.
Proof.
  intros X Su B F T U. destruct (build_request_exact p last (bl_pdu b) u B F T U) as (h & last' & R & S & T' & PR). exists h, last'.
  split; [exact T'|]. split; [exact S|]. split; [exact PR|]. intros exchange. unfold execute. now rewrite X, Su, R.
Qed.
Lemma framable_small p pdu : zlen pdu <= 65534 -> framable p pdu.
Proof. destruct p; [intros; exact I|auto]. Qed.
Lemma round_trip_built p last d u a b s r : execute_build a = Ok b -> ea_slave a = u -> bytes (bl_pdu b) -> zlen (bl_pdu b) <= 65534 ->
  0 <= last <= 65535 -> 1 <= u <= 255 -> get_slave d u = Ok s -> snd (handle_request s (bl_pdu b) false) = Ok r ->
  fst (round_trip_args p last d a) = put_slave d u (fst (handle_request s (bl_pdu b) false)) /\
  0 <= ex_last (snd (round_trip_args p last d a)) <= 65535 /\
  ex_result (snd (round_trip_args p last d a)) = execute_decode (file_fuel r) a b r.
Proof.
  intros X Su B F T U G H. destruct (execute_built p last a b u X Su B (framable_small p _ F) T ltac:(lia)) as (h & last' & T' & S & PR & R).
  unfold round_trip_args. rewrite R. cbn [fst snd ex_sent ex_last ex_result].
  assert (Q : proto_of (ids_for p last) = p) by (now destruct p).
  assert (DB : db_handle_request d p (on_wire (ids_for p last) u (bl_pdu b)) =
    (put_slave d u (fst (handle_request s (bl_pdu b) false)), Ok (Some (on_wire (ids_for p last) u r)))).
  { rewrite <- Q at 1. rewrite (db_present d (ids_for p last) u (bl_pdu b) s S U G), H. reflexivity. }
  rewrite DB. split; [reflexivity|]. split; [exact T'|]. unfold answer. rewrite DB. cbn [snd].
  destruct (on_wire (ids_for p last) u r) as [|x l] eqn:W; [now apply on_wire_nonempty in W|]. cbn [sent bind]. rewrite <- W.
  assert (Sr : sendable (ids_for p last) r).
  { apply (sendable_response _ s (bl_pdu b) false (fst (handle_request s (bl_pdu b) false))); [exact S|]. rewrite <- H. now destruct (handle_request s (bl_pdu b) false). }
  assert (Bw : bytes (on_wire (ids_for p last) u r)) by (apply on_wire_bytes; [unfold is_byte; lia|exact Sr]).
  rewrite (proj2 (PR _ Bw r)); [reflexivity|]. split; [|reflexivity]. destruct p; cbn in *; [exact I|]. destruct Sr as [_ Sr]. lia.
Qed.
