(** C124: the combined read/write request (FC23) is the read request (FC3) followed by
    the write request (FC16), in one exchange. *)
From Verif Require Import Base PyStruct Defines SlaveModel Spec SlaveSpec BaseFacts RequestProofs.
From Verif Require Import QueryModel DatabankModel DbSpec DatabankProofs StructMore MasterModel MasterSpec MasterProofs DecodeProofs EndSpec EndProofs AtomicProofs PropDatabank PropMaster PropDevice.
From Coq Require Import ZArith Lia ZifyBool ZifyNat.
Open Scope list_scope. Open Scope Z_scope.

(** The three requests, in bytes. *)
Definition read_request (a n : Z) : list Z := 3 :: word a ++ word n.
Definition write_request (wa wn bc : Z) (payload : list Z) : list Z := 16 :: word wa ++ word wn ++ bc :: payload.
Definition read_write_request (a n wa wn bc : Z) (payload : list Z) : list Z :=
  23 :: word a ++ word n ++ word wa ++ word wn ++ bc :: payload.

(** ** The loop that stores the payload only looks at the payload. *)
Lemma slice_app (h l : list Z) i j : 0 <= i -> i <= j -> py_slice (h ++ l) (zlen h + i) (zlen h + j) = py_slice l i j.
Proof.
  intros Hi Hj. pose proof (zlen_nonneg h). rewrite !py_slice_nonneg by lia.
  replace (Z.to_nat (zlen h + i)) with (length h + Z.to_nat i)%nat by (unfold zlen; lia).
  rewrite skipn_app, skipn_all2 by lia. cbn [app].
  replace (length h + Z.to_nat i - length h)%nat with (Z.to_nat i) by lia.
  replace (zlen h + j - (zlen h + i)) with (j - i) by lia. reflexivity.
Qed.
Lemma write_loop_base fmt h l offset n i data : 0 <= i ->
  write_regs_loop fmt (h ++ l) (zlen h) offset n i data = write_regs_loop fmt l 0 offset n i data.
Proof.
  revert i data. induction n as [|n IH]; intros i data Hi; [reflexivity|]. cbn [write_regs_loop].
  rewrite <- Z.add_assoc. rewrite slice_app by lia. cbn [Z.add].
  destruct (unpack1 fmt _) as [v|]; [|reflexivity]. destruct (py_set data (offset + i) v); [|reflexivity]. apply IH. lia.
Qed.

Definition write_part (s : slave) (wa wn bc : Z) (payload : list Z) : slave * res unit :=
  if (wn <=? 0) || (123 <? wn) || negb (bc =? wn * 2) then (s, Err (ModbusError ILLEGAL_DATA_VALUE))
  else match get_block_and_offset s HOLDING_REGISTERS wa wn with
  | Err e => (s, Err e)
  | Ok (i, b, offset) =>
      let '(d, r) := write_regs_loop (fmtH s) payload 0 offset (Z.to_nat wn) 0 (b_data b) in
      (put_block_data s HOLDING_REGISTERS i b d, r)
  end.
Lemma write_is s wa wn bc payload : fits true wa -> fits true wn ->
  write_multiple_registers s (write_request wa wn bc payload) =
  (fst (write_part s wa wn bc payload), _ <- snd (write_part s wa wn bc payload) ;; pack ">HH" [wa; wn]).
Proof.
  intros Ha Hn. unfold write_multiple_registers, write_request, write_part. rewrite unpack3_head by assumption.
  destruct (_ || _); [reflexivity|]. destruct (get_block_and_offset _ _ _ _) as [[[i b] offset]|e]; [|reflexivity].
  replace (16 :: word wa ++ word wn ++ bc :: payload) with ((16 :: word wa ++ word wn ++ [bc]) ++ payload)
    by (cbn [app]; now rewrite <- !app_assoc).
  change 6 with (zlen (16 :: word wa ++ word wn ++ [bc])). rewrite write_loop_base by lia.
  destruct (write_regs_loop _ _ _ _ _ _ _) as [d [[]|e]]; reflexivity.
Qed.
Lemma read_write_is s a n wa wn bc payload : fits true a -> fits true n -> fits true wa -> fits true wn ->
  read_write_multiple_registers s (read_write_request a n wa wn bc payload) =
  match read_registers s HOLDING_REGISTERS (read_request a n) with
  | Err e => (s, Err e)
  | Ok response => (fst (write_part s wa wn bc payload), _ <- snd (write_part s wa wn bc payload) ;; Ok response)
  end.
Proof.
  intros Ha Hn Hwa Hwn. unfold read_write_multiple_registers, read_write_request. rewrite unpack5_head by assumption.
  unfold read_registers, read_request. pose proof (unpack2_head 3 a n [] Ha Hn) as U. rewrite app_nil_r in U. rewrite U. cbn [bind]. clear U.
  destruct (_ || _); [reflexivity|]. destruct (get_block_and_offset s HOLDING_REGISTERS a n) as [[[i b] offset]|e]; [|reflexivity].
  cbn [bind]. destruct (bind _ _) as [response|e]; [|reflexivity].
  unfold write_part.
  destruct (_ || _); [reflexivity|]. destruct (get_block_and_offset _ _ _ _) as [[[j wb] woff]|e]; [|reflexivity].
  replace (23 :: word a ++ word n ++ word wa ++ word wn ++ bc :: payload)
    with ((23 :: word a ++ word n ++ word wa ++ word wn ++ [bc]) ++ payload)
    by (cbn [app]; now rewrite <- !app_assoc).
  change 10 with (zlen (23 :: word a ++ word n ++ word wa ++ word wn ++ [bc])). rewrite write_loop_base by lia.
  destruct (write_regs_loop _ _ _ _ _ _ _) as [d [[]|e]]; reflexivity.
Qed.

(** ** The answers *)
Lemma regs_grow fmt vals : forall r out, pack_regs_loop fmt vals r = Ok out -> exists l, out = r ++ l.
Proof.
  induction vals as [|v vals IH]; intros r out H; cbn [pack_regs_loop] in H; [injection H as <-; exists []; now rewrite app_nil_r|].
  destruct (pack fmt [v]) as [x|]; [|discriminate]. cbn [bind] in H. destruct (IH _ _ H) as (l & ->). exists (x ++ l). now rewrite app_assoc.
Qed.
Lemma read_some s a n out : read_registers s HOLDING_REGISTERS (read_request a n) = Ok out -> out <> [].
Proof.
  unfold read_registers. destruct (unpack2 _ _) as [[a' n']|]; [|discriminate]. cbn [bind]. destruct (_ || _); [discriminate|].
  destruct (get_block_and_offset _ _ _ _) as [[[i b] o]|]; [|discriminate]. cbn [bind].
  destruct (pack ">B" [2 * n']) as [h|] eqn:P; [|discriminate]. cbn [bind]. intros H. destruct (regs_grow _ _ _ _ H) as (l & ->).
  rewrite pack_B in P. destruct (byte_b _); [|discriminate]. injection P as <-. discriminate.
Qed.
Lemma hr_is s fc r f : fn_code_map fc = Some f ->
  handle_request s (fc :: r) false =
  (fst (f s (fc :: r)), match snd (f s (fc :: r)) with
   | Err (ModbusError c) => if byte_b c then Ok [fc + 128; c] else Err StructError
   | Err e => Err e
   | Ok [] => Err GenericException
   | Ok out => Ok (fc :: out)
   end).
Proof.
  intros M. unfold handle_request. rewrite unpack_fc, M. cbn [andb]. destruct (f s (fc :: r)) as [s' q]. cbn [fst snd].
  pose proof (fn_code_map_range _ _ M) as R.
  destruct q as [[|x out]|e]; [reflexivity| |].
  - rewrite pack_B_ok by (unfold is_byte; lia). reflexivity.
  - destruct e; try reflexivity. cbn [catch_modbus_error]. rewrite pack_BB.
    replace (byte_b (fc + 128)) with true by (unfold byte_b; lia). reflexivity.
Qed.

(** Whatever the slave is and whatever the payload holds: when the read is refused (131) or
    raises, the combined request is refused (151) with the same code or raises the same, and
    nothing is written; when the read answers, the combined request leaves the slave as the
    write request does, and answers the values read, refuses with the write's code, or raises
    what the write raises. *)
Theorem C124_one_exchange : forall s a n wa wn bc payload,
  fits true a -> fits true n -> fits true wa -> fits true wn ->
  let '(sr, was_read) := handle_request s (read_request a n) false in
  let '(sw, written) := handle_request s (write_request wa wn bc payload) false in
  let '(s', both) := handle_request s (read_write_request a n wa wn bc payload) false in
  sr = s /\
  match was_read with
  | Ok (x :: data) =>
      (x = 131 /\ s' = s /\ both = Ok (151 :: data)) \/
      (x = 3 /\ s' = sw /\
       match written with
       | Ok (y :: rest) => (y = 144 /\ both = Ok (151 :: rest)) \/ (y = 16 /\ both = Ok (23 :: data))
       | Ok [] => False
       | Err e => both = Err e
       end)
  | Ok [] => False
  | Err e => s' = s /\ both = Err e
  end.
Proof.
  intros s a n wa wn bc payload Ha Hn Hwa Hwn.
  unfold read_request at 1, write_request at 1, read_write_request at 1.
  rewrite (hr_is s 3 _ _ (eq_refl : fn_code_map 3 = Some _)), (hr_is s 16 _ _ (eq_refl : fn_code_map 16 = Some _)),
    (hr_is s 23 _ _ (eq_refl : fn_code_map 23 = Some _)). cbv beta.
  fold (read_request a n) (write_request wa wn bc payload) (read_write_request a n wa wn bc payload).
  rewrite read_write_is, write_is by assumption. cbn [fst snd].
  pose proof (read_some s a n) as Q.
  destruct (read_registers s HOLDING_REGISTERS (read_request a n)) as [out|e]; cbn [fst snd].
  - destruct out as [|x out]; [now destruct (Q [] eq_refl)|]. split; [reflexivity|]. right. split; [reflexivity|]. split; [reflexivity|].
    destruct (write_part s wa wn bc payload) as [sw [[]|e]]; cbn [fst snd bind].
    + rewrite pack_HH by assumption. right. split; reflexivity.
    + destruct e; try reflexivity. destruct (byte_b _); [|reflexivity]. left. split; reflexivity.
  - split; [reflexivity|]. destruct e; try (split; reflexivity). destruct (byte_b _); [|split; reflexivity]. left. repeat split; reflexivity.
Qed.

(** ** For a master *)
Definition readable (s : slave) (a n : Z) : Prop :=
  has_table s HOLDING_REGISTERS /\ forall olds, stored s HOLDING_REGISTERS a n olds -> Forall (fits (sl_unsigned s)) olds.

Lemma read_cases s a n : fits true a -> fits true n -> readable s a n ->
  (exists c, handle_request s (read_request a n) false = (s, Ok [131; c])) \/
  (1 <= n <= 125 /\ exists b, served_by s HOLDING_REGISTERS a n b /\ Forall (fits (sl_unsigned s)) (values_at b a n)).
Proof.
  intros Ha Hn (Ht & F). unfold read_request. rewrite <- (app_nil_r (word n)).
  destruct (Z_le_gt_dec 1 n); [destruct (Z_le_gt_dec n 125)|].
  - destruct (served_or_not s HOLDING_REGISTERS a n) as [(b & B)|N].
    + right. split; [lia|]. exists b. split; [exact B|]. apply F. split; [exact Ht|]. exists b. auto.
    + left. exists 2. apply (hr_read_registers_addr s 3 HOLDING_REGISTERS); [constructor|assumption|assumption|lia|exact N].
  - left. exists 3. apply (hr_read_registers_count s 3 HOLDING_REGISTERS); [constructor|assumption|assumption|lia].
  - left. exists 3. apply (hr_read_registers_count s 3 HOLDING_REGISTERS); [constructor|assumption|assumption|lia].
Qed.
Lemma write_cases s wa vals : wf_slave s -> has_table s HOLDING_REGISTERS -> fits true wa -> zlen vals <= 127 ->
  (exists c, handle_request s (write_request wa (zlen vals) (2 * zlen vals) (words vals)) false = (s, Ok [144; c])) \/
  (exists s', handle_request s (write_request wa (zlen vals) (2 * zlen vals) (words vals)) false = (s', Ok (16 :: word wa ++ word (zlen vals)))).
Proof.
  intros W Ht Ha L. pose proof (zlen_nonneg vals). unfold write_request. assert (Fl : fits true (zlen vals)) by (unfold fits; lia).
  destruct (Z_le_gt_dec 1 (zlen vals)); [destruct (Z_le_gt_dec (zlen vals) 123)|].
  - destruct (served_or_not s HOLDING_REGISTERS wa (zlen vals)) as [B|N].
    + right. assert (ML : zlen (map as_word vals) = zlen vals) by apply zlen_map.
      destruct (hr_write_registers s wa (map as_word vals) [] W Ht Ha ltac:(lia) (as_word_fits _) ltac:(now rewrite ML)) as (s' & H' & _).
      exists s'. rewrite app_nil_r, ML, <- words_mod in H'. exact H'.
    + left. exists 2. apply hr_write_registers_addr; [assumption|assumption|lia|exact N].
  - left. exists 3. apply hr_write_registers_count; [assumption|assumption|lia].
  - left. exists 3. apply hr_write_registers_count; [assumption|assumption|lia].
Qed.

(** A master that issues READ_WRITE_MULTIPLE_REGISTERS gets what it gets by reading and then
    writing with two calls, and the databank ends the same; if the read fails nothing is written. *)
Theorem C124_two_calls : forall p l1 l2 l3 d u s a n wa vals,
  db_reachable d -> get_slave d u = Ok s -> readable s a n ->
  can_send p l1 u (ReadRegs true a n) -> can_send p l2 u (WriteRegs wa vals) -> can_send p l3 u (ReadWriteRegs a n wa vals) ->
  let '(d1, reading) := round_trip p l1 d u (ReadRegs true a n) in
  let '(d2, writing) := round_trip p l2 d1 u (WriteRegs wa vals) in
  let '(d3, both) := round_trip p l3 d u (ReadWriteRegs a n wa vals) in
  match ex_result reading with
  | Some (Ok values) =>
      match ex_result writing with
      | Some (Ok _) => ex_result both = Some (Ok values) /\ forall v, get_slave d3 v = get_slave d2 v
      | Some (Err e) => ex_result both = Some (Err e) /\ (exists code, e = ModbusError code) /\ forall v, get_slave d3 v = get_slave d v
      | None => False
      end
  | Some (Err e) => ex_result both = Some (Err e) /\ (exists code, e = ModbusError code) /\ forall v, get_slave d3 v = get_slave d v
  | None => False
  end.
Proof.
  intros p l1 l2 l3 d u s a n wa vals D G Rd C1 C2 C3.
  destruct (db_reachable_slave d u s D G) as [Rs U]. apply reachable_wf in Rs.
  pose proof C1 as ((Ha & Hn) & T1 & _). pose proof C2 as ((Hwa & L & V) & T2 & _). pose proof C3 as (_ & T3 & _).
  pose proof (zlen_nonneg vals). assert (Fl : fits true (zlen vals)) by (unfold fits; lia).
  set (rq := read_request a n). set (wq := write_request wa (zlen vals) (2 * zlen vals) (words vals)).
  set (bq := read_write_request a n wa (zlen vals) (2 * zlen vals) (words vals)).
  assert (P1 : prescribed (ReadRegs true a n) rq) by reflexivity.
  assert (P2 : prescribed (WriteRegs wa vals) wq) by reflexivity.
  assert (P3 : prescribed (ReadWriteRegs a n wa vals) bq) by reflexivity.
  assert (WL : forall x, zlen (word x) = 2) by reflexivity.
  assert (L1 : zlen rq <= 65534) by (unfold rq, read_request; rewrite zlen_cons, !zlen_app, !WL; lia).
  assert (L2 : zlen wq <= 65534) by (unfold wq, write_request; rewrite zlen_cons, !zlen_app, !WL, zlen_cons, words_zlen; lia).
  assert (L3 : zlen bq <= 65534) by (unfold bq, read_write_request; rewrite zlen_cons, !zlen_app, !WL, zlen_cons, words_zlen; lia).
  pose proof (C124_one_exchange s a n wa (zlen vals) (2 * zlen vals) (words vals) Ha Hn Hwa Fl) as X. fold rq wq bq in X.
  assert (E1 := proj1 C1). assert (E2 := proj1 C2). assert (E3 := proj1 C3).
  destruct (read_cases s a n Ha Hn Rd) as [(c & R)|(Hnb & b & B & F)].
  - fold rq in R. rewrite R in X. destruct (handle_request s wq false) as [sw wr]. destruct (handle_request s bq false) as [sb br] eqn:HB.
    destruct X as (_ & [(_ & -> & ->)|(Q & _)]); [|discriminate Q].
    destruct (round_trip_present p l1 d u _ rq s _ E1 P1 ltac:(right; exact L1) T1 U G ltac:(rewrite R; reflexivity)) as (Q1 & _ & Q3).
    destruct (round_trip_present p l3 d u _ bq s _ E3 P3 ltac:(right; exact L3) T3 U G ltac:(rewrite HB; reflexivity)) as (Y1 & _ & Y3).
    rewrite R in Q1. rewrite HB in Y1. cbn [fst] in Q1, Y1.
    destruct (round_trip p l1 d u _) as [d1 e1]. cbn [fst snd] in *. destruct (round_trip p l2 d1 u _) as [d2 e2].
    destruct (round_trip p l3 d u _) as [d3 e3]. cbn [fst snd] in *. rewrite Q3, Y3, !decode_exception by lia.
    split; [reflexivity|]. split; [eauto|]. subst d3. now apply get_slave_put_id.
  - destruct (rt_read_regs p l1 d u true a n s b _ T1 U G Rs eq_refl (proj1 Rd) Ha Hnb B F) as (Q1 & _ & Q3).
    pose proof (hr_read_registers s 3 HOLDING_REGISTERS a n b [] ltac:(constructor) (proj1 Rd) Ha Hnb B F) as R. rewrite app_nil_r in R. fold (read_request a n) rq in R.
    pose proof (values_at_zlen s _ a n b Rs B ltac:(lia)) as VL.
    rewrite R in X. destruct (round_trip p l1 d u _) as [d1 e1]. cbn [fst snd] in Q1, Q3. rewrite Q3.
    assert (G1 : get_slave d1 u = Ok s) by (subst d1; apply get_slave_put_same).
    destruct (write_cases s wa vals Rs (proj1 Rd) Hwa L) as [(c & W)|(s' & W)]; fold wq in W; rewrite W in X; destruct (handle_request s bq false) as [sb br] eqn:HB;
      destruct X as (_ & [(Q & _)|(_ & -> & [(Q & ->)|(Q & ->)])]); try discriminate Q;
      destruct (round_trip_present p l2 d1 u _ wq s _ E2 P2 ltac:(right; exact L2) T2 U G1 ltac:(rewrite W; reflexivity)) as (Z1 & _ & Z3);
      destruct (round_trip_present p l3 d u _ bq s _ E3 P3 ltac:(right; exact L3) T3 U G ltac:(rewrite HB; reflexivity)) as (Y1 & _ & Y3);
      rewrite W in Z1; rewrite HB in Y1; cbn [fst] in Z1, Y1;
      destruct (round_trip p l2 d1 u _) as [d2 e2]; destruct (round_trip p l3 d u _) as [d3 e3]; cbn [fst snd] in *; rewrite Z3, Y3; clear Q.
    + rewrite !decode_exception by lia. split; [reflexivity|]. split; [eauto|]. subst d3. now apply get_slave_put_id.
    + change (16 :: word wa ++ word (zlen vals)) with (16 :: ((wa / 256) mod 256) :: (wa mod 256) :: word (zlen vals)).
      rewrite decode_other by (reflexivity || discriminate || lia). cbn [format_call]. unfold word at 1. rewrite unpack_HH.
      rewrite decode_read by (reflexivity || lia). rewrite words_zlen, VL, Z.eqb_refl. cbn [format_call digits_call]. rewrite unpack_rep_H by exact VL.
      split; [reflexivity|]. subst d3 d2 d1. intros v. destruct (Z.eq_dec v u) as [->|N]; [now rewrite !get_slave_put_same|now rewrite !get_slave_put_other].
Qed.

(** Unit 3 of the demonstration databank holds registers 100..109: an overlapping exchange, and
    one whose write is refused. *)
Example C124_ex : exists s, get_slave demo_db 3 = Ok s /\ db_reachable demo_db /\ readable s 100 2 /\
  can_send TCP 0 3 (ReadRegs true 100 2) /\ can_send TCP 0 3 (WriteRegs 101 [9; 8]) /\ can_send TCP 0 3 (ReadWriteRegs 100 2 101 [9; 8]) /\
  let '(d3, both) := round_trip TCP 0 demo_db 3 (ReadWriteRegs 100 2 101 [9; 8]) in
  (exists old1 old2, ex_result both = Some (Ok (RTuple [old1; old2]))) /\
  ex_result (snd (round_trip TCP 1 d3 3 (ReadRegs true 101 2))) = Some (Ok (RTuple [9; 8])) /\
  ex_result (snd (round_trip TCP 0 demo_db 3 (ReadWriteRegs 100 2 109 [9; 8]))) = Some (Err (ModbusError 2)).
Proof.
  destruct (get_slave demo_db 3) as [s|] eqn:G; [|now vm_compute in G]. exists s. split; [reflexivity|]. split; [exact demo_db_reachable|].
  split.
  { vm_compute in G. injection G as <-. split; [vm_compute; discriminate|]. intros olds (_ & b & (l1 & l2 & B) & <-).
    apply gbo_served in B; [|vm_compute; discriminate]. vm_compute in B. injection B as _ <- _. vm_compute. repeat (constructor; [split; [discriminate|reflexivity]|]). constructor. }
  assert (P : forall c pdu, prescribed c pdu -> zlen pdu <= 65534 -> framable TCP pdu) by (intros; assumption).
  split; [|split; [|split]].
  - repeat split; try lia; try (vm_compute; congruence). intros pdu ->. vm_compute. congruence.
  - split; [repeat split; try (vm_compute; congruence); repeat (constructor; [split; lia|]); constructor|]. repeat split; try lia. intros pdu ->. vm_compute. congruence.
  - split; [repeat split; try (vm_compute; congruence); repeat (constructor; [split; lia|]); constructor|]. repeat split; try lia. intros pdu ->. vm_compute. congruence.
  - vm_compute. split; [eauto|]. split; reflexivity.
Qed.

Print Assumptions C124_one_exchange.
Print Assumptions C124_two_calls.
