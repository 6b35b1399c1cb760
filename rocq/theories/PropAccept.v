(** C42, exactly: which responses a master takes for the answer to a write. Reads: C38_registers, C38_bits, C38_read_write_registers. *)
From Verif Require Import Base Spec PyStruct Defines SlaveModel QueryModel FrameSpec CrcSpec BaseFacts StructFacts StructMore DatabankModel DatabankProofs MasterModel MasterSpec MasterProofs DecodeProofs LinkSpec EndSpec PropMaster.
From Coq Require Import Lia.
Open Scope string_scope.
Open Scope list_scope.
Open Scope Z_scope.

(** Spec: how many 16-bit words the response to a write carries (the address and the value or quantity; for a mask write the two masks). *)
Definition echo_words (c : call) : option Z :=
  match c with
  | WriteCoil _ _ | WriteReg _ _ | WriteCoils _ _ | WriteRegs _ _ => Some 2
  | MaskWrite _ _ _ => Some 3
  | _ => None
  end.

(** A write returns exactly when the response has a first byte below 129 and that many words; it returns the words, whatever they are. *)
Theorem C42_writes_exact : forall p last u c n rp exchange v, echo_words c = Some n -> can_send p last u c -> replies p last u c rp exchange ->
  (ex_result (execute p last (args_of u c) exchange) = Some (Ok v) <->
   exists rc ws, rc <= 128 /\ zlen ws = n /\ Forall (fits true) ws /\ rp = rc :: words ws /\ v = RTuple ws).
Proof.
  intros p last u c n rp exchange v N C A. destruct (answered _ _ _ _ _ _ C A) as (pdu & _ & ->). destruct A as (B & _ & _).
  assert (R : is_read_call c = false /\ fc_of c <> 43 /\ format_call c = (">" ++ py_str_mul n "H")%string /\ 2 <= n).
  { destruct c; try discriminate N; injection N as <-; cbn; repeat split; try discriminate; try reflexivity; lia. }
  destruct R as (R1 & R2 & R3 & R4). destruct rp as [|rc [|b2 rest]].
  - split; [discriminate|]. intros (? & ? & _ & _ & _ & X & _). discriminate X.
  - split; [discriminate|]. intros (? & ws & _ & L & _ & X & _). destruct ws as [|w ws]; [change (zlen (@nil Z)) with 0 in L; lia|discriminate X].
  - destruct (Z.lt_ge_cases 128 rc) as [L|L].
    { rewrite decode_exception by exact L. split; [discriminate|]. intros (? & ? & Y & _ & _ & X & _). injection X as -> _. lia. }
    rewrite decode_other by assumption. rewrite R3. inversion_clear B as [|? ? _ Bd]. split.
    + destruct (unpack _ (b2 :: rest)) as [l|e] eqn:U; [|discriminate]. intros [= <-]. apply unpack_regs_iff in U as (E & F & Z); [|lia|exact Bd].
      exists rc, l. rewrite <- E. auto.
    + intros (rc' & ws & _ & Z & F & X & ->). injection X as <- X. assert (U : unpack (">" ++ py_str_mul n "H")%string (b2 :: rest) = Ok ws).
      { apply unpack_regs_iff; [lia|exact Bd|]. auto. }
      now rewrite U.
Qed.
Theorem C42_status_exact : forall p last u rp exchange v, can_send p last u ReadStatus -> replies p last u ReadStatus rp exchange ->
  (ex_result (execute p last (args_of u ReadStatus) exchange) = Some (Ok v) <-> exists rc b, rc <= 128 /\ rp = [rc; b] /\ v = RTuple [b]).
Proof.
  intros p last u rp exchange v C A. destruct (answered _ _ _ _ _ _ C A) as (pdu & _ & ->). destruct A as (B & _ & _). destruct rp as [|rc [|b2 rest]].
  - split; [discriminate|]. intros (? & ? & _ & X & _). discriminate X.
  - split; [discriminate|]. intros (? & ? & _ & X & _). discriminate X.
  - destruct (Z.lt_ge_cases 128 rc) as [L|L].
    { rewrite decode_exception by exact L. split; [discriminate|]. intros (? & ? & Y & X & _). injection X as -> _ _. lia. }
    rewrite decode_other by (reflexivity || discriminate || exact L). cbn [format_call]. destruct rest as [|y rest].
    + assert (U : unpack ">B" [b2] = Ok [b2]) by apply unpack_B. rewrite U. split.
      * intros [= <-]. exists rc, b2. auto.
      * intros (? & ? & _ & X & ->). injection X as _ <-. reflexivity.
    + assert (U : exists e, unpack ">B" (b2 :: y :: rest) = Err e).
      { exists StructError. apply (unpack_rep_B_len 1); [lia|]. rewrite !zlen_cons. pose proof (zlen_nonneg rest). lia. }
      destruct U as (e & ->). split; [discriminate|]. intros (? & ? & _ & X & _). discriminate X.
Qed.
(** The response is not compared with the request: a write of 7 to register 1 that is answered "9 written to register 2" returns normally. *)
Theorem C42_echo_refuted : exists p last u exchange v, let c := WriteReg 1 7 in
  can_send p last u c /\ replies p last u c [6; 0; 2; 0; 9] exchange /\ ex_result (execute p last (args_of u c) exchange) = Some (Ok v) /\ v = RTuple [2; 9].
Proof.
  exists RTU, 0, 1, (fun _ _ => Ok (sealed [1; 6; 0; 2; 0; 9])), (RTuple [2; 9]). cbv zeta.
  split; [split; [cbn; unfold fits, reg_value; lia|]; split; [lia|]; split; [lia|]; intros; exact I|].
  split; [split; [apply bytes_compute; reflexivity|]; split; [exact I|reflexivity]|]. split; [vm_compute; reflexivity|reflexivity].
Qed.
Example C42_writes_ex : can_send RTU 0 1 (MaskWrite 3 240 15) /\ replies RTU 0 1 (MaskWrite 3 240 15) (22 :: words [3; 240; 15]) (fun _ _ => Ok (sealed (1 :: 22 :: words [3; 240; 15]))) /\
  ex_result (execute RTU 0 (args_of 1 (MaskWrite 3 240 15)) (fun _ _ => Ok (sealed (1 :: 22 :: words [3; 240; 15])))) = Some (Ok (RTuple [3; 240; 15])) /\
  ex_result (execute RTU 0 (args_of 1 (MaskWrite 3 240 15)) (fun _ _ => Ok (sealed (1 :: 22 :: words [3; 240])))) = Some (Err StructError).
Proof.
  split; [split; [cbn; unfold fits, reg_value; lia|]; split; [lia|]; split; [lia|]; intros; exact I|].
  split; [split; [apply bytes_compute; reflexivity|]; split; [exact I|reflexivity]|]. split; vm_compute; reflexivity.
Qed.

Print Assumptions C42_writes_exact.
Print Assumptions C42_status_exact.
Print Assumptions C42_echo_refuted.
