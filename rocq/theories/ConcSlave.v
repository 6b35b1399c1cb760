(** The slave's operations, run access by access without interruption, are the operations of SlaveModel. *)
From Verif Require Import Base BaseFacts PyStruct Defines SlaveModel SlaveSpec SlaveProofs SlaveInv ConcModel ConcProofs.
From Coq Require Import Lia.

Lemma run_act {S A} (f : S -> S * A) s : run (act f) s = f s.
Proof. unfold act. cbn. destruct (f s). reflexivity. Qed.
Lemma run_look {S A} (f : S -> A) s : run (look f) s = (s, f s).
Proof. reflexivity. Qed.
Lemma run_pause {S} (s : S) : run pause s = (s, tt).
Proof. reflexivity. Qed.

Lemma block_at_put s t i b d : block_at s t i = Some b -> block_at (put_block_data s t i b d) t i = Some (with_data b d).
Proof.
  unfold block_at, put_block_data. destruct (mem_get s t) as [l|e] eqn:M; [|discriminate]. intros N.
  apply mem_get_inv in M as [Ht ->]. rewrite mem_get_ok.
  - rewrite blocks_mem_set by (auto using same_table_refl). apply list_upd_same. apply nth_error_Some. congruence.
  - unfold has_table in *. now rewrite mem_set_alias.
Qed.
Lemma put_put s t i b d d' :
  block_at s t i = Some b -> put_block_data (put_block_data s t i b d) t i (with_data b d) d' = put_block_data s t i b d'.
Proof.
  intros N. unfold block_at in N. unfold put_block_data. destruct (mem_get s t) as [l|e] eqn:M; [|discriminate].
  apply mem_get_inv in M as [Ht ->]. rewrite mem_get_ok by (unfold has_table in *; now rewrite mem_set_alias).
  rewrite blocks_mem_set by (auto using same_table_refl). now rewrite mem_set_mem_set, list_upd_upd.
Qed.
Lemma put_self s t i b : block_at s t i = Some b -> put_block_data s t i b (b_data b) = s.
Proof.
  intros N. unfold block_at in N. unfold put_block_data. destruct (mem_get s t) as [l|e] eqn:M; [|discriminate].
  apply mem_get_inv in M as [Ht ->]. rewrite list_upd_self; [now apply mem_set_self|]. rewrite N. now destruct b.
Qed.

Lemma run_find l a n i s :
  run (m_find l a n i) s = (s, match find_block l a n i with Some r => Ok r | None => Err (ModbusError ILLEGAL_DATA_ADDRESS) end).
Proof.
  revert i. induction l as [|b l IH]; intros i; [reflexivity|]. cbn [m_find find_block]. rewrite run_andthen, run_pause.
  destruct ((b_start b <=? a) && (a - b_start b + n <=? b_size b)); [reflexivity|]. apply IH.
Qed.
Lemma run_gbo t a n s : run (m_gbo t a n) s = (s, get_block_and_offset s t a n).
Proof.
  unfold m_gbo. rewrite run_andthen, run_look. unfold get_block_and_offset.
  destruct (mem_get s t) as [l|e]; [|reflexivity]. apply run_find.
Qed.
Lemma gbo_at s t a n i b off : get_block_and_offset s t a n = Ok (i, b, off) -> block_at s t i = Some b.
Proof.
  unfold get_block_and_offset, block_at. destruct (mem_get s t) as [l|e]; [|discriminate]. cbn [bind].
  destruct (find_block l a n 0) as [[[j c] o]|] eqn:F; [|discriminate]. intros H. injection H as -> -> ->.
  apply find_block_some in F as (l1 & l2 & (-> & _) & -> & _). cbn.
  rewrite nth_error_app2 by lia. now rewrite Nat.sub_diag.
Qed.
Lemma run_cells s t i b lo hi : block_at s t i = Some b -> run (m_cells t i lo hi) s = (s, py_slice (b_data b) lo hi).
Proof. intros B. unfold m_cells. rewrite run_look. now rewrite B. Qed.
Lemma run_cell s t i b j : block_at s t i = Some b -> run (m_cell t i j) s = (s, py_get (b_data b) j).
Proof. intros B. unfold m_cell. rewrite run_look. now rewrite B. Qed.
Lemma run_poke s t i b j v :
  block_at s t i = Some b ->
  run (m_poke t i j v) s = match py_set (b_data b) j v with
                           | Ok d => (put_block_data s t i b d, Ok tt)
                           | Err e => (s, Err e)
                           end.
Proof. intros B. unfold m_poke. rewrite run_act. now rewrite B. Qed.

Lemma run_write_regs t blk fmt pdu base offset n i s b :
  block_at s t blk = Some b ->
  run (m_write_regs t blk fmt pdu base offset n i) s
  = let '(d, r) := write_regs_loop fmt pdu base offset n i (b_data b) in (put_block_data s t blk b d, r).
Proof.
  revert i s b. induction n as [|n IH]; intros i s b B; cbn [m_write_regs write_regs_loop].
  { cbn. now rewrite put_self. }
  destruct (unpack1 fmt (py_slice pdu (base + 2 * i) (base + 2 + 2 * i))) as [v|e]; [|cbn; now rewrite put_self].
  rewrite run_andthen, (run_poke _ _ _ _ _ _ B).
  destruct (py_set (b_data b) (offset + i) v) as [d|e]; [|cbn; now rewrite put_self].
  rewrite (IH _ _ _ (block_at_put _ _ _ _ d B)). cbn [with_data b_data].
  destruct (write_regs_loop fmt pdu base offset n (i + 1) d) as [d' r]. now rewrite put_put.
Qed.
Lemma run_bits_inner blk fuel bv pos j count q s b :
  block_at s COILS blk = Some b ->
  run (m_bits_inner blk fuel bv pos j count q) s
  = let '(d, r) := write_bits_inner fuel bv pos j count q (b_data b) in (put_block_data s COILS blk b d, r).
Proof.
  revert j count s b. induction fuel as [|n IH]; intros j count s b B; cbn [m_bits_inner write_bits_inner].
  { cbn. now rewrite put_self. }
  destruct (q <=? count); [cbn; now rewrite put_self|].
  rewrite run_andthen, (run_poke _ _ _ _ _ _ B).
  destruct (py_set (b_data b) (pos + j) (if Z.land bv (Z.shiftl 1 j) =? 0 then 0 else 1)) as [d|e]; [|cbn; now rewrite put_self].
  rewrite (IH _ _ _ _ (block_at_put _ _ _ _ d B)). cbn [with_data b_data].
  destruct (write_bits_inner n bv pos (j + 1) (count + 1) q d) as [d' r]. now rewrite put_put.
Qed.
Lemma run_bits_outer blk n fmt pdu offset i count q s b :
  block_at s COILS blk = Some b ->
  run (m_bits_outer blk n fmt pdu offset i count q) s
  = let '(d, r) := write_bits_outer n fmt pdu offset i count q (b_data b) in (put_block_data s COILS blk b d, r).
Proof.
  revert i count s b. induction n as [|n IH]; intros i count s b B; cbn [m_bits_outer write_bits_outer].
  { cbn. now rewrite put_self. }
  destruct (q <=? count); [cbn; now rewrite put_self|].
  destruct (unpack1 fmt (py_slice pdu (6 + i) (7 + i))) as [v|e]; [|cbn; now rewrite put_self].
  rewrite run_andthen, (run_bits_inner _ _ _ _ _ _ _ _ _ B).
  destruct (write_bits_inner 8 v (offset + i * 8) 0 count q (b_data b)) as [d [c|e]]; [|reflexivity].
  rewrite (IH _ _ _ _ (block_at_put _ _ _ _ d B)). cbn [with_data b_data].
  destruct (write_bits_outer n fmt pdu offset (i + 1) c q d) as [d' r]. now rewrite put_put.
Qed.

Ltac gbo s t a n i b off B :=
  rewrite run_andthen, run_gbo; destruct (get_block_and_offset s t a n) as [[[i b] off]|] eqn:B; [apply gbo_at in B|reflexivity].

Lemma run_read_digital t pdu s : run (m_read_digital t pdu) s = (s, read_digital s t pdu).
Proof.
  unfold m_read_digital, read_digital. destruct (unpack2 ">HH" (py_slice pdu 1 5)) as [[a q]|e]; [|reflexivity]. cbn [bind].
  destruct ((q <=? 0) || (2000 <? q)); [reflexivity|]. gbo s t a q i b off B. cbn [bind].
  rewrite run_andthen, (run_cells _ _ _ _ _ _ B). reflexivity.
Qed.
Lemma run_read_registers t pdu s : run (m_read_registers t pdu) s = (s, read_registers s t pdu).
Proof.
  unfold m_read_registers, read_registers. destruct (unpack2 ">HH" (py_slice pdu 1 5)) as [[a q]|e]; [|reflexivity]. cbn [bind].
  destruct ((q <=? 0) || (125 <? q)); [reflexivity|]. gbo s t a q i b off B. cbn [bind].
  rewrite run_andthen, (run_cells _ _ _ _ _ _ B). reflexivity.
Qed.
Lemma run_read_write pdu s : run (m_read_write pdu) s = read_write_multiple_registers s pdu.
Proof.
  unfold m_read_write, read_write_multiple_registers.
  destruct (unpack5 ">HHHHB" (py_slice pdu 1 10)) as [[[[[ra rq] wa] wq] bc]|e]; [|reflexivity].
  destruct ((rq <=? 0) || (125 <? rq)); [reflexivity|]. gbo s HOLDING_REGISTERS ra rq ri rb roff B.
  rewrite run_andthen, (run_cells _ _ _ _ _ _ B). rewrite run_andthen. unfold m_unsigned. rewrite run_look.
  change (fmtH_of (sl_unsigned s)) with (fmtH s).
  destruct (header <- pack ">B" [2 * rq];; pack_regs_loop (fmtH s) (py_slice (b_data rb) roff (roff + rq)) header) as [resp|e]; [|reflexivity].
  destruct ((wq <=? 0) || (123 <? wq) || negb (bc =? wq * 2)); [reflexivity|]. gbo s HOLDING_REGISTERS wa wq wi wb woff B'.
  rewrite run_andthen, (run_write_regs _ _ _ _ _ _ _ _ _ _ B').
  destruct (write_regs_loop (fmtH s) pdu 10 woff (Z.to_nat wq) 0 (b_data wb)) as [d [r|e]]; reflexivity.
Qed.
Lemma run_mask_write pdu s : run (m_mask_write pdu) s = mask_write_register s pdu.
Proof.
  unfold m_mask_write, mask_write_register. destruct (unpack3 ">HHH" (py_slice pdu 1 7)) as [[[a am] om]|e]; [|reflexivity].
  gbo s HOLDING_REGISTERS a 1 i b off B. rewrite run_andthen, (run_cell _ _ _ _ _ B).
  destruct (py_get (b_data b) off) as [old|e]; [|reflexivity]. rewrite run_andthen, (run_poke _ _ _ _ _ _ B).
  destruct (py_set (b_data b) off _); reflexivity.
Qed.
Lemma run_write_registers pdu s : run (m_write_registers pdu) s = write_multiple_registers s pdu.
Proof.
  unfold m_write_registers, write_multiple_registers. destruct (unpack3 ">HHB" (py_slice pdu 1 6)) as [[[a q] bc]|e]; [|reflexivity].
  destruct ((q <=? 0) || (123 <? q) || negb (bc =? q * 2)); [reflexivity|]. gbo s HOLDING_REGISTERS a q i b off B.
  rewrite run_andthen. unfold m_unsigned. rewrite run_look, run_andthen, (run_write_regs _ _ _ _ _ _ _ _ _ _ B).
  change (fmtH_of (sl_unsigned s)) with (fmtH s).
  destruct (write_regs_loop (fmtH s) pdu 6 off (Z.to_nat q) 0 (b_data b)) as [d [r|e]]; reflexivity.
Qed.
Lemma run_write_coils pdu s : run (m_write_coils pdu) s = write_multiple_coils s pdu.
Proof.
  unfold m_write_coils, write_multiple_coils. destruct (unpack3 ">HHB" (py_slice pdu 1 6)) as [[[a q] bc]|e]; [|reflexivity].
  destruct ((q <=? 0) || (1968 <? q) || negb (bc =? bit_byte_count q)); [reflexivity|]. gbo s COILS a q i b off B.
  rewrite run_andthen. unfold m_unsigned. rewrite run_look, run_andthen, (run_bits_outer _ _ _ _ _ _ _ _ _ _ B).
  change (fmtB_of (sl_unsigned s)) with (fmtB s).
  destruct (write_bits_outer (Z.to_nat bc) (fmtB s) pdu off 0 0 q (b_data b)) as [d [r|e]]; reflexivity.
Qed.
Lemma run_write_register pdu s : run (m_write_register pdu) s = write_single_register s pdu.
Proof.
  unfold m_write_register, write_single_register. rewrite run_andthen. unfold m_unsigned. rewrite run_look.
  destruct (unpack2 (if sl_unsigned s then ">HH" else ">Hh")%string (py_slice pdu 1 5)) as [[a v]|e]; [|reflexivity].
  gbo s HOLDING_REGISTERS a 1 i b off B. rewrite run_andthen, (run_poke _ _ _ _ _ _ B).
  destruct (py_set (b_data b) off v); reflexivity.
Qed.
Lemma run_write_coil pdu s : run (m_write_coil pdu) s = write_single_coil s pdu.
Proof.
  unfold m_write_coil, write_single_coil. destruct (unpack2 ">HH" (py_slice pdu 1 5)) as [[a v]|e]; [|reflexivity].
  gbo s COILS a 1 i b off B. destruct (v =? 0); cbn [orb].
  - rewrite run_andthen, (run_poke _ _ _ _ _ _ B). destruct (py_set (b_data b) off 0); reflexivity.
  - destruct (v =? 65280); [|reflexivity]. rewrite run_andthen, (run_poke _ _ _ _ _ _ B). destruct (py_set (b_data b) off 1); reflexivity.
Qed.

Lemma run_fn fc pdu s :
  match fn_code_map fc, m_fn_code_map fc with
  | Some f, Some g => run (g pdu) s = f s pdu
  | None, None => True
  | _, _ => False
  end.
Proof.
  unfold fn_code_map, m_fn_code_map.
  destruct (fc =? READ_COILS); [apply run_read_digital|].
  destruct (fc =? READ_DISCRETE_INPUTS); [apply run_read_digital|].
  destruct (fc =? READ_INPUT_REGISTERS); [apply run_read_registers|].
  destruct (fc =? READ_HOLDING_REGISTERS); [apply run_read_registers|].
  destruct (fc =? READ_EXCEPTION_STATUS); [reflexivity|].
  destruct (fc =? WRITE_SINGLE_COIL); [apply run_write_coil|].
  destruct (fc =? WRITE_SINGLE_REGISTER); [apply run_write_register|].
  destruct (fc =? WRITE_MULTIPLE_COILS); [apply run_write_coils|].
  destruct (fc =? WRITE_MULTIPLE_REGISTERS); [apply run_write_registers|].
  destruct (fc =? MASK_WRITE_REGISTER); [apply run_mask_write|].
  destruct (fc =? READ_WRITE_MULTIPLE_REGISTERS); [apply run_read_write|].
  exact I.
Qed.
Lemma run_handle_request pdu bc s : run (m_handle_request pdu bc) s = handle_request s pdu bc.
Proof.
  unfold m_handle_request, handle_request. destruct (unpack1 ">B" (py_slice pdu 0 1)) as [fc|e]; [|reflexivity].
  pose proof (run_fn fc pdu s) as R. destruct (fn_code_map fc) as [f|], (m_fn_code_map fc) as [g|]; try contradiction; [|reflexivity].
  destruct (bc && cant_be_broadcasted fc); [reflexivity|]. rewrite run_andthen, R. destruct (f s pdu) as [s' [[|x l]|e]]; try reflexivity.
  destruct bc; reflexivity.
Qed.

Lemma run_scan l i st sz s : run (m_scan l i st sz) s = (s, add_block_scan l i st sz).
Proof.
  revert i. induction l as [|b l IH]; intros i; [reflexivity|]. cbn [m_scan add_block_scan]. rewrite run_andthen, run_pause.
  destruct (is_in b st sz); [reflexivity|]. destruct (st <? b_start b); [reflexivity|]. apply IH.
Qed.
Lemma mem_get_names s n t : mem_get (with_names s n) t = mem_get s t.
Proof. reflexivity. Qed.
Lemma run_add_block n ty st sz s : run (m_add_block n ty st sz) s = add_block s n ty st sz.
Proof.
  unfold m_add_block, add_block. destruct (sz <=? 0); [reflexivity|]. destruct (st <? 0); [reflexivity|].
  rewrite run_andthen, run_look. destruct (assoc String.eqb n (sl_names s)); [reflexivity|].
  destruct (btype_of_Z ty) as [t|]; [|reflexivity]. rewrite run_andthen, run_look.
  destruct (mem_get s t) as [l|e] eqn:M; [|reflexivity]. rewrite run_andthen, run_scan.
  destruct (add_block_scan l 0 st sz) as [ix|e]; [|reflexivity].
  rewrite run_andthen, run_act, run_andthen, run_act, mem_get_names, M. reflexivity.
Qed.
Lemma run_find_start l st i s : run (m_find_start l st i) s = (s, find_start l st i).
Proof.
  revert i. induction l as [|b l IH]; intros i; [reflexivity|]. cbn [m_find_start find_start]. rewrite run_andthen, run_pause.
  destruct (b_start b =? st); [reflexivity|]. apply IH.
Qed.
Lemma run_get_block n s : run (m_get_block n) s = (s, get_block s n).
Proof.
  unfold m_get_block, get_block. rewrite run_andthen, run_look. destruct (assoc String.eqb n (sl_names s)) as [[t st]|]; [|reflexivity].
  rewrite run_andthen, run_look. destruct (mem_get s t) as [l|e]; [|reflexivity]. rewrite run_andthen, run_find_start. cbn [bind].
  destruct (find_start l st 0) as [[i b]|]; reflexivity.
Qed.
Lemma get_block_at s n t i b : get_block s n = Ok (t, i, b) -> block_at s t i = Some b.
Proof.
  unfold get_block, block_at. destruct (assoc String.eqb n (sl_names s)) as [[t' st]|]; [|discriminate].
  destruct (mem_get s t') as [l|e] eqn:M; [|discriminate]. cbn [bind].
  destruct (find_start l st 0) as [[j c]|] eqn:F; [|discriminate]. intros H. injection H as -> -> ->. rewrite M.
  apply find_start_some in F as (l1 & l2 & -> & -> & _). cbn. rewrite nth_error_app2 by lia. now rewrite Nat.sub_diag.
Qed.
Lemma run_remove_block n s : run (m_remove_block n) s = remove_block s n.
Proof.
  unfold m_remove_block, remove_block. rewrite run_andthen, run_get_block. destruct (get_block s n) as [[[t i] b]|e]; [|reflexivity].
  rewrite run_andthen, run_act, run_act, mem_get_names. now destruct (mem_get s t).
Qed.
Lemma run_set_values n a v s : run (m_set_values n a v) s = set_values s n a v.
Proof.
  unfold m_set_values, set_values. rewrite run_andthen, run_get_block. destruct (get_block s n) as [[[t i] b]|e] eqn:G; [|reflexivity].
  apply get_block_at in G. cbv zeta. destruct ((a - b_start b <? 0) || _); [reflexivity|]. destruct v as [l|v].
  - rewrite run_act, G. reflexivity.
  - apply (run_poke _ _ _ _ _ _ G).
Qed.
Lemma run_get_values n a z s : run (m_get_values n a z) s = (s, get_values s n a z).
Proof.
  unfold m_get_values, get_values. rewrite run_andthen, run_get_block. destruct (get_block s n) as [[[t i] b]|e] eqn:G; [|reflexivity].
  apply get_block_at in G. cbn [bind]. cbv zeta. destruct ((a - b_start b <? 0) || _); [reflexivity|]. destruct (z =? 1).
  - rewrite run_andthen, (run_cell _ _ _ _ _ G). reflexivity.
  - rewrite run_andthen, (run_cells _ _ _ _ _ _ G). reflexivity.
Qed.

Theorem run_slave_code o s : run (slave_code o) s = slave_step s o.
Proof.
  destruct o as [n t a z|n| |n a v|n a z|p bc]; cbn [slave_code slave_step]; rewrite run_andthen.
  - rewrite run_add_block. now destruct (add_block s n t a z).
  - rewrite run_remove_block. now destruct (remove_block s n).
  - reflexivity.
  - rewrite run_set_values. now destruct (set_values s n a v).
  - rewrite run_get_values. reflexivity.
  - rewrite run_handle_request. now destruct (handle_request s p bc).
Qed.
