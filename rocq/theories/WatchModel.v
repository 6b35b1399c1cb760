(** Model of a slave watched by a function installed at the hook "modbus.ModbusBlock.setitem" (modbus.py 454-457): every write into a block announces itself there before it is
    made.  The function may read the block it is given and may raise.  The other hooks are not installed.

    Simplifications: the function does not itself change slaves; that the data may be an object other than an integer is ValueModel.v's subject. *)
From Verif Require Import Base PyStruct Defines SlaveModel.
Open Scope Z_scope.

(** What the function is told: the block (the [nt_block]-th of table [nt_table]), the index or the first index of the slice, and the value or values. *)
Record note := { nt_table : btype; nt_block : nat; nt_item : Z; nt_slice : bool; nt_vals : list Z }.
(** A call of the function: what it was told, what the block contained at that moment, and the exception it raised, if any. *)
Record told := { td_note : note; td_cells : list Z; td_raised : option exn }.
(** The function: from the calls made before, what the block contains and what it is told. *)
Definition watcher := list told -> list Z -> note -> option exn.

(** call_hooks in ModbusBlock.__setitem__, modbus.py 456 *)
Definition announce (w : watcher) (log : list told) (cells : list Z) (n : note) : list told * res unit :=
  let x := w log cells n in
  (log ++ [{| td_note := n; td_cells := cells; td_raised := x |}], match x with Some e => Err e | None => Ok tt end).
(** ModbusBlock.__setitem__ with an index, modbus.py 454-457 *)
Definition w_set (w : watcher) (t : btype) (k : nat) (log : list told) (data : list Z) (i v : Z) : list told * res (list Z) :=
  let '(log', r) := announce w log data {| nt_table := t; nt_block := k; nt_item := i; nt_slice := false; nt_vals := [v] |} in
  (log', _ <- r ;; py_set data i v).

(** modbus.py 663-666 and 631-634 *)
Fixpoint w_write_regs_loop (w : watcher) (t : btype) (k : nat) (fmt : string) (pdu : list Z) (base : Z) (offset : Z)
  (n : nat) (i : Z) (log : list told) (data : list Z) : list told * list Z * res unit :=
  match n with
  | O => (log, data, Ok tt)
  | S m =>
      match unpack1 fmt (py_slice pdu (base + 2 * i) (base + 2 + 2 * i)) with
      | Err e => (log, data, Err e)
      | Ok v =>
          match w_set w t k log data (offset + i) v with
          | (log', Err e) => (log', data, Err e)
          | (log', Ok data') => w_write_regs_loop w t k fmt pdu base offset m (i + 1) log' data'
          end
      end
  end.
(** modbus.py 598-636 *)
Definition w_read_write_multiple_registers (w : watcher) (log : list told) (s : slave) (pdu : list Z) : list told * slave * res (list Z) :=
  match unpack5 ">HHHHB" (py_slice pdu 1 10) with
  | Err e => (log, s, Err e)
  | Ok (ra, rq, wa, wq, bc) =>
      if (rq <=? 0) || (125 <? rq) then (log, s, Err (ModbusError ILLEGAL_DATA_VALUE))
      else match get_block_and_offset s HOLDING_REGISTERS ra rq with
      | Err e => (log, s, Err e)
      | Ok (_, rb, roff) =>
          let values := py_slice (b_data rb) roff (roff + rq) in
          match (header <- pack ">B" [2 * rq] ;; pack_regs_loop (fmtH s) values header) with
          | Err e => (log, s, Err e)
          | Ok response =>
              if (wq <=? 0) || (123 <? wq) || negb (bc =? wq * 2)
              then (log, s, Err (ModbusError ILLEGAL_DATA_VALUE))
              else match get_block_and_offset s HOLDING_REGISTERS wa wq with
              | Err e => (log, s, Err e)
              | Ok (i, wb, woff) =>
                  let '(log', d, r) := w_write_regs_loop w HOLDING_REGISTERS i (fmtH s) pdu 10 woff (Z.to_nat wq) 0 log (b_data wb) in
                  let s' := put_block_data s HOLDING_REGISTERS i wb d in
                  match r with
                  | Err e => (log', s', Err e)
                  | Ok _ => (log', s', Ok response)
                  end
              end
          end
      end
  end.
(** modbus.py 638-647 *)
Definition w_mask_write_register (w : watcher) (log : list told) (s : slave) (pdu : list Z) : list told * slave * res (list Z) :=
  match unpack3 ">HHH" (py_slice pdu 1 7) with
  | Err e => (log, s, Err e)
  | Ok (a, and_mask, or_mask) =>
      match get_block_and_offset s HOLDING_REGISTERS a 1 with
      | Err e => (log, s, Err e)
      | Ok (i, b, offset) =>
          match py_get (b_data b) offset with
          | Err e => (log, s, Err e)
          | Ok old =>
              let v := Z.lor (Z.land old and_mask) (Z.land or_mask (Z.lnot and_mask)) in
              match w_set w HOLDING_REGISTERS i log (b_data b) offset v with
              | (log', Err e) => (log', s, Err e)
              | (log', Ok d) => (log', put_block_data s HOLDING_REGISTERS i b d, Ok (py_from pdu 1))
              end
          end
      end
  end.
(** modbus.py 649-668 *)
Definition w_write_multiple_registers (w : watcher) (log : list told) (s : slave) (pdu : list Z) : list told * slave * res (list Z) :=
  match unpack3 ">HHB" (py_slice pdu 1 6) with
  | Err e => (log, s, Err e)
  | Ok (a, q, bc) =>
      if (q <=? 0) || (123 <? q) || negb (bc =? q * 2)
      then (log, s, Err (ModbusError ILLEGAL_DATA_VALUE))
      else match get_block_and_offset s HOLDING_REGISTERS a q with
      | Err e => (log, s, Err e)
      | Ok (i, b, offset) =>
          let '(log', d, r) := w_write_regs_loop w HOLDING_REGISTERS i (fmtH s) pdu 6 offset (Z.to_nat q) 0 log (b_data b) in
          let s' := put_block_data s HOLDING_REGISTERS i b d in
          match r with
          | Err e => (log', s', Err e)
          | Ok _ => (log', s', pack ">HH" [a; q])
          end
      end
  end.
(** modbus.py 693-702 *)
Fixpoint w_write_bits_inner (w : watcher) (t : btype) (k : nat) (fuel : nat) (byte_value : Z) (pos j count q : Z) (log : list told) (data : list Z)
  : list told * list Z * res Z :=
  match fuel with
  | O => (log, data, Ok count)
  | S m =>
      if q <=? count then (log, data, Ok count)
      else
        let v := if Z.land byte_value (Z.shiftl 1 j) =? 0 then 0 else 1 in
        match w_set w t k log data (pos + j) v with
        | (log', Err e) => (log', data, Err e)
        | (log', Ok data') => w_write_bits_inner w t k m byte_value pos (j + 1) (count + 1) q log' data'
        end
  end.
(** modbus.py 688-702 *)
Fixpoint w_write_bits_outer (w : watcher) (t : btype) (k : nat) (n : nat) (fmt : string) (pdu : list Z) (offset i count q : Z)
  (log : list told) (data : list Z) : list told * list Z * res Z :=
  match n with
  | O => (log, data, Ok count)
  | S m =>
      if q <=? count then (log, data, Ok count)
      else match unpack1 fmt (py_slice pdu (6 + i) (7 + i)) with
      | Err e => (log, data, Err e)
      | Ok byte_value =>
          match w_write_bits_inner w t k 8 byte_value (offset + i * 8) 0 count q log data with
          | (log', d, Err e) => (log', d, Err e)
          | (log', d, Ok c) => w_write_bits_outer w t k m fmt pdu offset (i + 1) c q log' d
          end
      end
  end.
(** modbus.py 670-703 *)
Definition w_write_multiple_coils (w : watcher) (log : list told) (s : slave) (pdu : list Z) : list told * slave * res (list Z) :=
  match unpack3 ">HHB" (py_slice pdu 1 6) with
  | Err e => (log, s, Err e)
  | Ok (a, q, bc) =>
      if (q <=? 0) || (1968 <? q) || negb (bc =? bit_byte_count q)
      then (log, s, Err (ModbusError ILLEGAL_DATA_VALUE))
      else match get_block_and_offset s COILS a q with
      | Err e => (log, s, Err e)
      | Ok (i, b, offset) =>
          let '(log', d, r) := w_write_bits_outer w COILS i (Z.to_nat bc) (fmtB s) pdu offset 0 0 q log (b_data b) in
          let s' := put_block_data s COILS i b d in
          match r with
          | Err e => (log', s', Err e)
          | Ok count => (log', s', pack ">HH" [a; count])
          end
      end
  end.
(** modbus.py 705-714 *)
Definition w_write_single_register (w : watcher) (log : list told) (s : slave) (pdu : list Z) : list told * slave * res (list Z) :=
  let fmt := (if sl_unsigned s then ">HH" else ">Hh")%string in
  match unpack2 fmt (py_slice pdu 1 5) with
  | Err e => (log, s, Err e)
  | Ok (a, v) =>
      match get_block_and_offset s HOLDING_REGISTERS a 1 with
      | Err e => (log, s, Err e)
      | Ok (i, b, offset) =>
          match w_set w HOLDING_REGISTERS i log (b_data b) offset v with
          | (log', Err e) => (log', s, Err e)
          | (log', Ok d) => (log', put_block_data s HOLDING_REGISTERS i b d, Ok (py_from pdu 1))
          end
      end
  end.
(** modbus.py 716-729 *)
Definition w_write_single_coil (w : watcher) (log : list told) (s : slave) (pdu : list Z) : list told * slave * res (list Z) :=
  match unpack2 ">HH" (py_slice pdu 1 5) with
  | Err e => (log, s, Err e)
  | Ok (a, value) =>
      match get_block_and_offset s COILS a 1 with
      | Err e => (log, s, Err e)
      | Ok (i, b, offset) =>
          if (value =? 0) || (value =? 65280) then
            match w_set w COILS i log (b_data b) offset (if value =? 0 then 0 else 1) with
            | (log', Err e) => (log', s, Err e)
            | (log', Ok d) => (log', put_block_data s COILS i b d, Ok (py_from pdu 1))
            end
          else (log, s, Err (ModbusError ILLEGAL_DATA_VALUE))
      end
  end.
(** self._fn_code_map, modbus.py 480-493; the reads write nothing *)
Definition w_fn_code_map (w : watcher) (fc : Z) : option (list told -> slave -> list Z -> list told * slave * res (list Z)) :=
  if fc =? WRITE_SINGLE_COIL then Some (w_write_single_coil w)
  else if fc =? WRITE_SINGLE_REGISTER then Some (w_write_single_register w)
  else if fc =? WRITE_MULTIPLE_COILS then Some (w_write_multiple_coils w)
  else if fc =? WRITE_MULTIPLE_REGISTERS then Some (w_write_multiple_registers w)
  else if fc =? MASK_WRITE_REGISTER then Some (w_mask_write_register w)
  else if fc =? READ_WRITE_MULTIPLE_REGISTERS then Some (w_read_write_multiple_registers w)
  else match fn_code_map fc with
       | None => None
       | Some f => Some (fun log s pdu => let '(s', r) := f s pdu in (log, s', r))
       end.
(** except ModbusError, modbus.py 771-774 *)
Definition w_catch (fc : Z) (r : res (list Z)) : res (list Z) :=
  match r with
  | Err (ModbusError code) => pack ">BB" [fc + 128; code]
  | _ => r
  end.
(** Slave.handle_request, modbus.py 731-774 *)
Definition w_handle_request (w : watcher) (log : list told) (s : slave) (pdu : list Z) (broadcast : bool) : list told * slave * res (list Z) :=
  match unpack1 ">B" (py_slice pdu 0 1) with
  | Err e => (log, s, Err e)
  | Ok fc =>
      match w_fn_code_map w fc with
      | None => (log, s, w_catch fc (Err (ModbusError ILLEGAL_FUNCTION)))
      | Some f =>
          if broadcast && cant_be_broadcasted fc then (log, s, Err ModbusInvalidRequestError)
          else
            let '(log', s', r) := f log s pdu in
            match r with
            | Err e => (log', s', w_catch fc (Err e))
            | Ok [] => (log', s', Err GenericException)
            | Ok response_pdu => if broadcast then (log', s', Ok []) else (log', s', b <- pack ">B" [fc] ;; Ok (b ++ response_pdu))
            end
      end
  end.
(** Slave.set_values, modbus.py 844-871: one __setitem__, with a slice if the values are a list or a tuple *)
Definition w_set_values (w : watcher) (log : list told) (s : slave) (name : string) (address : Z) (values : setval) : list told * slave * res unit :=
  match get_block s name with
  | Err e => (log, s, Err e)
  | Ok (t, i, b) =>
      let offset := address - b_start b in
      let size := match values with SvSeq l => zlen l | SvNum _ => 1 end in
      if (offset <? 0) || (b_size b <? offset + size) then (log, s, Err OutOfModbusBlockError)
      else match values with
      | SvSeq l =>
          let '(log', r) := announce w log (b_data b) {| nt_table := t; nt_block := i; nt_item := offset; nt_slice := true; nt_vals := l |} in
          match r with
          | Err e => (log', s, Err e)
          | Ok _ => (log', put_block_data s t i b (py_slice_assign (b_data b) offset (offset + zlen l) l), Ok tt)
          end
      | SvNum v =>
          match w_set w t i log (b_data b) offset v with
          | (log', Err e) => (log', s, Err e)
          | (log', Ok d) => (log', put_block_data s t i b d, Ok tt)
          end
      end
  end.
(** What is done to a slave: requests of masters and set_values by the application. *)
Inductive deed := Ask (pdu : list Z) (broadcast : bool) | Set_ (name : string) (address : Z) (values : setval).
Definition w_do (w : watcher) (log : list told) (s : slave) (x : deed) : list told * slave :=
  match x with
  | Ask pdu broadcast => fst (w_handle_request w log s pdu broadcast)
  | Set_ name address values => fst (w_set_values w log s name address values)
  end.
Fixpoint w_run (w : watcher) (log : list told) (s : slave) (l : list deed) : list told * slave :=
  match l with [] => (log, s) | x :: t => let '(log', s') := w_do w log s x in w_run w log' s' t end.
