(** ModbusBlock and Slave (modbus.py 428-894) when the cells hold Python objects and not only integers: set_values stores what it is given.
    Same structure as SlaveModel.v, which is the special case of integers (property C95 relates the two).
    Simplifications: as in SlaveModel.v; bool(object) does not raise. *)
From Verif Require Import Base PyStruct Defines SlaveModel.

(** A Python object: an int, a bool (a subclass of int), or anything else - a float, None, a string, a list, a numpy array... - which has an
    identity and a truth value. *)
Inductive pv := VInt (z : Z) | VBool (b : bool) | VObj (id : Z) (truth : bool).
(** operator.index: what struct.pack and the bit operators accept *)
Definition as_int (v : pv) : option Z :=
  match v with VInt z => Some z | VBool b => Some (if b then 1 else 0) | VObj _ _ => None end.
Definition truth (v : pv) : bool :=
  match v with VInt z => negb (z =? 0) | VBool b => b | VObj _ t => t end.

(** ModbusBlock, modbus.py 428-457 *)
Record vblock := { vb_start : Z; vb_size : Z; vb_data : list pv }.
(** modbus.py 431-437 *)
Definition vnew_block (start size : Z) : vblock :=
  let d := repeat (VInt 0) (Z.to_nat size) in {| vb_start := start; vb_size := zlen d; vb_data := d |}.
(** modbus.py 439-448 *)
Definition vis_in (b : vblock) (start size : Z) : bool :=
  if vb_start b <? start then start <? vb_start b + vb_size b
  else if start <? vb_start b then vb_start b <? start + size
  else true.
Definition vwith_data (b : vblock) (d : list pv) : vblock := {| vb_start := vb_start b; vb_size := vb_size b; vb_data := d |}.
(** Slave, modbus.py 460-500; see [slave] of SlaveModel.v *)
Record vslave := {
  vs_unsigned : bool; vs_names : list (string * (btype * Z)); vs_alias : per4 (option btype); vs_lists : per4 (list vblock) }.
Definition vno_blocks : per4 (list vblock) := {| v_co := []; v_di := []; v_hr := []; v_ai := [] |}.
Definition vnew_slave (unsigned : bool) : vslave :=
  {| vs_unsigned := unsigned; vs_names := []; vs_alias := own_lists; vs_lists := vno_blocks |}.
Definition vmem_get (s : vslave) (t : btype) : res (list vblock) :=
  match get4 (vs_alias s) t with Some r => Ok (get4 (vs_lists s) r) | None => Err PyKeyError end.
Definition vmem_set (s : vslave) (t : btype) (l : list vblock) : vslave :=
  match get4 (vs_alias s) t with
  | Some r => {| vs_unsigned := vs_unsigned s; vs_names := vs_names s; vs_alias := vs_alias s; vs_lists := set4 (vs_lists s) r l |}
  | None => s
  end.
Definition vwith_names (s : vslave) (n : list (string * (btype * Z))) : vslave :=
  {| vs_unsigned := vs_unsigned s; vs_names := n; vs_alias := vs_alias s; vs_lists := vs_lists s |}.
(** _get_block_and_offset, modbus.py 502-509 *)
Fixpoint vfind_block (l : list vblock) (address len : Z) (i : nat) : option (nat * vblock * Z) :=
  match l with
  | [] => None
  | b :: t =>
      if (vb_start b <=? address) && (address - vb_start b + len <=? vb_size b) then Some (i, b, address - vb_start b)
      else vfind_block t address len (S i)
  end.
Definition vget_block_and_offset (s : vslave) (t : btype) (address len : Z) : res (nat * vblock * Z) :=
  l <- vmem_get s t ;;
  match vfind_block l address len O with Some r => Ok r | None => Err (ModbusError ILLEGAL_DATA_ADDRESS) end.
Definition vput_block_data (s : vslave) (t : btype) (i : nat) (b : vblock) (d : list pv) : vslave :=
  match vmem_get s t with Ok l => vmem_set s t (list_upd l i (vwith_data b d)) | Err _ => s end.
Definition vfmtB (s : vslave) : string := if vs_unsigned s then ">B" else ">b".
Definition vfmtH (s : vslave) : string := if vs_unsigned s then ">H" else ">h".

(** struct.pack(fmt, reg): struct.error "required argument is not an integer" *)
Definition vpack (fmt : string) (v : pv) : res (list Z) :=
  match as_int v with Some z => pack fmt [z] | None => Err StructError end.
(** _read_digital, modbus.py 511-547; "if coil" is the truth value *)
Fixpoint vpack_bits_loop (vals : list pv) (i byte_value : Z) (response : list Z) (last_fmt : string) : res (list Z) :=
  match vals with
  | [] => if 0 <? i then b <- pack last_fmt [byte_value] ;; Ok (response ++ b) else Ok response
  | coil :: rest =>
      let bv := if truth coil then byte_value + Z.shiftl 1 i else byte_value in
      if 7 <=? i then b <- pack ">B" [bv] ;; vpack_bits_loop rest 0 0 (response ++ b) last_fmt
      else vpack_bits_loop rest (i + 1) bv response last_fmt
  end.
Definition vread_digital (s : vslave) (t : btype) (pdu : list Z) : res (list Z) :=
  p <- unpack2 ">HH" (py_slice pdu 1 5) ;;
  let '(starting_address, quantity_of_x) := p in
  if (quantity_of_x <=? 0) || (2000 <? quantity_of_x) then Err (ModbusError ILLEGAL_DATA_VALUE)
  else
    bo <- vget_block_and_offset s t starting_address quantity_of_x ;;
    let '(_, b, offset) := bo in
    let values := py_slice (vb_data b) offset (offset + quantity_of_x) in
    header <- pack ">B" [bit_byte_count quantity_of_x] ;;
    vpack_bits_loop values 0 0 header (vfmtB s).
(** modbus.py 577-579 and 618-620 *)
Fixpoint vpack_regs_loop (fmt : string) (vals : list pv) (response : list Z) : res (list Z) :=
  match vals with
  | [] => Ok response
  | reg :: rest => b <- vpack fmt reg ;; vpack_regs_loop fmt rest (response ++ b)
  end.
(** _read_registers, modbus.py 559-580 *)
Definition vread_registers (s : vslave) (t : btype) (pdu : list Z) : res (list Z) :=
  p <- unpack2 ">HH" (py_slice pdu 1 5) ;;
  let '(starting_address, quantity_of_x) := p in
  if (quantity_of_x <=? 0) || (125 <? quantity_of_x) then Err (ModbusError ILLEGAL_DATA_VALUE)
  else
    bo <- vget_block_and_offset s t starting_address quantity_of_x ;;
    let '(_, b, offset) := bo in
    let values := py_slice (vb_data b) offset (offset + quantity_of_x) in
    header <- pack ">B" [2 * quantity_of_x] ;;
    vpack_regs_loop (vfmtH s) values header.
(** modbus.py 663-666 and 631-634: what struct.unpack gives are ints *)
Fixpoint vwrite_regs_loop (fmt : string) (pdu : list Z) (base : Z) (offset : Z) (n : nat) (i : Z) (data : list pv) : list pv * res unit :=
  match n with
  | O => (data, Ok tt)
  | S m =>
      match unpack1 fmt (py_slice pdu (base + 2 * i) (base + 2 + 2 * i)) with
      | Err e => (data, Err e)
      | Ok v =>
          match py_set data (offset + i) (VInt v) with
          | Err e => (data, Err e)
          | Ok data' => vwrite_regs_loop fmt pdu base offset m (i + 1) data'
          end
      end
  end.
(** _read_write_multiple_registers, modbus.py 598-636 *)
Definition vread_write_multiple_registers (s : vslave) (pdu : list Z) : vslave * res (list Z) :=
  match unpack5 ">HHHHB" (py_slice pdu 1 10) with
  | Err e => (s, Err e)
  | Ok (ra, rq, wa, wq, bc) =>
      if (rq <=? 0) || (125 <? rq) then (s, Err (ModbusError ILLEGAL_DATA_VALUE))
      else match vget_block_and_offset s HOLDING_REGISTERS ra rq with
      | Err e => (s, Err e)
      | Ok (_, rb, roff) =>
          let values := py_slice (vb_data rb) roff (roff + rq) in
          match (header <- pack ">B" [2 * rq] ;; vpack_regs_loop (vfmtH s) values header) with
          | Err e => (s, Err e)
          | Ok response =>
              if (wq <=? 0) || (123 <? wq) || negb (bc =? wq * 2) then (s, Err (ModbusError ILLEGAL_DATA_VALUE))
              else match vget_block_and_offset s HOLDING_REGISTERS wa wq with
              | Err e => (s, Err e)
              | Ok (i, wb, woff) =>
                  let '(d, r) := vwrite_regs_loop (vfmtH s) pdu 10 woff (Z.to_nat wq) 0 (vb_data wb) in
                  let s' := vput_block_data s HOLDING_REGISTERS i wb d in
                  match r with Err e => (s', Err e) | Ok _ => (s', Ok response) end
              end
          end
      end
  end.
(** _mask_write_register, modbus.py 638-647: & of something that is no integer: TypeError *)
Definition vmask_write_register (s : vslave) (pdu : list Z) : vslave * res (list Z) :=
  match unpack3 ">HHH" (py_slice pdu 1 7) with
  | Err e => (s, Err e)
  | Ok (a, and_mask, or_mask) =>
      match vget_block_and_offset s HOLDING_REGISTERS a 1 with
      | Err e => (s, Err e)
      | Ok (i, b, offset) =>
          match py_get (vb_data b) offset with
          | Err e => (s, Err e)
          | Ok old =>
              match as_int old with
              | None => (s, Err PyTypeError)
              | Some old =>
                  let v := Z.lor (Z.land old and_mask) (Z.land or_mask (Z.lnot and_mask)) in
                  match py_set (vb_data b) offset (VInt v) with
                  | Err e => (s, Err e)
                  | Ok d => (vput_block_data s HOLDING_REGISTERS i b d, Ok (py_from pdu 1))
                  end
              end
          end
      end
  end.
(** _write_multiple_registers, modbus.py 649-668 *)
Definition vwrite_multiple_registers (s : vslave) (pdu : list Z) : vslave * res (list Z) :=
  match unpack3 ">HHB" (py_slice pdu 1 6) with
  | Err e => (s, Err e)
  | Ok (a, q, bc) =>
      if (q <=? 0) || (123 <? q) || negb (bc =? q * 2) then (s, Err (ModbusError ILLEGAL_DATA_VALUE))
      else match vget_block_and_offset s HOLDING_REGISTERS a q with
      | Err e => (s, Err e)
      | Ok (i, b, offset) =>
          let '(d, r) := vwrite_regs_loop (vfmtH s) pdu 6 offset (Z.to_nat q) 0 (vb_data b) in
          let s' := vput_block_data s HOLDING_REGISTERS i b d in
          match r with Err e => (s', Err e) | Ok _ => (s', pack ">HH" [a; q]) end
      end
  end.
(** _write_multiple_coils, modbus.py 670-703: inner loop 693-702, outer loop 688-702 *)
Fixpoint vwrite_bits_inner (fuel : nat) (byte_value : Z) (pos j count q : Z) (data : list pv) : list pv * res Z :=
  match fuel with
  | O => (data, Ok count)
  | S m =>
      if q <=? count then (data, Ok count)
      else
        let v := if Z.land byte_value (Z.shiftl 1 j) =? 0 then 0 else 1 in
        match py_set data (pos + j) (VInt v) with
        | Err e => (data, Err e)
        | Ok data' => vwrite_bits_inner m byte_value pos (j + 1) (count + 1) q data'
        end
  end.
Fixpoint vwrite_bits_outer (n : nat) (fmt : string) (pdu : list Z) (offset i count q : Z) (data : list pv) : list pv * res Z :=
  match n with
  | O => (data, Ok count)
  | S m =>
      if q <=? count then (data, Ok count)
      else match unpack1 fmt (py_slice pdu (6 + i) (7 + i)) with
      | Err e => (data, Err e)
      | Ok byte_value =>
          match vwrite_bits_inner 8 byte_value (offset + i * 8) 0 count q data with
          | (d, Err e) => (d, Err e)
          | (d, Ok c) => vwrite_bits_outer m fmt pdu offset (i + 1) c q d
          end
      end
  end.
Definition vwrite_multiple_coils (s : vslave) (pdu : list Z) : vslave * res (list Z) :=
  match unpack3 ">HHB" (py_slice pdu 1 6) with
  | Err e => (s, Err e)
  | Ok (a, q, bc) =>
      if (q <=? 0) || (1968 <? q) || negb (bc =? bit_byte_count q) then (s, Err (ModbusError ILLEGAL_DATA_VALUE))
      else match vget_block_and_offset s COILS a q with
      | Err e => (s, Err e)
      | Ok (i, b, offset) =>
          let '(d, r) := vwrite_bits_outer (Z.to_nat bc) (vfmtB s) pdu offset 0 0 q (vb_data b) in
          let s' := vput_block_data s COILS i b d in
          match r with Err e => (s', Err e) | Ok count => (s', pack ">HH" [a; count]) end
      end
  end.
(** _write_single_register, modbus.py 705-714 *)
Definition vwrite_single_register (s : vslave) (pdu : list Z) : vslave * res (list Z) :=
  let fmt := (if vs_unsigned s then ">HH" else ">Hh")%string in
  match unpack2 fmt (py_slice pdu 1 5) with
  | Err e => (s, Err e)
  | Ok (a, v) =>
      match vget_block_and_offset s HOLDING_REGISTERS a 1 with
      | Err e => (s, Err e)
      | Ok (i, b, offset) =>
          match py_set (vb_data b) offset (VInt v) with
          | Err e => (s, Err e)
          | Ok d => (vput_block_data s HOLDING_REGISTERS i b d, Ok (py_from pdu 1))
          end
      end
  end.
(** _write_single_coil, modbus.py 716-729 *)
Definition vwrite_single_coil (s : vslave) (pdu : list Z) : vslave * res (list Z) :=
  match unpack2 ">HH" (py_slice pdu 1 5) with
  | Err e => (s, Err e)
  | Ok (a, value) =>
      match vget_block_and_offset s COILS a 1 with
      | Err e => (s, Err e)
      | Ok (i, b, offset) =>
          if value =? 0 then
            match py_set (vb_data b) offset (VInt 0) with
            | Err e => (s, Err e)
            | Ok d => (vput_block_data s COILS i b d, Ok (py_from pdu 1))
            end
          else if value =? 65280 then
            match py_set (vb_data b) offset (VInt 1) with
            | Err e => (s, Err e)
            | Ok d => (vput_block_data s COILS i b d, Ok (py_from pdu 1))
            end
          else (s, Err (ModbusError ILLEGAL_DATA_VALUE))
      end
  end.
(** self._fn_code_map, modbus.py 488-500 *)
Definition vfn_code_map (fc : Z) : option (vslave -> list Z -> vslave * res (list Z)) :=
  let ro (f : vslave -> list Z -> res (list Z)) := Some (fun s p => (s, f s p)) in
  if fc =? READ_COILS then ro (fun s p => vread_digital s COILS p)
  else if fc =? READ_DISCRETE_INPUTS then ro (fun s p => vread_digital s DISCRETE_INPUTS p)
  else if fc =? READ_INPUT_REGISTERS then ro (fun s p => vread_registers s ANALOG_INPUTS p)
  else if fc =? READ_HOLDING_REGISTERS then ro (fun s p => vread_registers s HOLDING_REGISTERS p)
  else if fc =? READ_EXCEPTION_STATUS then ro (fun _ _ => read_exception_status)
  else if fc =? WRITE_SINGLE_COIL then Some vwrite_single_coil
  else if fc =? WRITE_SINGLE_REGISTER then Some vwrite_single_register
  else if fc =? WRITE_MULTIPLE_COILS then Some vwrite_multiple_coils
  else if fc =? WRITE_MULTIPLE_REGISTERS then Some vwrite_multiple_registers
  else if fc =? MASK_WRITE_REGISTER then Some vmask_write_register
  else if fc =? READ_WRITE_MULTIPLE_REGISTERS then Some vread_write_multiple_registers
  else None.
(** Slave.handle_request, modbus.py 731-774 *)
Definition vhandle_request (s : vslave) (pdu : list Z) (broadcast : bool) : vslave * res (list Z) :=
  match unpack1 ">B" (py_slice pdu 0 1) with
  | Err e => (s, Err e)
  | Ok fc =>
      match vfn_code_map fc with
      | None => (s, catch_modbus_error fc (Err (ModbusError ILLEGAL_FUNCTION)))
      | Some f =>
          if broadcast && cant_be_broadcasted fc then (s, Err ModbusInvalidRequestError)
          else
            let '(s', r) := f s pdu in
            match r with
            | Err e => (s', catch_modbus_error fc (Err e))
            | Ok [] => (s', Err GenericException)
            | Ok response_pdu =>
                if broadcast then (s', Ok [])
                else (s', h <- pack ">B" [fc] ;; Ok (h ++ response_pdu))
            end
      end
  end.

(** add_block, modbus.py 776-809 *)
Fixpoint vadd_block_scan (l : list vblock) (i : nat) (start size : Z) : res nat :=
  match l with
  | [] => Ok O
  | b :: t =>
      if vis_in b start size then Err OverlapModbusBlockError
      else if start <? vb_start b then Ok i
      else vadd_block_scan t (S i) start size
  end.
Definition vadd_block (s : vslave) (name : string) (block_type : Z) (start size : Z) : vslave * res unit :=
  if size <=? 0 then (s, Err InvalidArgumentError)
  else if start <? 0 then (s, Err InvalidArgumentError)
  else match assoc String.eqb name (vs_names s) with
  | Some _ => (s, Err DuplicatedKeyError)
  | None =>
      match btype_of_Z block_type with
      | None => (s, Err InvalidModbusBlockError)
      | Some t =>
          match vmem_get s t with
          | Err _ => (s, Err InvalidModbusBlockError)
          | Ok l =>
              match vadd_block_scan l O start size with
              | Err e => (s, Err e)
              | Ok index =>
                  let s1 := vwith_names s (assoc_put String.eqb name (t, start) (vs_names s)) in
                  (vmem_set s1 t (list_insert l index (vnew_block start size)), Ok tt)
              end
          end
      end
  end.
(** _get_block, modbus.py 834-842 *)
Fixpoint vfind_start (l : list vblock) (start : Z) (i : nat) : option (nat * vblock) :=
  match l with
  | [] => None
  | b :: t => if vb_start b =? start then Some (i, b) else vfind_start t start (S i)
  end.
Definition vget_block (s : vslave) (name : string) : res (btype * nat * vblock) :=
  match assoc String.eqb name (vs_names s) with
  | None => Err MissingKeyError
  | Some (t, start) =>
      l <- vmem_get s t ;;
      match vfind_start l start O with Some (i, b) => Ok (t, i, b) | None => Err GenericException end
  end.
(** remove_block, modbus.py 811-822 *)
Definition vremove_block (s : vslave) (name : string) : vslave * res unit :=
  match vget_block s name with
  | Err e => (s, Err e)
  | Ok (t, i, _) =>
      let s1 := vwith_names s (assoc_del String.eqb name (vs_names s)) in
      match vmem_get s1 t with
      | Err e => (s1, Err e)
      | Ok l => (vmem_set s1 t (list_remove_at l i), Ok tt)
      end
  end.
(** remove_all_blocks, modbus.py 824-832 *)
Definition vremove_all_blocks (s : vslave) : vslave :=
  let fresh t := match get4 (vs_alias s) t with Some _ => Some t | None => None end in
  {| vs_unsigned := vs_unsigned s; vs_names := [];
     vs_alias := {| v_co := fresh COILS; v_di := fresh DISCRETE_INPUTS; v_hr := fresh HOLDING_REGISTERS; v_ai := fresh ANALOG_INPUTS |};
     vs_lists := vno_blocks |}.
(** The argument of set_values: a list or a tuple of objects, or any other object - a range, an array and a generator are such objects. *)
Inductive vsetval := VSeq (l : list pv) | VOne (v : pv).
(** set_values, modbus.py 844-871 *)
Definition vset_values (s : vslave) (name : string) (address : Z) (values : vsetval) : vslave * res unit :=
  match vget_block s name with
  | Err e => (s, Err e)
  | Ok (t, i, b) =>
      let offset := address - vb_start b in
      let size := match values with VSeq l => zlen l | VOne _ => 1 end in
      if (offset <? 0) || (vb_size b <? offset + size) then (s, Err OutOfModbusBlockError)
      else match values with
      | VSeq l => (vput_block_data s t i b (py_slice_assign (vb_data b) offset (offset + zlen l) l), Ok tt)
      | VOne v =>
          match py_set (vb_data b) offset v with
          | Err e => (s, Err e)
          | Ok d => (vput_block_data s t i b d, Ok tt)
          end
      end
  end.
(** get_values, modbus.py 873-894 *)
Definition vget_values (s : vslave) (name : string) (address size : Z) : res (list pv) :=
  b3 <- vget_block s name ;;
  let '(_, _, b) := b3 in
  let offset := address - vb_start b in
  if (offset <? 0) || (vb_size b <? offset + size) then Err OutOfModbusBlockError
  else if size =? 1 then v <- py_get (vb_data b) offset ;; Ok [v]
  else Ok (py_slice (vb_data b) offset (offset + size)).

(** The calls of a user and the requests of masters, for histories. *)
Inductive vop :=
| VAddBlock (name : string) (block_type start size : Z)
| VRemoveBlock (name : string)
| VRemoveAll
| VSetValues (name : string) (address : Z) (values : vsetval)
| VRequest (pdu : list Z) (broadcast : bool).
Definition vstep (s : vslave) (o : vop) : vslave :=
  match o with
  | VAddBlock n t a z => fst (vadd_block s n t a z)
  | VRemoveBlock n => fst (vremove_block s n)
  | VRemoveAll => vremove_all_blocks s
  | VSetValues n a v => fst (vset_values s n a v)
  | VRequest p bc => fst (vhandle_request s p bc)
  end.
Definition vrun (s : vslave) (ops : list vop) : vslave := fold_left vstep ops s.
