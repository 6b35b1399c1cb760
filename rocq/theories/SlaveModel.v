(** Model of ModbusBlock and Slave (modbus_tk/modbus.py 428-894).

    Hooks: every [call_hooks(..)] of this part of the code ignores the result,
    except the one of handle_request (modelled in [handle_request_h]); hook
    side effects and exceptions are not modelled here (see HooksModel.v).
    The lock [self._data_lock] is modelled in ConcModel.v. *)
From Verif Require Import Base PyStruct Defines.

(** ModbusBlock, modbus.py 428-457.  Simplification: cells hold integers. *)
Record block := { b_start : Z; b_size : Z; b_data : list Z }.

(** ModbusBlock.__init__, modbus.py 431-437 *)
Definition new_block (start size : Z) : block :=
  let d := repeat 0 (Z.to_nat size) in
  {| b_start := start; b_size := zlen d; b_data := d |}.

(** ModbusBlock.is_in, modbus.py 439-448 *)
Definition is_in (b : block) (start size : Z) : bool :=
  if b_start b <? start then start <? b_start b + b_size b
  else if start <? b_start b then b_start b <? start + size
  else true.

Definition with_data (b : block) (d : list Z) : block :=
  {| b_start := b_start b; b_size := b_size b; b_data := d |}.

(** A value per block type (the dict literal of modbus.py 477-482). *)
Record per4 (A : Type) := { v_co : A; v_di : A; v_hr : A; v_ai : A }.
Arguments v_co {A}. Arguments v_di {A}. Arguments v_hr {A}. Arguments v_ai {A}.

Definition get4 {A} (m : per4 A) (t : btype) : A :=
  match t with
  | COILS => v_co m | DISCRETE_INPUTS => v_di m
  | HOLDING_REGISTERS => v_hr m | ANALOG_INPUTS => v_ai m
  end.
Definition set4 {A} (m : per4 A) (t : btype) (x : A) : per4 A :=
  match t with
  | COILS => {| v_co := x; v_di := v_di m; v_hr := v_hr m; v_ai := v_ai m |}
  | DISCRETE_INPUTS => {| v_co := v_co m; v_di := x; v_hr := v_hr m; v_ai := v_ai m |}
  | HOLDING_REGISTERS => {| v_co := v_co m; v_di := v_di m; v_hr := x; v_ai := v_ai m |}
  | ANALOG_INPUTS => {| v_co := v_co m; v_di := v_di m; v_hr := v_hr m; v_ai := x |}
  end.

(** Slave, modbus.py 460-500.
    [sl_names] is self._blocks.  self._memory maps block types to list
    objects; a user-supplied [memory] may bind several types to the same list
    or omit types, so the map is [sl_alias] (type -> which list object, if
    any) and [sl_lists] the contents of the list objects (named by a type).
    Simplification: keys of [memory] other than the four types, and lists
    shared between two slaves, are not modelled. *)
Record slave := {
  sl_unsigned : bool;
  sl_names : list (string * (btype * Z));
  sl_alias : per4 (option btype);
  sl_lists : per4 (list block)
}.

Definition own_lists : per4 (option btype) :=
  {| v_co := Some COILS; v_di := Some DISCRETE_INPUTS;
     v_hr := Some HOLDING_REGISTERS; v_ai := Some ANALOG_INPUTS |}.
Definition no_blocks : per4 (list block) :=
  {| v_co := []; v_di := []; v_hr := []; v_ai := [] |}.

(** Slave.__init__, modbus.py 466-484.  [memory] is the optional argument. *)
Definition new_slave (unsigned : bool)
  (memory : option (per4 (option btype) * per4 (list block))) : slave :=
  match memory with
  | None => {| sl_unsigned := unsigned; sl_names := [];
               sl_alias := own_lists; sl_lists := no_blocks |}
  | Some (al, ls) => {| sl_unsigned := unsigned; sl_names := [];
                        sl_alias := al; sl_lists := ls |}
  end.

(** self._memory[block_type]; KeyError when the type is absent. *)
Definition mem_get (s : slave) (t : btype) : res (list block) :=
  match get4 (sl_alias s) t with
  | Some r => Ok (get4 (sl_lists s) r)
  | None => Err PyKeyError
  end.

(** in-place update of the list object bound to [t] *)
Definition mem_set (s : slave) (t : btype) (l : list block) : slave :=
  match get4 (sl_alias s) t with
  | Some r => {| sl_unsigned := sl_unsigned s; sl_names := sl_names s;
                 sl_alias := sl_alias s; sl_lists := set4 (sl_lists s) r l |}
  | None => s
  end.

Definition with_names (s : slave) (n : list (string * (btype * Z))) : slave :=
  {| sl_unsigned := sl_unsigned s; sl_names := n;
     sl_alias := sl_alias s; sl_lists := sl_lists s |}.

(** Slave._get_block_and_offset, modbus.py 502-509.  A block object is
    denoted by its position in the list. *)
Fixpoint find_block (l : list block) (address len : Z) (i : nat) : option (nat * block * Z) :=
  match l with
  | [] => None
  | b :: t =>
      if (b_start b <=? address) && (address - b_start b + len <=? b_size b)
      then Some (i, b, address - b_start b)
      else find_block t address len (S i)
  end.

Definition get_block_and_offset (s : slave) (t : btype) (address len : Z)
  : res (nat * block * Z) :=
  l <- mem_get s t ;;
  match find_block l address len O with
  | Some r => Ok r
  | None => Err (ModbusError ILLEGAL_DATA_ADDRESS)
  end.

(** Store new data into the block at position [i] of the list of type [t]. *)
Definition put_block_data (s : slave) (t : btype) (i : nat) (b : block) (d : list Z) : slave :=
  match mem_get s t with
  | Ok l => mem_set s t (list_upd l i (with_data b d))
  | Err _ => s
  end.

Definition fmtB (s : slave) : string := if sl_unsigned s then ">B" else ">b".
Definition fmtH (s : slave) : string := if sl_unsigned s then ">H" else ">h".

(** Unpack two / three / five values, as the tuple assignments of the code do. *)
Definition unpack2 (f : string) (b : list Z) : res (Z * Z) :=
  l <- unpack f b ;; match l with [x; y] => Ok (x, y) | _ => Err PyValueError end.
Definition unpack3 (f : string) (b : list Z) : res (Z * Z * Z) :=
  l <- unpack f b ;; match l with [x; y; z] => Ok (x, y, z) | _ => Err PyValueError end.
Definition unpack5 (f : string) (b : list Z) : res (Z * Z * Z * Z * Z) :=
  l <- unpack f b ;; match l with [v; w; x; y; z] => Ok (v, w, x, y, z) | _ => Err PyValueError end.
Definition unpack1 (f : string) (b : list Z) : res Z :=
  l <- unpack f b ;; match l with [x] => Ok x | _ => Err PyValueError end.

(** The packing loop of _read_digital, modbus.py 531-546. *)
Fixpoint pack_bits_loop (vals : list Z) (i byte_value : Z) (response : list Z) (last_fmt : string)
  : res (list Z) :=
  match vals with
  | [] =>
      if 0 <? i then
        b <- pack last_fmt [byte_value] ;; Ok (response ++ b)
      else Ok response
  | coil :: rest =>
      let bv := if coil =? 0 then byte_value else byte_value + Z.shiftl 1 i in
      if 7 <=? i then
        b <- pack ">B" [bv] ;;
        pack_bits_loop rest 0 0 (response ++ b) last_fmt
      else pack_bits_loop rest (i + 1) bv response last_fmt
  end.

(** number of bytes for n bits, modbus.py 524-526 and 676-678 (also 169-171) *)
Definition bit_byte_count (n : Z) : Z := n / 8 + (if 0 <? n mod 8 then 1 else 0).

(** Slave._read_digital, modbus.py 511-547 *)
Definition read_digital (s : slave) (t : btype) (pdu : list Z) : res (list Z) :=
  p <- unpack2 ">HH" (py_slice pdu 1 5) ;;
  let '(starting_address, quantity_of_x) := p in
  if (quantity_of_x <=? 0) || (2000 <? quantity_of_x)
  then Err (ModbusError ILLEGAL_DATA_VALUE)
  else
    bo <- get_block_and_offset s t starting_address quantity_of_x ;;
    let '(_, b, offset) := bo in
    let values := py_slice (b_data b) offset (offset + quantity_of_x) in
    header <- pack ">B" [bit_byte_count quantity_of_x] ;;
    pack_bits_loop values 0 0 header (fmtB s).

(** The loop adding registers to the response, modbus.py 577-579 and 618-620 *)
Fixpoint pack_regs_loop (fmt : string) (vals : list Z) (response : list Z) : res (list Z) :=
  match vals with
  | [] => Ok response
  | reg :: rest => b <- pack fmt [reg] ;; pack_regs_loop fmt rest (response ++ b)
  end.

(** Slave._read_registers, modbus.py 559-580 *)
Definition read_registers (s : slave) (t : btype) (pdu : list Z) : res (list Z) :=
  p <- unpack2 ">HH" (py_slice pdu 1 5) ;;
  let '(starting_address, quantity_of_x) := p in
  if (quantity_of_x <=? 0) || (125 <? quantity_of_x)
  then Err (ModbusError ILLEGAL_DATA_VALUE)
  else
    bo <- get_block_and_offset s t starting_address quantity_of_x ;;
    let '(_, b, offset) := bo in
    let values := py_slice (b_data b) offset (offset + quantity_of_x) in
    header <- pack ">B" [2 * quantity_of_x] ;;
    pack_regs_loop (fmtH s) values header.

(** Slave._read_exception_status, modbus.py 592-596 *)
Definition read_exception_status : res (list Z) := pack ">B" [0].

(** The writing loop of modbus.py 663-666 and 631-634:
    for i in range(n): block[offset+i] = unpack(fmt, pdu[base+2i:base+2+2i])[0].
    Returns the data reached when the loop ends or raises. *)
Fixpoint write_regs_loop (fmt : string) (pdu : list Z) (base : Z) (offset : Z)
  (n : nat) (i : Z) (data : list Z) : list Z * res unit :=
  match n with
  | O => (data, Ok tt)
  | S m =>
      match unpack1 fmt (py_slice pdu (base + 2 * i) (base + 2 + 2 * i)) with
      | Err e => (data, Err e)
      | Ok v =>
          match py_set data (offset + i) v with
          | Err e => (data, Err e)
          | Ok data' => write_regs_loop fmt pdu base offset m (i + 1) data'
          end
      end
  end.

(** Slave._read_write_multiple_registers, modbus.py 598-636 *)
Definition read_write_multiple_registers (s : slave) (pdu : list Z) : slave * res (list Z) :=
  match unpack5 ">HHHHB" (py_slice pdu 1 10) with
  | Err e => (s, Err e)
  | Ok (ra, rq, wa, wq, bc) =>
      if (rq <=? 0) || (125 <? rq) then (s, Err (ModbusError ILLEGAL_DATA_VALUE))
      else match get_block_and_offset s HOLDING_REGISTERS ra rq with
      | Err e => (s, Err e)
      | Ok (_, rb, roff) =>
          let values := py_slice (b_data rb) roff (roff + rq) in
          match (header <- pack ">B" [2 * rq] ;; pack_regs_loop (fmtH s) values header) with
          | Err e => (s, Err e)
          | Ok response =>
              if (wq <=? 0) || (123 <? wq) || negb (bc =? wq * 2)
              then (s, Err (ModbusError ILLEGAL_DATA_VALUE))
              else match get_block_and_offset s HOLDING_REGISTERS wa wq with
              | Err e => (s, Err e)
              | Ok (i, wb, woff) =>
                  let '(d, r) := write_regs_loop (fmtH s) pdu 10 woff (Z.to_nat wq) 0 (b_data wb) in
                  let s' := put_block_data s HOLDING_REGISTERS i wb d in
                  match r with
                  | Err e => (s', Err e)
                  | Ok _ => (s', Ok response)
                  end
              end
          end
      end
  end.

(** Slave._mask_write_register, modbus.py 638-647 *)
Definition mask_write_register (s : slave) (pdu : list Z) : slave * res (list Z) :=
  match unpack3 ">HHH" (py_slice pdu 1 7) with
  | Err e => (s, Err e)
  | Ok (a, and_mask, or_mask) =>
      match get_block_and_offset s HOLDING_REGISTERS a 1 with
      | Err e => (s, Err e)
      | Ok (i, b, offset) =>
          match py_get (b_data b) offset with
          | Err e => (s, Err e)
          | Ok old =>
              let v := Z.lor (Z.land old and_mask) (Z.land or_mask (Z.lnot and_mask)) in
              match py_set (b_data b) offset v with
              | Err e => (s, Err e)
              | Ok d => (put_block_data s HOLDING_REGISTERS i b d, Ok (py_from pdu 1))
              end
          end
      end
  end.

(** Slave._write_multiple_registers, modbus.py 649-668.  The local [count] equals
    quantity_of_x when the loop ends normally. *)
Definition write_multiple_registers (s : slave) (pdu : list Z) : slave * res (list Z) :=
  match unpack3 ">HHB" (py_slice pdu 1 6) with
  | Err e => (s, Err e)
  | Ok (a, q, bc) =>
      if (q <=? 0) || (123 <? q) || negb (bc =? q * 2)
      then (s, Err (ModbusError ILLEGAL_DATA_VALUE))
      else match get_block_and_offset s HOLDING_REGISTERS a q with
      | Err e => (s, Err e)
      | Ok (i, b, offset) =>
          let '(d, r) := write_regs_loop (fmtH s) pdu 6 offset (Z.to_nat q) 0 (b_data b) in
          let s' := put_block_data s HOLDING_REGISTERS i b d in
          match r with
          | Err e => (s', Err e)
          | Ok _ => (s', pack ">HH" [a; q])
          end
      end
  end.

(** Inner loop of _write_multiple_coils, modbus.py 693-702: bits j, j+1, .. 7
    of [byte_value] while count < q. *)
Fixpoint write_bits_inner (fuel : nat) (byte_value : Z) (pos j count q : Z) (data : list Z)
  : list Z * res Z :=
  match fuel with
  | O => (data, Ok count)
  | S m =>
      if q <=? count then (data, Ok count)
      else
        let v := if Z.land byte_value (Z.shiftl 1 j) =? 0 then 0 else 1 in
        match py_set data (pos + j) v with
        | Err e => (data, Err e)
        | Ok data' => write_bits_inner m byte_value pos (j + 1) (count + 1) q data'
        end
  end.

(** Outer loop of _write_multiple_coils, modbus.py 688-702 *)
Fixpoint write_bits_outer (n : nat) (fmt : string) (pdu : list Z) (offset i count q : Z)
  (data : list Z) : list Z * res Z :=
  match n with
  | O => (data, Ok count)
  | S m =>
      if q <=? count then (data, Ok count)
      else match unpack1 fmt (py_slice pdu (6 + i) (7 + i)) with
      | Err e => (data, Err e)
      | Ok byte_value =>
          match write_bits_inner 8 byte_value (offset + i * 8) 0 count q data with
          | (d, Err e) => (d, Err e)
          | (d, Ok c) => write_bits_outer m fmt pdu offset (i + 1) c q d
          end
      end
  end.

(** Slave._write_multiple_coils, modbus.py 670-703 *)
Definition write_multiple_coils (s : slave) (pdu : list Z) : slave * res (list Z) :=
  match unpack3 ">HHB" (py_slice pdu 1 6) with
  | Err e => (s, Err e)
  | Ok (a, q, bc) =>
      if (q <=? 0) || (1968 <? q) || negb (bc =? bit_byte_count q)
      then (s, Err (ModbusError ILLEGAL_DATA_VALUE))
      else match get_block_and_offset s COILS a q with
      | Err e => (s, Err e)
      | Ok (i, b, offset) =>
          let '(d, r) := write_bits_outer (Z.to_nat bc) (fmtB s) pdu offset 0 0 q (b_data b) in
          let s' := put_block_data s COILS i b d in
          match r with
          | Err e => (s', Err e)
          | Ok count => (s', pack ">HH" [a; count])
          end
      end
  end.

(** Slave._write_single_register, modbus.py 705-714.
    The format is ">H" followed by H or h. *)
Definition write_single_register (s : slave) (pdu : list Z) : slave * res (list Z) :=
  let fmt := (if sl_unsigned s then ">HH" else ">Hh")%string in
  match unpack2 fmt (py_slice pdu 1 5) with
  | Err e => (s, Err e)
  | Ok (a, v) =>
      match get_block_and_offset s HOLDING_REGISTERS a 1 with
      | Err e => (s, Err e)
      | Ok (i, b, offset) =>
          match py_set (b_data b) offset v with
          | Err e => (s, Err e)
          | Ok d => (put_block_data s HOLDING_REGISTERS i b d, Ok (py_from pdu 1))
          end
      end
  end.

(** Slave._write_single_coil, modbus.py 716-729 *)
Definition write_single_coil (s : slave) (pdu : list Z) : slave * res (list Z) :=
  match unpack2 ">HH" (py_slice pdu 1 5) with
  | Err e => (s, Err e)
  | Ok (a, value) =>
      match get_block_and_offset s COILS a 1 with
      | Err e => (s, Err e)
      | Ok (i, b, offset) =>
          if value =? 0 then
            match py_set (b_data b) offset 0 with
            | Err e => (s, Err e)
            | Ok d => (put_block_data s COILS i b d, Ok (py_from pdu 1))
            end
          else if value =? 65280 then
            match py_set (b_data b) offset 1 with
            | Err e => (s, Err e)
            | Ok d => (put_block_data s COILS i b d, Ok (py_from pdu 1))
            end
          else (s, Err (ModbusError ILLEGAL_DATA_VALUE))
      end
  end.

(** The dispatch table self._fn_code_map, modbus.py 488-500, with the thin
    wrappers _read_coils .. _read_input_registers (549-557, 582-590). *)
Definition fn_code_map (fc : Z) : option (slave -> list Z -> slave * res (list Z)) :=
  let ro (f : slave -> list Z -> res (list Z)) := Some (fun s p => (s, f s p)) in
  if fc =? READ_COILS then ro (fun s p => read_digital s COILS p)
  else if fc =? READ_DISCRETE_INPUTS then ro (fun s p => read_digital s DISCRETE_INPUTS p)
  else if fc =? READ_INPUT_REGISTERS then ro (fun s p => read_registers s ANALOG_INPUTS p)
  else if fc =? READ_HOLDING_REGISTERS then ro (fun s p => read_registers s HOLDING_REGISTERS p)
  else if fc =? READ_EXCEPTION_STATUS then ro (fun _ _ => read_exception_status)
  else if fc =? WRITE_SINGLE_COIL then Some write_single_coil
  else if fc =? WRITE_SINGLE_REGISTER then Some write_single_register
  else if fc =? WRITE_MULTIPLE_COILS then Some write_multiple_coils
  else if fc =? WRITE_MULTIPLE_REGISTERS then Some write_multiple_registers
  else if fc =? MASK_WRITE_REGISTER then Some mask_write_register
  else if fc =? READ_WRITE_MULTIPLE_REGISTERS then Some read_write_multiple_registers
  else None.

(** modbus.py 751-756 *)
Definition cant_be_broadcasted (fc : Z) : bool :=
  (fc =? READ_COILS) || (fc =? READ_DISCRETE_INPUTS)
  || (fc =? READ_INPUT_REGISTERS) || (fc =? READ_HOLDING_REGISTERS).

(** The [except ModbusError] clause, modbus.py 771-774: other exceptions
    propagate, and so does a struct.error of the error response itself. *)
Definition catch_modbus_error (fc : Z) (r : res (list Z)) : res (list Z) :=
  match r with
  | Err (ModbusError code) => pack ">BB" [fc + 128; code]
  | _ => r
  end.

(** Slave.handle_request, modbus.py 731-774, without a "modbus.Slave.handle_request"
    hook.  A Python "" result is []. *)
Definition handle_request (s : slave) (pdu : list Z) (broadcast : bool) : slave * res (list Z) :=
  match unpack1 ">B" (py_slice pdu 0 1) with
  | Err e => (s, Err e)
  | Ok fc =>
      match fn_code_map fc with
      | None => (s, catch_modbus_error fc (Err (ModbusError ILLEGAL_FUNCTION)))
      | Some f =>
          if broadcast && cant_be_broadcasted fc then (s, Err ModbusInvalidRequestError)
          else
            let '(s', r) := f s pdu in
            match r with
            | Err e => (s', catch_modbus_error fc (Err e))
            | Ok [] => (s', Err GenericException)
            | Ok response_pdu =>
                if broadcast then (s', Ok [])
                else (s', h <- pack ">B" [fc] ;; Ok (h ++ response_pdu))
            end
      end
  end.

(** modbus.py 739-741: the hook sees the PDU and may answer in place of the slave. *)
Definition handle_request_h (hook : list Z -> option (list Z))
  (s : slave) (pdu : list Z) (broadcast : bool) : slave * res (list Z) :=
  match hook pdu with
  | Some r => (s, Ok r)
  | None => handle_request s pdu broadcast
  end.

(** The overlap check loop of add_block, modbus.py 795-804: the insertion
    index, or OverlapModbusBlockError. [index] stays 0 when the loop ends
    without [break]. *)
Fixpoint add_block_scan (l : list block) (i : nat) (start size : Z) : res nat :=
  match l with
  | [] => Ok O
  | b :: t =>
      if is_in b start size then Err OverlapModbusBlockError
      else if start <? b_start b then Ok i
      else add_block_scan t (S i) start size
  end.

(** Slave.add_block, modbus.py 776-809 *)
Definition add_block (s : slave) (name : string) (block_type : Z) (start size : Z)
  : slave * res unit :=
  if size <=? 0 then (s, Err InvalidArgumentError)
  else if start <? 0 then (s, Err InvalidArgumentError)
  else match assoc String.eqb name (sl_names s) with
  | Some _ => (s, Err DuplicatedKeyError)
  | None =>
      match btype_of_Z block_type with
      | None => (s, Err InvalidModbusBlockError)
      | Some t =>
          match mem_get s t with
          | Err _ => (s, Err InvalidModbusBlockError)
          | Ok l =>
              match add_block_scan l O start size with
              | Err e => (s, Err e)
              | Ok index =>
                  let s1 := with_names s (assoc_put String.eqb name (t, start) (sl_names s)) in
                  (mem_set s1 t (list_insert l index (new_block start size)), Ok tt)
              end
          end
      end
  end.

(** Position of the first block with the given starting address, modbus.py 839-841 *)
Fixpoint find_start (l : list block) (start : Z) (i : nat) : option (nat * block) :=
  match l with
  | [] => None
  | b :: t => if b_start b =? start then Some (i, b) else find_start t start (S i)
  end.

(** Slave._get_block, modbus.py 834-842 *)
Definition get_block (s : slave) (name : string) : res (btype * nat * block) :=
  match assoc String.eqb name (sl_names s) with
  | None => Err MissingKeyError
  | Some (t, start) =>
      l <- mem_get s t ;;
      match find_start l start O with
      | Some (i, b) => Ok (t, i, b)
      | None => Err GenericException
      end
  end.

(** list.remove(block): blocks compare by identity, and _get_block returned the
    first block with that address, so the element removed is the one at its
    position. *)
Definition list_remove_at {A} (l : list A) (i : nat) : list A := firstn i l ++ skipn (S i) l.

(** Slave.remove_block, modbus.py 811-822 *)
Definition remove_block (s : slave) (name : string) : slave * res unit :=
  match get_block s name with
  | Err e => (s, Err e)
  | Ok (t, i, _) =>
      let s1 := with_names s (assoc_del String.eqb name (sl_names s)) in
      match mem_get s1 t with
      | Err e => (s1, Err e)
      | Ok l => (mem_set s1 t (list_remove_at l i), Ok tt)
      end
  end.

(** Slave.remove_all_blocks, modbus.py 824-832: every key gets a new list. *)
Definition remove_all_blocks (s : slave) : slave :=
  let fresh t := match get4 (sl_alias s) t with Some _ => Some t | None => None end in
  {| sl_unsigned := sl_unsigned s; sl_names := [];
     sl_alias := {| v_co := fresh COILS; v_di := fresh DISCRETE_INPUTS;
                    v_hr := fresh HOLDING_REGISTERS; v_ai := fresh ANALOG_INPUTS |};
     sl_lists := no_blocks |}.

(** The [values] argument of set_values: a list/tuple or a number. *)
Inductive setval := SvSeq (l : list Z) | SvNum (v : Z).

(** Slave.set_values, modbus.py 844-871 *)
Definition set_values (s : slave) (name : string) (address : Z) (values : setval)
  : slave * res unit :=
  match get_block s name with
  | Err e => (s, Err e)
  | Ok (t, i, b) =>
      let offset := address - b_start b in
      let size := match values with SvSeq l => zlen l | SvNum _ => 1 end in
      if (offset <? 0) || (b_size b <? offset + size) then (s, Err OutOfModbusBlockError)
      else match values with
      | SvSeq l =>
          (put_block_data s t i b (py_slice_assign (b_data b) offset (offset + zlen l) l), Ok tt)
      | SvNum v =>
          match py_set (b_data b) offset v with
          | Err e => (s, Err e)
          | Ok d => (put_block_data s t i b d, Ok tt)
          end
      end
  end.

(** Slave.get_values, modbus.py 873-894 *)
Definition get_values (s : slave) (name : string) (address size : Z) : res (list Z) :=
  b3 <- get_block s name ;;
  let '(_, _, b) := b3 in
  let offset := address - b_start b in
  if (offset <? 0) || (b_size b <? offset + size) then Err OutOfModbusBlockError
  else if size =? 1 then v <- py_get (b_data b) offset ;; Ok [v]
  else Ok (py_slice (b_data b) offset (offset + size)).

(** Operations of a slave as seen by a user, for histories. *)
Inductive slave_op :=
| OpAddBlock (name : string) (block_type start size : Z)
| OpRemoveBlock (name : string)
| OpRemoveAll
| OpSetValues (name : string) (address : Z) (values : setval)
| OpGetValues (name : string) (address size : Z)
| OpRequest (pdu : list Z) (broadcast : bool).

Inductive slave_out := OutUnit (r : res unit) | OutVals (r : res (list Z)).

Definition slave_step (s : slave) (o : slave_op) : slave * slave_out :=
  match o with
  | OpAddBlock n t a z => let '(s', r) := add_block s n t a z in (s', OutUnit r)
  | OpRemoveBlock n => let '(s', r) := remove_block s n in (s', OutUnit r)
  | OpRemoveAll => (remove_all_blocks s, OutUnit (Ok tt))
  | OpSetValues n a v => let '(s', r) := set_values s n a v in (s', OutUnit r)
  | OpGetValues n a z => (s, OutVals (get_values s n a z))
  | OpRequest p bc => let '(s', r) := handle_request s p bc in (s', OutVals r)
  end.

Definition slave_run (s : slave) (ops : list slave_op) : slave :=
  fold_left (fun s o => fst (slave_step s o)) ops s.
