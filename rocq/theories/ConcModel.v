(** Threads, locks and schedules: a machine that interleaves operations at the granularity of single
    accesses to shared data, and the slave's operations cut into such accesses.

    Models: the with self._data_lock blocks of Slave (modbus.py 737, 779, 817, 829, 851, 878), the
    decorator threadsafe_function (utils.py 24-45).  A thread waiting for any other lock, or simply
    not scheduled, is a schedule that does not choose it. *)
From Verif Require Import Base PyStruct Defines SlaveModel.

(** ** Code with preemption points *)

(** A piece of code over a shared object of type S: finished, or one access to the object (which
    nothing can interrupt) and what follows. *)
Inductive code (S O : Type) : Type :=
| Done (o : O)
| Micro (f : S -> S * code S O).
Arguments Done {S O}. Arguments Micro {S O}.

(** Run alone, from beginning to end. *)
Fixpoint run {S O} (c : code S O) (s : S) : S * O :=
  match c with
  | Done o => (s, o)
  | Micro f => let (s', c') := f s in run c' s'
  end.

Fixpoint andthen {S A B} (c : code S A) (k : A -> code S B) : code S B :=
  match c with
  | Done a => k a
  | Micro f => Micro (fun s => let (s', c') := f s in (s', andthen c' k))
  end.
Notation "'LET' x := c 'IN' k" := (andthen c (fun x => k)) (at level 200, x pattern, k at level 200).
(** one access *)
Definition act {S A} (f : S -> S * A) : code S A := Micro (fun s => let (s', a) := f s in (s', Done a)).
Definition look {S A} (f : S -> A) : code S A := act (fun s => (s, f s)).
(** a preemption point without access *)
Definition pause {S} : code S unit := look (fun _ => tt).

(** ** The machine *)

Section Machine.
Context {S Op O : Type}.
(** A thread: what it calls next (object, operation), given what its earlier calls returned, or None
    when it has ended (or waits for something else); the call it is in; the calls it has returned
    from, with results. *)
Record thread := {
  th_next : list (Z * Op * O) -> option (Z * Op);
  th_now : option (Z * Op * code S O);
  th_done : list (Z * Op * O)
}.
(** Objects and their locks (with the number of the thread that holds it). *)
Record machine := {
  m_obj : Z -> S;
  m_lock : Z -> option nat;
  m_threads : list thread
}.
Definition upd {A} (f : Z -> A) (k : Z) (a : A) : Z -> A := fun x => if x =? k then a else f x.

(** One move of thread [i]: enter the next call (wait when the object's lock is taken), make the next
    access, or return and release the lock.  With [guarded = false] no lock is taken. *)
Definition move (guarded : bool) (sem : Op -> code S O) (m : machine) (i : nat) : machine :=
  match nth_error (m_threads m) i with
  | None => m
  | Some th =>
      match th_now th with
      | None =>
          match th_next th (th_done th) with
          | None => m
          | Some (k, op) =>
              match (if guarded then m_lock m k else None) with
              | Some _ => m
              | None =>
                  {| m_obj := m_obj m;
                     m_lock := if guarded then upd (m_lock m) k (Some i) else m_lock m;
                     m_threads := list_upd (m_threads m) i
                       {| th_next := th_next th; th_now := Some (k, op, sem op); th_done := th_done th |} |}
              end
          end
      | Some (k, op, Done o) =>
          {| m_obj := m_obj m;
             m_lock := if guarded then upd (m_lock m) k None else m_lock m;
             m_threads := list_upd (m_threads m) i
               {| th_next := th_next th; th_now := None; th_done := th_done th ++ [(k, op, o)] |} |}
      | Some (k, op, Micro f) =>
          let (s', c') := f (m_obj m k) in
          {| m_obj := upd (m_obj m) k s'; m_lock := m_lock m;
             m_threads := list_upd (m_threads m) i
               {| th_next := th_next th; th_now := Some (k, op, c'); th_done := th_done th |} |}
      end
  end.
(** The threads move in the order the schedule gives. *)
Definition moves (guarded : bool) (sem : Op -> code S O) (schedule : list nat) (m : machine) : machine :=
  fold_left (move guarded sem) schedule m.
(** All objects as given, no lock taken, every thread before its first call. *)
Definition start (objects : Z -> S) (programs : list (list (Z * Op * O) -> option (Z * Op))) : machine :=
  {| m_obj := objects; m_lock := fun _ => None;
     m_threads := map (fun p => {| th_next := p; th_now := None; th_done := [] |}) programs |}.
(** A thread that makes given calls whatever they return. *)
Definition just (calls : list (Z * Op)) : list (Z * Op * O) -> option (Z * Op) :=
  fun done => nth_error calls (length done).
End Machine.
Arguments thread : clear implicits. Arguments machine : clear implicits.

(** ** The slave's operations, access by access *)

(** The block at a position of a table's list. *)
Definition block_at (s : slave) (t : btype) (i : nat) : option block :=
  match mem_get s t with Ok l => nth_error l i | Err _ => None end.

(** modbus.py 502-509 *)
Fixpoint m_find (l : list block) (a n : Z) (i : nat) : code slave (res (nat * block * Z)) :=
  match l with
  | [] => Done (Err (ModbusError ILLEGAL_DATA_ADDRESS))
  | b :: t =>
      LET _ := pause IN
      if (b_start b <=? a) && (a - b_start b + n <=? b_size b) then Done (Ok (i, b, a - b_start b))
      else m_find t a n (S i)
  end.
Definition m_gbo (t : btype) (a n : Z) : code slave (res (nat * block * Z)) :=
  LET r := look (fun s => mem_get s t) IN
  match r with Err e => Done (Err e) | Ok l => m_find l a n O end.

(** block[lo:hi] *)
Definition m_cells (t : btype) (i : nat) (lo hi : Z) : code slave (list Z) :=
  look (fun s => match block_at s t i with Some b => py_slice (b_data b) lo hi | None => [] end).
(** block[j] *)
Definition m_cell (t : btype) (i : nat) (j : Z) : code slave (res Z) :=
  look (fun s => match block_at s t i with Some b => py_get (b_data b) j | None => Err NotModelled end).
(** block[j] = v *)
Definition m_poke (t : btype) (i : nat) (j v : Z) : code slave (res unit) :=
  act (fun s => match block_at s t i with
                | Some b => match py_set (b_data b) j v with
                            | Ok d => (put_block_data s t i b d, Ok tt)
                            | Err e => (s, Err e)
                            end
                | None => (s, Err NotModelled)
                end).

(** the formats depend on self.unsigned, which no operation changes *)
Definition m_unsigned : code slave bool := look sl_unsigned.
Definition fmtB_of (unsigned : bool) : string := if unsigned then ">B" else ">b".
Definition fmtH_of (unsigned : bool) : string := if unsigned then ">H" else ">h".

(** modbus.py 511-547 *)
Definition m_read_digital (t : btype) (pdu : list Z) : code slave (res (list Z)) :=
  match unpack2 ">HH" (py_slice pdu 1 5) with
  | Err e => Done (Err e)
  | Ok (a, q) =>
      if (q <=? 0) || (2000 <? q) then Done (Err (ModbusError ILLEGAL_DATA_VALUE))
      else
        LET bo := m_gbo t a q IN
        match bo with
        | Err e => Done (Err e)
        | Ok (i, _, offset) =>
            LET values := m_cells t i offset (offset + q) IN
            LET u := m_unsigned IN
            Done (header <- pack ">B" [bit_byte_count q] ;; pack_bits_loop values 0 0 header (fmtB_of u))
        end
  end.
(** modbus.py 559-580 *)
Definition m_read_registers (t : btype) (pdu : list Z) : code slave (res (list Z)) :=
  match unpack2 ">HH" (py_slice pdu 1 5) with
  | Err e => Done (Err e)
  | Ok (a, q) =>
      if (q <=? 0) || (125 <? q) then Done (Err (ModbusError ILLEGAL_DATA_VALUE))
      else
        LET bo := m_gbo t a q IN
        match bo with
        | Err e => Done (Err e)
        | Ok (i, _, offset) =>
            LET values := m_cells t i offset (offset + q) IN
            LET u := m_unsigned IN
            Done (header <- pack ">B" [2 * q] ;; pack_regs_loop (fmtH_of u) values header)
        end
  end.

(** modbus.py 663-666 and 631-634 *)
Fixpoint m_write_regs (t : btype) (blk : nat) (fmt : string) (pdu : list Z) (base offset : Z) (n : nat) (i : Z)
  : code slave (res unit) :=
  match n with
  | O => Done (Ok tt)
  | S m =>
      match unpack1 fmt (py_slice pdu (base + 2 * i) (base + 2 + 2 * i)) with
      | Err e => Done (Err e)
      | Ok v =>
          LET r := m_poke t blk (offset + i) v IN
          match r with
          | Err e => Done (Err e)
          | Ok _ => m_write_regs t blk fmt pdu base offset m (i + 1)
          end
      end
  end.

(** modbus.py 598-636 *)
Definition m_read_write (pdu : list Z) : code slave (res (list Z)) :=
  match unpack5 ">HHHHB" (py_slice pdu 1 10) with
  | Err e => Done (Err e)
  | Ok (ra, rq, wa, wq, bc) =>
      if (rq <=? 0) || (125 <? rq) then Done (Err (ModbusError ILLEGAL_DATA_VALUE))
      else
        LET bo := m_gbo HOLDING_REGISTERS ra rq IN
        match bo with
        | Err e => Done (Err e)
        | Ok (ri, _, roff) =>
            LET values := m_cells HOLDING_REGISTERS ri roff (roff + rq) IN
            LET u := m_unsigned IN
            match (header <- pack ">B" [2 * rq] ;; pack_regs_loop (fmtH_of u) values header) with
            | Err e => Done (Err e)
            | Ok response =>
                if (wq <=? 0) || (123 <? wq) || negb (bc =? wq * 2)
                then Done (Err (ModbusError ILLEGAL_DATA_VALUE))
                else
                  LET bo := m_gbo HOLDING_REGISTERS wa wq IN
                  match bo with
                  | Err e => Done (Err e)
                  | Ok (wi, _, woff) =>
                      LET r := m_write_regs HOLDING_REGISTERS wi (fmtH_of u) pdu 10 woff (Z.to_nat wq) 0 IN
                      match r with Err e => Done (Err e) | Ok _ => Done (Ok response) end
                  end
            end
        end
  end.
(** modbus.py 638-647: the cell is read, then written *)
Definition m_mask_write (pdu : list Z) : code slave (res (list Z)) :=
  match unpack3 ">HHH" (py_slice pdu 1 7) with
  | Err e => Done (Err e)
  | Ok (a, and_mask, or_mask) =>
      LET bo := m_gbo HOLDING_REGISTERS a 1 IN
      match bo with
      | Err e => Done (Err e)
      | Ok (i, _, offset) =>
          LET old := m_cell HOLDING_REGISTERS i offset IN
          match old with
          | Err e => Done (Err e)
          | Ok old =>
              LET r := m_poke HOLDING_REGISTERS i offset (Z.lor (Z.land old and_mask) (Z.land or_mask (Z.lnot and_mask))) IN
              match r with Err e => Done (Err e) | Ok _ => Done (Ok (py_from pdu 1)) end
          end
      end
  end.
(** modbus.py 649-668 *)
Definition m_write_registers (pdu : list Z) : code slave (res (list Z)) :=
  match unpack3 ">HHB" (py_slice pdu 1 6) with
  | Err e => Done (Err e)
  | Ok (a, q, bc) =>
      if (q <=? 0) || (123 <? q) || negb (bc =? q * 2) then Done (Err (ModbusError ILLEGAL_DATA_VALUE))
      else
        LET bo := m_gbo HOLDING_REGISTERS a q IN
        match bo with
        | Err e => Done (Err e)
        | Ok (i, _, offset) =>
            LET u := m_unsigned IN
            LET r := m_write_regs HOLDING_REGISTERS i (fmtH_of u) pdu 6 offset (Z.to_nat q) 0 IN
            match r with Err e => Done (Err e) | Ok _ => Done (pack ">HH" [a; q]) end
        end
  end.
(** modbus.py 693-702 *)
Fixpoint m_bits_inner (blk : nat) (fuel : nat) (byte_value pos j count q : Z) : code slave (res Z) :=
  match fuel with
  | O => Done (Ok count)
  | S m =>
      if q <=? count then Done (Ok count)
      else
        LET r := m_poke COILS blk (pos + j) (if Z.land byte_value (Z.shiftl 1 j) =? 0 then 0 else 1) IN
        match r with
        | Err e => Done (Err e)
        | Ok _ => m_bits_inner blk m byte_value pos (j + 1) (count + 1) q
        end
  end.
(** modbus.py 688-702 *)
Fixpoint m_bits_outer (blk : nat) (n : nat) (fmt : string) (pdu : list Z) (offset i count q : Z) : code slave (res Z) :=
  match n with
  | O => Done (Ok count)
  | S m =>
      if q <=? count then Done (Ok count)
      else match unpack1 fmt (py_slice pdu (6 + i) (7 + i)) with
      | Err e => Done (Err e)
      | Ok byte_value =>
          LET r := m_bits_inner blk 8 byte_value (offset + i * 8) 0 count q IN
          match r with
          | Err e => Done (Err e)
          | Ok c => m_bits_outer blk m fmt pdu offset (i + 1) c q
          end
      end
  end.
(** modbus.py 670-703 *)
Definition m_write_coils (pdu : list Z) : code slave (res (list Z)) :=
  match unpack3 ">HHB" (py_slice pdu 1 6) with
  | Err e => Done (Err e)
  | Ok (a, q, bc) =>
      if (q <=? 0) || (1968 <? q) || negb (bc =? bit_byte_count q) then Done (Err (ModbusError ILLEGAL_DATA_VALUE))
      else
        LET bo := m_gbo COILS a q IN
        match bo with
        | Err e => Done (Err e)
        | Ok (i, _, offset) =>
            LET u := m_unsigned IN
            LET r := m_bits_outer i (Z.to_nat bc) (fmtB_of u) pdu offset 0 0 q IN
            match r with Err e => Done (Err e) | Ok count => Done (pack ">HH" [a; count]) end
        end
  end.
(** modbus.py 705-714 *)
Definition m_write_register (pdu : list Z) : code slave (res (list Z)) :=
  LET u := m_unsigned IN
  match unpack2 (if u then ">HH" else ">Hh")%string (py_slice pdu 1 5) with
  | Err e => Done (Err e)
  | Ok (a, v) =>
      LET bo := m_gbo HOLDING_REGISTERS a 1 IN
      match bo with
      | Err e => Done (Err e)
      | Ok (i, _, offset) =>
          LET r := m_poke HOLDING_REGISTERS i offset v IN
          match r with Err e => Done (Err e) | Ok _ => Done (Ok (py_from pdu 1)) end
      end
  end.
(** modbus.py 716-729 *)
Definition m_write_coil (pdu : list Z) : code slave (res (list Z)) :=
  match unpack2 ">HH" (py_slice pdu 1 5) with
  | Err e => Done (Err e)
  | Ok (a, value) =>
      LET bo := m_gbo COILS a 1 IN
      match bo with
      | Err e => Done (Err e)
      | Ok (i, _, offset) =>
          if (value =? 0) || (value =? 65280) then
            LET r := m_poke COILS i offset (if value =? 0 then 0 else 1) IN
            match r with Err e => Done (Err e) | Ok _ => Done (Ok (py_from pdu 1)) end
          else Done (Err (ModbusError ILLEGAL_DATA_VALUE))
      end
  end.

Definition m_fn_code_map (fc : Z) : option (list Z -> code slave (res (list Z))) :=
  if fc =? READ_COILS then Some (m_read_digital COILS)
  else if fc =? READ_DISCRETE_INPUTS then Some (m_read_digital DISCRETE_INPUTS)
  else if fc =? READ_INPUT_REGISTERS then Some (m_read_registers ANALOG_INPUTS)
  else if fc =? READ_HOLDING_REGISTERS then Some (m_read_registers HOLDING_REGISTERS)
  else if fc =? READ_EXCEPTION_STATUS then Some (fun _ => Done read_exception_status)
  else if fc =? WRITE_SINGLE_COIL then Some m_write_coil
  else if fc =? WRITE_SINGLE_REGISTER then Some m_write_register
  else if fc =? WRITE_MULTIPLE_COILS then Some m_write_coils
  else if fc =? WRITE_MULTIPLE_REGISTERS then Some m_write_registers
  else if fc =? MASK_WRITE_REGISTER then Some m_mask_write
  else if fc =? READ_WRITE_MULTIPLE_REGISTERS then Some m_read_write
  else None.
(** modbus.py 731-774 *)
Definition m_handle_request (pdu : list Z) (broadcast : bool) : code slave (res (list Z)) :=
  match unpack1 ">B" (py_slice pdu 0 1) with
  | Err e => Done (Err e)
  | Ok fc =>
      match m_fn_code_map fc with
      | None => Done (catch_modbus_error fc (Err (ModbusError ILLEGAL_FUNCTION)))
      | Some f =>
          if broadcast && cant_be_broadcasted fc then Done (Err ModbusInvalidRequestError)
          else
            LET r := f pdu IN
            match r with
            | Err e => Done (catch_modbus_error fc (Err e))
            | Ok [] => Done (Err GenericException)
            | Ok response_pdu =>
                if broadcast then Done (Ok [])
                else Done (h <- pack ">B" [fc] ;; Ok (h ++ response_pdu))
            end
      end
  end.

(** modbus.py 795-804 *)
Fixpoint m_scan (l : list block) (i : nat) (start size : Z) : code slave (res nat) :=
  match l with
  | [] => Done (Ok O)
  | b :: t =>
      LET _ := pause IN
      if is_in b start size then Done (Err OverlapModbusBlockError)
      else if start <? b_start b then Done (Ok i)
      else m_scan t (S i) start size
  end.
(** modbus.py 776-809: the name is registered, then the block inserted *)
Definition m_add_block (name : string) (block_type start size : Z) : code slave (res unit) :=
  if size <=? 0 then Done (Err InvalidArgumentError)
  else if start <? 0 then Done (Err InvalidArgumentError)
  else
    LET known := look (fun s => assoc String.eqb name (sl_names s)) IN
    match known with
    | Some _ => Done (Err DuplicatedKeyError)
    | None =>
        match btype_of_Z block_type with
        | None => Done (Err InvalidModbusBlockError)
        | Some t =>
            LET r := look (fun s => mem_get s t) IN
            match r with
            | Err _ => Done (Err InvalidModbusBlockError)
            | Ok l =>
                LET r := m_scan l O start size IN
                match r with
                | Err e => Done (Err e)
                | Ok index =>
                    LET _ := act (fun s => (with_names s (assoc_put String.eqb name (t, start) (sl_names s)), tt)) IN
                    LET _ := act (fun s => (match mem_get s t with
                                            | Ok l => mem_set s t (list_insert l index (new_block start size))
                                            | Err _ => s
                                            end, tt)) IN
                    Done (Ok tt)
                end
            end
        end
    end.

(** modbus.py 839-841 *)
Fixpoint m_find_start (l : list block) (start : Z) (i : nat) : code slave (option (nat * block)) :=
  match l with
  | [] => Done None
  | b :: t => LET _ := pause IN if b_start b =? start then Done (Some (i, b)) else m_find_start t start (S i)
  end.
(** modbus.py 834-842 *)
Definition m_get_block (name : string) : code slave (res (btype * nat * block)) :=
  LET known := look (fun s => assoc String.eqb name (sl_names s)) IN
  match known with
  | None => Done (Err MissingKeyError)
  | Some (t, start) =>
      LET r := look (fun s => mem_get s t) IN
      match r with
      | Err e => Done (Err e)
      | Ok l =>
          LET f := m_find_start l start O IN
          match f with Some (i, b) => Done (Ok (t, i, b)) | None => Done (Err GenericException) end
      end
  end.
(** modbus.py 811-822 *)
Definition m_remove_block (name : string) : code slave (res unit) :=
  LET r := m_get_block name IN
  match r with
  | Err e => Done (Err e)
  | Ok (t, i, _) =>
      LET _ := act (fun s => (with_names s (assoc_del String.eqb name (sl_names s)), tt)) IN
      act (fun s => match mem_get s t with
                    | Ok l => (mem_set s t (list_remove_at l i), Ok tt)
                    | Err e => (s, Err e)
                    end)
  end.
(** modbus.py 824-832: the names, then the lists.  Simplification: the lists in one access. *)
Definition m_remove_all_blocks : code slave (res unit) :=
  LET _ := act (fun s => (with_names s [], tt)) IN
  LET _ := act (fun s => (remove_all_blocks s, tt)) IN
  Done (Ok tt).
(** modbus.py 844-871 *)
Definition m_set_values (name : string) (address : Z) (values : setval) : code slave (res unit) :=
  LET r := m_get_block name IN
  match r with
  | Err e => Done (Err e)
  | Ok (t, i, b) =>
      let offset := address - b_start b in
      let size := match values with SvSeq l => zlen l | SvNum _ => 1 end in
      if (offset <? 0) || (b_size b <? offset + size) then Done (Err OutOfModbusBlockError)
      else match values with
      | SvSeq l =>
          act (fun s => match block_at s t i with
                        | Some b => (put_block_data s t i b (py_slice_assign (b_data b) offset (offset + zlen l) l), Ok tt)
                        | None => (s, Err NotModelled)
                        end)
      | SvNum v => m_poke t i offset v
      end
  end.
(** modbus.py 873-894 *)
Definition m_get_values (name : string) (address size : Z) : code slave (res (list Z)) :=
  LET r := m_get_block name IN
  match r with
  | Err e => Done (Err e)
  | Ok (t, i, b) =>
      let offset := address - b_start b in
      if (offset <? 0) || (b_size b <? offset + size) then Done (Err OutOfModbusBlockError)
      else if size =? 1 then LET v := m_cell t i offset IN Done (v <- v ;; Ok [v])
      else LET l := m_cells t i offset (offset + size) IN Done (Ok l)
  end.

(** The operations of a slave (see [slave_step]), access by access. *)
Definition slave_code (o : slave_op) : code slave slave_out :=
  match o with
  | OpAddBlock n t a z => LET r := m_add_block n t a z IN Done (OutUnit r)
  | OpRemoveBlock n => LET r := m_remove_block n IN Done (OutUnit r)
  | OpRemoveAll => LET r := m_remove_all_blocks IN Done (OutUnit r)
  | OpSetValues n a v => LET r := m_set_values n a v IN Done (OutUnit r)
  | OpGetValues n a z => LET r := m_get_values n a z IN Done (OutVals r)
  | OpRequest p bc => LET r := m_handle_request p bc IN Done (OutVals r)
  end.
