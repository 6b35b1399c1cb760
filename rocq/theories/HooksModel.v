(** Model of hooks (modbus_tk/hooks.py) and of the code that calls them in Slave, Databank and
    Server (modbus.py 456, 549-774, 940-985, 1076-1096). *)
From Verif Require Import Base PyStruct Defines SlaveModel QueryModel DatabankModel.

(** ** The registry *)

(** _HOOKS, hooks.py 16: name -> list of functions, functions being identified by a number
    (Python compares functions by identity). *)
Definition registry := list (string * list Z).

(** install_hook, hooks.py 83-87 *)
Definition install_hook (r : registry) (name : string) (fct : Z) : registry :=
  match assoc String.eqb name r with
  | Some l => assoc_put String.eqb name (l ++ [fct]) r
  | None => assoc_put String.eqb name [fct] r
  end.

(** list.remove(x): the first occurrence; ValueError when absent. *)
Fixpoint remove_first (x : Z) (l : list Z) : option (list Z) :=
  match l with
  | [] => None
  | y :: t => if y =? x then Some t
              else match remove_first x t with Some t' => Some (y :: t') | None => None end
  end.

(** uninstall_hook, hooks.py 90-96; [None]: fct=None, all functions of the name *)
Definition uninstall_hook (r : registry) (name : string) (fct : option Z) : registry * res unit :=
  match assoc String.eqb name r with
  | None => (r, Err PyKeyError)
  | Some l =>
      match fct with
      | None => (assoc_put String.eqb name [] r, Ok tt)
      | Some f => match remove_first f l with
                  | Some l' => (assoc_put String.eqb name l' r, Ok tt)
                  | None => (r, Err PyValueError)
                  end
      end
  end.

(** call_hooks, hooks.py 99-109.  [beh f args st]: what the function does to the state of the
    program, the registry included, and what it returns or raises.  The for statement walks through
    the list object by position, and hooks may change that list.  [None]: not finished after
    [fuel] calls.  The lock is in ConcModel.v. *)
Section Call.
Context {W A V : Type}.
Variable beh : Z -> A -> registry * W -> (registry * W) * res (option V).
Fixpoint call_loop (fuel : nat) (name : string) (args : A) (i : nat) (st : registry * W)
  : option ((registry * W) * res (option V)) :=
  match fuel with
  | O => None
  | S m =>
      match assoc String.eqb name (fst st) with
      | None => Some (st, Ok None)                     (* except KeyError: pass *)
      | Some l =>
          match nth_error l i with
          | None => Some (st, Ok None)
          | Some f =>
              match beh f args st with
              | (st', Ok (Some v)) => Some (st', Ok (Some v))
              | (st', Ok None) => call_loop m name args (S i) st'
              | (st', Err PyKeyError) => Some (st', Ok None)   (* except KeyError: pass *)
              | (st', Err e) => Some (st', Err e)
              end
          end
      end
  end.
Definition call_hooks (fuel : nat) (name : string) (args : A) (st : registry * W) :=
  call_loop fuel name args 0 st.
End Call.

(** ** Slave with hooks *)

(** The outcome of each call_hooks made on behalf of a slave or a databank: what it returns, or
    the exception it lets through.  Simplification: the outcome depends on the arguments passed
    only, and hooks do not change the slaves. *)
Record hooks := {
  h_request : list Z -> res (option (list Z));    (* modbus.Slave.handle_request *)
  h_handler : Z -> list Z -> res unit;            (* modbus.Slave.handle_..._request, by function code *)
  h_setitem : Z -> Z -> list Z -> res unit;       (* modbus.ModbusBlock.setitem: block, first cell, values *)
  h_broadcast : list Z -> res unit;               (* modbus.Slave.on_handle_broadcast *)
  h_exception : Z -> Z -> res unit;               (* modbus.Slave.on_exception: function, exception code *)
  h_error : exn -> list Z -> res unit             (* modbus.Databank.on_error *)
}.
Definition no_hooks : hooks :=
  {| h_request := fun _ => Ok None; h_handler := fun _ _ => Ok tt; h_setitem := fun _ _ _ => Ok tt;
     h_broadcast := fun _ => Ok tt; h_exception := fun _ _ => Ok tt; h_error := fun _ _ => Ok tt |}.

(** ModbusBlock.__setitem__ with an index, modbus.py 454-457; [b]: the block's starting address *)
Definition h_set (h : hooks) (b : Z) (data : list Z) (i v : Z) : res (list Z) :=
  _ <- h_setitem h b i [v] ;; py_set data i v.

(** modbus.py 663-666 and 631-634, see [write_regs_loop] *)
Fixpoint h_write_regs_loop (h : hooks) (b : Z) (fmt : string) (pdu : list Z) (base : Z) (offset : Z)
  (n : nat) (i : Z) (data : list Z) : list Z * res unit :=
  match n with
  | O => (data, Ok tt)
  | S m =>
      match unpack1 fmt (py_slice pdu (base + 2 * i) (base + 2 + 2 * i)) with
      | Err e => (data, Err e)
      | Ok v =>
          match h_set h b data (offset + i) v with
          | Err e => (data, Err e)
          | Ok data' => h_write_regs_loop h b fmt pdu base offset m (i + 1) data'
          end
      end
  end.

(** modbus.py 598-636, see [read_write_multiple_registers] *)
Definition h_read_write_multiple_registers (h : hooks) (s : slave) (pdu : list Z) : slave * res (list Z) :=
  match unpack5 ">HHHHB" (py_slice pdu 1 10) with
  | Err e => (s, Err e)
  | Ok (ra, rq, wa, wq, bc) =>
      if (rq <=? 0) || (125 <? rq) then (s, Err (ModbusError ILLEGAL_DATA_VALUE))
      else match get_block_and_offset s HOLDING_REGISTERS ra rq with
      | Err e => (s, Err e)
      | Ok (_, rb, roff) =>
          let values := py_slice (b_data rb) roff (roff + rq) in
          match (header <- pack ">B" [2 * rq] ;; pack_regs_loop (fmtH s) values header) with
          | Err e => (s, Err e)
          | Ok response =>
              if (wq <=? 0) || (123 <? wq) || negb (bc =? wq * 2)
              then (s, Err (ModbusError ILLEGAL_DATA_VALUE))
              else match get_block_and_offset s HOLDING_REGISTERS wa wq with
              | Err e => (s, Err e)
              | Ok (i, wb, woff) =>
                  let '(d, r) := h_write_regs_loop h (b_start wb) (fmtH s) pdu 10 woff (Z.to_nat wq) 0 (b_data wb) in
                  let s' := put_block_data s HOLDING_REGISTERS i wb d in
                  match r with
                  | Err e => (s', Err e)
                  | Ok _ => (s', Ok response)
                  end
              end
          end
      end
  end.

(** modbus.py 638-647 *)
Definition h_mask_write_register (h : hooks) (s : slave) (pdu : list Z) : slave * res (list Z) :=
  match unpack3 ">HHH" (py_slice pdu 1 7) with
  | Err e => (s, Err e)
  | Ok (a, and_mask, or_mask) =>
      match get_block_and_offset s HOLDING_REGISTERS a 1 with
      | Err e => (s, Err e)
      | Ok (i, b, offset) =>
          match py_get (b_data b) offset with
          | Err e => (s, Err e)
          | Ok old =>
              let v := Z.lor (Z.land old and_mask) (Z.land or_mask (Z.lnot and_mask)) in
              match h_set h (b_start b) (b_data b) offset v with
              | Err e => (s, Err e)
              | Ok d => (put_block_data s HOLDING_REGISTERS i b d, Ok (py_from pdu 1))
              end
          end
      end
  end.

(** modbus.py 649-668 *)
Definition h_write_multiple_registers (h : hooks) (s : slave) (pdu : list Z) : slave * res (list Z) :=
  match unpack3 ">HHB" (py_slice pdu 1 6) with
  | Err e => (s, Err e)
  | Ok (a, q, bc) =>
      if (q <=? 0) || (123 <? q) || negb (bc =? q * 2)
      then (s, Err (ModbusError ILLEGAL_DATA_VALUE))
      else match get_block_and_offset s HOLDING_REGISTERS a q with
      | Err e => (s, Err e)
      | Ok (i, b, offset) =>
          let '(d, r) := h_write_regs_loop h (b_start b) (fmtH s) pdu 6 offset (Z.to_nat q) 0 (b_data b) in
          let s' := put_block_data s HOLDING_REGISTERS i b d in
          match r with
          | Err e => (s', Err e)
          | Ok _ => (s', pack ">HH" [a; q])
          end
      end
  end.

(** modbus.py 693-702 *)
Fixpoint h_write_bits_inner (h : hooks) (b : Z) (fuel : nat) (byte_value : Z) (pos j count q : Z) (data : list Z)
  : list Z * res Z :=
  match fuel with
  | O => (data, Ok count)
  | S m =>
      if q <=? count then (data, Ok count)
      else
        let v := if Z.land byte_value (Z.shiftl 1 j) =? 0 then 0 else 1 in
        match h_set h b data (pos + j) v with
        | Err e => (data, Err e)
        | Ok data' => h_write_bits_inner h b m byte_value pos (j + 1) (count + 1) q data'
        end
  end.

(** modbus.py 688-702 *)
Fixpoint h_write_bits_outer (h : hooks) (b : Z) (n : nat) (fmt : string) (pdu : list Z) (offset i count q : Z)
  (data : list Z) : list Z * res Z :=
  match n with
  | O => (data, Ok count)
  | S m =>
      if q <=? count then (data, Ok count)
      else match unpack1 fmt (py_slice pdu (6 + i) (7 + i)) with
      | Err e => (data, Err e)
      | Ok byte_value =>
          match h_write_bits_inner h b 8 byte_value (offset + i * 8) 0 count q data with
          | (d, Err e) => (d, Err e)
          | (d, Ok c) => h_write_bits_outer h b m fmt pdu offset (i + 1) c q d
          end
      end
  end.

(** modbus.py 670-703 *)
Definition h_write_multiple_coils (h : hooks) (s : slave) (pdu : list Z) : slave * res (list Z) :=
  match unpack3 ">HHB" (py_slice pdu 1 6) with
  | Err e => (s, Err e)
  | Ok (a, q, bc) =>
      if (q <=? 0) || (1968 <? q) || negb (bc =? bit_byte_count q)
      then (s, Err (ModbusError ILLEGAL_DATA_VALUE))
      else match get_block_and_offset s COILS a q with
      | Err e => (s, Err e)
      | Ok (i, b, offset) =>
          let '(d, r) := h_write_bits_outer h (b_start b) (Z.to_nat bc) (fmtB s) pdu offset 0 0 q (b_data b) in
          let s' := put_block_data s COILS i b d in
          match r with
          | Err e => (s', Err e)
          | Ok count => (s', pack ">HH" [a; count])
          end
      end
  end.

(** modbus.py 705-714 *)
Definition h_write_single_register (h : hooks) (s : slave) (pdu : list Z) : slave * res (list Z) :=
  let fmt := (if sl_unsigned s then ">HH" else ">Hh")%string in
  match unpack2 fmt (py_slice pdu 1 5) with
  | Err e => (s, Err e)
  | Ok (a, v) =>
      match get_block_and_offset s HOLDING_REGISTERS a 1 with
      | Err e => (s, Err e)
      | Ok (i, b, offset) =>
          match h_set h (b_start b) (b_data b) offset v with
          | Err e => (s, Err e)
          | Ok d => (put_block_data s HOLDING_REGISTERS i b d, Ok (py_from pdu 1))
          end
      end
  end.

(** modbus.py 716-729 *)
Definition h_write_single_coil (h : hooks) (s : slave) (pdu : list Z) : slave * res (list Z) :=
  match unpack2 ">HH" (py_slice pdu 1 5) with
  | Err e => (s, Err e)
  | Ok (a, value) =>
      match get_block_and_offset s COILS a 1 with
      | Err e => (s, Err e)
      | Ok (i, b, offset) =>
          if value =? 0 then
            match h_set h (b_start b) (b_data b) offset 0 with
            | Err e => (s, Err e)
            | Ok d => (put_block_data s COILS i b d, Ok (py_from pdu 1))
            end
          else if value =? 65280 then
            match h_set h (b_start b) (b_data b) offset 1 with
            | Err e => (s, Err e)
            | Ok d => (put_block_data s COILS i b d, Ok (py_from pdu 1))
            end
          else (s, Err (ModbusError ILLEGAL_DATA_VALUE))
      end
  end.

(** The handlers without their first line, call_hooks("modbus.Slave.handle_..") *)
Definition h_body (h : hooks) (fc : Z) : option (slave -> list Z -> slave * res (list Z)) :=
  if fc =? WRITE_SINGLE_COIL then Some (h_write_single_coil h)
  else if fc =? WRITE_SINGLE_REGISTER then Some (h_write_single_register h)
  else if fc =? WRITE_MULTIPLE_COILS then Some (h_write_multiple_coils h)
  else if fc =? WRITE_MULTIPLE_REGISTERS then Some (h_write_multiple_registers h)
  else if fc =? MASK_WRITE_REGISTER then Some (h_mask_write_register h)
  else if fc =? READ_WRITE_MULTIPLE_REGISTERS then Some (h_read_write_multiple_registers h)
  else fn_code_map fc.
(** self._fn_code_map with the handlers as they are *)
Definition h_fn_code_map (h : hooks) (fc : Z) : option (slave -> list Z -> slave * res (list Z)) :=
  match h_body h fc with
  | None => None
  | Some f => Some (fun s pdu => match h_handler h fc pdu with
                                 | Err e => (s, Err e)
                                 | Ok _ => f s pdu
                                 end)
  end.

(** except ModbusError, modbus.py 771-774 *)
Definition h_catch (h : hooks) (fc : Z) (r : res (list Z)) : res (list Z) :=
  match r with
  | Err (ModbusError code) => _ <- h_exception h fc code ;; pack ">BB" [fc + 128; code]
  | _ => r
  end.

(** Slave.handle_request, modbus.py 731-774.  When the hook of line 739 raises ModbusError the
    handler of line 771 reads function_code, not yet assigned. *)
Definition h_handle_request (h : hooks) (s : slave) (pdu : list Z) (broadcast : bool) : slave * res (list Z) :=
  match h_request h pdu with
  | Err (ModbusError _) => (s, Err PyNameError)
  | Err e => (s, Err e)
  | Ok (Some r) => (s, Ok r)
  | Ok None =>
      match unpack1 ">B" (py_slice pdu 0 1) with
      | Err e => (s, Err e)
      | Ok fc =>
          match h_fn_code_map h fc with
          | None => (s, h_catch h fc (Err (ModbusError ILLEGAL_FUNCTION)))
          | Some f =>
              if broadcast && cant_be_broadcasted fc then (s, Err ModbusInvalidRequestError)
              else
                let '(s', r) := f s pdu in
                match r with
                | Err e => (s', h_catch h fc (Err e))
                | Ok [] => (s', Err GenericException)
                | Ok response_pdu =>
                    if broadcast then
                      (s', h_catch h fc (_ <- h_broadcast h response_pdu ;; Ok []))
                    else (s', b <- pack ">B" [fc] ;; Ok (b ++ response_pdu))
                end
          end
      end
  end.

(** Slave.set_values, modbus.py 844-871: one __setitem__ for the whole range *)
Definition h_set_values (h : hooks) (s : slave) (name : string) (address : Z) (values : setval)
  : slave * res unit :=
  match get_block s name with
  | Err e => (s, Err e)
  | Ok (t, i, b) =>
      let offset := address - b_start b in
      let vals := match values with SvSeq l => l | SvNum v => [v] end in
      if (offset <? 0) || (b_size b <? offset + zlen vals) then (s, Err OutOfModbusBlockError)
      else match h_setitem h (b_start b) offset vals with
      | Err e => (s, Err e)
      | Ok _ =>
          match values with
          | SvSeq l =>
              (put_block_data s t i b (py_slice_assign (b_data b) offset (offset + zlen l) l), Ok tt)
          | SvNum v =>
              match py_set (b_data b) offset v with
              | Err e => (s, Err e)
              | Ok d => (put_block_data s t i b d, Ok tt)
              end
          end
      end
  end.

(** ** Databank and Server with hooks *)

(** modbus.py 952-953 *)
Fixpoint h_broadcast_loop (h : hooks) (l : list (Z * slave)) (pdu : list Z) : list (Z * slave) * res unit :=
  match l with
  | [] => ([], Ok tt)
  | (k, s) :: t =>
      let '(s', r) := h_handle_request h s pdu true in
      match r with
      | Err e => ((k, s') :: t, Err e)
      | Ok _ => let '(t', r') := h_broadcast_loop h t pdu in ((k, s') :: t', r')
      end
  end.

(** modbus.py 968-985; an exception of the on_error hook leaves handle_request *)
Definition h_db_catch (h : hooks) (e : exn) (request_pdu : list Z) : res response :=
  match e with
  | ModbusInvalidRequestError => Ok (Some [])
  | MissingKeyError => Ok (Some [])
  | _ => _ <- h_error h e request_pdu ;; failure_response request_pdu
  end.

(** Databank.handle_request, modbus.py 940-985 *)
Definition h_db_handle_request (h : hooks) (d : databank) (p : proto) (request : list Z)
  : databank * res response :=
  match parse_request p request with
  | Err e => (d, h_db_catch h e [])
  | Ok (hdr, slave_id, request_pdu) =>
      if slave_id =? 0 then
        let '(l, r) := h_broadcast_loop h (db_slaves d) request_pdu in
        let d' := with_slaves d l in
        match r with
        | Ok _ => (d', Ok None)
        | Err e => (d', h_db_catch h e request_pdu)
        end
      else
        match get_slave d slave_id with
        | Err MissingKeyError =>
            if db_error_on_missing d then (d, h_db_catch h MissingKeyError request_pdu)
            else (d, Ok (Some []))
        | Err e => (d, h_db_catch h e request_pdu)
        | Ok s =>
            let '(s', r) := h_handle_request h s request_pdu false in
            let d' := put_slave d slave_id s' in
            match (response_pdu <- r ;; build_response hdr response_pdu) with
            | Ok b => (d', Ok (Some b))
            | Err e => (d', h_db_catch h e request_pdu)
            end
        end
  end.

(** Server._handle, modbus.py 1076-1096; "if retval:" ignores an empty replacement.  [before], [after]:
    the outcome of modbus.Server.before_handle_request and modbus.Server.after_handle_request. *)
Definition h_server_handle (h : hooks) (before : list Z -> res (option (list Z)))
  (after : response -> res (option (list Z))) (d : databank) (p : proto) (request : list Z)
  : databank * res response :=
  match before request with
  | Err e => (d, Err e)
  | Ok retval =>
      let req := match retval with Some (b :: t) => b :: t | _ => request end in
      let '(d', r) := h_db_handle_request h d p req in
      match r with
      | Err e => (d', Err e)
      | Ok resp =>
          match after resp with
          | Err e => (d', Err e)
          | Ok retval => (d', Ok (if truthy retval then retval else resp))
          end
      end
  end.
