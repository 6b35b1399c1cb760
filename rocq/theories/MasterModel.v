(** Model of Master.execute (modbus_tk/modbus.py 137-417), split in its three
    phases: building the PDU (164-342), exchanging bytes (344-370, a parameter
    here; see TransportModel.v) and decoding the response (372-417). *)
From Verif Require Import Base PyStruct Defines SlaveModel QueryModel.

(** Python arguments that may be a number or a tuple/list. *)
Inductive pyarg := PInt (z : Z) | PSeq (l : list Z).

(** The keyword arguments of execute, modbus.py 138-141.  number_file: None or
    a tuple.  Simplification: values are integers (no floats, no other types),
    [slave] is an int (the [slave is not None] test is always true). *)
Record exec_args := {
  ea_slave : Z;
  ea_fc : Z;
  ea_addr : pyarg;
  ea_qty : pyarg;
  ea_output : pyarg;
  ea_format : string;
  ea_expected : Z;
  ea_waddr23 : Z;
  ea_files : option (list Z);
  ea_pdu : list Z;             (* bytes; the default "" is a str: in Python 3 RAW without pdu raises TypeError when the header is added (not modelled) *)
  ea_raw : bool;
  ea_and : Z;
  ea_or : Z
}.

(** execute(slave, fc, addr) with every other argument at its default *)
Definition default_args (slave fc : Z) (addr : pyarg) : exec_args :=
  {| ea_slave := slave; ea_fc := fc; ea_addr := addr; ea_qty := PInt 0;
     ea_output := PInt 0; ea_format := ""; ea_expected := -1; ea_waddr23 := 0;
     ea_files := None; ea_pdu := []; ea_raw := false; ea_and := -1; ea_or := -1 |}.

(** What the first phase leaves behind. *)
Record built := {
  bl_pdu : list Z;
  bl_is_read : bool;
  bl_digits : Z;          (* nb_of_digits *)
  bl_format : string;     (* data_format *)
  bl_expected : Z         (* expected_length *)
}.

(** struct.pack of a non-integer raises struct.error; an int is itself *)
Definition as_int (a : pyarg) : res Z :=
  match a with PInt z => Ok z | PSeq _ => Err StructError end.

(** len(x): TypeError on an int *)
Definition as_seq (a : pyarg) : res (list Z) :=
  match a with PSeq l => Ok l | PInt _ => Err PyTypeError end.

(** "if not data_format: data_format = d" *)
Definition dflt_format (given d : string) : string := if str_empty given then d else given.
(** "if expected_length < 0: expected_length = d" *)
Definition dflt_expected (given d : Z) : Z := if given <? 0 then d else given.

(** registers packed one by one, "H" if j >= 0 else "h" (modbus.py 274-276, 314-317) *)
Fixpoint pack_signed_regs (l : list Z) : res (list Z) :=
  match l with
  | [] => Ok []
  | j :: t =>
      b <- pack (if (0 <=? j)%Z then ">H" else ">h")%string [j] ;;
      r <- pack_signed_regs t ;;
      Ok (b ++ r)
  end.

(** bytes packed one by one (modbus.py 296-298) *)
Fixpoint pack_bytes (l : list Z) : res (list Z) :=
  match l with
  | [] => Ok []
  | j :: t => b <- pack ">B" [j] ;; r <- pack_bytes t ;; Ok (b ++ r)
  end.

(** the bit packing loop of WRITE_MULTIPLE_COILS, modbus.py 247-257 *)
Fixpoint pack_coils_loop (vals : list Z) (i byte_value : Z) : res (list Z) :=
  match vals with
  | [] => if 0 <? i then pack ">B" [byte_value] else Ok []
  | j :: rest =>
      let bv := if 0 <? j then byte_value + 2 ^ i else byte_value in
      if i =? 7 then
        b <- pack ">B" [bv] ;; r <- pack_coils_loop rest 0 0 ;; Ok (b ++ r)
      else pack_coils_loop rest (i + 1) bv
  end.

(** the sub-requests of READ_FILE_RECORD, modbus.py 205 *)
Fixpoint pack_file_subs (files addrs qtys : list Z) : res (list Z) :=
  match files, addrs, qtys with
  | f :: ft, a :: at_, q :: qt =>
      b <- pack ">BHHH" [6; f; a; q] ;;
      r <- pack_file_subs ft at_ qt ;;
      Ok (b ++ r)
  | _, _, _ => Ok []
  end.

(** 'BB'.join(map(lambda x: x*'H', quantity_of_x)), modbus.py 207 *)
Fixpoint file_format_tail (qtys : list Z) : string :=
  match qtys with
  | [] => ""
  | [q] => py_str_mul q "H"
  | q :: t => (py_str_mul q "H" ++ "BB" ++ file_format_tail t)%string
  end.

Definition sum_list (l : list Z) : Z := fold_left Z.add l 0.

(** First phase of execute: modbus.py 156-342 (self.open() is in OpenModel.v). *)
Definition execute_build (a : exec_args) : res built :=
  let fc := ea_fc a in
  let mk pdu rd dg f e :=
    {| bl_pdu := pdu; bl_is_read := rd; bl_digits := dg; bl_format := f; bl_expected := e |} in
  if (fc =? READ_COILS) || (fc =? READ_DISCRETE_INPUTS) then        (* 166-178 *)
    addr <- as_int (ea_addr a) ;;
    q <- as_int (ea_qty a) ;;
    pdu <- pack ">BHH" [fc; addr; q] ;;
    let byte_count := bit_byte_count q in
    Ok (mk pdu true q
          (dflt_format (ea_format a) (">" ++ py_str_mul byte_count "B"))
          (dflt_expected (ea_expected a) (byte_count + 5)))
  else if (fc =? READ_INPUT_REGISTERS) || (fc =? READ_HOLDING_REGISTERS) then   (* 180-188 *)
    addr <- as_int (ea_addr a) ;;
    q <- as_int (ea_qty a) ;;
    pdu <- pack ">BHH" [fc; addr; q] ;;
    Ok (mk pdu true 0
          (dflt_format (ea_format a) (">" ++ py_str_mul q "H"))
          (dflt_expected (ea_expected a) (2 * q + 5)))
  else if fc =? READ_FILE_RECORD then                               (* 190-211 *)
    let files := match ea_files a with Some l => l | None => [] end in
    match ea_addr a, ea_qty a with
    | PSeq addrs, PSeq qtys =>
        if (zlen files =? zlen addrs) && (zlen addrs =? zlen qtys) && (0 <? zlen qtys) then
          let count_seq := zlen files in
          h <- pack ">BB" [fc; count_seq * 7] ;;
          subs <- pack_file_subs files addrs qtys ;;
          Ok (mk (h ++ subs) true 0
                (dflt_format (ea_format a) (">BB" ++ file_format_tail qtys))
                (dflt_expected (ea_expected a) (2 * sum_list qtys + 2 * count_seq + 5)))
        else Err ModbusInvalidRequestError
    | _, _ => Err ModbusInvalidRequestError
    end
  else if (fc =? WRITE_SINGLE_COIL) || (fc =? WRITE_SINGLE_REGISTER) then       (* 213-226 *)
    pdu <- (if fc =? WRITE_SINGLE_COIL then
              (* output_value != 0 is True for any tuple *)
              let v := match ea_output a with PInt z => if z =? 0 then 0 else 65280 | PSeq _ => 65280 end in
              addr <- as_int (ea_addr a) ;; pack ">BHH" [fc; addr; v]
            else
              match ea_output a with
              | PSeq _ => Err PyTypeError                 (* tuple >= int *)
              | PInt v =>
                  addr <- as_int (ea_addr a) ;;
                  pack (if (0 <=? v)%Z then ">BHH" else ">BHh")%string [fc; addr; v]
              end) ;;
    Ok (mk pdu false 0 (dflt_format (ea_format a) ">HH") (dflt_expected (ea_expected a) 8))
  else if fc =? MASK_WRITE_REGISTER then                            (* 228-240 *)
    if ea_and a <? 0 then Err ModbusInvalidRequestError
    else if ea_or a <? 0 then Err ModbusInvalidRequestError
    else
      addr <- as_int (ea_addr a) ;;
      pdu <- pack ">BHHH" [fc; addr; ea_and a; ea_or a] ;;
      Ok (mk pdu false 0 (dflt_format (ea_format a) ">HHH") (dflt_expected (ea_expected a) 10))
  else if fc =? WRITE_MULTIPLE_COILS then                           (* 242-263 *)
    vals <- as_seq (ea_output a) ;;
    addr <- as_int (ea_addr a) ;;
    h <- pack ">BHHB" [fc; addr; zlen vals; bit_byte_count (zlen vals)] ;;
    bits <- pack_coils_loop vals 0 0 ;;
    Ok (mk (h ++ bits) false 0 (dflt_format (ea_format a) ">HH") (dflt_expected (ea_expected a) 8))
  else if fc =? WRITE_MULTIPLE_REGISTERS then                       (* 265-283 *)
    (* "if output_value and data_format": calcsize, else 2 * len(output_value) *)
    let truthy_output := match ea_output a with PInt z => negb (z =? 0) | PSeq [] => false | PSeq _ => true end in
    let use_fmt := truthy_output && negb (str_empty (ea_format a)) in
    byte_count <- (if use_fmt then calcsize (ea_format a)
                   else l <- as_seq (ea_output a) ;; Ok (2 * zlen l)) ;;
    addr <- as_int (ea_addr a) ;;
    h <- pack ">BHHB" [fc; addr; byte_count / 2; byte_count] ;;
    vals <- as_seq (ea_output a) ;;
    data <- (if use_fmt then pack (ea_format a) vals else pack_signed_regs vals) ;;
    Ok (mk (h ++ data) false 0 ">HH"%string (dflt_expected (ea_expected a) 8))
  else if fc =? READ_EXCEPTION_STATUS then                          (* 285-290 *)
    pdu <- pack ">B" [fc] ;;
    Ok (mk pdu false 0 ">B"%string (dflt_expected (ea_expected a) 5))
  else if fc =? DIAGNOSTIC then                                     (* 292-304 *)
    addr <- as_int (ea_addr a) ;;
    h <- pack ">BH" [fc; addr] ;;
    vals <- as_seq (ea_output a) ;;
    if 0 <? zlen vals then
      data <- pack_bytes vals ;;
      Ok (mk (h ++ data) false 0
            (dflt_format (ea_format a) (">" ++ py_str_mul (zlen vals) "B"))
            (dflt_expected (ea_expected a) (zlen vals + 6)))
    else Ok (mk h false 0 (ea_format a) (ea_expected a))
  else if fc =? READ_WRITE_MULTIPLE_REGISTERS then                  (* 306-323 *)
    vals <- as_seq (ea_output a) ;;
    addr <- as_int (ea_addr a) ;;
    q <- as_int (ea_qty a) ;;
    h <- pack ">BHHHHB" [fc; addr; q; ea_waddr23 a; zlen vals; 2 * zlen vals] ;;
    data <- pack_signed_regs vals ;;
    Ok (mk (h ++ data) true 0
          (dflt_format (ea_format a) (">" ++ py_str_mul q "H"))
          (dflt_expected (ea_expected a) (2 * q + 5)))
  else if fc =? RAW then                                            (* 325-327 *)
    Ok (mk (ea_pdu a) false 0 (ea_format a) (ea_expected a))
  else if fc =? DEVICE_INFO then                                    (* 329-339 *)
    match ea_output a with
    | PInt _ => Err PyTypeError                      (* int is not subscriptable *)
    | PSeq vals =>
        v0 <- py_get vals 0 ;;
        v1 <- py_get vals 1 ;;
        pdu <- pack ">BBBB" [fc; 14; v0; v1] ;;
        Ok (mk pdu false 0 (ea_format a) (ea_expected a))
    end
  else Err ModbusFunctionNotSupportedError.                         (* 341-342 *)

(** The result of execute: bytes when returns_raw, a tuple of integers, or a
    tuple of tuples for READ_FILE_RECORD. *)
Inductive exec_result :=
| RRaw (data : list Z)
| RTuple (vals : list Z)
| RRecords (recs : list (list Z)).

(** the digits loop, modbus.py 402-408: the inner loop over range(8) *)
Fixpoint digits_inner (n : nat) (byte_val nb : Z) (digits : list Z) : list Z :=
  match n with
  | O => digits
  | S m =>
      if nb <=? zlen digits then digits
      else digits_inner m (Z.shiftr byte_val 1) nb (digits ++ [byte_val mod 2])
  end.
Definition digits_loop (result : list Z) (nb : Z) : list Z :=
  fold_left (fun digits byte_val => digits_inner 8 byte_val nb digits) result [].

(** the READ_FILE_RECORD loop, modbus.py 411-415.  The Python loop has no
    bound; [fuel] exhaustion (None) stands for "still running". *)
Fixpoint file_loop (fuel : nat) (result : list Z) (ptr : Z) : option (res (list (Z * Z))) :=
  match fuel with
  | O => None
  | S m =>
      if ptr <? zlen result then
        match py_get result ptr with
        | Err e => Some (Err e)
        | Ok n =>
            match file_loop m result (ptr + (n / 2 + 2)) with
            | None => None
            | Some (Err e) => Some (Err e)
            | Some (Ok l) => Some (Ok ((ptr + 2, ptr + 2 + n / 2) :: l))
            end
        end
      else Some (Ok [])
  end.

(** Second part of execute on the response PDU, modbus.py 372-417.
    [None]: the READ_FILE_RECORD loop has not ended within [fuel] iterations. *)
Definition execute_decode (fuel : nat) (a : exec_args) (b : built) (response_pdu : list Z)
  : option (res exec_result) :=
  match unpack2 ">BB" (py_slice response_pdu 0 2) with
  | Err e => Some (Err e)
  | Ok (return_code, byte_2) =>
      if 128 <? return_code then Some (Err (ModbusError byte_2))
      else
        let is_info := negb (bl_is_read b) && (ea_fc a =? DEVICE_INFO) in
        let data := py_from response_pdu (if bl_is_read b then 2 else 1) in
        if bl_is_read b && negb (byte_2 =? zlen data) then Some (Err ModbusInvalidResponseError)
        else
          let fmt := if is_info then (">" ++ py_str_mul (zlen data) "B")%string else bl_format b in
          if ea_raw a then Some (Ok (RRaw data))
          else match unpack fmt data with
          | Err e => Some (Err e)
          | Ok result0 =>
              let result := if 0 <? bl_digits b then digits_loop result0 (bl_digits b) else result0 in
              if ea_fc a =? READ_FILE_RECORD then
                match file_loop fuel result 0 with
                | None => None
                | Some (Err e) => Some (Err e)
                | Some (Ok subs) =>
                    Some (Ok (RRecords (map (fun p => py_slice result (fst p) (snd p)) subs)))
                end
              else Some (Ok (RTuple result))
          end
  end.

(** Number of iterations that always suffices when the decoded integers are
    not negative (every iteration advances by at least two). *)
Definition file_fuel (response_pdu : list Z) : nat := S (length response_pdu).

(** What execute does: the new transaction counter, the frame handed to _send with
    the expected_length handed to _recv (None: nothing was sent), and the result. *)
Record executed := {
  ex_last : Z;
  ex_sent : option (list Z * Z);
  ex_result : option (res exec_result)
}.

(** execute over a link: [exchange] is _send followed by _recv(expected_length)
    (modbus.py 356-362) and yields the raw response or raises.  Hooks and
    logging dropped.  [last] is the TCP transaction counter. *)
Definition execute (p : proto) (last : Z) (a : exec_args)
  (exchange : list Z -> Z -> res (list Z)) : executed :=
  match execute_build a with
  | Err e => {| ex_last := last; ex_sent := None; ex_result := Some (Err e) |}
  | Ok b =>
      let '(last', r) := build_request p last (bl_pdu b) (ea_slave a) in
      match r with
      | Err e => {| ex_last := last'; ex_sent := None; ex_result := Some (Err e) |}
      | Ok (hdr, request) =>
          {| ex_last := last'; ex_sent := Some (request, bl_expected b);
             ex_result :=
               match (response <- exchange request (bl_expected b) ;; parse_response hdr response) with
               | Err e => Some (Err e)
               | Ok response_pdu => execute_decode (file_fuel response_pdu) a b response_pdu
               end |}
      end
  end.
