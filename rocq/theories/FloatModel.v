(** Model of [Master.execute] with a data_format that contains the float codes "f" and "d" (modbus.py 265-279: WRITE_MULTIPLE_REGISTERS,
    180-188: reading registers, 372-401: the decoding).  Numbers are Python ints and Python floats (IEEE 754 binary64, Flocq's [binary64]).

    Simplifications: the half-precision code "e" stays outside the model; all NaNs are packed and unpacked as the quiet NaN of the
    same sign (the payload of a NaN is left to the C compiler by CPython). *)
From Flocq Require Import Core.Zaux IEEE754.BinarySingleNaN IEEE754.Binary IEEE754.Bits.
From Verif Require Import Base PyStruct Defines QueryModel MasterModel SlaveModel.
Open Scope Z_scope.

(** a Python number *)
Inductive num := NInt (z : Z) | NFloat (x : binary64).

(** float -> C float: PyFloat_Pack4, nearest even, OverflowError when a finite number becomes infinite *)
Definition quiet32 (s : bool) : binary32 := B754_nan 24 128 s (Pos.iter xO xH 22) eq_refl.
Definition quiet64 (s : bool) : binary64 := B754_nan 53 1024 s (Pos.iter xO xH 51) eq_refl.
Definition narrow (x : binary64) : res binary32 :=
  match x with
  | B754_zero _ _ s => Ok (B754_zero 24 128 s)
  | B754_infinity _ _ s => Ok (B754_infinity 24 128 s)
  | B754_nan _ _ s _ _ => Ok (quiet32 s)
  | B754_finite _ _ s m e _ =>
      let y := binary_normalize 24 128 eq_refl eq_refl mode_NE (cond_Zopp s (Zpos m)) e s in
      if is_finite 24 128 y then Ok y else Err PyOverflowError
  end.
(** C float -> float: PyFloat_Unpack4 *)
Definition widen (y : binary32) : binary64 :=
  match y with
  | B754_zero _ _ s => B754_zero 53 1024 s
  | B754_infinity _ _ s => B754_infinity 53 1024 s
  | B754_nan _ _ s _ _ => quiet64 s
  | B754_finite _ _ s m e _ => binary_normalize 53 1024 eq_refl eq_refl mode_NE (cond_Zopp s (Zpos m)) e s
  end.
(** a double as it is stored: PyFloat_Pack8 / PyFloat_Unpack8 *)
Definition canonical (x : binary64) : binary64 := match x with B754_nan _ _ s _ _ => quiet64 s | _ => x end.
(** PyFloat_AsDouble: an int that is too large makes struct raise struct.error ("required argument is not a float") *)
Definition as_float (v : num) : res binary64 :=
  match v with
  | NFloat x => Ok x
  | NInt z => let x := binary_normalize 53 1024 eq_refl eq_refl mode_NE z 0 false in
              if is_finite 53 1024 x then Ok x else Err StructError
  end.

(** One item of a format. *)
Inductive nitem := NCode (size : nat) (signed : bool) | NPad | NF32 | NF64.
Definition ncode_item (c : ascii) : res nitem :=
  match c with
  | "f" => Ok NF32
  | "d" => Ok NF64
  | _ => i <- code_item c ;; Ok (match i with FInt n s => NCode n s | FPad => NPad end)
  end%char.
(** as [parse_items] and [parse_fmt] in PyStruct.v *)
Fixpoint nparse_items (s : string) (cnt : option nat) : res (list nitem) :=
  match s with
  | EmptyString => match cnt with None => Ok [] | Some _ => Err StructError end
  | String c rest =>
      match digit_of c with
      | Some d => nparse_items rest (Some (match cnt with None => d | Some n => (10 * n + d)%nat end))
      | None =>
          match is_space c, cnt with
          | true, None => nparse_items rest None
          | _, _ =>
              it <- ncode_item c ;;
              items <- nparse_items rest None ;;
              Ok (repeat it (match cnt with None => 1%nat | Some n => n end) ++ items)
          end
      end
  end.
(** the byte order (true: little-endian) and the items of a format *)
Definition nparse_fmt (s : string) : res (bool * list nitem) :=
  match s with
  | EmptyString => Ok (false, [])
  | String ">" rest | String "!" rest => items <- nparse_items rest None ;; Ok (false, items)
  | String "<" rest => items <- nparse_items rest None ;; Ok (true, items)
  | _ => Err NotModelled
  end%char.

Definition nitem_size (i : nitem) : nat := match i with NCode n _ => n | NPad => 1 | NF32 => 4 | NF64 => 8 end%nat.
Definition nitems_size (l : list nitem) : nat := fold_right (fun i a => (nitem_size i + a)%nat) O l.
Definition ncalcsize (s : string) : res Z := f <- nparse_fmt s ;; Ok (Z.of_nat (nitems_size (snd f))).

(** the bytes of one number *)
Definition npack_one (little : bool) (i : nitem) (v : num) : res (list Z) :=
  match i with
  | NCode n sg => match v with NInt z => pack_int n sg little z | NFloat _ => Err StructError end   (* required argument is not an integer *)
  | NF32 => x <- as_float v ;; y <- narrow x ;; pack_int 4 false little (bits_of_b32 y)
  | NF64 => x <- as_float v ;; pack_int 8 false little (bits_of_b64 (canonical x))
  | NPad => Err StructError   (* not used *)
  end.
Definition nunpack_one (little : bool) (i : nitem) (b : list Z) : num :=
  match i with
  | NF32 => NFloat (widen (b32_of_bits (unpack_int 4 false little b)))
  | NF64 => NFloat (canonical (b64_of_bits (unpack_int 8 false little b)))
  | NCode n sg => NInt (unpack_int n sg little b)
  | NPad => NInt 0   (* not used *)
  end.
Fixpoint npack_items (little : bool) (items : list nitem) (vals : list num) : res (list Z) :=
  match items with
  | [] => match vals with [] => Ok [] | _ => Err StructError end
  | NPad :: t => r <- npack_items little t vals ;; Ok (0 :: r)
  | i :: t =>
      match vals with
      | [] => Err StructError
      | v :: vs => b <- npack_one little i v ;; r <- npack_items little t vs ;; Ok (b ++ r)
      end
  end.
Fixpoint nunpack_items (little : bool) (items : list nitem) (b : list Z) : list num :=
  match items with
  | [] => []
  | NPad :: t => nunpack_items little t (skipn 1 b)
  | i :: t => nunpack_one little i (firstn (nitem_size i) b) :: nunpack_items little t (skipn (nitem_size i) b)
  end.
(** struct.pack, struct.unpack *)
Definition npack (fmt : string) (vals : list num) : res (list Z) :=
  f <- nparse_fmt fmt ;; npack_items (fst f) (snd f) vals.
Definition nunpack (fmt : string) (b : list Z) : res (list num) :=
  f <- nparse_fmt fmt ;;
  if (length b =? nitems_size (snd f))%nat then Ok (nunpack_items (fst f) (snd f) b) else Err StructError.

(** modbus.py 274-276: registers without data_format; packing a float as "H" or "h" raises struct.error *)
Fixpoint npack_registers (l : list num) : res (list Z) :=
  match l with
  | [] => Ok []
  | NFloat _ :: _ => Err StructError
  | NInt j :: t => b <- pack (if (0 <=? j)%Z then ">H" else ">h")%string [j] ;; r <- npack_registers t ;; Ok (b ++ r)
  end.

(** what a call with numbers does: the transaction counter, the frame and the expected length handed to the link, the result *)
Record ncalled (R : Type) := { nc_last : Z; nc_sent : option (list Z * Z); nc_result : res R }.
Arguments nc_last {R}. Arguments nc_sent {R}. Arguments nc_result {R}.
(** modbus.py 344-370: the frame goes out, the response comes back and is decoded *)
Definition ncall {R} (p : proto) (last u : Z) (pdu : res (list Z)) (expected : Z) (exchange : list Z -> Z -> res (list Z))
  (decode : list Z -> res R) : ncalled R :=
  match pdu with
  | Err e => {| nc_last := last; nc_sent := None; nc_result := Err e |}
  | Ok pdu =>
      let '(last', r) := build_request p last pdu u in
      match r with
      | Err e => {| nc_last := last'; nc_sent := None; nc_result := Err e |}
      | Ok (hdr, request) =>
          {| nc_last := last'; nc_sent := Some (request, expected);
             nc_result := response <- exchange request expected ;; rp <- parse_response hdr response ;; decode rp |}
      end
  end.
(** modbus.py 372-401: the decoding of a response, for reading functions and for the others *)
Definition ndecode (is_read : bool) (fmt : string) (rp : list Z) : res (list num) :=
  h <- unpack2 ">BB" (py_slice rp 0 2) ;;
  let '(return_code, byte_2) := h in
  if 128 <? return_code then Err (ModbusError byte_2)
  else
    let data := py_from rp (if is_read then 2 else 1) in
    if is_read && negb (byte_2 =? zlen data) then Err ModbusInvalidResponseError else nunpack fmt data.

(** execute(u, WRITE_MULTIPLE_REGISTERS, a, output_value=vals, data_format=f), modbus.py 265-283 *)
Definition nwrite_pdu (a : Z) (vals : list num) (f : string) : res (list Z) :=
  let use_fmt := negb (match vals with [] => true | _ => false end) && negb (str_empty f) in
  byte_count <- (if use_fmt then ncalcsize f else Ok (2 * zlen vals)) ;;
  h <- pack ">BHHB" [16; a; byte_count / 2; byte_count] ;;
  data <- (if use_fmt then npack f vals else npack_registers vals) ;;
  Ok (h ++ data).
Definition nwrite (p : proto) (last u a : Z) (vals : list num) (f : string) (exchange : list Z -> Z -> res (list Z)) : ncalled (list num) :=
  ncall p last u (nwrite_pdu a vals f) 8 exchange (ndecode false ">HH").
(** execute(u, READ_HOLDING_REGISTERS (or READ_INPUT_REGISTERS), a, n, data_format=f), modbus.py 180-188 *)
Definition nread (p : proto) (last u : Z) (holding : bool) (a n : Z) (f : string) (exchange : list Z -> Z -> res (list Z)) : ncalled (list num) :=
  ncall p last u (pack ">BHH" [if holding then 3 else 4; a; n]) (2 * n + 5) exchange
    (ndecode true (dflt_format f (">" ++ py_str_mul n "H"))).
