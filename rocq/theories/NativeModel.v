(** Model of [Master.execute] with a data_format of any byte order: ">", "!", "<" as in FloatModel.v, and "=", "@" or no prefix at all, whose meaning depends on the
    machine (modbus.py 265-279: WRITE_MULTIPLE_REGISTERS, 180-188: reading registers, 372-401: the decoding; CPython Modules/_struct.c: whichtable, prepare_s, align,
    the native table, np_float).

    Simplifications: the codes c ? e s p P stay outside the model (Err NotModelled); NaNs as in FloatModel.v. *)
From Flocq Require Import Core.Zaux IEEE754.BinarySingleNaN IEEE754.Binary IEEE754.Bits.
From Verif Require Import Base PyStruct Defines QueryModel MasterModel SlaveModel FloatModel.
Open Scope Z_scope.

(** What the C compiler of the interpreter decides: the byte order, the sizes of long and of ssize_t, the alignment of the 8 byte types. *)
Record machine := { m_little : bool; m_long : nat; m_word : nat; m_align8 : nat }.

(** the native table of _struct.c: the item and its alignment *)
Definition native_code (m : machine) (c : ascii) : res (nitem * nat) :=
  match c with
  | "x" => Ok (NPad, 1%nat)
  | "b" => Ok (NCode 1 true, 1%nat)
  | "B" => Ok (NCode 1 false, 1%nat)
  | "h" => Ok (NCode 2 true, 2%nat)
  | "H" => Ok (NCode 2 false, 2%nat)
  | "i" => Ok (NCode 4 true, 4%nat)
  | "I" => Ok (NCode 4 false, 4%nat)
  | "l" => Ok (NCode (m_long m) true, m_long m)
  | "L" => Ok (NCode (m_long m) false, m_long m)
  | "n" => Ok (NCode (m_word m) true, m_word m)
  | "N" => Ok (NCode (m_word m) false, m_word m)
  | "q" => Ok (NCode 8 true, m_align8 m)
  | "Q" => Ok (NCode 8 false, m_align8 m)
  | "f" => Ok (NF32, 4%nat)
  | "d" => Ok (NF64, m_align8 m)
  | "c" | "?" | "e" | "s" | "p" | "P" => Err NotModelled
  | _ => Err StructError
  end%char.
(** align() of _struct.c: the bytes skipped before an item of alignment [al] when [size] bytes are taken *)
Definition skipped (size al : nat) : nat := if (size =? 0)%nat then O else (al - 1 - (size - 1) mod al)%nat.
(** prepare_s of _struct.c in native mode; [cnt] is the repeat count being read, [size] the bytes taken so far. *)
Fixpoint native_items (m : machine) (s : string) (cnt : option nat) (size : nat) : res (list nitem) :=
  match s with
  | EmptyString => match cnt with None => Ok [] | Some _ => Err StructError end
  | String c rest =>
      match digit_of c with
      | Some d => native_items m rest (Some (match cnt with None => d | Some n => (10 * n + d)%nat end)) size
      | None =>
          match is_space c, cnt with
          | true, None => native_items m rest None size
          | _, _ =>
              ia <- native_code m c ;;
              let k := skipped size (snd ia) in
              let n := match cnt with None => 1%nat | Some n => n end in
              items <- native_items m rest None (size + k + n * nitem_size (fst ia))%nat ;;
              Ok (repeat NPad k ++ repeat (fst ia) n ++ items)
          end
      end
  end.
(** whichtable of _struct.c: is the format native, is it little-endian, its items *)
Definition mparse_fmt (m : machine) (s : string) : res (bool * (bool * list nitem)) :=
  match s with
  | EmptyString => Ok (true, (m_little m, []))
  | String ">" _ | String "!" _ | String "<" _ => f <- nparse_fmt s ;; Ok (false, f)
  | String "=" rest => items <- nparse_items rest None ;; Ok (false, (m_little m, items))
  | String "@" rest => items <- native_items m rest None 0 ;; Ok (true, (m_little m, items))
  | _ => items <- native_items m s None 0 ;; Ok (true, (m_little m, items))
  end%char.
Definition mcalcsize (m : machine) (s : string) : res Z := f <- mparse_fmt m s ;; Ok (Z.of_nat (nitems_size (snd (snd f)))).

(** the bytes of one number.  np_float: in native mode a C cast, which gives an infinity where PyFloat_Pack4 raises OverflowError *)
Definition mpack_one (native little : bool) (i : nitem) (v : num) : res (list Z) :=
  match i with
  | NF32 =>
      x <- as_float v ;;
      y <- match narrow x with
           | Err PyOverflowError => if native then Ok (B754_infinity 24 128 (Bsign 53 1024 x)) else Err PyOverflowError
           | r => r
           end ;;
      pack_int 4 false little (bits_of_b32 y)
  | _ => npack_one little i v
  end.
Fixpoint mpack_items (native little : bool) (items : list nitem) (vals : list num) : res (list Z) :=
  match items with
  | [] => match vals with [] => Ok [] | _ => Err StructError end
  | NPad :: t => r <- mpack_items native little t vals ;; Ok (0 :: r)
  | i :: t =>
      match vals with
      | [] => Err StructError
      | v :: vs => b <- mpack_one native little i v ;; r <- mpack_items native little t vs ;; Ok (b ++ r)
      end
  end.
(** struct.pack, struct.unpack *)
Definition mpack (m : machine) (fmt : string) (vals : list num) : res (list Z) :=
  f <- mparse_fmt m fmt ;; mpack_items (fst f) (fst (snd f)) (snd (snd f)) vals.
Definition munpack (m : machine) (fmt : string) (b : list Z) : res (list num) :=
  f <- mparse_fmt m fmt ;;
  if (length b =? nitems_size (snd (snd f)))%nat then Ok (nunpack_items (fst (snd f)) (snd (snd f)) b) else Err StructError.

(** modbus.py 372-401: the decoding of the response to a read *)
Definition mdecode (m : machine) (fmt : string) (rp : list Z) : res (list num) :=
  h <- unpack2 ">BB" (py_slice rp 0 2) ;;
  let '(return_code, byte_2) := h in
  if 128 <? return_code then Err (ModbusError byte_2)
  else
    let data := py_from rp 2 in
    if negb (byte_2 =? zlen data) then Err ModbusInvalidResponseError else munpack m fmt data.
(** execute(u, WRITE_MULTIPLE_REGISTERS, a, output_value=vals, data_format=f), modbus.py 265-283 *)
Definition mwrite_pdu (m : machine) (a : Z) (vals : list num) (f : string) : res (list Z) :=
  let use_fmt := negb (match vals with [] => true | _ => false end) && negb (str_empty f) in
  byte_count <- (if use_fmt then mcalcsize m f else Ok (2 * zlen vals)) ;;
  h <- pack ">BHHB" [16; a; byte_count / 2; byte_count] ;;
  data <- (if use_fmt then mpack m f vals else npack_registers vals) ;;
  Ok (h ++ data).
Definition mwrite (m : machine) (p : proto) (last u a : Z) (vals : list num) (f : string) (exchange : list Z -> Z -> res (list Z)) : ncalled (list num) :=
  ncall p last u (mwrite_pdu m a vals f) 8 exchange (ndecode false ">HH").
(** execute(u, READ_HOLDING_REGISTERS (or READ_INPUT_REGISTERS), a, n, data_format=f), modbus.py 180-188 *)
Definition mread (m : machine) (p : proto) (last u : Z) (holding : bool) (a n : Z) (f : string) (exchange : list Z -> Z -> res (list Z)) : ncalled (list num) :=
  ncall p last u (pack ">BHH" [if holding then 3 else 4; a; n]) (2 * n + 5) exchange
    (mdecode m (dflt_format f (">" ++ py_str_mul n "H"))).
