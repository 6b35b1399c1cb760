(** Model of [Master.execute] with a data_format that contains "s", "c" and "?": texts, single characters and booleans in registers
    (modbus.py 265-283: WRITE_MULTIPLE_REGISTERS; 180-188: reading registers; 372-401: the decoding), and of what struct does with these
    codes (Python 3).

    Simplifications: values are ints, bytes objects and booleans; with them the codes of PyStruct.v (integers, pad bytes).  The code "p" and,
    here, the float codes are outside the model ([NotModelled]); formats with an explicit byte order. *)
From Verif Require Import Base PyStruct Defines QueryModel MasterModel SlaveModel FloatModel.
Open Scope Z_scope.

Inductive sval := SInt (z : Z) | SBytes (l : list Z) | SBool (b : bool).

(** One item of a format; the number before an "s" is its length, before any other code a repeat count. *)
Inductive sitem := SCode (i : fitem) | SStr (n : nat) | SChar | SFlag.
Definition scode_items (c : ascii) (n : nat) : res (list sitem) :=
  match c with
  | "s" => Ok [SStr n]
  | "c" => Ok (repeat SChar n)
  | "?" => Ok (repeat SFlag n)
  | _ => i <- code_item c ;; Ok (repeat (SCode i) n)
  end%char.
(** as [parse_items] and [parse_fmt] in PyStruct.v *)
Fixpoint sparse_items (s : string) (cnt : option nat) : res (list sitem) :=
  match s with
  | EmptyString => match cnt with None => Ok [] | Some _ => Err StructError end
  | String c rest =>
      match digit_of c with
      | Some d => sparse_items rest (Some (match cnt with None => d | Some n => (10 * n + d)%nat end))
      | None =>
          match is_space c, cnt with
          | true, None => sparse_items rest None
          | _, _ =>
              its <- scode_items c (match cnt with None => 1%nat | Some n => n end) ;;
              items <- sparse_items rest None ;;
              Ok (its ++ items)
          end
      end
  end.
Definition sparse_fmt (s : string) : res (bool * list sitem) :=
  match s with
  | EmptyString => Ok (false, [])
  | String ">" rest | String "!" rest => items <- sparse_items rest None ;; Ok (false, items)
  | String "<" rest => items <- sparse_items rest None ;; Ok (true, items)
  | _ => Err NotModelled
  end%char.
Definition sitem_size (i : sitem) : nat := match i with SCode i => item_size i | SStr n => n | SChar | SFlag => 1%nat end.
Definition sitems_size (l : list sitem) : nat := fold_right (fun i a => (sitem_size i + a)%nat) O l.
Definition scalcsize (s : string) : res Z := f <- sparse_fmt s ;; Ok (Z.of_nat (sitems_size (snd f))).

(** bool(v) *)
Definition struth (v : sval) : bool :=
  match v with SInt z => negb (z =? 0) | SBytes l => match l with [] => false | _ => true end | SBool b => b end.
(** the bytes of one value.  A boolean is an int; a bytes object is cut or filled with zeros for "s", must be one byte for "c". *)
Definition spack_one (little : bool) (i : sitem) (v : sval) : res (list Z) :=
  match i, v with
  | SCode (FInt n sg), SInt z => pack_int n sg little z
  | SCode (FInt n sg), SBool b => pack_int n sg little (if b then 1 else 0)
  | SStr n, SBytes l => Ok (firstn n l ++ repeat 0 (n - length l))
  | SChar, SBytes [x] => Ok [x]
  | SFlag, v => Ok [if struth v then 1 else 0]
  | _, _ => Err StructError
  end.
Definition sunpack_one (little : bool) (i : sitem) (b : list Z) : sval :=
  match i with
  | SCode (FInt n sg) => SInt (unpack_int n sg little b)
  | SFlag => SBool (negb (hd 0 b =? 0))
  | _ => SBytes b
  end.
Fixpoint spack_items (little : bool) (items : list sitem) (vals : list sval) : res (list Z) :=
  match items with
  | [] => match vals with [] => Ok [] | _ => Err StructError end
  | SCode FPad :: t => r <- spack_items little t vals ;; Ok (0 :: r)
  | i :: t =>
      match vals with
      | [] => Err StructError
      | v :: vs => b <- spack_one little i v ;; r <- spack_items little t vs ;; Ok (b ++ r)
      end
  end.
Fixpoint sunpack_items (little : bool) (items : list sitem) (b : list Z) : list sval :=
  match items with
  | [] => []
  | SCode FPad :: t => sunpack_items little t (skipn 1 b)
  | i :: t => sunpack_one little i (firstn (sitem_size i) b) :: sunpack_items little t (skipn (sitem_size i) b)
  end.
(** struct.pack, struct.unpack *)
Definition spack (fmt : string) (vals : list sval) : res (list Z) :=
  f <- sparse_fmt fmt ;; spack_items (fst f) (snd f) vals.
Definition sunpack (fmt : string) (b : list Z) : res (list sval) :=
  f <- sparse_fmt fmt ;;
  if (length b =? sitems_size (snd f))%nat then Ok (sunpack_items (fst f) (snd f) b) else Err StructError.

(** modbus.py 274-276: registers without data_format; comparing a bytes object with 0 raises TypeError *)
Fixpoint spack_registers (l : list sval) : res (list Z) :=
  match l with
  | [] => Ok []
  | SBytes _ :: _ => Err PyTypeError
  | SInt j :: t => b <- pack (if (0 <=? j)%Z then ">H" else ">h")%string [j] ;; r <- spack_registers t ;; Ok (b ++ r)
  | SBool j :: t => b <- pack ">H"%string [if j then 1 else 0] ;; r <- spack_registers t ;; Ok (b ++ r)
  end.
(** modbus.py 372-401 *)
Definition sdecode (is_read : bool) (fmt : string) (rp : list Z) : res (list sval) :=
  h <- unpack2 ">BB" (py_slice rp 0 2) ;;
  let '(return_code, byte_2) := h in
  if 128 <? return_code then Err (ModbusError byte_2)
  else
    let data := py_from rp (if is_read then 2 else 1) in
    if is_read && negb (byte_2 =? zlen data) then Err ModbusInvalidResponseError else sunpack fmt data.
(** execute(u, WRITE_MULTIPLE_REGISTERS, a, output_value=vals, data_format=f), modbus.py 265-283 *)
Definition swrite_pdu (a : Z) (vals : list sval) (f : string) : res (list Z) :=
  let use_fmt := negb (match vals with [] => true | _ => false end) && negb (str_empty f) in
  byte_count <- (if use_fmt then scalcsize f else Ok (2 * zlen vals)) ;;
  h <- pack ">BHHB" [16; a; byte_count / 2; byte_count] ;;
  data <- (if use_fmt then spack f vals else spack_registers vals) ;;
  Ok (h ++ data).
Definition swrite (p : proto) (last u a : Z) (vals : list sval) (f : string) (exchange : list Z -> Z -> res (list Z)) : ncalled (list sval) :=
  ncall p last u (swrite_pdu a vals f) 8 exchange (sdecode false ">HH").
(** execute(u, READ_HOLDING_REGISTERS (or READ_INPUT_REGISTERS), a, n, data_format=f), modbus.py 180-188 *)
Definition sread (p : proto) (last u : Z) (holding : bool) (a n : Z) (f : string) (exchange : list Z -> Z -> res (list Z)) : ncalled (list sval) :=
  ncall p last u (pack ">BHH" [if holding then 3 else 4; a; n]) (2 * n + 5) exchange
    (sdecode true (dflt_format f (">" ++ py_str_mul n "H"))).
