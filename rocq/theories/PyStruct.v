(** Model of the part of Python's [struct] module used by modbus_tk.

    Source of the behaviour: CPython's struct module (standard sizes).  Call
    sites: modbus.py 168-338, 373, 400, 513-774, modbus_rtu.py 39-81,
    modbus_tcp.py 88-92, 220, 258.

    Simplifications: format characters c ? e f d s p n N P, and native
    alignment (no prefix with a non-empty format, '@', '=') are outside the
    model and give [Err NotModelled]. *)
From Verif Require Import Base.

(** One item of a format: an integer of a number of bytes, or a pad byte. *)
Inductive fitem :=
| FInt (size : nat) (signed : bool)
| FPad.

Record pfmt := { pf_little : bool; pf_items : list fitem }.

Definition code_item (c : ascii) : res fitem :=
  match c with
  | "x" => Ok FPad
  | "b" => Ok (FInt 1 true)
  | "B" => Ok (FInt 1 false)
  | "h" => Ok (FInt 2 true)
  | "H" => Ok (FInt 2 false)
  | "i" => Ok (FInt 4 true)
  | "I" => Ok (FInt 4 false)
  | "l" => Ok (FInt 4 true)
  | "L" => Ok (FInt 4 false)
  | "q" => Ok (FInt 8 true)
  | "Q" => Ok (FInt 8 false)
  | "c" | "?" | "e" | "f" | "d" | "s" | "p" | "n" | "N" | "P" => Err NotModelled
  | _ => Err StructError
  end%char.

Definition digit_of (c : ascii) : option nat :=
  let n := nat_of_ascii c in
  if (48 <=? n)%nat && (n <=? 57)%nat then Some (n - 48)%nat else None.

Definition is_space (c : ascii) : bool :=
  let n := nat_of_ascii c in
  ((n =? 32)%nat || ((9 <=? n)%nat && (n <=? 13)%nat)).

(** [cnt] is the repeat count being read, if any. *)
Fixpoint parse_items (s : string) (cnt : option nat) : res (list fitem) :=
  match s with
  | EmptyString => match cnt with None => Ok [] | Some _ => Err StructError end
  | String c rest =>
      match digit_of c with
      | Some d => parse_items rest (Some (match cnt with None => d | Some n => (10 * n + d)%nat end))
      | None =>
          match is_space c, cnt with
          | true, None => parse_items rest None
          | _, _ =>
              it <- code_item c ;;
              items <- parse_items rest None ;;
              Ok (repeat it (match cnt with None => 1%nat | Some n => n end) ++ items)
          end
      end
  end.

Definition parse_fmt (s : string) : res pfmt :=
  match s with
  | EmptyString => Ok {| pf_little := false; pf_items := [] |}
  | String ">" rest | String "!" rest =>
      items <- parse_items rest None ;; Ok {| pf_little := false; pf_items := items |}
  | String "<" rest =>
      items <- parse_items rest None ;; Ok {| pf_little := true; pf_items := items |}
  | _ => Err NotModelled
  end%char.

Definition item_size (i : fitem) : nat :=
  match i with FInt n _ => n | FPad => 1%nat end.
Definition items_size (l : list fitem) : nat :=
  fold_right (fun i a => (item_size i + a)%nat) O l.

(** struct.calcsize *)
Definition calcsize (s : string) : res Z :=
  f <- parse_fmt s ;; Ok (Z.of_nat (items_size (pf_items f))).

(** Big-endian digits of [v] modulo 256^n. *)
Fixpoint be_bytes (n : nat) (v : Z) : list Z :=
  match n with
  | O => []
  | S m => (v / 256 ^ Z.of_nat m) mod 256 :: be_bytes m v
  end.

Fixpoint be_val (l : list Z) : Z :=
  match l with
  | [] => 0
  | b :: t => b * 256 ^ Z.of_nat (length t) + be_val t
  end.

Definition int_in_range (size : nat) (signed : bool) (v : Z) : bool :=
  let w := 8 * Z.of_nat size in
  if signed then (- 2 ^ (w - 1) <=? v) && (v <? 2 ^ (w - 1))
  else (0 <=? v) && (v <? 2 ^ w).

Definition pack_int (size : nat) (signed little : bool) (v : Z) : res (list Z) :=
  if int_in_range size signed v
  then let b := be_bytes size v in Ok (if little then rev b else b)
  else Err StructError.

Definition unpack_int (size : nat) (signed little : bool) (b : list Z) : Z :=
  let u := be_val (if little then rev b else b) in
  let w := 8 * Z.of_nat size in
  if signed && (2 ^ (w - 1) <=? u) then u - 2 ^ w else u.

Fixpoint pack_items (little : bool) (items : list fitem) (vals : list Z) : res (list Z) :=
  match items with
  | [] => match vals with [] => Ok [] | _ => Err StructError end
  | FPad :: t => r <- pack_items little t vals ;; Ok (0 :: r)
  | FInt n sg :: t =>
      match vals with
      | [] => Err StructError
      | v :: vs =>
          b <- pack_int n sg little v ;;
          r <- pack_items little t vs ;;
          Ok (b ++ r)
      end
  end.

Fixpoint unpack_items (little : bool) (items : list fitem) (b : list Z) : list Z :=
  match items with
  | [] => []
  | FPad :: t => unpack_items little t (skipn 1 b)
  | FInt n sg :: t =>
      unpack_int n sg little (firstn n b) :: unpack_items little t (skipn n b)
  end.

(** struct.pack(fmt, *vals) *)
Definition pack (fmt : string) (vals : list Z) : res (list Z) :=
  f <- parse_fmt fmt ;; pack_items (pf_little f) (pf_items f) vals.

(** struct.unpack(fmt, b): the buffer must have exactly the size of the format. *)
Definition unpack (fmt : string) (b : list Z) : res (list Z) :=
  f <- parse_fmt fmt ;;
  if (length b =? items_size (pf_items f))%nat
  then Ok (unpack_items (pf_little f) (pf_items f) b)
  else Err StructError.
