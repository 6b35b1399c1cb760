(** Base definitions shared by all model files: exceptions as values, byte
    strings, and the Python list operations the code relies on. *)
From Coq Require Export String Ascii ZArith Bool List.
Export ListNotations.
Open Scope Z_scope.

(** Python exceptions that can be raised by the modelled code.
    Models: modbus_tk/exceptions.py 12-88 (the project's classes),
    modbus_tk/modbus_tcp.py 26-30 (ModbusInvalidMbapError), and the built-in
    exceptions raised by struct, list indexing, etc.
    Simplification: messages are dropped; only ModbusError keeps its code
    (get_exception_code, exceptions.py 22-24). *)
Inductive exn :=
| ModbusError (code : Z)
| ModbusFunctionNotSupportedError
| DuplicatedKeyError
| MissingKeyError
| InvalidModbusBlockError
| InvalidArgumentError
| OverlapModbusBlockError
| OutOfModbusBlockError
| ModbusInvalidResponseError
| ModbusInvalidRequestError
| ModbusInvalidMbapError
| StructError          (* struct.error *)
| PyTypeError
| PyIndexError
| PyKeyError
| PyValueError
| PyRuntimeError
| PyZeroDivisionError
| PyOverflowError
| PyNameError          (* UnboundLocalError is a NameError *)
| SocketTimeout        (* socket.timeout / OSError while receiving *)
| GenericException     (* raise Exception(...) *)
| NotModelled.         (* a Python feature outside the model was used *)

(** The outcome of a Python call: a value, or a raised exception. *)
Inductive res (A : Type) :=
| Ok (a : A)
| Err (e : exn).
Arguments Ok {A} a.
Arguments Err {A} e.

Definition bind {A B} (r : res A) (k : A -> res B) : res B :=
  match r with Ok a => k a | Err e => Err e end.
Notation "x <- e ;; k" := (bind e (fun x => k))
  (at level 61, e at next level, right associativity).

Definition is_ok {A} (r : res A) : bool :=
  match r with Ok _ => true | Err _ => false end.

(** Bytes are integers in 0..255; a Python bytes/bytearray is a [list Z]
    all of whose elements are bytes. *)
Definition is_byte (b : Z) : Prop := 0 <= b < 256.
Definition bytes (l : list Z) : Prop := Forall is_byte l.

(** len(x) as a Python int. *)
Definition zlen {A} (l : list A) : Z := Z.of_nat (length l).

(** Python's normalisation of a slice bound for a sequence of length [n]:
    negative bounds count from the end, then clamp to 0..n. *)
Definition slice_bound (n i : Z) : Z :=
  if i <? 0 then Z.max 0 (i + n) else Z.min i n.

(** l[a:b] *)
Definition py_slice {A} (l : list A) (a b : Z) : list A :=
  let lo := slice_bound (zlen l) a in
  let hi := slice_bound (zlen l) b in
  firstn (Z.to_nat (hi - lo)) (skipn (Z.to_nat lo) l).

(** l[a:] *)
Definition py_from {A} (l : list A) (a : Z) : list A := py_slice l a (zlen l).

(** l[a:b] = vs   (list slice assignment; may change the length) *)
Definition py_slice_assign {A} (l : list A) (a b : Z) (vs : list A) : list A :=
  let lo := slice_bound (zlen l) a in
  let hi := Z.max lo (slice_bound (zlen l) b) in
  firstn (Z.to_nat lo) l ++ vs ++ skipn (Z.to_nat hi) l.

(** l[i], with Python's negative indices; IndexError when out of range. *)
Definition py_get {A} (l : list A) (i : Z) : res A :=
  let j := if i <? 0 then i + zlen l else i in
  if (j <? 0) || (zlen l <=? j) then Err PyIndexError
  else match nth_error l (Z.to_nat j) with
       | Some x => Ok x
       | None => Err PyIndexError
       end.

Fixpoint list_upd {A} (l : list A) (i : nat) (v : A) : list A :=
  match l, i with
  | [], _ => []
  | _ :: t, O => v :: t
  | h :: t, S j => h :: list_upd t j v
  end.

(** l[i] = v *)
Definition py_set {A} (l : list A) (i : Z) (v : A) : res (list A) :=
  let j := if i <? 0 then i + zlen l else i in
  if (j <? 0) || (zlen l <=? j) then Err PyIndexError
  else Ok (list_upd l (Z.to_nat j) v).

(** l.insert(i, x) for 0 <= i <= len(l) (the only use, modbus.py 809). *)
Definition list_insert {A} (l : list A) (i : nat) (x : A) : list A :=
  firstn i l ++ x :: skipn i l.

(** n * s for a Python string (negative n gives the empty string). *)
Fixpoint str_rep (n : nat) (s : string) : string :=
  match n with O => EmptyString | S m => (s ++ str_rep m s)%string end.
Definition py_str_mul (n : Z) (s : string) : string := str_rep (Z.to_nat n) s.

Definition str_empty (s : string) : bool :=
  match s with EmptyString => true | _ => false end.

(** Python dict as an insertion-ordered association list. *)
Section Assoc.
  Context {K V : Type} (eqk : K -> K -> bool).
  Fixpoint assoc (k : K) (l : list (K * V)) : option V :=
    match l with
    | [] => None
    | (k', v) :: t => if eqk k k' then Some v else assoc k t
    end.
  Fixpoint assoc_del (k : K) (l : list (K * V)) : list (K * V) :=
    match l with
    | [] => []
    | (k', v) :: t => if eqk k k' then t else (k', v) :: assoc_del k t
    end.
  (** d[k] = v : update in place when present, append otherwise. *)
  Fixpoint assoc_put (k : K) (v : V) (l : list (K * V)) : list (K * V) :=
    match l with
    | [] => [(k, v)]
    | (k', v') :: t => if eqk k k' then (k', v) :: t else (k', v') :: assoc_put k v t
    end.
End Assoc.
