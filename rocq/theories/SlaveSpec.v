(** Specification vocabulary for slaves: what it means for a block to hold an
    address range, for a request to be served, and for a write to change
    exactly an address range.  Nothing here mentions the model's functions. *)
From Verif Require Import Base Spec Defines SlaveModel.

(** The blocks of a table (block type); none when the memory has no such table. *)
Definition blocks (s : slave) (t : btype) : list block :=
  match get4 (sl_alias s) t with
  | Some r => get4 (sl_lists s) r
  | None => []
  end.
Definition has_table (s : slave) (t : btype) : Prop := get4 (sl_alias s) t <> None.
(** Two types bound to one list object (always [t = t'] with the default memory). *)
Definition same_table (s : slave) (t t' : btype) : Prop :=
  get4 (sl_alias s) t = get4 (sl_alias s) t'.

(** [b] contains all of the addresses a .. a+n-1. *)
Definition covers (b : block) (a n : Z) : Prop :=
  b_start b <= a /\ a + n <= b_start b + b_size b.
(** [b] contains the address [a]. *)
Definition holds (b : block) (a : Z) : Prop := b_start b <= a < b_start b + b_size b.

(** [l = l1 ++ b :: l2] and [b] is the first block of [l] covering the range. *)
Definition serving (l : list block) (a n : Z) (l1 : list block) (b : block) (l2 : list block) : Prop :=
  l = l1 ++ b :: l2 /\ covers b a n /\ (forall b', In b' l1 -> ~ covers b' a n).
Definition served_by (s : slave) (t : btype) (a n : Z) (b : block) : Prop :=
  exists l1 l2, serving (blocks s t) a n l1 b l2.
Definition not_covered (s : slave) (t : btype) (a n : Z) : Prop :=
  forall b, In b (blocks s t) -> ~ covers b a n.

(** The values of [n] cells from address [a]. *)
Definition values_at (b : block) (a n : Z) : list Z :=
  firstn (Z.to_nat n) (skipn (Z.to_nat (a - b_start b)) (b_data b)).

(** [b] with the cells from address [a] on replaced by [vals]. *)
Definition overlay (b : block) (a : Z) (vals : list Z) : block :=
  {| b_start := b_start b; b_size := b_size b;
     b_data := firstn (Z.to_nat (a - b_start b)) (b_data b) ++ vals
               ++ skipn (Z.to_nat (a - b_start b + zlen vals)) (b_data b) |}.

(** Every cell a block declares exists. *)
Definition wf_block (b : block) : Prop :=
  0 <= b_start b /\ 0 < b_size b /\ zlen (b_data b) = b_size b.
Definition wf_slave (s : slave) : Prop := forall t, Forall wf_block (blocks s t).

(** [s'] is [s] except for the contents of the list object of table [t]. *)
Definition frame (s s' : slave) (t : btype) : Prop :=
  sl_unsigned s' = sl_unsigned s /\ sl_names s' = sl_names s /\ sl_alias s' = sl_alias s /\
  (forall t', same_table s t t' -> blocks s' t' = blocks s' t) /\
  (forall t', ~ same_table s t t' -> blocks s' t' = blocks s t').

(** [s'] is [s] with exactly the cells a.. of table [t] replaced by [vals]. *)
Definition wrote (s : slave) (t : btype) (a : Z) (vals : list Z) (s' : slave) : Prop :=
  exists l1 b l2,
    serving (blocks s t) a (zlen vals) l1 b l2 /\
    blocks s' t = l1 ++ overlay b a vals :: l2 /\
    frame s s' t.

(** No address belongs to two blocks of the list (positions, so duplicates count). *)
Definition disjoint_blocks (l : list block) : Prop :=
  forall i j b b', i <> j -> nth_error l i = Some b -> nth_error l j = Some b' ->
  forall a, holds b a -> holds b' a -> False.

(** Same cells, same layout (used to say that a request keeps the structure). *)
Definition same_shape (b b' : block) : Prop :=
  b_start b' = b_start b /\ b_size b' = b_size b /\ length (b_data b') = length (b_data b).
Definition same_layout (s s' : slave) : Prop :=
  sl_unsigned s' = sl_unsigned s /\ sl_names s' = sl_names s /\ sl_alias s' = sl_alias s /\
  forall t, Forall2 same_shape (blocks s t) (blocks s' t).
(** The cell of [b] at address [a]. *)
Definition cell (b : block) (a : Z) : option Z :=
  if a <? b_start b then None else nth_error (b_data b) (Z.to_nat (a - b_start b)).

(** The 16-bit number at bytes i, i+1 of a PDU. *)
Definition be16 (pdu : list Z) (i : nat) : Z := nth i pdu 0 * 256 + nth (S i) pdu 0.

(** The table and address range a write request names (Modbus specification):
    5 and 6: one cell; 15 and 16: quantity in bytes 3-4; 22: one register;
    23: write address and quantity in bytes 5-8.  Other codes name none. *)
Definition write_range (pdu : list Z) : option (btype * Z * Z) :=
  match pdu with
  | [] => None
  | fc :: _ =>
      if fc =? 5 then Some (COILS, be16 pdu 1, 1)
      else if fc =? 6 then Some (HOLDING_REGISTERS, be16 pdu 1, 1)
      else if fc =? 15 then Some (COILS, be16 pdu 1, be16 pdu 3)
      else if fc =? 16 then Some (HOLDING_REGISTERS, be16 pdu 1, be16 pdu 3)
      else if fc =? 22 then Some (HOLDING_REGISTERS, be16 pdu 1, 1)
      else if fc =? 23 then Some (HOLDING_REGISTERS, be16 pdu 5, be16 pdu 7)
      else None
  end.
(** The function codes the library implements. *)
Definition supported (fc : Z) : Prop := In fc [1; 2; 3; 4; 5; 6; 7; 15; 16; 22; 23].

(** All stored cells of register tables can be packed. *)
Definition all_fit (s : slave) : Prop :=
  forall t b v, In b (blocks s t) -> In v (b_data b) -> fits (sl_unsigned s) v.

(** The table a read request addresses. *)
Inductive reg_table : Z -> btype -> Prop :=
| RT3 : reg_table 3 HOLDING_REGISTERS
| RT4 : reg_table 4 ANALOG_INPUTS.
Inductive bit_table : Z -> btype -> Prop :=
| BT1 : bit_table 1 COILS
| BT2 : bit_table 2 DISCRETE_INPUTS.

(** Bit [k] of a byte string, least significant bit of the first byte first. *)
Definition bit_of (data : list Z) (k : Z) : Z :=
  if Z.testbit (nth (Z.to_nat (k / 8)) data 0) (k mod 8) then 1 else 0.
Definition bits_of (data : list Z) (n : nat) : list Z :=
  map (fun k => bit_of data (Z.of_nat k)) (seq 0 n).

(** The bytes a write request announces are all there. *)
Definition complete (pdu : list Z) : Prop :=
  match hd 0 pdu with
  | 15 | 16 => 6 <= zlen pdu /\ 6 + nth 5 pdu 0 <= zlen pdu
  | 23 => 10 <= zlen pdu /\ 10 + nth 9 pdu 0 <= zlen pdu
  | _ => True
  end.

(** a positive answer: a response starting with the function code, or the silence after a broadcast *)
Definition positive (pdu : list Z) (bc : bool) (r : res (list Z)) : Prop :=
  if bc then r = Ok [] else exists resp, r = Ok (hd 0 pdu :: resp).

(** The fixed part of each request (function code included). *)
Definition fixed_length (fc : Z) : Z :=
  match fc with
  | 1 | 2 | 3 | 4 | 5 | 6 => 5
  | 15 | 16 => 6
  | 22 => 7
  | 23 => 10
  | _ => 1
  end.
(** A request that is long enough: the fixed part and the announced data are there. *)
Definition well_formed (pdu : list Z) : Prop :=
  bytes pdu /\ pdu <> [] /\ hd 0 pdu < 128 /\ fixed_length (hd 0 pdu) <= zlen pdu /\ complete pdu.
(** All four tables exist (always so with the default memory). *)
Definition all_tables (s : slave) : Prop := forall t, has_table s t.
