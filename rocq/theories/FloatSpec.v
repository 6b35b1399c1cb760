(** What a user may expect of numbers written to registers with a data_format and read back with the same data_format.
    Real numbers and rounding are Flocq's: [B2R] is the real number a float stands for, [round radix2 (FLT_exp e p) ZnearestE] rounds
    to the nearest number with [p] significant bits (ties to even) and least exponent [e]. *)
From Coq Require Import Reals.
From Flocq Require Import Core IEEE754.BinarySingleNaN IEEE754.Binary IEEE754.Bits.
From Verif Require Import Base QueryModel DatabankModel SlaveSpec EndSpec FloatModel.
Open Scope Z_scope.

(** the nearest number of C type float / double *)
Definition nearest_float (r : R) : R := round radix2 (FLT_exp (-149) 24) ZnearestE r.
Definition nearest_double (r : R) : R := round radix2 (FLT_exp (-1074) 53) ZnearestE r.
Definition is_number (x : binary64) : bool := is_finite 53 1024 x.
Definition is_not_a_number (x : binary64) : bool := is_nan 53 1024 x.
Definition real (x : binary64) : R := B2R 53 1024 x.

(** What is read ([w]) where [v] was written, by the code of the format. *)
Definition comes_back (i : nitem) (v w : num) : Prop :=
  match i, v with
  | NCode _ _, _ => w = v
  | NPad, _ => False
  | NF64, NFloat x => if is_not_a_number x then exists y, w = NFloat y /\ is_not_a_number y = true else w = NFloat x
  | NF64, NInt z => exists y, w = NFloat y /\ is_number y = true /\ real y = nearest_double (IZR z)
  | NF32, NFloat x =>
      if is_not_a_number x then exists y, w = NFloat y /\ is_not_a_number y = true
      else if is_number x then exists y, w = NFloat y /\ is_number y = true /\ real y = nearest_float (real x) /\ Bsign 53 1024 y = Bsign 53 1024 x
      else w = NFloat x                                          (* an infinity *)
  | NF32, NInt z => exists y, w = NFloat y /\ is_number y = true /\ real y = nearest_float (nearest_double (IZR z))
  end.
Fixpoint come_back (items : list nitem) (vals vals' : list num) : Prop :=
  match items with
  | [] => vals = [] /\ vals' = []
  | NPad :: t => come_back t vals vals'
  | i :: t => match vals, vals' with v :: vs, w :: ws => comes_back i v w /\ come_back t vs ws | _, _ => False end
  end.
(** a float that no C float is near enough to *)
Definition too_large (x : binary64) : Prop := is_number x = true /\ (bpow radix2 128 <= Rabs (nearest_float (real x)))%R.

(** A call against the databank [d]: the databank afterwards, and what the call did. *)
Definition against {R} (p : proto) (d : databank) (call : (list Z -> Z -> res (list Z)) -> ncalled R) : databank * ncalled R :=
  let e := call (fun request _ => answer d p request) in
  (match nc_sent e with Some (request, _) => fst (db_handle_request d p request) | None => d end, e).

(** The bytes of a number of 32 or 64 bits, the highest first or ([little]) the lowest first. *)
Definition four_bytes (little : bool) (v : Z) : list Z :=
  let l := [v / 2 ^ 24 mod 256; v / 2 ^ 16 mod 256; v / 2 ^ 8 mod 256; v mod 256] in if little then rev l else l.
Definition eight_bytes (little : bool) (v : Z) : list Z :=
  let l := [v / 2 ^ 56 mod 256; v / 2 ^ 48 mod 256; v / 2 ^ 40 mod 256; v / 2 ^ 32 mod 256; v / 2 ^ 24 mod 256; v / 2 ^ 16 mod 256; v / 2 ^ 8 mod 256; v mod 256] in
  if little then rev l else l.
(** the C float nearest to a double, with its sign *)
Definition nearest_to (x : binary64) (y : binary32) : Prop :=
  is_finite 24 128 y = true /\ B2R 24 128 y = nearest_float (real x) /\ Bsign 24 128 y = Bsign 53 1024 x.
