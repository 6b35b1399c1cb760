(** Small specification vocabulary, independent of the model:
    how Modbus writes 16-bit words and bit strings on the wire. *)
From Verif Require Import Base.

(** A 16-bit word, most significant byte first (negative values in two's complement). *)
Definition word (v : Z) : list Z := [(v / 256) mod 256; v mod 256].
Definition words (l : list Z) : list Z := flat_map word l.

(** A value that a 16-bit register of the given signedness can hold. *)
Definition fits (unsigned : bool) (v : Z) : Prop :=
  if unsigned then 0 <= v < 65536 else - 32768 <= v < 32768.

(** The register value that a 16-bit pattern [w] denotes. *)
Definition reg_of_word (unsigned : bool) (w : Z) : Z :=
  if unsigned then w else if w <? 32768 then w else w - 65536.

(** Ceiling of n/8. *)
Definition bytes_for_bits (n : Z) : Z := (n + 7) / 8.

(** [packs_bits vals out]: [out] is the bit string [vals] (nonzero = 1), least
    significant bit first, in the smallest number of bytes, padded with zeros. *)
Definition packs_bits (vals out : list Z) : Prop :=
  zlen out = bytes_for_bits (zlen vals) /\
  bytes out /\
  (forall k, 0 <= k < 8 * zlen out ->
     Z.testbit (nth (Z.to_nat (k / 8)) out 0) (k mod 8) =
     negb (nth (Z.to_nat k) vals 0 =? 0)).
