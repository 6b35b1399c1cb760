(** Specification vocabulary for the CRC and for line errors (no model code here). *)
From Verif Require Import Base.

(** One step of the bit-serial register: shift right, and when the bit shifted out
    is 1 add the reflected polynomial 0xA001. *)
Definition crc_shift (r : Z) : Z :=
  if Z.odd r then Z.lxor (Z.shiftr r 1) 0xA001 else Z.shiftr r 1.

(** The textbook algorithm (MODBUS over serial line, appendix B): add the byte to the
    register, then shift eight times. *)
Definition crc_step (r byte : Z) : Z := Nat.iter 8 crc_shift (Z.lxor r byte).

(** CRC-16/MODBUS of a byte string: start from 0xFFFF. *)
Definition crc16_modbus (data : list Z) : Z := fold_left crc_step data 0xFFFF.

(** The low byte of the CRC is sent first. *)
Definition crc_bytes (data : list Z) : list Z :=
  [crc16_modbus data mod 256; crc16_modbus data / 256].

(** A frame with its checksum. *)
Definition sealed (data : list Z) : list Z := data ++ crc_bytes data.

(** The k-th bit on the wire: bytes in order, least significant bit first. *)
Definition wire_bit (frame : list Z) (k : nat) : bool :=
  Z.testbit (nth (k / 8) frame 0) (Z.of_nat (k mod 8)).

(** The positions of the bits in which two frames of the same length differ. *)
Definition flipped (sent received : list Z) : list nat :=
  filter (fun k => xorb (wire_bit sent k) (wire_bit received k)) (seq 0 (8 * length sent)).

(** Kinds of line errors. *)
Definition odd_error (sent received : list Z) : Prop :=
  Nat.odd (length (flipped sent received)) = true.
Definition burst_error (width : nat) (sent received : list Z) : Prop :=
  flipped sent received <> [] /\
  exists k, forall i, In i (flipped sent received) -> (k <= i < k + width)%nat.
Definition double_error (sent received : list Z) : Prop :=
  length (flipped sent received) = 2%nat.

(** The errors a 16-bit CRC is expected to catch in a frame of at most 4095 bytes. *)
Definition line_noise (sent received : list Z) : Prop :=
  odd_error sent received \/ burst_error 16 sent received \/
  (double_error sent received /\ (length sent <= Z.to_nat 4095)%nat).
