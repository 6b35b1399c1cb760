(** Specification vocabulary for Modbus/TCP frames. *)
From Verif Require Import Base Spec.

(** MODBUS/TCP: transaction id, protocol id, length (of what follows), unit id, PDU. *)
Definition tcp_frame (tid pid uid : Z) (pdu : list Z) : list Z :=
  word tid ++ word pid ++ word (zlen pdu + 1) ++ uid :: pdu.
