(** The PACKET DOWNLINK ACK/NACK as 3GPP TS 44.060, 11.2.6, 12.3 lays it out. *)
From Coq Require Import ZArith List Bool.
From Verif Require Import Spec.UlControlSpec.
Open Scope Z_scope.

Section Message.
Variable m : list Z.
(** MAC header (8 bits), message type (6), TFI (5); then the acknowledgement description: final (1), SSN (7) and the
    bitmap, of which bit number 64 comes first. *)
Definition g_final : bool := field m 19 1 =? 1.
Definition g_ssn : Z := field m 20 7.
Definition g_bit (b : Z) : bool := field m (27 + (64 - b)) 1 =? 1.
(** Bit number [b], 1 to 64, is about the block SSN - [b], modulo 128. *)
Definition g_says (i : Z) : option bool :=
  let b := (g_ssn - i) mod 128 in if (1 <=? b) && (b <=? 64) then Some (g_bit b) else None.
End Message.
