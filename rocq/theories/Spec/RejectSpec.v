(** How a mobile reads a PACKET ACCESS REJECT, 3GPP TS 44.060 11.2.1. *)
From Coq Require Import ZArith List Bool.
From Verif.Spec Require Import AssignSpec.
Import ListNotations.
Local Open Scope Z_scope.

(** Reject struct with a TLLI: { 0 < TLLI : bit (32) > }, then { 0 | 1 < WAIT_INDICATION : bit (8) >
    < WAIT_INDICATION_SIZE : bit (1) > }: units of seconds (0) or of 20 ms (1); the result in milliseconds. *)
Definition r_wait : reader Z := let* v := num 8 in let* size := flag in ret (v * (if size then 20 else 1000)).
Definition r_one_reject : reader (Z * option Z) :=
  let* kind := flag in if kind then fail else
  let* tlli := num 32 in let* w := opt r_wait in ret (tlli, w).
(** The block: MAC header without a poll, message type, page mode, the first Reject, and no further one. *)
Definition r_reject : reader (Z * option Z) :=
  let* _ := must 2 1 in let* _ := num 2 in let* poll := flag in if poll then fail else let* _ := num 3 in
  let* _ := must 6 0x21 in let* _ := num 2 in
  let* r := r_one_reject in
  let* again := flag in if again then fail else ret r.
