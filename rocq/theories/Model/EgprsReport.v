(** From a received EGPRS PACKET DOWNLINK ACK/NACK to the bits the downlink window is told.

    src/decoding.cpp (decode_egprs_acknack_bits), src/pdch.cpp (rcv_control_egprs_dl_ack_nack). *)
From Coq Require Import ZArith List Bool.
From Verif Require Import Model.Csn1 Model.Csn1Tables Model.T4 Model.RlcWindow Model.RlcWindowDl Model.TbfDlWindow.
Import ListNotations.
Open Scope Z_scope.

(** EGPRS_AckNack_Desc_t.CRBB_LENGTH, .CRBB_STARTING_COLOR_CODE (gsm_rlcmac.h:452-466), by their offsets.
    URBB_LENGTH ([epda_urbb_length]) is a guint16 of which the decoder writes only the low byte; the other is
    zero from the allocation and no table entry writes it. *)
Definition epda_crbb_length (s : state) : Z := u8 s 220.
Definition epda_crbb_colour (s : state) : Z := u8 s 221.
Definition epda_crbb (s : state) (k : Z) : Z := u8 s (222 + k).

(** bitvec_get_bit_pos (libosmocore) on an array of octets: the most significant bit is the first. *)
Definition array_bit (a : Z -> Z) (p : Z) : bool := Z.testbit (a (p / 8)) (7 - p mod 8).

(** The bits of the compressed bitmap as decompress_crbb reads them, egprs_rlc_compression.cpp:471-481. *)
Definition crbb_bits (s : state) : list bool :=
  map (fun k => array_bit (epda_crbb s) (Z.of_nat k)) (seq 0 (Z.to_nat (epda_crbb_length s))).
(** The loop over the uncompressed bitmap, decoding.cpp:718-731: the last bit first.  URBB_LENGTH is at
    most 184, so bitvec_get_bit_pos does not fail. *)
Definition urbb_bits (s : state) : list bool :=
  map (fun k => array_bit (epda_urbb s) (Z.of_nat k)) (rev (seq 0 (Z.to_nat (epda_urbb_length s)))).

(** decode_egprs_acknack_bits, decoding.cpp:639-737: the bits and bsn_begin.  The buffer has 1024 bits
    (pdch.cpp:544, 590-592). *)
Definition told_bits (s : state) (w : dl_window) : list bool * Z :=
  if negb (epda_final s =? 0) then handle_final_ack 1024 w else
  let crbb_len := if negb (epda_exist_crbb s =? 0) then epda_crbb_length s else 0 in
  let implicit := if negb (epda_bow s =? 0) then dmod w (epda_ssn s - 1 - dw_va w) else 0 in
  let b0 := bv_pushes 1024 [] (repeat true (Z.to_nat implicit)) in
  if negb (0 <? epda_urbb_length s + crbb_len) then (b0, dw_va w) else
  let b1 := bv_push 1024 b0 false in
  if 0 <? crbb_len then
    let '(rc, b2) := decompress_crbb 1024 (negb (epda_crbb_colour s =? 0)) (crbb_bits s) b1 in
    if rc then (bv_pushes 1024 b2 (urbb_bits s), dw_va w) else (b2, dw_va w)
  else (bv_pushes 1024 b1 (urbb_bits s), dw_va w).
