(** Model of the PACKET UPLINK ACK/NACK as a whole: write_packet_uplink_ack and the functions below it in
    src/encoding.cpp, into a vector of 23 octets that is filled with DUMMY_VEC (src/tbf_ul_ack_fsm.c).

    bitvec_write_field beyond the end of the vector fails without moving the write index.  Only the single
    bits of the uncompressed bitmap and the two bits after it can be beyond the end, so the block is the
    first 184 bits of what is written. *)
From Coq Require Import ZArith List Bool.
From Verif.Model Require Import CodingScheme RlcWindow RlcWindowUl TbfUlWindow T4 UlAckDesc Csn1Enc CtrlMsg.
Import ListNotations.
Open Scope Z_scope.

(** GSM_RESERVED_TMSI (libosmocore), the TLLI of a mobile that has none, tbf.h:299-302. *)
Definition NO_TLLI : Z := 0xffffffff.

(** What the message takes from the TBF and its mobile. *)
Record acked := mk_acked { k_tfi : Z; k_egprs : bool; k_cs : scheme; k_tlli : Z; k_ta : Z }.

(** encoding.cpp:883-888, 1078-1083 *)
Definition tlli_bits (tlli : Z) : list bool :=
  if negb (tlli =? NO_TLLI) then field_bits 1 1 ++ field_bits 32 tlli else field_bits 1 0.
(** encoding.cpp:890-897, 1087-1094; gsm48_ta_is_valid: below 64. *)
Definition ta_bits (ta : Z) : list bool :=
  if ta <? 64 then field_bits 1 1 ++ field_bits 1 1 ++ field_bits 6 ta ++ field_bits 1 0 else field_bits 1 0.

(** write_packet_ack_nack_desc_gprs, encoding.cpp:851-871 *)
Definition desc_gprs_bits (w : ul_window) (final : bool) : list bool :=
  let (ssn, rbb) := ul_report_gprs w in
  field_bits 1 (Z.b2z final) ++ field_bits 7 ssn ++ rbb.
(** write_packet_uplink_ack_gprs, encoding.cpp:873-905 *)
Definition ack_gprs_bits (a : acked) (w : ul_window) (final : bool) : list bool :=
  field_bits 2 (mcs_chan_code (k_cs a)) ++ desc_gprs_bits w final ++ tlli_bits (k_tlli a) ++ ta_bits (k_ta a) ++
  field_bits 1 0 ++ field_bits 1 0 ++ field_bits 1 0 ++ field_bits 1 1 ++ field_bits 1 0 ++ field_bits 1 1 ++ field_bits 1 0.

(** The fields of the description, encoding.cpp:1016-1058; the loop 1032-1041 writes the compressed bitmap bit
    by bit in the end. *)
Definition desc_egprs_bits (d : desc) (final : bool) : list bool :=
  field_bits 1 1 ++ field_bits 8 (a_len d) ++ field_bits 1 (Z.b2z final) ++ field_bits 1 1 ++ field_bits 1 (Z.b2z (a_eow d)) ++
  field_bits 11 (a_ssn d) ++
  match a_crbb d with
  | Some (c, b) => field_bits 1 1 ++ field_bits 7 (Z.of_nat (length b)) ++ field_bits 1 (Z.b2z c) ++ b
  | None => field_bits 1 0
  end ++ a_urbb d.
(** write_packet_uplink_ack_egprs, encoding.cpp:1061-1105, from bit [wp] on *)
Definition ack_egprs_bits (a : acked) (w : ul_window) (final : bool) (wp : Z) : option (list bool) :=
  let head := field_bits 2 0 ++ field_bits 4 (mcs_chan_code (k_cs a)) ++ field_bits 1 1 ++ field_bits 1 1 ++ field_bits 1 0 ++
    field_bits 1 0 ++ tlli_bits (k_tlli a) ++ field_bits 1 1 ++ ta_bits (k_ta a) ++ field_bits 1 0 ++ field_bits 1 0 ++ field_bits 1 0 in
  match ack_desc_egprs w (23 * 8 - (wp + Z.of_nat (length head)) - 2) with
  | Some d => Some (head ++ desc_egprs_bits d final ++ field_bits 1 0 ++ field_bits 1 0)
  | None => None
  end.

(** write_packet_uplink_ack, encoding.cpp:1107-1139, with create_ul_ack_nack, tbf_ul_ack_fsm.c:59-98. *)
Definition write_packet_uplink_ack (a : acked) (w : ul_window) (final : bool) (rrbp : Z) : option (list bool) :=
  let head := field_bits 2 1 ++ field_bits 2 rrbp ++ field_bits 1 (Z.b2z final) ++ field_bits 3 0 ++ field_bits 6 9 ++
    field_bits 2 0 ++ field_bits 2 0 ++ field_bits 5 (k_tfi a) in
  if k_egprs a then
    option_map (fun b => firstn 184 (over (head ++ field_bits 1 1 ++ b) dummy_vec)) (ack_egprs_bits a w final 24)
  else Some (firstn 184 (over (head ++ field_bits 1 0 ++ ack_gprs_bits a w final) dummy_vec)).
