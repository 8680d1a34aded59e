(** The EGPRS Ack/Nack Description of a Packet Uplink Ack/Nack: /repo/src/encoding.cpp. *)
From Coq Require Import ZArith List Bool.
From Verif Require Import Base.Arith Model.RlcWindow Model.RlcWindowUl Model.T4.
Import ListNotations.
Local Open Scope Z_scope.

Record desc := mk_desc {
  a_len : Z;                           (* length *)
  a_eow : bool;                        (* END_OF_WINDOW *)
  a_ssn : Z;                           (* STARTING_SEQUENCE_NUMBER *)
  a_crbb : option (bool * list bool);  (* starting colour and compressed bitmap *)
  a_urbb : list bool }.                (* uncompressed bitmap as transmitted *)

(** write_packet_ack_nack_desc_egprs, encoding.cpp:918-1059. [rest0] is the argument
    rest_bits; BEGINNING_OF_WINDOW is always 1, FINAL_ACK_INDICATION the argument. urbb_len
    is a 32 bit unsigned, the length and the loop counter are 8 bits wide.
    None: crbb_bitmap[23] overflows, or there is no room for the fixed part. *)
Definition ack_desc_egprs (w : ul_window) (rest0 : Z) : option desc :=
  let ssn := umod w (uw_vq w + 1) in
  let esn0 := umod w (ssn - 1) in
  let nb0 := umod w (uw_vr w - uw_vq w) in
  let nb1 := if nb0 >? 0 then nb0 - 1 else nb0 in
  let num_blocks := if nb1 >? uw_ws w then uw_ws w else nb1 in
  let rest := rest0 - 24 in
  if (rest <? 16) then None else
  let try := num_blocks >? rest in
  let bm := ul_update_egprs_rbb w in
  let '(out, crbb, uclen, ok) := if try then compress_rbb bm ((rest - 16) mod 256) else ([], [], 0, false) in
  if 23 * 8 <? Z.of_nat (length out) then None else
  let crbb_len := if ok then Z.of_nat (length crbb) else 0 in
  let uclen := if ok then uclen else 0 in
  let rest := if ok then rest - 8 else rest in
  let eow := negb (num_blocks >? uclen + rest) in
  let urbb_len := (if num_blocks >? uclen + rest then rest - crbb_len else num_blocks - uclen) mod 2 ^ 32 in
  let len := (if ok then urbb_len + crbb_len + 23 else urbb_len + 15) mod 256 in
  let esn := if ok then umod w (esn0 + uclen) else esn0 in
  Some (mk_desc len eow ssn (if ok then Some (hd false bm, crbb) else None)
    (map (fun k => vn_is_received w (esn + Z.of_nat k)) (rev (seq 1 (Z.to_nat (urbb_len mod 256)))))).
