(** Model of how the messages of a cell change are put into the structures of src/gsm_rlcmac.h and
    encoded: write_packet_neighbour_cell_data and write_packet_cell_change_continue of
    src/encoding.cpp, and their callers in src/nacc_fsm.c; and of write_packet_access_reject of
    src/encoding.cpp with its caller in src/tbf_ul_ass_fsm.c.

    Model/Nacc.v has the bits of the first two messages as the procedure uses them; here they come out of the
    encoder.  The structures are RlcMacDownlink_t.u, at the offsets the tables of Csn1Tables.v use. *)
From Coq Require Import ZArith List Bool.
From Verif.Model Require Import NeighCache Paging Nacc Csn1 Csn1Tables Csn1Enc Assign.
Import ListNotations.
Open Scope Z_scope.

(** The members of the Global TFI at offset 2, encoding.cpp:1766-1771, 1792-1797: the two alternatives
    are at the same place. *)
Definition global_tfi (dl : bool) (tfi : Z) (m : Z -> Z) : Z -> Z := st true 3 tfi (st true 2 (Z.b2z dl) m).

(** The container, PNCDContainer_t (gsm_rlcmac.h:4638-4646), zeroed, then filled, nacc_fsm.c:87-121.  [psi]:
    type_psi; [rest]: the system information from si_info_bytes_sent on; [left]: len_to_write. *)
Definition fill_container (first psi : bool) (arfcn bsic left : Z) (rest : list Z) : Z -> Z :=
  let si_type := if psi then 1 else 0 in
  let m := fun _ => 0 in
  let m := if first then st true 4 bsic (st16 true 2 arfcn (st true 0 1 m)) else st true 0 0 m in
  let buf := if first then 5 else 2 in
  let max_len := if first then 17 - 1 else 19 - 1 in
  if left =? 0 then st true buf (Z.lor (Z.shiftl si_type 5) 0) m
  else if left >=? max_len then
    copy true (buf + 1) (firstn (Z.to_nat max_len) rest) (st true buf (Z.lor (Z.shiftl si_type 5) 0x1f) m)
  else copy true (buf + 1) (firstn (Z.to_nat left) rest) (st true buf (Z.lor (Z.shiftl si_type 5) (Z.land left 0x1f)) m).

(** write_packet_neighbour_cell_data, encoding.cpp:1753-1776, into a structure that is all zero.  The container
    (22 octets) is copied to offset 8. *)
Definition write_packet_neighbour_cell_data (dl : bool) (tfi id idx : Z) (cont : Z -> Z) : Z -> Z :=
  let m := global_tfi dl tfi (st true 1 0 (st true 0 0x0c (fun _ => 0))) in
  let m := st true 6 idx (st true 5 0 (st true 4 id m)) in
  fun a => if (8 <=? a) && (a <? 30) then cont (a - 8) else m a.

(** create_packet_neighbour_cell_data, nacc_fsm.c:73-157: the block.  container_idx is a uint8_t for the
    function that writes it. *)
Definition encode_data (c : create) (n : nacc) : option (list bool) :=
  let first := n_idx n =? 0 in
  let cont := fill_container first (n_psi n) (k_arfcn (n_key n)) (k_bsic (n_key n))
                (sz (Z.of_nat (length (n_si n)) - n_sent n)) (skipn (Z.to_nat (n_sent n)) (n_si n)) in
  encode_dl (write_packet_neighbour_cell_data (cr_dl c) (cr_tfi c) 0 (n_idx n mod 256) cont)
    T_Packet_Neighbour_Cell_Data_t 1 0 0 0.

(** write_packet_cell_change_continue, encoding.cpp:1778-1806, into a structure that is all zero. *)
Definition write_packet_cell_change_continue (dl : bool) (tfi : Z) (exist : bool) (arfcn bsic id : Z) : Z -> Z :=
  let m := global_tfi dl tfi (st true 1 0 (st true 0 0x0b (fun _ => 0))) in
  let m := st true 4 (Z.b2z exist) m in
  let m := st exist 8 bsic (st16 exist 6 arfcn m) in
  st true 9 id m.

(** create_packet_cell_chg_continue, nacc_fsm.c:160-215: the block, with the RRBP of the poll. *)
Definition encode_continue (rrbp : Z) (c : create) (n : nacc) : option (list bool) :=
  encode_dl (write_packet_cell_change_continue (cr_dl c) (cr_tfi c) (n_present n) (k_arfcn (n_key n)) (k_bsic (n_key n)) 0)
    T_Packet_Cell_Change_Continue_t 1 rrbp 1 0.

(** bitvec_write_field over a vector that has a content: the bits from the write index on are replaced. *)
Definition over (w vec : list bool) : list bool := w ++ skipn (length w) vec.
(** DUMMY_VEC, gprs_rlcmac.h:44: 23 octets 0x2b. *)
Definition dummy_vec : list bool := flat_map (field_bits 8) (repeat 0x2b 23).

(** write_packet_access_reject, encoding.cpp:1728-1751, and create_packet_access_reject,
    tbf_ul_ass_fsm.c:60-82; t3172 in milliseconds. *)
Definition packet_access_reject (tlli t3172 : Z) : list bool :=
  over (field_bits 2 1 ++ field_bits 2 0 ++ field_bits 1 0 ++ field_bits 3 0 ++ field_bits 6 0x21 ++ field_bits 2 0 ++
        field_bits 1 0 ++ field_bits 32 tlli ++ field_bits 1 1 ++
        (if t3172 / 20 <=? 255 then field_bits 8 (t3172 / 20) ++ field_bits 1 1
         else field_bits 8 (t3172 / 1000) ++ field_bits 1 0)) dummy_vec.
