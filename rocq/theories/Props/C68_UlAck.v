(** C68: the whole acknowledgement as the mobile reads it. *)
From Coq Require Import ZArith List Bool.
From Verif.Model Require Import CodingScheme TbfUlWindow UlAckDesc UlAck.
From Verif.Spec Require Import UlWindowSpec AckDescSpec AssignSpec UlAckSpec UlAckTold.
From Verif.Proofs Require Import UlWindowEx AckDescEx UlAckP UlAckEx.
Import ListNotations.
Local Open Scope Z_scope.

(** GPRS, after any history of received blocks: the block is a complete one, and what a mobile reads from it is
    its own TFI, coding, TLLI and timing advance, the poll exactly in the final one, and a bitmap about the 64
    blocks before V(R) in which a 1 means that the block has arrived. *)
Theorem C68_gprs : forall ws o a final rrbp cs, ul_reach 128 ws o -> acked_ok a -> 0 <= rrbp < 4 -> k_egprs a = false ->
  coding_told a = Some cs ->
  exists block bits, write_packet_uplink_ack a (ut_w (u_t o)) final rrbp = Some block /\ length block = 184%nat /\
    reads r_ul_ack block = Some (ack_told a final rrbp cs (GprsReport (u_R o mod 128) bits)) /\ length bits = 64%nat /\
    forall k, (k < 64)%nat ->
      (nth k bits false = true -> arrived o (u_R o - 64 + Z.of_nat k)) /\
      (no_far (u_log o) -> arrived o (u_R o - 64 + Z.of_nat k) -> nth k bits false = true).
Proof. exact gprs_told. Qed.
Print Assumptions C68_gprs.
Example C68_ex_gprs : ul_reach 128 64 uo1 /\ acked_ok gprs_ms /\ coding_told gprs_ms = Some 2 /\
  shows gprs_ms uo1 true 1
  = Some (mk_ul_ack (Some 1) 17 2 true (GprsReport 4 (repeat true 54 ++ [false] ++ repeat true 9)) (Some 0xc0ffee01) (Some 5) true).
Proof. exact (conj uo1_reach (conj (proj1 gprs_ms_ok) (conj (proj2 gprs_ms_ok) gprs_shown))). Qed.

(** EGPRS, if the blocks behind V(Q) have room without compression (78 of them in the fullest message): the report
    is complete and true. *)
Theorem C68_egprs_short : forall ws o a final rrbp cs, ul_reach 2048 ws o -> uws o <= 512 -> pending o <= room a - 24 ->
  acked_ok a -> 0 <= rrbp < 4 -> k_egprs a = true -> coding_told a = Some cs ->
  exists block bits, write_packet_uplink_ack a (ut_w (u_t o)) final rrbp = Some block /\ length block = 184%nat /\
    reads r_ul_ack block = Some (ack_told a final rrbp cs (EgprsReport ((u_Q o + 1) mod 2048) true bits)) /\
    bitmap o bits /\ Z.of_nat (length bits) = pending o.
Proof. exact egprs_short_told. Qed.
Print Assumptions C68_egprs_short.
Example C68_ex_egprs_short : ul_reach 2048 192 uo2 /\ acked_ok egprs_ms /\ coding_told egprs_ms = Some 5 /\ room egprs_ms = 102 /\
  shows egprs_ms uo2 false 0
  = Some (mk_ul_ack None 3 5 false (EgprsReport 2047 true ([true; true; false] ++ repeat true 11)) (Some 0xc0ffee01) (Some 5) true).
Proof. exact (conj uo2_reach (conj (proj1 egprs_ms_ok) (conj (proj1 (proj2 egprs_ms_ok)) (conj (proj2 (proj2 egprs_ms_ok)) egprs_shown)))). Qed.

(** EGPRS, compressed or not. Missing for the full statement: more than 255 blocks, a run cut by the compressor
    (C07_count_refuted, C07_makeup_refuted), and a description longer than its room (below). *)
Theorem C68_egprs_partial : forall ws o a final rrbp cs, ul_reach 2048 ws o -> uws o <= 512 -> pending o <= 255 -> no_cut o (room a - 40) ->
  (forall d, ack_desc_egprs (ut_w (u_t o)) (room a) = Some d -> desc_bits d <= room a) ->
  acked_ok a -> 0 <= rrbp < 4 -> k_egprs a = true -> coding_told a = Some cs ->
  exists block eow bits, write_packet_uplink_ack a (ut_w (u_t o)) final rrbp = Some block /\ length block = 184%nat /\
    reads r_ul_ack block = Some (ack_told a final rrbp cs (EgprsReport ((u_Q o + 1) mod 2048) eow bits)) /\
    bitmap o bits /\ Z.of_nat (length bits) <= pending o /\ (eow = true <-> Z.of_nat (length bits) = pending o).
Proof. exact egprs_told. Qed.
Print Assumptions C68_egprs_partial.
Example C68_ex_egprs : ul_reach 2048 512 o_good /\ uws o_good <= 512 /\ pending o_good = 167 /\ no_cut o_good (room egprs_ms - 40) /\
  (forall d, ack_desc_egprs (ut_w (u_t o_good)) 102 = Some d -> desc_bits d <= 102).
Proof. exact (conj (proj1 good_reach) (conj (proj1 (proj2 good_reach)) (conj (proj2 (proj2 good_reach)) (conj good_no_cut good_fits)))). Qed.

(** The description can be longer than its room; the bits that do not fit are dropped, but the length field says
    otherwise: the mobile cannot read the message. *)
Theorem C68_egprs_spill_refuted : exists o a block, ul_reach 2048 512 o /\ uws o <= 512 /\ pending o <= 255 /\ no_cut o (room a - 40) /\
  acked_ok a /\ k_egprs a = true /\ coding_told a <> None /\
  write_packet_uplink_ack a (ut_w (u_t o)) false 0 = Some block /\ reads r_ul_ack block = None.
Proof. exact spill_refuted. Qed.
Print Assumptions C68_egprs_spill_refuted.
