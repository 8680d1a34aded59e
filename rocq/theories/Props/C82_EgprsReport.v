(** C82: what a mobile reports in an EGPRS PACKET DOWNLINK ACK/NACK and what the downlink window learns. *)
From Coq Require Import ZArith List Bool.
From Verif Require Import Model.Csn1 Model.Csn1Tables Model.RlcWindow Model.RlcWindowDl Model.TbfDlWindow Model.EgprsReport
  Spec.UlControlSpec Spec.T4Spec Spec.EgprsReportSpec Spec.DlWindowSpec Proofs.DlWindowEx Proofs.Csn1Ex Proofs.EgprsReportX.
Import ListNotations.
Open Scope Z_scope.

(** From the octets on the air to the state of every outstanding block.  Full statement: for every report from the
    beginning of the window on.  Missing: reports with a bitmap that does not consist of whole octets, see the two
    refutations ([whole]). *)
Theorem C82_report_partial : forall sns ws o msg s r l, dl_reach sns ws o -> octets msg -> (23 <= length msg)%nat ->
  decode_ul msg = Go s -> message_type msg = EGPRS_DOWNLINK_ACK_NACK -> report_of msg = Some r -> says r l -> whole r ->
  r_final r = false -> r_bow r = true ->
  let q := o_A o + (r_ssn r - 1 - o_A o) mod sns in
  q <= o_S o -> q + 1 + Z.of_nat (length l) <= o_A o + 1024 ->
  exists bits o', told_bits s (o_w o) = (bits, dw_va (o_w o)) /\ obs_step (DReport false bits) o = Some o' /\
    forall i, outstanding o i -> status_after o' i = egprs_report_says true q (the_bitmap r l) (blk o) i.
Proof. exact report_effect. Qed.
Print Assumptions C82_report_partial.

(** A final acknowledgement says that every outstanding block has arrived. *)
Theorem C82_final : forall sns ws o msg s r, dl_reach sns ws o -> octets msg -> (23 <= length msg)%nat ->
  decode_ul msg = Go s -> message_type msg = EGPRS_DOWNLINK_ACK_NACK -> report_of msg = Some r -> r_final r = true ->
  told_bits s (o_w o) = (repeat true (Z.to_nat (o_S o - o_A o)), dw_va (o_w o)).
Proof. exact final_effect. Qed.
Print Assumptions C82_final.

(** An uncompressed bitmap with odd bits: a block the mobile reports as missing is taken as received. *)
Theorem C82_urbb_refuted : exists msg r l, r_crbb r = None /\ (length (r_urbb r) = 7)%nat /\
  exists sns ws o s bits o' i,
    dl_reach sns ws o /\ octets msg /\ length msg = 23%nat /\ decode_ul msg = Go s /\ message_type msg = EGPRS_DOWNLINK_ACK_NACK /\
    report_of msg = Some r /\ says r l /\ r_final r = false /\ r_bow r = true /\
    let q := o_A o + (r_ssn r - 1 - o_A o) mod sns in
    q + 1 + Z.of_nat (length l) <= o_S o /\
    told_bits s (o_w o) = (bits, dw_va (o_w o)) /\ obs_step (DReport false bits) o = Some o' /\
    outstanding o i /\ egprs_report_says true q (the_bitmap r l) (blk o) i = DlNacked /\ status_after o' i = DlAcked.
Proof. exact urbb_refuted. Qed.
Print Assumptions C82_urbb_refuted.

(** The same with a compressed bitmap. *)
Theorem C82_crbb_refuted : exists msg r l z, r_crbb r = Some (false, z) /\ (length z = 11)%nat /\ r_urbb r = [] /\
  exists sns ws o s bits o' i,
    dl_reach sns ws o /\ octets msg /\ length msg = 23%nat /\ decode_ul msg = Go s /\ message_type msg = EGPRS_DOWNLINK_ACK_NACK /\
    report_of msg = Some r /\ says r l /\ r_final r = false /\ r_bow r = true /\
    let q := o_A o + (r_ssn r - 1 - o_A o) mod sns in
    q + 1 + Z.of_nat (length l) <= o_S o /\
    told_bits s (o_w o) = (bits, dw_va (o_w o)) /\ obs_step (DReport false bits) o = Some o' /\
    outstanding o i /\ egprs_report_says true q (the_bitmap r l) (blk o) i = DlNacked /\ status_after o' i = DlAcked.
Proof. exact crbb_refuted. Qed.
Print Assumptions C82_crbb_refuted.

(** A report with all optional parts meets the hypotheses: SSN 3, blocks 3, 7, 8, 11, 13 received, of ten sent. *)
Example C82_nonvacuous : octets FULL /\ length FULL = 23%nat /\ decode_ul FULL = Go (end_state FULL) /\
  message_type FULL = EGPRS_DOWNLINK_ACK_NACK /\ report_of FULL = Some R_FULL /\ whole R_FULL /\
  says R_FULL [true; false; false; false; true; true; false; false; true; false; true] /\
  told_bits (end_state FULL) (o_w o_ten) = ([true; true; false; true; false; false; false; true; true; false; false; true; false; true], 0).
Proof. exact full_ok. Qed.
Example C82_nonvacuous_window : dl_reach 2048 128 o_ten /\ o_A o_ten + (r_ssn R_FULL - 1 - o_A o_ten) mod 2048 = 2 /\
  o_S o_ten = 10 /\ has_bitmap R_FULL = true.
Proof. exact (conj ten_reach full_meets). Qed.
