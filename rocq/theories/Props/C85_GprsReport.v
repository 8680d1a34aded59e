(** C85: what a mobile reports in a PACKET DOWNLINK ACK/NACK is what the downlink window learns. *)
From Coq Require Import ZArith List Bool.
From Verif Require Import Model.Csn1 Model.Csn1Tables Model.RlcWindow Model.RlcWindowDl Model.TbfDlWindow Model.GprsReport
  Spec.UlControlSpec Spec.GprsReportSpec Spec.DlWindowSpec Proofs.Csn1Ex Proofs.GprsReportP.
Import ListNotations.
Open Scope Z_scope.

(** From the octets on the air to the state of every outstanding block, for every history of the transfer and every
    report whose SSN is not behind the last block sent. *)
Theorem C85_report : forall msg, octets msg -> (23 <= length msg)%nat -> forall s, decode_ul msg = Go s -> message_type msg = DOWNLINK_ACK_NACK ->
  forall ws o, dl_reach 128 ws o -> g_final msg = false -> (g_ssn msg - o_A o) mod 128 <= o_S o - o_A o ->
  exists bits o', gprs_told s (o_w o) = (bits, dw_va (o_w o)) /\ obs_step (DReport false bits) o = Some o' /\
    forall i, outstanding o i -> status_after o' i = match g_says msg i with Some true => DlAcked | Some false => DlNacked | None => blk o i end.
Proof. exact gprs_effect. Qed.
Print Assumptions C85_report.

(** A final acknowledgement: every outstanding block counts as received and nothing stays outstanding. *)
Theorem C85_final : forall msg, octets msg -> (23 <= length msg)%nat -> forall s, decode_ul msg = Go s -> message_type msg = DOWNLINK_ACK_NACK ->
  forall ws o, dl_reach 128 ws o -> g_final msg = true ->
  exists o', gprs_told s (o_w o) = (repeat true (Z.to_nat (o_S o - o_A o)), dw_va (o_w o)) /\
    obs_step (DReport true (repeat true (Z.to_nat (o_S o - o_A o)))) o = Some o' /\ o_A o' = o_S o'.
Proof. exact gprs_final_effect. Qed.
Print Assumptions C85_final.

(** Ten blocks sent, a report with SSN 8: eight blocks are spoken of, two are not. *)
Example C85_nonvacuous : dl_reach 128 64 g_ten /\
  octets SSN8 /\ length SSN8 = 23%nat /\ decode_ul SSN8 = Go (end_state SSN8) /\ message_type SSN8 = DOWNLINK_ACK_NACK /\
  g_final SSN8 = false /\ (g_ssn SSN8 - o_A g_ten) mod 128 <= o_S g_ten - o_A g_ten /\
  map (g_says SSN8) [0; 1; 2; 3; 4; 5; 6; 7; 8; 9] = [Some true; Some true; Some false; Some true; Some true; Some false; Some false; Some true; None; None] /\
  gprs_told (end_state SSN8) (o_w g_ten) = ([true; true; false; true; true; false; false; true], 0).
Proof. exact (conj g_ten_reach ssn8_ok). Qed.
