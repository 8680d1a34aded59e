(** C70: the error rate that steers the downlink coding scheme is that of the blocks a report is about. *)
From Coq Require Import ZArith List Bool.
From Verif Require Import Base.Arith Model.CodingScheme Model.RlcWindow Model.RlcWindowDl Model.DlErrors
  Spec.DlWindowSpec Spec.DlErrorsSpec Proofs.DlErrorsP Proofs.DlErrorsEx.
Import ListNotations.
Local Open Scope Z_scope.

(** GPRS: the counts are those of the blocks reported. *)
Theorem C70_gprs : forall ws o t cur bits, dl_reach 128 ws o ->
  report_errors (o_w o) t cur bits (dw_va (o_w o)) = counted 128 o t cur bits.
Proof. exact errors_gprs. Qed.
Print Assumptions C70_gprs.

(** Full statement: the same with every sequence number space.  Proved: if the number behind the last block reported is below 256. *)
Theorem C70_egprs_partial : forall sns ws o t cur bits, dl_reach sns ws o ->
  (o_A o + Z.min (Z.of_nat (length bits)) (o_S o - o_A o)) mod sns < 256 ->
  report_errors (o_w o) t cur bits (dw_va (o_w o)) = counted sns o t cur bits.
Proof. exact errors_counted. Qed.
Print Assumptions C70_egprs_partial.

(** Missing: behind it the state and scheme of other blocks are looked at.  Both blocks sent are lost, but the rate is 18%. *)
Theorem C70_egprs_refuted : exists sns ws o t cur bits, dl_reach sns ws o /\
  ana_rate (counted sns o t cur bits) = 100 /\
  ana_rate (report_errors (o_w o) t cur bits (dw_va (o_w o))) = 18.
Proof. exact (ex_intro _ 2048 (ex_intro _ 192 (ex_intro _ o_resent (ex_intro _ all_mcs3 (ex_intro _ MCS3 (ex_intro _ both_lost
  (conj resent_reach (proj2 (proj2 resent_witness))))))))). Qed.
Print Assumptions C70_egprs_refuted.

(** Ten blocks sent with the new scheme are all lost, and no rate is found. *)
Theorem C70_egprs_blind_refuted : exists sns ws o t cur bits, dl_reach sns ws o /\
  ana_rate (counted sns o t cur bits) = 100 /\
  ana_rate (report_errors (o_w o) t cur bits (dw_va (o_w o))) = -1.
Proof. exact (ex_intro _ 2048 (ex_intro _ 192 (ex_intro _ o_new (ex_intro _ new_scheme (ex_intro _ MCS3 (ex_intro _ (repeat false 10)
  (conj new_reach (proj2 (proj2 blind_witness))))))))). Qed.
Print Assumptions C70_egprs_blind_refuted.

(** The rate is the share of lost blocks in per cent, rounded down; unknown with less than two blocks. *)
Theorem C70_rate : forall sns o t cur bits, let a := counted sns o t cur bits in
  (n_lost a + n_received a <= 1 -> ana_rate a = -1) /\
  (n_lost a + n_received a > 1 -> 0 <= ana_rate a <= 100 /\
     ana_rate a * (n_lost a + n_received a) <= 100 * n_lost a < (ana_rate a + 1) * (n_lost a + n_received a)).
Proof. exact rate_spec. Qed.
Print Assumptions C70_rate.

Example C70_nonvacuous : dl_reach 128 64 o_gprs /\
  counted 128 o_gprs (mk_store (fun _ => CS2) (fun _ => 33)) CS2 (repeat true 15 ++ repeat false 5) = mk_ana 15 5 15 495 5 165.
Proof. exact (conj gprs_reach (proj2 (proj2 gprs_counts))). Qed.
