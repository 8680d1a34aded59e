(** C01-C04: the downlink RLC window. *)
From Coq Require Import ZArith List Bool.
From Verif Require Import Base.Arith Model.RlcWindow Model.RlcWindowDl Model.TbfDlWindow
  Spec.DlWindowSpec Proofs.DlWindowI Proofs.DlWindowProps Proofs.DlWindowEx.
Import ListNotations.
Local Open Scope Z_scope.

(** C01. In every reachable state at most a window of blocks is outstanding, and
    "distance", "stalled" and "empty" mean what they say, although V(S) and V(A) are
    only known modulo the sequence number space. *)
Theorem C01_dl_window_never_overruns : forall sns ws o, dl_reach sns ws o ->
  0 <= o_S o - o_A o <= dw_ws (o_w o) /\
  dl_distance (o_w o) = o_S o - o_A o /\
  (dl_stalled (o_w o) = true <-> o_S o - o_A o = dw_ws (o_w o)) /\
  (dl_empty (o_w o) = true <-> o_S o = o_A o) /\
  dw_vs (o_w o) = o_S o mod sns /\ dw_va (o_w o) = o_A o mod sns.
Proof. exact c01_window. Qed.
Print Assumptions C01_dl_window_never_overruns.

(** No operation runs into a failed assertion or an endless loop. *)
Theorem C01_dl_window_total : forall sns ws o op, dl_reach sns ws o -> ws_grows op (o_w o) ->
  exists o', obs_step op o = Some o'.
Proof. exact step_total. Qed.
Print Assumptions C01_dl_window_total.

(** If the window size is reduced below what is outstanding, the "stalled" test
    (an equality) misses and the window overruns. *)
Theorem C01_shrinking_window_refuted :
  match run_from 2048 192 ops_shrink with
  | Some o => dw_ws (o_w o) < o_S o - o_A o /\ dl_stalled (o_w o) = false
  | None => False
  end.
Proof. exact shrink_witness. Qed.
Print Assumptions C01_shrinking_window_refuted.

(** A reachable, full window beyond the wrap-around of its block numbers. *)
Example C01_nonvacuous : dl_reach 128 64 o_wrap /\
  o_A o_wrap = 140 /\ o_S o_wrap = 204 /\ dl_stalled (o_w o_wrap) = true /\
  dw_va (o_w o_wrap) = 12 /\ dw_vs (o_w o_wrap) = 76 /\
  last_about 139 (o_log o_wrap) = Some (AckRep 139) /\
  last_about 141 (o_log o_wrap) = Some (AckRep 141) /\
  last_about 140 (o_log o_wrap) = Some (Sent 140).
Proof. exact (conj wrap_reach wrap_facts). Qed.

(** C02. Whatever the operation (other than the final acknowledgement, which ends the
    transfer), each block the lower edge passes has an acknowledgement as its latest
    event: it was acknowledged after it was last sent and not negatively since. *)
Theorem C02_only_acked_blocks_are_passed : forall sns ws o op o',
  dl_reach sns ws o -> ws_grows op (o_w o) -> obs_step op o = Some o' ->
  op <> DReport true (match op with DReport _ b => b | _ => [] end) ->
  forall i, o_A o <= i < o_A o' -> last_about i (o_log o') = Some (AckRep i).
Proof. exact c02_passed. Qed.
Print Assumptions C02_only_acked_blocks_are_passed.

(** The lower edge itself is never an acknowledged block. *)
Theorem C02_lower_edge_unacked : forall sns ws o, dl_reach sns ws o -> outstanding o (o_A o) ->
  last_about (o_A o) (o_log o) <> Some (AckRep (o_A o)) /\ blk o (o_A o) <> DlAcked.
Proof. exact c02_edge. Qed.
Print Assumptions C02_lower_edge_unacked.

(** The stored state of an outstanding block agrees with the history. *)
Theorem C02_state_matches_history : forall sns ws o i, dl_reach sns ws o -> outstanding o i ->
  (blk o i = DlAcked <-> last_about i (o_log o) = Some (AckRep i)) /\
  (last_about i (o_log o) = Some (NackRep i) -> blk o i = DlNacked).
Proof. exact c02_log_state. Qed.
Print Assumptions C02_state_matches_history.

Example C02_nonvacuous : dl_reach 128 64 o_wrap /\ outstanding o_wrap (o_A o_wrap).
Proof. exact (conj wrap_reach wrap_outstanding). Qed.

(** C03. *)
Theorem C03_oldest_resend_first : forall sns ws o, dl_reach sns ws o ->
  (exists i, dl_resend_needed (o_w o) = Some (i mod sns) /\ outstanding o i /\
     needs_resend (blk o i) /\
     forall j, o_A o <= j < i -> ~ needs_resend (blk o j)) \/
  (dl_resend_needed (o_w o) = Some (-1) /\
     forall j, outstanding o j -> ~ needs_resend (blk o j)).
Proof. exact c03_oldest. Qed.
Print Assumptions C03_oldest_resend_first.

Theorem C03_mark_for_resend : forall sns ws o, dl_reach sns ws o ->
  exists w', dl_mark_for_resend (o_w o)
     = Some (w', count_out o (fun s => dl_state_eqb s DlUnacked)) /\
   dw_va w' = dw_va (o_w o) /\ dw_vs w' = dw_vs (o_w o) /\
   forall i, outstanding o i ->
     vb_get w' (i mod sns) = match blk o i with DlUnacked => DlResend | s => s end.
Proof. exact c03_mark. Qed.
Print Assumptions C03_mark_for_resend.

Theorem C03_count_unacked : forall sns ws o, dl_reach sns ws o ->
  dl_count_unacked (o_w o) = Some (count_out o (fun s => negb (dl_state_eqb s DlAcked))).
Proof. exact c03_count. Qed.
Print Assumptions C03_count_unacked.

Example C03_nonvacuous : dl_reach 128 64 o_wrap /\
  dl_count_unacked (o_w o_wrap) = Some 59 /\ dl_resend_needed (o_w o_wrap) = Some (146 mod 128).
Proof. exact (conj wrap_reach (conj eq_refl eq_refl)). Qed.

(** C04. The effect of a report whose bits start at the lower edge, and its counts. *)
Theorem C04_report_effect : forall sns ws o bits, dl_reach sns ws o ->
  exists w' o',
   tbf_rcvd_dl_ack false (dw_va (o_w o)) bits (o_w o)
     = Some (w', report_count o bits (fun b _ => negb b),
                 report_count o bits (fun b s => b && negb (dl_state_eqb s DlAcked))) /\
   obs_step (DReport false bits) o = Some o' /\ o_w o' = w' /\ o_S o' = o_S o /\
   forall i, outstanding o i ->
     status_after o' i =
       match nth_error bits (Z.to_nat (i - o_A o)) with
       | Some true => DlAcked | Some false => DlNacked | None => blk o i end.
Proof. exact c04_report. Qed.
Print Assumptions C04_report_effect.

(** A GPRS Packet Downlink Ack/Nack: blocks from V(A) to SSN - 1 get the status their
    bit states, all others keep theirs; a report whose SSN is more than 64 ahead of
    V(A) (so that its bitmap does not reach back to V(A)) has no effect. *)
Theorem C04_gprs_report : forall ws o ssn rbb bits first, dl_reach 128 ws o ->
  decode_gprs_acknack false ssn rbb (o_w o) = (bits, first) ->
  exists o', obs_step (DReport false bits) o = Some o' /\ first = dw_va (o_w o) /\
    forall i, outstanding o i ->
      status_after o' i =
        if ((ssn - o_A o) mod 128 <=? 64) && (i <? o_A o + (ssn - o_A o) mod 128)
        then gprs_bitmap_says ssn rbb i else blk o i.
Proof. exact c04_gprs. Qed.
Print Assumptions C04_gprs_report.

(** An EGPRS report with "beginning of window" and SSN - 1 inside V(A)..V(S). *)
Theorem C04_egprs_report_bow : forall sns ws o ssn crbb urbb bits first, dl_reach sns ws o ->
  (ssn - 1 - o_A o) mod sns <= o_S o - o_A o ->
  decode_egprs_acknack false true ssn crbb urbb (o_w o) = (bits, first) ->
  exists o', obs_step (DReport false bits) o = Some o' /\ first = dw_va (o_w o) /\
    forall i, outstanding o i ->
      status_after o' i
      = egprs_report_says true (o_A o + (ssn - 1 - o_A o) mod sns) (bitmap_of crbb urbb) (blk o) i.
Proof. exact c04_egprs. Qed.
Print Assumptions C04_egprs_report_bow.

(** The same without "beginning of window" is false of the code: the bitmap is applied
    from V(A) on instead of from SSN - 1, and a block the report does not mention
    becomes acknowledged. *)
Theorem C04_egprs_report_no_bow_refuted :
  exists sns ws o ssn urbb bits first o' i,
    dl_reach sns ws o /\
    (ssn - 1 - o_A o) mod sns <= o_S o - o_A o /\
    decode_egprs_acknack false false ssn None urbb (o_w o) = (bits, first) /\
    obs_step (DReport false bits) o = Some o' /\
    outstanding o i /\
    status_after o' i = DlAcked /\
    egprs_report_says false (o_A o + (ssn - 1 - o_A o) mod sns) (bitmap_of None urbb) (blk o) i
      = DlUnacked.
Proof. exact no_bow_witness. Qed.
Print Assumptions C04_egprs_report_no_bow_refuted.

(** Nor is SSN validated: a report about blocks before V(A) only (SSN = V(A), no
    bitmap) makes every outstanding block acknowledged. *)
Theorem C04_egprs_old_ssn_refuted :
  exists sns ws o ssn bits first o',
    dl_reach sns ws o /\ ssn = dw_va (o_w o) /\ o_A o < o_S o /\
    (forall i, outstanding o i -> blk o i = DlUnacked) /\
    decode_egprs_acknack false true ssn None [] (o_w o) = (bits, first) /\
    obs_step (DReport false bits) o = Some o' /\
    o_A o' = o_S o.
Proof. exact old_ssn_witness. Qed.
Print Assumptions C04_egprs_old_ssn_refuted.

Example C04_nonvacuous : dl_reach 2048 128 o_ten /\
  (6 - 1 - o_A o_ten) mod 2048 <= o_S o_ten - o_A o_ten.
Proof. exact (conj ten_reach ten_ssn). Qed.
