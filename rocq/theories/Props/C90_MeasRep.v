(** C90: the figures of throughput, loss and received level of a transfer. *)
From Coq Require Import ZArith List Bool Lia.
From Verif Require Import Model.MeasRep Spec.MeasRepSpec Proofs.MeasRepP.
Import ListNotations.
Local Open Scope Z_scope.

(** The spans the figures are about: every observation is in one span or still to be reported,
    in order, and there is no gap between them. *)
Theorem C90_spans : forall (A : Type) from (h : list (Z * A)),
  concat (map sp_what (spans_of from h)) ++ left_over from h = map snd h /\ gapless from (spans_of from h).
Proof. intro A. exact spans_ok. Qed.
Print Assumptions C90_spans.
Example C90_ex_spans : spans_of 0 [(300000000, 5); (1200000000, 6); (1300000000, 7); (4000000000, 8); (4100000000, 9)]
  = [mk_span 0 1200000000 [5; 6]; mk_span 1200000000 4000000000 [7; 8]].
Proof. vm_compute. reflexivity. Qed.

(** Throughput. The operator is shown kilobits per second. The full statement would be
    [Forall2 kilobits_per_second (spans_of from h) (snd (bw_run h (bw_start from)))]. Proved: the
    figures are octets per second, one for each span, not too low and at most 4 % too high. *)
Theorem C90_throughput_partial : forall from h,
  Forall (fun x => 0 <= snd x) h -> Forall (fun s => sum (sp_what s) < 2 ^ 22) (spans_of from h) ->
  Forall2 octets_per_second (spans_of from h) (snd (bw_run h (bw_start from))).
Proof. exact throughput_ok. Qed.
Print Assumptions C90_throughput_partial.
Example C90_ex_throughput : snd (bw_run [(300000000, 1500); (1200000000, 1500); (1300000000, 40); (4000000000, 1000)] (bw_start 0)) = [2530; 378].
Proof. vm_compute. reflexivity. Qed.
(** What is shown is the last figure, 0 before the first. *)
Theorem C90_throughput_shown : forall from h,
  bw_thr (fst (bw_run h (bw_start from))) = last (snd (bw_run h (bw_start from))) 0.
Proof. exact shown_ok. Qed.
Print Assumptions C90_throughput_shown.
(** 1000 octets in a second, 8 kilobits per second, are shown as 1000. *)
Theorem C90_throughput_refuted : exists from h s v,
  spans_of from h = [s] /\ snd (bw_run h (bw_start from)) = [v] /\ duration s = SECOND /\ sum (sp_what s) = 1000
  /\ v = 1000 /\ ~ kilobits_per_second s v /\ kilobits_per_second s 8.
Proof. exact kilobits_refuted. Qed.
Print Assumptions C90_throughput_refuted.

(** Loss: one figure for each span of reports that tell something, the percentage of lost
    blocks, if fewer than 2^16 blocks are reported on in each. *)
Theorem C90_loss : forall from h, Forall small_report h ->
  Forall (fun s => recvs (sp_what s) + losts (sp_what s) < 2 ^ 16) (spans_of from (filter informative h)) ->
  Forall2 percent_lost (spans_of from (filter informative h)) (snd (loss_run h (loss_start from))).
Proof. exact loss_ok. Qed.
Print Assumptions C90_loss.
Example C90_ex_loss : snd (loss_run [(100, (10, 2)); (200, (0, 0)); (1000000100, (3, 0)); (5000000000, (0, 0)); (5000000001, (0, 7))] (loss_start 0)) = [13; 100].
Proof. vm_compute. reflexivity. Qed.

(** Received level. The full statement would have [mean_level s v] for every span with a known
    level. Proved: for the spans in which the level of every block is known; and no sum
    overflows. *)
Theorem C90_level_partial : forall from h, Forall (fun x => int8 (snd x)) h -> Z.of_nat (length h) < 2 ^ 24 ->
  exists m l, rssi_run h (rssi_start from) = Some (m, l)
    /\ Forall2 (fun s v => Forall (fun x => x <> None) (sp_what s) -> mean_level s v) (spans_of from h) l.
Proof. exact rssi_ok. Qed.
Print Assumptions C90_level_partial.
Example C90_ex_level : option_map snd (rssi_run [(100, Some (-80)); (1000000100, Some (-91)); (3000000000, Some (-70))] (rssi_start 0)) = Some [-85; -70].
Proof. vm_compute. reflexivity. Qed.
(** A block whose level is not known counts as 0 dBm. *)
Theorem C90_level_refuted : exists from h m s v,
  rssi_run h (rssi_start from) = Some (m, [v]) /\ spans_of from h = [s] /\ known (sp_what s) = [-90; -90] /\ v = -60
  /\ ~ mean_level s v.
Proof. exact rssi_refuted. Qed.
Print Assumptions C90_level_refuted.
