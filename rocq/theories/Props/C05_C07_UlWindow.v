(** C05-C07: the uplink RLC window. *)
From Coq Require Import ZArith List Bool.
From Verif Require Import Base.Arith Model.RlcWindow Model.RlcWindowUl Model.TbfUlWindow
  Spec.UlWindowSpec Proofs.UlWindowI Proofs.UlWindowProps Proofs.UlWindowEx.
Import ListNotations.
Local Open Scope Z_scope.

(** C05. For every window size the code accepts: the k-th block delivered upwards is
    one that arrived as block number k. The lower edge counts the delivered blocks. *)
Theorem C05_delivered_once_in_order : forall sns ws o, ul_reach sns ws o ->
  Z.of_nat (length (u_out o)) = u_Q o /\
  0 <= u_Q o <= u_R o /\ u_R o <= u_Q o + uws o /\
  uw_vq (ut_w (u_t o)) = u_Q o mod sns /\ uw_vr (ut_w (u_t o)) = u_R o mod sns /\
  (forall k c, nth_error (u_out o) k = Some c -> exists far, In (Arr (Z.of_nat k) c far) (u_log o)).
Proof. exact c05_window. Qed.
Print Assumptions C05_delivered_once_in_order.

(** Seen from the mobile: if it numbers its blocks 0, 1, 2, ... with contents [f] and
    respects the window, what is delivered is [f 0; f 1; ...; f (Q - 1)], whatever is
    lost, repeated or reordered. *)
Theorem C05_delivers_what_was_sent : forall sns ws f o, ul_reach_from sns ws f o ->
  u_out o = map (fun k => f (Z.of_nat k)) (seq 0 (Z.to_nat (u_Q o))).
Proof. exact c05_sender. Qed.
Print Assumptions C05_delivers_what_was_sent.

(** No arrival runs into an endless loop or a failed assertion. *)
Theorem C05_ul_window_total : forall sns ws o op, ul_reach sns ws o -> ul_op_ok sns op o ->
  exists o', uobs_step op o = Some o'.
Proof. exact c05_total. Qed.
Print Assumptions C05_ul_window_total.

(** "All data received" is signalled only when everything up to a block with countdown
    value 0 has been delivered. *)
Theorem C05_end_of_data : forall sns ws o, ul_reach sns ws o -> uws o < 1024 -> u_fin o = true ->
  u_Q o = u_R o /\ exists c far, In (Arr (u_R o - 1) c far) (u_log o) /\ uc_cv c = 0.
Proof. exact c05_end. Qed.
Print Assumptions C05_end_of_data.

(** Two wrap-arounds of the 7-bit numbers, swapped pairs, a gap and duplicates. *)
Example C05_nonvacuous : ul_reach 128 64 uo1 /\ u_Q uo1 = 250 /\ u_R uo1 = 260 /\
  u_out uo1 = map (fun i => plain 20 15 [i]) (zseq 0 250) /\
  fst (ul_report_gprs (ut_w (u_t uo1))) = 4 /\
  snd (ul_report_gprs (ut_w (u_t uo1))) = repeat true 54 ++ [false] ++ repeat true 9.
Proof. exact (conj uo1_reach uo1_facts). Qed.
Example C05_nonvacuous_sender : ul_reach_from 128 64 fcont uo1.
Proof. exact uo1_from. Qed.
Example C05_nonvacuous_end : ul_reach 128 64 uo_end /\ u_fin uo_end = true /\ uws uo_end < 1024.
Proof. exact (conj uo_end_reach uo_end_fin). Qed.

(** C06. Every block that has arrived is acknowledged by the report built from the
    resulting state: its bit is set, or it lies below the bitmap and was delivered.
    Excluded is the arrival of the very last number of an empty GPRS window. *)
Theorem C06_gprs_arrived_is_acked : forall ws o i,
  ul_reach 128 ws o -> no_far (u_log o) -> arrived o i ->
  let bits := snd (ul_report_gprs (ut_w (u_t o))) in
  i < u_R o /\
  (i < u_R o - 64 -> i < u_Q o) /\
  (u_R o - 64 <= i -> nth (Z.to_nat (i - (u_R o - 64))) bits false = true).
Proof. exact c06_gprs. Qed.
Print Assumptions C06_gprs_arrived_is_acked.

(** The same for an EGPRS window of at most 512 blocks, with no exception, when the
    bitmap fits the message. (Block V(Q) itself has not arrived, see below.) *)
Theorem C06_egprs_arrived_is_acked : forall ws o rest i,
  ul_reach 2048 ws o -> uws o <= 512 -> 0 <= rest < 256 ->
  u_R o - u_Q o - 1 <= rest -> arrived o i ->
  let bits := snd (ul_report_egprs_unc (ut_w (u_t o)) rest) in
  i <= u_Q o \/
  (u_Q o < i < u_R o /\
   nth (Z.to_nat (u_Q o + Z.of_nat (length bits) - i)) bits false = true).
Proof. exact c06_egprs. Qed.
Print Assumptions C06_egprs_arrived_is_acked.

(** Delivery is prompt: after a radio block the next block in line has not arrived. *)
Theorem C06_delivery_is_prompt : forall sns ws o flow l o',
  ul_reach sns ws o -> ul_op_ok sns (URcv false flow l) o ->
  Forall (fun b => ub_incomplete b = false) l ->
  uobs_step (URcv false flow l) o = Some o' -> ul_half sns (uws o') -> no_far (u_log o') ->
  ~ arrived o' (u_Q o').
Proof. exact c06_prompt. Qed.
Print Assumptions C06_delivery_is_prompt.

(** The exception is real: block 63 arrives first in an empty window of 64, then 0..62.
    It is marked received but V(R) stays below it; every retransmission is dropped as
    a duplicate and changes nothing, so it is never acknowledged nor delivered. *)
Theorem C06_last_of_gprs_window_refuted :
  exists o i, ul_reach 128 64 o /\ arrived o i /\ u_Q o = i /\ u_R o = i /\
    (forall flow, ul_rcv false flow (u_t o) [ublk 128 i] = Some (u_t o, [], false)) /\
    fst (ul_report_gprs (ut_w (u_t o))) = i mod 128.
Proof. exact far_witness. Qed.
Print Assumptions C06_last_of_gprs_window_refuted.

(** With a window of 1024 the entry of a block arriving in order is wiped as "no longer
    in the window" (same array entry). *)
Theorem C06_window_1024_refuted :
  exists o, ul_reach 2048 1024 o /\ arrived o 0 /\ u_Q o = 0 /\ u_R o = 1 /\ u_out o = [].
Proof. exact ws1024_witness. Qed.
Print Assumptions C06_window_1024_refuted.

(** With a window of more than 512 a new block is dropped as a duplicate of the block
    1024 before it. *)
Theorem C06_window_over_512_refuted :
  ul_reach 2048 640 uo_alias /\ arrived uo_alias 1500 /\ u_Q uo_alias = 1024 /\ u_R uo_alias = 1024.
Proof. exact alias_witness. Qed.
Print Assumptions C06_window_over_512_refuted.

Example C06_nonvacuous : ul_reach 128 64 uo1 /\ no_far (u_log uo1) /\ arrived uo1 255.
Proof. exact (conj uo1_reach (conj uo1_no_far uo1_arrived)). Qed.

(** C07. Bit k of a GPRS report is about block SSN - 64 + k. A 1 means that the block has
    arrived, without exception; and every block that arrived has a 1 (but for the case
    excluded in C06). *)
Theorem C07_gprs_bitmap_truth : forall ws o ssn bits, ul_reach 128 ws o ->
  ul_report_gprs (ut_w (u_t o)) = (ssn, bits) ->
  ssn = u_R o mod 128 /\ length bits = 64%nat /\
  forall k, (k < 64)%nat ->
    (nth k bits false = true -> arrived o (u_R o - 64 + Z.of_nat k)) /\
    (no_far (u_log o) -> arrived o (u_R o - 64 + Z.of_nat k) -> nth k bits false = true).
Proof. exact c07_gprs. Qed.
Print Assumptions C07_gprs_bitmap_truth.

(** EGPRS, uncompressed: SSN is V(Q) + 1, the first bit sent is about the highest block
    covered, and "end of window" is set exactly when nothing is left out. *)
Theorem C07_egprs_bitmap_truth : forall ws o rest ssn eow bits,
  ul_reach 2048 ws o -> uws o <= 512 -> 0 <= rest < 256 ->
  ul_report_egprs_unc (ut_w (u_t o)) rest = (ssn, eow, bits) ->
  ssn = (u_Q o + 1) mod 2048 /\
  (length bits <= Z.to_nat rest)%nat /\
  (Z.of_nat (length bits) = Z.min rest (Z.max 0 (u_R o - u_Q o - 1))) /\
  (eow = true <-> u_R o - u_Q o - 1 <= rest) /\
  forall k, (k < length bits)%nat ->
    (nth k bits false = true <-> arrived o (u_Q o + Z.of_nat (length bits) - Z.of_nat k)).
Proof. exact c07_egprs. Qed.
Print Assumptions C07_egprs_bitmap_truth.

Example C07_nonvacuous : ul_reach 2048 192 uo2 /\
  u_Q uo2 = 2046 /\ u_R uo2 = 2061 /\ uws uo2 <= 512 /\
  ul_report_egprs_unc (ut_w (u_t uo2)) 100
    = (2047, true, repeat true 11 ++ [false; true; true]).
Proof. exact (conj uo2_reach uo2_facts). Qed.
