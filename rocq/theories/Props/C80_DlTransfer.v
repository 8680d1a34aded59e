(** C80: frames from the SGSN reach the mobile, each once and in order, whatever the radio link loses. *)
From Coq Require Import ZArith List Bool.
From Verif Require Import Model.CodingScheme Model.RlcWindow Model.RlcWindowDl Model.TbfDlWindow Model.Segment Model.DlTransfer
  Spec.SegSpec Spec.DlWindowSpec Spec.DlLoopSpec Spec.DlTransferSpec Proofs.DlTransferR Proofs.DlTransferS Proofs.DlTransferX.
Import ListNotations.
Local Open Scope Z_scope.

(** A transfer that is not over always has a block to send, and takes every report that gets through. *)
Theorem C80_goes_on : forall edge pre ws mw s, xreach edge pre ws mw s ->
  (forall k1 k2 h1 h2, suits edge k1 -> suits2 edge k2 -> exists x air, d_send edge pre k1 k2 h1 h2 (t_x s) = Some (x, air) /\ air <> []) /\
  (forall h a r, t_rep s = (h, a) :: r -> exists x, d_report (bits_of_answer a (x_w (t_x s))) (t_x s) = Some x).
Proof. exact (fun edge pre ws mw s R => conj (fun k1 k2 h1 h2 => send_total edge pre ws mw s k1 k2 h1 h2 R) (fun h a r => report_total edge pre ws mw s h a r R)). Qed.
Print Assumptions C80_goes_on.
Example C80_ex_goes_on : xreach true false 64 64 e3 /\ t_over e3 = false /\ suits true (e_pick false).
Proof. split; [apply e_steps|]. split; reflexivity. Qed.

(** At any time the mobile can put together what it has without a gap, and has got, apart from dummies put in as
    filling, the first of the frames that came in: none twice, none left out, none changed, in their order. *)
Theorem C80_frames : forall edge pre ws mw s, xreach edge pre ws mw s ->
  (exists frames, gets edge s frames) /\
  forall frames, gets edge s frames -> exists tags rest, tagged tags frames /\ t_in s = real tags ++ rest.
Proof. exact (fun edge pre ws mw s R => conj (gets_some edge pre ws mw s R) (fun frames => frames_in_order edge pre ws mw s frames R)). Qed.
Print Assumptions C80_frames.
Example C80_ex_frames : xreach true false 64 64 e8 /\ gets true e8 [f30; f3].
Proof. split; apply e_steps. Qed.

(** When an EGPRS transfer is complete, the mobile has got all frames but those that were left for another TBF. *)
Theorem C80_complete_egprs : forall pre ws mw s frames, xreach true pre ws mw s -> complete s -> gets true s frames ->
  exists tags, tagged tags frames /\ t_in s = real tags ++ left_over s.
Proof. exact complete_egprs. Qed.
Print Assumptions C80_complete_egprs.
Example C80_ex_complete_egprs : xreach true false 64 64 e8 /\ complete e8 /\ gets true e8 [f30; f3] /\ t_in e8 = [f30; f3] /\ left_over e8 = [].
Proof. destruct e_steps as (A & B & C & D & _). repeat (split; try assumption). left. reflexivity. Qed.

(** Of a GPRS transfer that is complete one frame may be missing, the last.  (The full statement, without [lost], is
    false: [C80_complete_gprs_refuted].) *)
Theorem C80_complete_gprs_partial : forall pre ws mw s frames, xreach false pre ws mw s -> complete s -> gets false s frames ->
  exists tags lost, tagged tags (frames ++ lost) /\ t_in s = real tags ++ left_over s /\ (lost = [] \/ exists x, lost = [x]).
Proof.
  exact (fun pre ws mw s frames R C G => match complete_frames false pre ws mw s frames R C G with
    | ex_intro _ tags (ex_intro _ lost (conj T (conj E L))) =>
        ex_intro _ tags (ex_intro _ lost (conj T (conj E (match L with or_introl X => or_introl X | or_intror (conj _ X) => or_intror X end)))) end).
Qed.
Print Assumptions C80_complete_gprs_partial.
Example C80_ex_complete_gprs : xreach false false 64 64 g4 /\ complete g4 /\ gets false g4 [f3].
Proof. destruct g_steps as (A & B & _). repeat (split; try assumption). left. reflexivity. Qed.

(** Two frames that just fill the last block, in CS-1: both are acknowledged, the mobile gets the first. *)
Theorem C80_complete_gprs_refuted : exists s frames, xreach false false 64 64 s /\ complete s /\ gets false s frames /\ left_over s = [] /\
  t_in s = frames ++ [f16].
Proof.
  exists g4, [f3]. destruct g_steps as (A & B & C & D).
  exact (conj A (conj (or_introl eq_refl) (conj B (conj D C)))).
Qed.
Print Assumptions C80_complete_gprs_refuted.

(** However much was lost so far: if from now on enough gets through, the transfer comes to its end, and nothing that
    was queued is left over. *)
Theorem C80_ends : forall edge pre ws mw s, xreach edge pre ws mw s -> t_over s = false ->
  exists s', xsteps edge pre mw s s' /\ t_over s' = true /\ t_in s' = t_in s /\
    (x_fin (t_x s) = true -> left_over s' = left_over s) /\ (x_fin (t_x s) = false -> left_over s' = []).
Proof. exact live_end. Qed.
Print Assumptions C80_ends.
Example C80_ex_ends : xreach true false 64 64 e3 /\ t_over e3 = false /\ x_fin (t_x e3) = true.
Proof. split; [apply e_steps|]. split; reflexivity. Qed.

(** In particular every frame can still get to an EGPRS mobile as long as the last block was not made. *)
Theorem C80_all_arrive_egprs : forall pre ws mw s, xreach true pre ws mw s -> t_over s = false -> x_fin (t_x s) = false ->
  exists s' frames tags, xsteps true pre mw s s' /\ t_in s' = t_in s /\ complete s' /\ gets true s' frames /\ tagged tags frames /\ real tags = t_in s.
Proof. exact all_arrive. Qed.
Print Assumptions C80_all_arrive_egprs.
Example C80_ex_all_arrive : xreach true false 64 64 (xfer_new 2048 64) /\ x_fin (t_x (xfer_new 2048 64)) = false.
Proof. split; [|reflexivity]. split; [apply e_steps|constructor]. Qed.
