(** C72: an uplink transfer with the mobile at the other end; blocks and acknowledgements can be lost. *)
From Coq Require Import ZArith List Bool.
From Verif Require Import Model.TbfUlWindow Spec.UlWindowSpec Spec.UlFramesSpec Spec.UlLoopSpec
  Proofs.UlFramesEx Proofs.UlLoopP Proofs.UlLoopEx.
Import ListNotations.
Local Open Scope Z_scope.

(** What the mobile takes as acknowledged has arrived at the PCU. *)
Theorem C72_known : forall edge sns ws n blk F s i, mobile edge n blk F -> ul_loop edge sns n blk ws s ->
  l_known s i = true -> 0 <= i < n /\ arrived (l_o s) i.
Proof. exact (fun edge sns ws n blk F s i M L => known_arrived edge sns ws n blk F M (proj1 L) s i L). Qed.
Print Assumptions C72_known.

(** The mobile's window starts at or before the PCU's, and the PCU has received nothing beyond it. *)
Theorem C72_window : forall edge sns ws n blk F s a, mobile edge n blk F -> ul_loop edge sns n blk ws s ->
  is_va (l_known s) a -> 0 <= a <= u_Q (l_o s) /\ u_R (l_o s) <= a + uws (l_o s).
Proof. exact (fun edge sns ws n blk F s a M L => va_behind edge sns ws n blk F M (proj1 L) s a L). Qed.
Print Assumptions C72_window.

(** After a report the mobile's window starts where the PCU's did when it sent the report. *)
Theorem C72_heard : forall edge sns ws n blk F s a, mobile edge n blk F -> ul_loop edge sns n blk ws s ->
  is_va (l_known s) a <-> a = u_Q (l_last s).
Proof. exact (fun edge sns ws n blk F s a M L => va_is edge sns ws n blk F M (proj1 L) s a L). Qed.
Print Assumptions C72_heard.

(** So every run is a transfer as in C71, and its theorems hold: the SGSN gets the mobile's frames in order, each once. *)
Theorem C72_transfer : forall edge sns ws n blk F s, mobile edge n blk F -> ul_loop edge sns n blk ws s ->
  transfer edge sns ws n blk (l_o s) (l_m s) (l_out s).
Proof. exact (fun edge sns ws n blk F s M L => loop_transfer edge sns ws n blk F M (proj1 L) s L). Qed.
Print Assumptions C72_transfer.

(** The PCU can process whatever the mobile may send. *)
Theorem C72_total : forall edge sns ws n blk F s a rel flow l, mobile edge n blk F -> ul_loop edge sns n blk ws s ->
  is_va (l_known s) a -> half_alone l -> Forall (sends edge sns a (uws (l_o s)) n blk) l ->
  exists m' new o', uobs_step (URcv rel flow l) (l_o s) = Some o' /\ lstep edge sns n blk s (with_pcu s o' m' new).
Proof. exact (fun edge sns ws n blk F s a rel flow l M L => loop_total edge sns ws n blk F M (proj1 L) s a rel flow l L). Qed.
Print Assumptions C72_total.

(** The transfer can always be completed: EGPRS. *)
Theorem C72_live_egprs : forall sns ws n blk F s, mobile true n blk F -> ul_loop true sns n blk ws s ->
  exists s', lsteps true sns n blk s s' /\ u_Q (l_o s') = n /\ l_out s' = F /\ is_va (l_known s') n.
Proof.
  exact (fun sns ws n blk F s M L =>
    live_always true sns ws n blk F M (proj1 L) s L (egprs_no_far true sns ws n blk F M (proj1 L) s eq_refl L)).
Qed.
Print Assumptions C72_live_egprs.
(** GPRS: if no block arrived as the last of 64 while the 63 before it were missing. *)
Theorem C72_live_gprs_partial : forall ws n blk F s, mobile false n blk F -> ul_loop false 128 n blk ws s -> no_far (u_log (l_o s)) ->
  exists s', lsteps false 128 n blk s s' /\ u_Q (l_o s') = n /\ l_out s' = F /\ is_va (l_known s') n.
Proof. exact (fun ws n blk F s M L => live_always false 128 ws n blk F M (proj1 L) s L). Qed.
Print Assumptions C72_live_gprs_partial.
(** Else the transfer can hang: the block is marked as received but V(R) is not moved, so that it is neither delivered
    nor acknowledged, and each repetition is dropped as a duplicate. *)
Theorem C72_live_gprs_refuted : exists n blk F ws s, mobile false n blk F /\ ul_loop false 128 n blk ws s /\
  forall s', lsteps false 128 n blk s s' -> u_Q (l_o s') < n /\ l_out s' <> F /\ (forall a, is_va (l_known s') a -> a < n).
Proof. exact stuck_gprs. Qed.
Print Assumptions C72_live_gprs_refuted.

(** GPRS: block 1 is known after its report; block 0 has arrived, and the report that says so is on its way. *)
Example C72_ex_gprs : mobile false 3 gblk [fA; fB; fC] /\ ul_loop false 128 3 gblk 64 (grun gacts1) /\
  map (l_known (grun gacts1)) [0; 1; 2] = [false; true; false] /\ u_Q (l_o (grun gacts1)) = 2 /\ u_Q (l_last (grun gacts1)) = 0 /\
  length (l_air (grun gacts1)) = 1%nat /\ l_out (grun gacts1) = [fA].
Proof. exact (conj gmobile (conj grun1 (conj eq_refl (conj eq_refl (conj eq_refl (conj eq_refl eq_refl)))))). Qed.
Example C72_ex_done : ul_loop false 128 3 gblk 64 (grun gacts2) /\ map (l_known (grun gacts2)) [0; 1; 2] = [true; true; true] /\
  l_out (grun gacts2) = [fA; fB; fC].
Proof. exact (conj grun2 (conj eq_refl eq_refl)). Qed.
(** EGPRS: the report has room for one bit, so block 2 is not known though it has arrived. *)
Example C72_ex_egprs : mobile true 3 eblk [repeat 20 22; repeat 21 6; repeat 22 30] /\ ul_loop true 2048 3 eblk 64 (erun eacts1) /\
  map (l_known (erun eacts1)) [0; 1; 2] = [false; true; false] /\ ul_loop true 2048 3 eblk 64 (erun eacts2) /\
  map (l_known (erun eacts2)) [0; 1; 2] = [true; true; true].
Proof. exact (conj emobile (conj erun1 (conj eq_refl (conj erun2 eq_refl)))). Qed.
