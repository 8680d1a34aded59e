(** C71: the SGSN gets the LLC frames that the mobile sends, each once and in order. *)
From Coq Require Import ZArith List Bool.
From Verif Require Import Model.UlParse Model.TbfUlWindow Model.UlFrames Spec.UlWindowSpec Spec.UlFramesSpec
  Proofs.UlFramesP Proofs.UlFramesEx.
Import ListNotations.
Local Open Scope Z_scope.

(** At any time the frames sent to the SGSN are those that end in the blocks delivered so far, and the buffer holds
    the part of the next one, whatever blocks were lost, repeated or reordered. *)
Theorem C71_frames : forall edge sns ws n blk F o m out, mobile edge n blk F -> transfer edge sns ws n blk o m out ->
  0 <= u_Q o <= n /\ (out, u_data m) = frames_in blk (u_Q o).
Proof. exact (fun edge sns ws n blk F o m out M => frames_exact edge sns ws n blk F M o m out). Qed.
Print Assumptions C71_frames.

(** So they are the first frames of the mobile, complete and unchanged, and none twice. *)
Theorem C71_prefix : forall edge sns ws n blk F o m out, mobile edge n blk F -> transfer edge sns ws n blk o m out ->
  exists rest, F = out ++ rest.
Proof. exact (fun edge sns ws n blk F o m out M => frames_prefix edge sns ws n blk F M o m out). Qed.
Print Assumptions C71_prefix.

(** When the PCU takes the transfer as finished, the SGSN has got all of them. *)
Theorem C71_finished : forall edge sns ws n blk F o m out, mobile edge n blk F -> transfer edge sns ws n blk o m out ->
  uws o < 1024 -> u_fin o = true -> u_Q o = n /\ out = F.
Proof. exact (fun edge sns ws n blk F o m out M => frames_end edge sns ws n blk F M o m out). Qed.
Print Assumptions C71_finished.
Theorem C71_all : forall edge sns ws n blk F o m out, mobile edge n blk F -> transfer edge sns ws n blk o m out ->
  u_Q o = n -> out = F /\ u_data m = [].
Proof. exact (fun edge sns ws n blk F o m out M => frames_all edge sns ws n blk F M o m out). Qed.
Print Assumptions C71_all.

(** No block of such a mobile makes the PCU touch memory outside its buffers or fail an assertion. *)
Theorem C71_total : forall edge sns ws n blk F o m out rel flow l, mobile edge n blk F -> transfer edge sns ws n blk o m out ->
  Forall (from_mobile edge sns (uws o) (u_Q o) n blk) l ->
  exists t' m' new fin o', ul_rcv_llc rel flow (u_t o) m l = Some (t', m', new, fin) /\ uobs_step (URcv rel flow l) o = Some o'.
Proof. exact (fun edge sns ws n blk F o m out rel flow l M => frames_total edge sns ws n blk F M o m out rel flow l). Qed.
Print Assumptions C71_total.

Example C71_ex_gprs : mobile false 3 gblk [fA; fB; fC] /\ is_transfer false 128 64 3 gblk g2 /\ sg g2 = [fA] /\ u_Q (ob g2) = 2.
Proof. exact (conj gmobile (conj g2_transfer (conj eq_refl eq_refl))). Qed.
Example C71_ex_finished : is_transfer false 128 64 3 gblk g4 /\ sg g4 = [fA; fB; fC] /\ u_fin (ob g4) = true /\ u_Q (ob g4) = 3.
Proof. exact (conj g4_transfer (conj eq_refl (conj eq_refl eq_refl))). Qed.
Example C71_ex_egprs : mobile true 3 eblk [repeat 20 22; repeat 21 6; repeat 22 30] /\ is_transfer true 2048 64 3 eblk e2 /\
  sg e1 = [] /\ sg e2 = [repeat 20 22; repeat 21 6; repeat 22 30] /\ u_fin (ob e2) = true.
Proof. exact (conj emobile (conj e2_transfer (conj eq_refl (conj eq_refl eq_refl)))). Qed.
