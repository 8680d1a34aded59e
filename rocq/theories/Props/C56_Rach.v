(** C56: classification of access bursts. *)
From Coq Require Import ZArith List Bool Lia.
From Verif Require Import Model.Rach Spec.RachSpec Proofs.RachP.
Import ListNotations.
Local Open Scope Z_scope.

(** Every 8-bit burst that means a packet access, or that has the wrong training sequence, is
    answered as its meaning demands. *)
Theorem C56_8bit : forall b l f s t a, length l = 8%nat -> meaning b l = Some a ->
  rcv_rach f s t b false (num l) = answer_to f s t a.
Proof. exact rach8. Qed.
Print Assumptions C56_8bit.
Example C56_ex_8bit : map (fun ra => rcv_rach false true true BAccess0 false ra) [0x70; 0x77; 0x78; 0x7d] =
  [ImmAssSingle; ImmAssSingle; ImmAssTbf 0; ImmAssTbf 0].
Proof. vm_compute. reflexivity. Qed.
(** Every 11-bit burst likewise. *)
Theorem C56_11bit : forall b l f s t a, length l = 11%nat -> meaning b l = Some a ->
  rcv_rach f s t b true (num l) = answer_to f s t a.
Proof. exact rach11. Qed.
Print Assumptions C56_11bit.
Example C56_ex_11bit : map (rcv_rach false true true BAccess1 true) [0x163; 0x400; 0x420; 0x600; 0x6a0; 0x700; 0x7ff] =
  [ImmAssTbf 12; ImmAssSingle; ImmAssTbf 0; ImmAssSingle; ImmAssReject; ImmAssSingle; ImmAssReject].
Proof. vm_compute. reflexivity. Qed.
(** Any value with any burst type gets a defined answer. *)
Theorem C56_total : forall b is11 ra f s t, rcv_rach f s t b is11 ra <> Undefined.
Proof. exact total. Qed.
Print Assumptions C56_total.
Example C56_ex_total : rcv_rach false true true (BOther 9) true 65535 = ImmAssReject.
Proof. vm_compute. reflexivity. Qed.
(** 8-bit values that are no packet access requests are not rejected but get a TBF; the BTS
    has to keep them away (0x00: paging answer; 0x7f: reserved). *)
Theorem C56_foreign_refuted : table8 [false; false; false; false; false; false; false; false] = None /\
  table8 [false; true; true; true; true; true; true; true] = None /\
  map (rcv_rach false true true BAccess0 false) [0x00; 0x7f] = [ImmAssTbf 0; ImmAssTbf 0].
Proof. repeat split; vm_compute; reflexivity. Qed.
Print Assumptions C56_foreign_refuted.
