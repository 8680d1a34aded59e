(** C77: the link to the SGSN comes into service and back into service. *)
From Coq Require Import ZArith List Bool Lia.
From Verif Require Import Model.Bssgp Spec.BssgpSpec Proofs.BssgpQ Proofs.BssgpR.
Import ListNotations.
Local Open Scope Z_scope.

(** After every history in which the NS layer is up at the end, and whatever the SGSN then knows of the cell: the timer
    runs, and when it has expired and the messages sent on account of it have been answered, both sides take the link to
    be in service. *)
Theorem C77_service : forall c ops k a u g, 0 < c_bvci c < 65536 ->
  brun c link0 ops = Done k a -> k_ns k = true ->
  k_tm k <> None /\ exists k' g', after_timer c u k g = Some (k', g') /\ in_service k' g'.
Proof. exact service. Qed.
Print Assumptions C77_service.
Example C77_service_example :
  brun cfg_ex link0 [BPrim PNsUp; reset_ack cfg_ex 0; reset_ack cfg_ex 1234; unblock_ack cfg_ex; BPrim PNsDown; BPrim PNsUp] =
    Done (Lk true false false false (Some TReset)) [AReset 0; AReset 1234; AUnblock 1234; AFlow 1234; AReset 0] /\
  after_timer cfg_ex false (Lk true false false false (Some TReset)) (Sg true true) = Some (Lk true true true true (Some TFlow), Sg true true).
Proof. split; vm_compute; reflexivity. Qed.

(** Reset, unblocking and flow control are sent in their turn, for the right BVC. *)
Theorem C77_turn : forall c k o k' a x, bstep c k o = Done k' a -> In x a ->
  match x with
  | AReset v => (v = 0 /\ k_sig k' = false) \/ (v = c_bvci c /\ k_sig k' = true /\ k_rst k' = false)
  | AUnblock v => v = c_bvci c /\ k_sig k' = true /\ k_rst k' = true /\ k_unb k' = false
  | AFlow v => v = c_bvci c /\ k_sig k' = true /\ k_rst k' = true /\ k_unb k' = true
  | _ => True
  end.
Proof. exact in_turn. Qed.
Print Assumptions C77_turn.
Example C77_turn_example : bstep cfg_ex (Lk true true false false (Some TReset)) (reset_ack cfg_ex 1234) = Done (Lk true true true false (Some TUnblock)) [AUnblock 1234].
Proof. vm_compute. reflexivity. Qed.

(** Full statement: the cell counts as reset only after the SGSN has acknowledged its reset, or reset it itself.  It fails:
    the BVCI in an acknowledgement is not looked at.  When the reset of the signalling BVC was sent twice and both are
    acknowledged, the second acknowledgement counts for the cell. *)
Theorem C77_reset_refuted : exists c ops k a, brun c link0 ops = Done k a /\ In (AUnblock (c_bvci c)) a /\
  ~ In (reset_ack c (c_bvci c)) ops /\ (forall o, In o ops -> o = BPrim PNsUp \/ o = BPrim PTimer \/ o = reset_ack c 0).
Proof. exact twice_wrong. Qed.
Print Assumptions C77_reset_refuted.

(** Proved of it: the cell counts as reset only since a reset of it by the SGSN, or since an acknowledgement of a reset that
    came when the signalling BVC counted as reset already. *)
Theorem C77_reset_partial : forall c ops k a, brun c link0 ops = Done k a -> k_rst k = true ->
  exists p o q kp ap, ops = p ++ o :: q /\ brun c link0 p = Done kp ap /\
    (k_sig kp = true /\ is_reset_ack o \/ exists t, o = BPrim (PReset (c_bvci c) t)) /\
    forall q1 q2, q = q1 ++ q2 -> exists k1 a1, brun c link0 (p ++ o :: q1) = Done k1 a1 /\ k_rst k1 = true.
Proof. exact reset_told. Qed.
Print Assumptions C77_reset_partial.
Example C77_reset_example : brun cfg_ex link0 [BPrim PNsUp; reset_ack cfg_ex 0; reset_ack cfg_ex 1234] = Done (Lk true true true false (Some TUnblock)) [AReset 0; AReset 1234; AUnblock 1234].
Proof. vm_compute. reflexivity. Qed.
