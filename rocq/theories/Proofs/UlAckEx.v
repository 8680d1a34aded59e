(** Concrete acknowledgements. *)
From Coq Require Import ZArith List Bool Lia.
From Verif.Model Require Import CodingScheme TbfUlWindow UlAckDesc Csn1Enc CtrlMsg UlAck.
From Verif.Spec Require Import UlWindowSpec AckDescSpec AssignSpec UlAckSpec UlAckTold.
From Verif.Proofs Require Import UlWindowEx AckDescEx.
Import ListNotations.
Open Scope Z_scope.

Definition gprs_ms : acked := mk_acked 17 false CS3 0xc0ffee01 5.
Definition egprs_ms : acked := mk_acked 3 true MCS6 0xc0ffee01 5.
Lemma gprs_ms_ok : acked_ok gprs_ms /\ coding_told gprs_ms = Some 2.
Proof. split; [|reflexivity]. unfold acked_ok. cbn. lia. Qed.
Lemma egprs_ms_ok : acked_ok egprs_ms /\ coding_told egprs_ms = Some 5 /\ room egprs_ms = 102.
Proof. split; [|split; reflexivity]. unfold acked_ok. cbn. lia. Qed.
Definition shows (a : acked) (o : uobs) (final : bool) (rrbp : Z) : option ul_ack :=
  match write_packet_uplink_ack a (ut_w (u_t o)) final rrbp with Some b => reads r_ul_ack b | None => None end.
Lemma gprs_shown : shows gprs_ms uo1 true 1
  = Some (mk_ul_ack (Some 1) 17 2 true (GprsReport 4 (repeat true 54 ++ [false] ++ repeat true 9)) (Some 0xc0ffee01) (Some 5) true).
Proof. vm_compute. reflexivity. Qed.
Lemma egprs_shown : shows egprs_ms uo2 false 0
  = Some (mk_ul_ack None 3 5 false (EgprsReport 2047 true ([true; true; false] ++ repeat true 11)) (Some 0xc0ffee01) (Some 5) true).
Proof. vm_compute. reflexivity. Qed.
(** The compressed report with 167 blocks fits. *)
Lemma good_fits : forall d, ack_desc_egprs (ut_w (u_t o_good)) 102 = Some d -> desc_bits d <= 102.
Proof.
  intros d D. assert (E : match ack_desc_egprs (ut_w (u_t o_good)) 102 with Some d => desc_bits d <=? 102 | None => false end = true) by (vm_compute; reflexivity).
  rewrite D in E. apply Z.leb_le. exact E.
Qed.
(** The longer one does not, and the mobile cannot read the message. *)
Lemma spill_unread : ul_reach 2048 512 o_spill /\ uws o_spill <= 512 /\ pending o_spill = 218 /\ no_cut o_spill 62 /\
  acked_ok egprs_ms /\ exists block, write_packet_uplink_ack egprs_ms (ut_w (u_t o_spill)) false 0 = Some block /\ reads r_ul_ack block = None.
Proof.
  split; [apply uo_runs_reach; vm_compute; reflexivity|]. split; [vm_compute; discriminate|]. split; [vm_compute; reflexivity|]. split.
  - exists true, (rep 6 [30; 3]%nat ++ [20]%nat). split; [repeat constructor|]. split; [|split; [vm_compute; reflexivity|left; repeat constructor]].
    intros k K. change (length (Spec.T4Spec.paint true (rep 6 [30; 3]%nat ++ [20]%nat))) with 218%nat in K. rewrite <- arrived_b_ok.
    assert (C : forallb (fun k => Bool.eqb (nth k (Spec.T4Spec.paint true (rep 6 [30; 3]%nat ++ [20]%nat)) false) (arrived_b o_spill (u_Q o_spill + 1 + Z.of_nat k))) (seq 0 218) = true)
      by (vm_compute; reflexivity).
    rewrite forallb_forall in C. specialize (C k ltac:(apply in_seq; lia)). apply eqb_prop in C. rewrite C. tauto.
  - split; [exact (proj1 egprs_ms_ok)|]. eexists. split; [vm_compute; reflexivity|]. vm_compute. reflexivity.
Qed.
Lemma spill_refuted : exists o a block, ul_reach 2048 512 o /\ uws o <= 512 /\ pending o <= 255 /\ no_cut o (room a - 40) /\
  acked_ok a /\ k_egprs a = true /\ coding_told a <> None /\
  write_packet_uplink_ack a (ut_w (u_t o)) false 0 = Some block /\ reads r_ul_ack block = None.
Proof.
  destruct spill_unread as (U & W & P & N & A & block & B & R). exists o_spill, egprs_ms, block.
  split; [exact U|]. split; [exact W|]. split; [rewrite P; discriminate|]. split; [exact N|]. split; [exact A|].
  split; [reflexivity|]. split; [discriminate|]. split; [exact B|exact R].
Qed.
