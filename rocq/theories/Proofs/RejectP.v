(** The reject and what the mobile reads. *)
From Coq Require Import ZArith List Bool Lia.
From Verif.Model Require Import Csn1Enc CtrlMsg.
From Verif.Spec Require Import AssignSpec RejectSpec.
From Verif.Proofs Require Import Csn1Emit AssignRead.
Import ListNotations.
Open Scope Z_scope.

Lemma wait_read v size r : 0 <= v < 256 -> opt r_wait (field_bits 1 1 ++ field_bits 8 v ++ field_bits 1 (Z.b2z size) ++ r)
  = Some (Some (v * (if size then 20 else 1000)), r).
Proof.
  intros V. change (field_bits 1 1) with [true]. cbn [app]. unfold opt.
  erewrite bind_ok by (cbn [flag]; reflexivity). cbv iota.
  unfold r_wait. unfold bind at 1. unfold bind at 1. rewrite num_small by (change (2 ^ Z.of_nat 8) with 256; exact V).
  rewrite fb_bool. reflexivity.
Qed.

Lemma reject_read tlli v size r : 0 <= tlli < 2 ^ 32 -> 0 <= v < 256 ->
  reads r_reject ((field_bits 2 1 ++ field_bits 2 0 ++ field_bits 1 0 ++ field_bits 3 0 ++ field_bits 6 0x21 ++ field_bits 2 0 ++
        field_bits 1 0 ++ field_bits 32 tlli ++ field_bits 1 1 ++ field_bits 8 v ++ field_bits 1 (Z.b2z size)) ++ false :: r)
  = Some (tlli, Some (v * (if size then 20 else 1000))).
Proof.
  intros T V. unfold reads. rewrite <- !app_assoc. unfold r_reject.
  erewrite bind_ok by (apply must_ok; lia). erewrite bind_ok by (apply num_small; lia).
  change (field_bits 1 0) with [false]. cbn [app]. erewrite bind_ok by (cbn [flag]; reflexivity). cbv iota.
  erewrite bind_ok by (apply num_small; lia). erewrite bind_ok by (apply must_ok; lia). erewrite bind_ok by (apply num_small; lia).
  erewrite bind_ok.
  2: { unfold r_one_reject. erewrite bind_ok by (cbn [flag]; reflexivity). cbv iota.
       erewrite bind_ok by (apply num_small; exact T). erewrite bind_ok by (apply wait_read; exact V). reflexivity. }
  reflexivity.
Qed.

Lemma reject_told tlli t : 0 <= tlli < 2 ^ 32 -> 0 <= t <= 255000 ->
  exists w, reads r_reject (packet_access_reject tlli t) = Some (tlli, Some w) /\ length (packet_access_reject tlli t) = 184%nat /\
    w <= t /\ t < w + (if t <? 5120 then 20 else 1000).
Proof.
  intros T R. unfold packet_access_reject, over. destruct (t / 20 <=? 255) eqn:E.
  - apply Z.leb_le in E. assert (0 <= t / 20) by (apply Z.div_pos; lia).
    exists (t / 20 * 20). split; [|split; [|split]].
    + rewrite !app_length, !fb_len. exact (reject_read tlli (t / 20) true _ T ltac:(lia)).
    + rewrite app_length, skipn_length, !app_length, !fb_len. reflexivity.
    + Z.div_mod_to_equations; lia.
    + destruct (t <? 5120); Z.div_mod_to_equations; lia.
  - apply Z.leb_gt in E. assert (5120 <= t) by (Z.div_mod_to_equations; lia).
    assert (0 <= t / 1000 < 256) by (Z.div_mod_to_equations; lia).
    exists (t / 1000 * 1000). split; [|split; [|split]].
    + rewrite !app_length, !fb_len. exact (reject_read tlli (t / 1000) false _ T ltac:(lia)).
    + rewrite app_length, skipn_length, !app_length, !fb_len. reflexivity.
    + Z.div_mod_to_equations; lia.
    + replace (t <? 5120) with false by (symmetry; apply Z.ltb_ge; lia). Z.div_mod_to_equations; lia.
Qed.
