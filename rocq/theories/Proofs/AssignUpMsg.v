(** The PACKET UPLINK ASSIGNMENT: what is written is what the mobile reads. *)
From Coq Require Import ZArith List Bool Lia.
From Verif.Model Require Import CodingScheme Csn1 Csn1Tables Csn1Enc BtsConf Assign.
From Verif.Spec Require Import AssignSpec AssignTold.
From Verif.Proofs Require Import Csn1Emit AssignRead AssignMem AssignFits Csn1Close AssignUp.
Import ListNotations.
Open Scope Z_scope.

Lemma wr_one m off cap base : byte_at m (base + off) = 1 -> wr (enc m (Uint false 1 off cap) base) [true].
Proof. intros B. change [true] with (field_bits 1 1). apply wr_u8; [reflexivity|lia|exact B]. Qed.
Ltac k8 v := apply gen_cons; [lia|reflexivity|apply wr_u8 with (x := v); [reflexivity|lia|]|].
Ltac c8 := apply fits_cons; [reflexivity|apply wr_u8; [reflexivity|lia|]|].
Ltac g8 := apply gen_cons; [lia|reflexivity|apply wr_u8; [reflexivity|lia|]|].

(** What the mobile is told, with the coding [c]. *)
Lemma told_eq d tlli t p alpha gamma rrbp c :
  uplink_told d tlli t p alpha gamma rrbp c =
  mk_uplink (Some rrbp) (who_ul d tlli) c true (advance_of t) (Some (frequency_of p)) (dynamic_of t alpha gamma).
Proof. reflexivity. Qed.

Lemma gprs_gen junk d tlli t p alpha gamma rrbp m : tbf_ok t p -> d_egprs d = false ->
  write_packet_uplink_assignment junk (d_tfi d) (d_down d) tlli (negb (tlli =? RESERVED_TLLI)) t alpha gamma (-1) (d_egprs d) = Some m ->
  gen full 0 (erun m (enc m) 0 T_Packet_Uplink_Assignment_t 0)
    (uplink_bits (uplink_told d tlli t p alpha gamma rrbp (Gprs (mcs_chan_code (t_cs t))))).
Proof.
  intros OK E W. pose proof (uplink_memory junk d tlli t p alpha gamma m OK W) as M. rewrite E in M.
  destruct M as (M0 & M1 & M2 & MW & M16 & M20 & M21 & M27 & M56 & M100 & MA & MF & MD).
  pose proof OK as (_ & _ & _ & _ & _ & _ & _ & _ & SO). eapply gen_eq.
  - unfold T_Packet_Uplink_Assignment_t. k8 10; [exact M0|]. k8 0; [exact M1|].
    apply gen_none; [lia|exact M2|cbn [length]; lia|]. cbn [skipn].
    apply gen_cons; [lia|reflexivity|apply who_wr_ul with (o := 8); [reflexivity|exact MW]|].
    eapply gen_union with (i := 0%nat); [exact M16|reflexivity|cbn [length]; lia|reflexivity|reflexivity|].
    unfold T_PUA_GPRS_t. g8; [exact M20|].
    apply gen_cons; [lia|reflexivity|apply wr_one; exact M21|].
    apply gen_cons; [lia|reflexivity|apply wr_typ, advance_fits; exact MA|].
    apply gen_some; [lia|exact M27|cbn [length]; lia|].
    apply gen_cons; [lia|reflexivity|apply wr_typ, frequency_fits; [exact SO|exact MF]|].
    apply gen_cons; [lia|reflexivity| |].
    { eapply wr_union with (i := 1%nat); [exact M56|reflexivity|cbn [length]; lia|reflexivity|reflexivity|].
      apply alt_typ, wr_typ, dynamic_fits. exact MD. }
    apply gen_null. exact M100.
  - rewrite told_eq. unfold uplink_bits. cbn [u_to u_coding u_tlli_same u_advance u_frequency u_dynamic coding_bits optb].
    unfold start_bits. change (field_bits (Z.to_nat (ix_bits (Z.of_nat (length [Typ false 20 92 T_PUA_GPRS_t; Typ false 20 164 T_PUA_EGPRS_t])))) (Z.of_nat 0)) with [false].
    match goal with |- context [field_bits (Z.to_nat (ix_bits (Z.of_nat (length ?l)))) (Z.of_nat 1)] =>
      change (field_bits (Z.to_nat (ix_bits (Z.of_nat (length l)))) (Z.of_nat 1)) with (field_bits 2 1) end.
    rewrite ?app_nil_r. rewrite <- ?app_assoc. cbn [app]. rewrite <- ?app_assoc. cbn [app]. rewrite <- ?app_assoc. reflexivity.
Qed.

Lemma egprs_gen junk d tlli t p alpha gamma rrbp m : tbf_ok t p -> d_egprs d = true -> window_ok (t_window t) ->
  write_packet_uplink_assignment junk (d_tfi d) (d_down d) tlli (negb (tlli =? RESERVED_TLLI)) t alpha gamma (-1) (d_egprs d) = Some m ->
  gen full 0 (erun m (enc m) 0 T_Packet_Uplink_Assignment_t 0)
    (uplink_bits (uplink_told d tlli t p alpha gamma rrbp (Egprs (mcs_chan_code (t_cs t)) true 64))).
Proof.
  intros OK E (k & _ & WK) W. pose proof (uplink_memory junk d tlli t p alpha gamma m OK W) as M. rewrite E in M.
  destruct M as (M0 & M1 & M2 & MW & M16 & M20 & M24 & M32 & M64 & M65 & M66 & M67 & M80 & M81 & M84 & M96 & M104 & M136 & MA & MF & MD).
  pose proof OK as (_ & _ & _ & _ & _ & _ & _ & _ & SO). eapply gen_eq.
  - unfold T_Packet_Uplink_Assignment_t. k8 10; [exact M0|]. k8 0; [exact M1|].
    apply gen_none; [lia|exact M2|cbn [length]; lia|]. cbn [skipn].
    apply gen_cons; [lia|reflexivity|apply who_wr_ul with (o := 8); [reflexivity|exact MW]|].
    apply gen_cons; [lia|reflexivity| |apply gen_pad].
    eapply wr_union with (i := 1%nat); [exact M16|reflexivity|cbn [length]; lia|reflexivity|reflexivity|].
    apply alt_typ, wr_typ. unfold T_PUA_EGPRS_t. apply fits_cons; [reflexivity| |apply fits_nil].
    eapply wr_union with (i := 0%nat); [exact M20|reflexivity|cbn [length]; lia|reflexivity|reflexivity|].
    apply alt_typ, wr_typ. unfold T_PUA_EGPRS_00_t.
    apply next_none; [exact M24|cbn [length]; lia|]. cbn [skipn]. apply next_none; [exact M32|cbn [length]; lia|]. cbn [skipn].
    c8; [exact M64|]. apply fits_cons; [reflexivity|apply wr_one; exact M65|]. c8; [exact M66|].
    apply fits_cons; [reflexivity|apply wr_rec_nil; exact M67|]. apply fits_cons; [reflexivity|apply wr_zero; exact M80|].
    apply fits_cons; [reflexivity|apply wr_one; exact M81|]. apply next_none; [exact M84|cbn [length]; lia|]. cbn [skipn].
    apply fits_cons; [reflexivity|apply wr_typ, advance_fits; exact MA|].
    apply next_none; [exact M96|cbn [length]; lia|]. cbn [skipn]. apply next_some; [exact M104|cbn [length]; lia|].
    apply fits_cons; [reflexivity|apply wr_typ, frequency_fits; [exact SO|exact MF]|].
    apply fits_cons; [reflexivity| |apply fits_nil].
    eapply wr_union with (i := 1%nat); [exact M136|reflexivity|cbn [length]; lia|reflexivity|reflexivity|].
    apply alt_typ, wr_typ, dynamic_fits. exact MD.
  - rewrite told_eq. unfold uplink_bits. cbn [u_to u_coding u_tlli_same u_advance u_frequency u_dynamic coding_bits optb].
    assert (X : field_bits (Z.to_nat 5) (t_window t) = field_bits 5 ((64 - 64) / 32)).
    { change (Z.to_nat 5) with 5%nat. rewrite <- (fb_mod 5 (t_window t) 5) by lia. f_equal. rewrite WK.
      replace (64 + 32 * k) with (0 + (2 + k) * 2 ^ 5) by lia. now rewrite Z.mod_add by lia. }
    rewrite X. unfold start_bits.
    repeat match goal with |- context [field_bits (Z.to_nat (ix_bits (Z.of_nat (length ?l)))) (Z.of_nat ?i)] =>
      let v := eval vm_compute in (field_bits (Z.to_nat (ix_bits (Z.of_nat (length l)))) (Z.of_nat i)) in
      change (field_bits (Z.to_nat (ix_bits (Z.of_nat (length l)))) (Z.of_nat i)) with v end.
    change (field_bits 2 1) with [false; true]. change (field_bits 2 0) with [false; false].
    rewrite ?app_nil_r. repeat (rewrite <- ?app_assoc; cbn [app]). reflexivity.
Qed.
