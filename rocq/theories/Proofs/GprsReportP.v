(** What a received PACKET DOWNLINK ACK/NACK does to the window. *)
From Coq Require Import ZArith List Bool Lia.
Import ListNotations.
From Verif Require Import Base.Arith Model.Csn1 Model.Csn1Tables Model.RlcWindow Model.RlcWindowDl Model.TbfDlWindow Model.EgprsReport Model.GprsReport
  Spec.UlControlSpec Spec.EgprsReportSpec Spec.GprsReportSpec
  Spec.SendWindow Proofs.DlWindowP Proofs.DlWindowH Proofs.DlWindowI Proofs.DlWindowProps Spec.DlWindowSpec Proofs.DlWindowEx
  Proofs.Csn1Msgs Proofs.Csn1Ex Proofs.EgprsReportQ Proofs.EgprsReportX.
Open Scope Z_scope.

Lemma sent_range ws o : dl_reach 128 ws o -> 0 <= o_S o - o_A o <= 64.
Proof.
  intro R. destruct (c01_window _ _ _ R) as [Hr _]. destruct (reach_Inv _ _ _ R) as [st [Hs [HR _]]].
  pose proof (po_ws2 _ _ (r_par _ _ HR)) as W. lia.
Qed.

Section Msg.
Variable msg : list Z.
Hypothesis OCT : octets msg.
Hypothesis L : (23 <= length msg)%nat.
Variable s : state.
Hypothesis D : decode_ul msg = Go s.
Hypothesis M : message_type msg = DOWNLINK_ACK_NACK.

Lemma members : pda_final s = Z.b2z (g_final msg) /\ pda_ssn s = g_ssn msg /\ forall j, 0 <= j < 64 -> array_bit (pda_rbb s) j = g_bit msg (64 - j).
Proof.
  destruct (dl_ack_nack msg OCT L s D M) as (_ & F & SS & B). split; [rewrite F; exact (flag_field msg L 19)|]. split; [exact SS|].
  intros j J. rewrite (octets_bits msg OCT L (pda_rbb s) 27 64 ltac:(lia) ltac:(lia) eq_refl).
  - unfold flag, g_bit. now replace (27 + (64 - (64 - j))) with (27 + j) by lia.
  - intros k K1 K2. rewrite B by lia. f_equal. lia.
  - exact J.
Qed.

Theorem gprs_effect ws o : dl_reach 128 ws o -> g_final msg = false -> (g_ssn msg - o_A o) mod 128 <= o_S o - o_A o ->
  exists bits o', gprs_told s (o_w o) = (bits, dw_va (o_w o)) /\ obs_step (DReport false bits) o = Some o' /\
    forall i, outstanding o i -> status_after o' i = match g_says msg i with Some true => DlAcked | Some false => DlNacked | None => blk o i end.
Proof.
  intros R F Q. destruct members as (M1 & M2 & M3). unfold gprs_told. rewrite M1, M2, F. change (negb (Z.b2z false =? 0)) with false.
  destruct (decode_gprs_acknack false (g_ssn msg) (array_bit (pda_rbb s)) (o_w o)) as [bits first] eqn:E.
  destruct (c04_gprs ws o _ _ _ _ R E) as (o' & O1 & -> & O2). exists bits, o'. split; [reflexivity|]. split; [exact O1|].
  intros i Hi. rewrite (O2 i Hi). pose proof (sent_range _ _ R) as SR. unfold outstanding in Hi. unfold g_says, gprs_bitmap_says.
  pose proof (Z.mod_pos_bound (g_ssn msg - o_A o) 128 ltac:(lia)) as MB. set (d := (g_ssn msg - o_A o) mod 128) in *.
  assert (X : (g_ssn msg - i) mod 128 = (o_A o + d - i) mod 128).
  { unfold d. replace (o_A o + (g_ssn msg - o_A o) mod 128 - i) with ((g_ssn msg - o_A o) mod 128 + (o_A o - i)) by lia.
    rewrite Zplus_mod_idemp_l. f_equal. lia. }
  rewrite X. clearbody d. replace (d <=? 64) with true by (symmetry; apply Z.leb_le; lia). cbn [andb].
  destruct (Z.ltb_spec i (o_A o + d)) as [B|B].
  - rewrite (Z.mod_small (o_A o + d - i)) by lia. replace (1 <=? o_A o + d - i) with true by (symmetry; apply Z.leb_le; lia).
    replace (o_A o + d - i <=? 64) with true by (symmetry; apply Z.leb_le; lia). cbn [andb].
    rewrite M3 by lia. replace (64 - (64 - (o_A o + d - i))) with (o_A o + d - i) by lia. reflexivity.
  - assert (Y : (o_A o + d - i) mod 128 = 0 \/ 64 < (o_A o + d - i) mod 128).
    { destruct (Z.eq_dec i (o_A o + d)) as [->|NE]; [left; now rewrite Z.sub_diag|right].
      replace (o_A o + d - i) with (o_A o + d - i + 128 + (-1) * 128) by lia. rewrite Z.mod_add, Z.mod_small by lia. lia. }
    destruct Y as [->|Y]; [reflexivity|]. replace ((o_A o + d - i) mod 128 <=? 64) with false by (symmetry; apply Z.leb_gt; lia).
    now rewrite andb_false_r.
Qed.

Theorem gprs_final_effect ws o : dl_reach 128 ws o -> g_final msg = true ->
  exists o', gprs_told s (o_w o) = (repeat true (Z.to_nat (o_S o - o_A o)), dw_va (o_w o)) /\
    obs_step (DReport true (repeat true (Z.to_nat (o_S o - o_A o)))) o = Some o' /\ o_A o' = o_S o'.
Proof.
  intros R F. destruct members as (M1 & _). unfold gprs_told. rewrite M1, F. change (negb (Z.b2z true =? 0)) with true. unfold decode_gprs_acknack, handle_final_ack.
  pose proof (sent_range _ _ R) as SR. destruct (c01_window _ _ _ R) as [Hr [Hr2 [Hr3 [Hr4 [Hvs Hva]]]]].
  destruct (reach_Inv _ _ _ R) as [st [Hs [HR _]]].
  assert (E : dmod (o_w o) (dw_vs (o_w o) - dw_va (o_w o)) = o_S o - o_A o).
  { rewrite dmod_spec by apply HR. rewrite Hvs, Hva, Hs in *. rewrite <- Zminus_mod. apply Z.mod_small. lia. }
  rewrite E. assert (P : forall k b, Z.of_nat (length b) + Z.of_nat k <= 64 -> bv_pushes 64 b (repeat true k) = b ++ repeat true k).
  { induction k; intros b Hb; [symmetry; apply app_nil_r|]. cbn [repeat]. unfold bv_pushes. cbn [fold_left]. fold (bv_pushes 64 (bv_push 64 b true) (repeat true k)).
    assert (P : bv_push 64 b true = b ++ [true]) by (unfold bv_push; replace (Z.of_nat (length b) <? 64) with true by (symmetry; apply Z.ltb_lt; lia); reflexivity).
    rewrite P, IHk by (rewrite app_length; cbn [length]; lia). rewrite <- app_assoc. reflexivity. }
  rewrite (P _ []) by (cbn [length]; lia). cbn [app].
  destruct (c04_report _ _ _ (repeat true (Z.to_nat (o_S o - o_A o))) R) as (w' & o' & T & _).
  unfold obs_step. unfold tbf_rcvd_dl_ack in *. destruct (dl_update (o_w o) (dw_va (o_w o)) _) as [[w1 lost] rc].
  destruct (dl_move_window w1) as [[w2 mv]|]; [|discriminate T]. eexists. split; [reflexivity|]. split; reflexivity.
Qed.
End Msg.

(** TFI 5, SSN 8; of the blocks 0 to 7, 0, 1, 3, 4 and 7 have arrived. *)
Definition SSN8 : list Z := [64; 8; 161; 0; 0; 0; 0; 0; 0; 0; 27; 37; 8; 96; 11; 43; 43; 43; 43; 43; 43; 43; 43].
Definition g_ten : obs := get (run_from 128 64 (repeat send1 10)).
Lemma g_ten_reach : dl_reach 128 64 g_ten.
Proof. apply get_reach; [exact params_128|vm_compute; reflexivity|run_ok]. Qed.
Lemma ssn8_ok : octets SSN8 /\ length SSN8 = 23%nat /\ decode_ul SSN8 = Go (end_state SSN8) /\ message_type SSN8 = DOWNLINK_ACK_NACK /\
  g_final SSN8 = false /\ (g_ssn SSN8 - o_A g_ten) mod 128 <= o_S g_ten - o_A g_ten /\
  map (g_says SSN8) [0; 1; 2; 3; 4; 5; 6; 7; 8; 9] = [Some true; Some true; Some false; Some true; Some true; Some false; Some false; Some true; None; None] /\
  gprs_told (end_state SSN8) (o_w g_ten) = ([true; true; false; true; true; false; false; true], 0).
Proof.
  split; [apply octets_dec; reflexivity|]. split; [reflexivity|]. split; [apply go_end; vm_compute; reflexivity|]. split; [vm_compute; reflexivity|].
  split; [vm_compute; reflexivity|]. split; [vm_compute; discriminate|]. split; vm_compute; reflexivity.
Qed.
