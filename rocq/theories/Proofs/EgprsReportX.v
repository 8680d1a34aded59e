(** What a received EGPRS PACKET DOWNLINK ACK/NACK does to the window. *)
From Coq Require Import ZArith List Bool Lia.
Import ListNotations.
From Verif Require Import Base.Arith Model.Csn1 Model.Csn1Tables Model.T4 Model.RlcWindow Model.RlcWindowDl Model.TbfDlWindow Model.EgprsReport
  Spec.UlControlSpec Spec.T4Spec Spec.EgprsReportSpec
  Spec.SendWindow Proofs.DlWindowP Proofs.DlWindowH Proofs.DlWindowI Proofs.DlWindowProps Spec.DlWindowSpec Proofs.DlWindowEx
  Proofs.Csn1Msgs Proofs.Csn1Ex Proofs.EgprsReportQ.
Open Scope Z_scope.

Lemma word_nonempty : forallb (fun k => forallb (fun s => negb (Nat.eqb (length (word s k)) 0)) [true; false]) (seq 0 64) = true.
Proof. vm_compute. reflexivity. Qed.
Lemma code_runs_nil c rs : code_runs c rs = [] -> rs = [].
Proof.
  destruct rs as [|r rs]; [reflexivity|]. cbn [code_runs]. unfold run_code. intro H. exfalso.
  apply app_eq_nil in H as [H _]. apply app_eq_nil in H as [_ H].
  pose proof word_nonempty as W. rewrite forallb_forall in W.
  assert (K : In (r mod 64)%nat (seq 0 64)) by (apply in_seq; pose proof (Nat.mod_upper_bound r 64); lia).
  specialize (W _ K). cbv beta in W. rewrite forallb_forall in W. assert (I : In c [true; false]) by (destruct c; cbn; auto).
  specialize (W c I). cbv beta in W. rewrite H in W. discriminate W.
Qed.

Lemma implicit_is sns ws o x : dl_reach sns ws o -> dmod (o_w o) (x - 1 - dw_va (o_w o)) = (x - 1 - o_A o) mod sns /\ 0 < sns.
Proof.
  intro H. destruct (c01_window _ _ _ H) as [Hr [_ [_ [_ [_ Hva]]]]].
  destruct (reach_Inv _ _ _ H) as [st [Hs [HR _]]].
  pose proof (sns_pos _ (po_sns _ _ (r_par _ _ HR))) as Hpos.
  split; [|lia]. rewrite dmod_spec by apply HR. rewrite Hs, Hva. apply mod_sub_r. lia.
Qed.

Theorem report_effect sns ws o msg s r l : dl_reach sns ws o -> octets msg -> (23 <= length msg)%nat ->
  decode_ul msg = Go s -> message_type msg = EGPRS_DOWNLINK_ACK_NACK -> report_of msg = Some r -> says r l -> whole r ->
  r_final r = false -> r_bow r = true ->
  let q := o_A o + (r_ssn r - 1 - o_A o) mod sns in
  q <= o_S o -> q + 1 + Z.of_nat (length l) <= o_A o + 1024 ->
  exists bits o', told_bits s (o_w o) = (bits, dw_va (o_w o)) /\ obs_step (DReport false bits) o = Some o' /\
    forall i, outstanding o i -> status_after o' i = egprs_report_says true q (the_bitmap r l) (blk o) i.
Proof.
  intros R OC LE D M RP SA WH F B q Q1 Q2. destruct (implicit_is sns ws o (r_ssn r) R) as [IM SP].
  pose proof (Z.mod_pos_bound (r_ssn r - 1 - o_A o) sns SP) as MB.
  pose proof (told msg OC LE s r l (o_w o) D M RP WH SA F) as T. cbv zeta in T. rewrite B, IM in T. specialize (T ltac:(lia) ltac:(lia)).
  set (cr := match r_crbb r with Some (c, z) => _ | None => None end) in T.
  destruct (told_bits s (o_w o)) as [bits first] eqn:E.
  destruct (c04_egprs sns ws o (r_ssn r) cr (rev (r_urbb r)) bits first R ltac:(lia) (eq_sym T)) as (o' & O1 & -> & O2).
  exists bits, o'. split; [reflexivity|]. split; [exact O1|]. intros i Hi. rewrite (O2 i Hi). f_equal.
  unfold the_bitmap, has_bitmap. unfold says in SA. subst cr. destruct (r_crbb r) as [[c z]|].
  - destruct SA as (rs & RO & Z1 & L1). destruct z as [|z0 z].
    + symmetry in Z1. apply code_runs_nil in Z1. subst rs. cbn [paint app] in L1. cbn [length Nat.eqb Nat.add]. rewrite L1. rewrite <- (rev_length (r_urbb r)).
      now destruct (rev (r_urbb r)).
    + cbn [length Nat.eqb Nat.add negb]. cbn [bitmap_of]. f_equal. rewrite L1, app_length, rev_length.
      replace (length (paint c rs) + length (r_urbb r) - length (r_urbb r))%nat with (length (paint c rs)) by lia.
      rewrite firstn_app, Nat.sub_diag, firstn_all. cbn [firstn]. now rewrite app_nil_r.
  - rewrite SA. cbn [length Nat.add]. rewrite <- (rev_length (r_urbb r)). now destruct (rev (r_urbb r)).
Qed.

Lemma pushes_ones k : forall b, Z.of_nat (length b) + Z.of_nat k <= 1024 -> bv_pushes 1024 b (repeat true k) = b ++ repeat true k.
Proof.
  induction k; intros b Hb; [symmetry; apply app_nil_r|]. cbn [repeat]. unfold bv_pushes. cbn [fold_left]. fold (bv_pushes 1024 (bv_push 1024 b true) (repeat true k)).
  assert (P : bv_push 1024 b true = b ++ [true]) by (unfold bv_push; replace (Z.of_nat (length b) <? 1024) with true by (symmetry; apply Z.ltb_lt; lia); reflexivity).
  rewrite P, IHk by (rewrite app_length; cbn [length]; lia). rewrite <- app_assoc. reflexivity.
Qed.

Theorem final_effect sns ws o msg s r : dl_reach sns ws o -> octets msg -> (23 <= length msg)%nat ->
  decode_ul msg = Go s -> message_type msg = EGPRS_DOWNLINK_ACK_NACK -> report_of msg = Some r -> r_final r = true ->
  told_bits s (o_w o) = (repeat true (Z.to_nat (o_S o - o_A o)), dw_va (o_w o)).
Proof.
  intros R OC LE D M RP F. rewrite (told_final msg OC LE s r _ D M RP F). unfold handle_final_ack.
  destruct (c01_window _ _ _ R) as [Hr [Hr2 [Hr3 [Hr4 [Hvs Hva]]]]].
  destruct (reach_Inv _ _ _ R) as [st [Hs [HR _]]].
  pose proof (sns_pos _ (po_sns _ _ (r_par _ _ HR))) as Hpos.
  pose proof (sns_le _ (po_sns _ _ (r_par _ _ HR))) as Hsle.
  pose proof (po_ws2 _ _ (r_par _ _ HR)) as Hws2.
  assert (E : dmod (o_w o) (dw_vs (o_w o) - dw_va (o_w o)) = o_S o - o_A o).
  { rewrite dmod_spec by apply HR. rewrite Hvs, Hva, Hs in *. rewrite <- Zminus_mod. apply Z.mod_small. lia. }
  rewrite E, (pushes_ones _ []) by (cbn [length]; lia). reflexivity.
Qed.

(** An uncompressed bitmap of 7 bits: block 1 missing, blocks 2 to 7 received. *)
Definition URBB7 : list Z := [64; 32; 160; 139; 32; 2; 253; 43; 43; 43; 43; 43; 43; 43; 43; 43; 43; 43; 43; 43; 43; 43; 43].
(** A compressed bitmap of 11 bits: blocks 1, 2, 3 missing, 4 received, 5 missing. *)
Definition CRBB11 : list Z := [64; 32; 160; 145; 32; 3; 22; 67; 203; 43; 43; 43; 43; 43; 43; 43; 43; 43; 43; 43; 43; 43; 43].
(** Channel quality report, PFI, extension, length, compressed bitmap of 8 bits, uncompressed bitmap of 8 bits. *)
Definition FULL : list Z := [64; 32; 174; 172; 175; 80; 6; 108; 43; 39; 64; 14; 34; 63; 77; 43; 43; 43; 43; 43; 43; 43; 43].

(** A report about blocks that were sent, with the outcome for block [i] that the mobile did not get. *)
Definition false_ack (msg : list Z) (r : report) (l : list bool) : Prop :=
  exists sns ws o s bits o' i,
    dl_reach sns ws o /\ octets msg /\ length msg = 23%nat /\ decode_ul msg = Go s /\ message_type msg = EGPRS_DOWNLINK_ACK_NACK /\
    report_of msg = Some r /\ says r l /\ r_final r = false /\ r_bow r = true /\
    let q := o_A o + (r_ssn r - 1 - o_A o) mod sns in
    q + 1 + Z.of_nat (length l) <= o_S o /\
    told_bits s (o_w o) = (bits, dw_va (o_w o)) /\ obs_step (DReport false bits) o = Some o' /\
    outstanding o i /\ egprs_report_says true q (the_bitmap r l) (blk o) i = DlNacked /\ status_after o' i = DlAcked.

Definition R_URBB7 : report := mk_report false true false 1 None [true; true; true; true; true; true; false].
Definition R_CRBB11 : report := mk_report false true false 1 (Some (false, code_runs false [3; 1; 1]%nat)) [].

Definition after (msg : list Z) : obs := get (obs_step (DReport false (fst (told_bits (end_state msg) (o_w o_ten)))) o_ten).

Ltac witness msg i :=
  exists 2048, 128, o_ten, (end_state msg), (fst (told_bits (end_state msg) (o_w o_ten))), (after msg), i;
  split; [exact ten_reach|]; split; [apply octets_dec; reflexivity|]; split; [reflexivity|]; split; [apply go_end; vm_compute; reflexivity|];
  split; [vm_compute; reflexivity|]; split; [vm_compute; reflexivity|].

Lemma urbb_refuted : exists msg r l, r_crbb r = None /\ (length (r_urbb r) = 7)%nat /\ false_ack msg r l.
Proof.
  exists URBB7, R_URBB7, [false; true; true; true; true; true; true]. split; [reflexivity|]. split; [reflexivity|].
  unfold false_ack. witness URBB7 1. split; [reflexivity|]. split; [reflexivity|]. split; [reflexivity|]. cbv zeta.
  split; [vm_compute; discriminate|]. split; [vm_compute; reflexivity|]. split; [|split; [split; vm_compute; congruence|split; vm_compute; reflexivity]].
  unfold after. destruct (obs_step _ o_ten) eqn:E; [reflexivity|]. exfalso. revert E. vm_compute. discriminate.
Qed.

Lemma crbb_refuted : exists msg r l z, r_crbb r = Some (false, z) /\ (length z = 11)%nat /\ r_urbb r = [] /\ false_ack msg r l.
Proof.
  exists CRBB11, R_CRBB11, [false; false; false; true; false], (code_runs false [3; 1; 1]%nat). split; [reflexivity|]. split; [reflexivity|]. split; [reflexivity|].
  unfold false_ack. witness CRBB11 5.
  split. { exists [3; 1; 1]%nat. split; [repeat (apply Forall_cons; [lia|]); constructor|]. split; reflexivity. }
  split; [reflexivity|]. split; [reflexivity|]. cbv zeta.
  split; [vm_compute; discriminate|]. split; [vm_compute; reflexivity|]. split; [|split; [split; vm_compute; congruence|split; vm_compute; reflexivity]].
  unfold after. destruct (obs_step _ o_ten) eqn:E; [reflexivity|]. exfalso. revert E. vm_compute. discriminate.
Qed.

Definition R_FULL : report := mk_report false true false 3 (Some (true, code_runs true [1; 2]%nat)) [true; false; true; false; false; true; true; false].
Lemma full_ok : octets FULL /\ length FULL = 23%nat /\ decode_ul FULL = Go (end_state FULL) /\ message_type FULL = EGPRS_DOWNLINK_ACK_NACK /\
  report_of FULL = Some R_FULL /\ whole R_FULL /\
  says R_FULL [true; false; false; false; true; true; false; false; true; false; true] /\
  told_bits (end_state FULL) (o_w o_ten) = ([true; true; false; true; false; false; false; true; true; false; false; true; false; true], 0).
Proof.
  split; [apply octets_dec; reflexivity|]. split; [reflexivity|]. split; [apply go_end; vm_compute; reflexivity|].
  split; [vm_compute; reflexivity|]. split; [vm_compute; reflexivity|]. split; [split; reflexivity|].
  split; [exists [1; 2]%nat; split; [repeat (apply Forall_cons; [lia|]); constructor|]; split; reflexivity|]. vm_compute. reflexivity.
Qed.
Lemma full_meets : o_A o_ten + (r_ssn R_FULL - 1 - o_A o_ten) mod 2048 = 2 /\ o_S o_ten = 10 /\ has_bitmap R_FULL = true.
Proof. repeat split; vm_compute; reflexivity. Qed.

Theorem egprs_ack_nack_full msg : octets msg -> (23 <= length msg)%nat -> forall s, decode_ul msg = Go s -> message_type msg = EGPRS_DOWNLINK_ACK_NACK ->
  epda_tfi s = field msg 14 5 /\ forall r, report_of msg = Some r -> holds msg s r.
Proof.
  intros O L s D M. split; [exact (proj1 (Csn1Msgs.egprs_ack_nack msg O L s D M))|]. intros r R. exact (egprs_members msg O L s r D M R).
Qed.
