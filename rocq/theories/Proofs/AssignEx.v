(** Configuration of a timeslot, and examples. *)
From Coq Require Import ZArith List Bool Lia.
From Verif.Model Require Import CodingScheme Csn1 Csn1Tables Csn1Enc BtsConf Assign.
From Verif.Spec Require Import AssignSpec AssignTold.
From Verif.Proofs Require Import Csn1Emit AssignRead AssignMem AssignFits Csn1Close AssignUp AssignUpMsg AssignUpEnd AssignDown.
Import ListNotations.
Open Scope Z_scope.

Lemma flat_skipn l : forall k, flat_map octet_bits (skipn k l) = skipn (8 * k) (flat_map octet_bits l).
Proof.
  induction l as [|x l IH]; intros k.
  - now rewrite !skipn_nil.
  - destruct k; [reflexivity|]. cbn [skipn]. rewrite IH. replace (8 * S k)%nat with (8 * k + 8)%nat by lia.
    cbn [flat_map]. generalize (8 * k)%nat. intros n. rewrite Nat.add_comm. reflexivity.
Qed.
Lemma skipn_more {A} (l : list A) : forall a b, skipn a (skipn b l) = skipn (a + b) l.
Proof.
  induction l as [|x l IH]; intros a b; [now rewrite !skipn_nil|]. destruct b; [now rewrite Nat.add_0_r|].
  replace (a + S b)%nat with (S (a + b)) by lia. cbn [skipn]. apply IH.
Qed.
Lemma info_told arfcn i p q : info_ok i -> rx_info_ts arfcn i p = Some q -> i_hopping i = true \/ s_hop p = None ->
  frequency_of q = info_frequency arfcn i.
Proof.
  intros (L & B) R C. unfold rx_info_ts in R. unfold frequency_of, carrier_of, info_frequency. destruct (i_hopping i).
  - destruct (i_bits i <=? 64) eqn:E; [|discriminate R]. apply Z.leb_le in E. cbv zeta in R.
    remember (8 - Z.to_nat ((i_bits i + 7) / 8))%nat as z eqn:Z8. injection R as <-.
    cbn [s_tsc s_arfcn s_hop h_maio h_hsn h_bits h_ma]. f_equal. f_equal. unfold last_bits.
    rewrite flat_skipn, skipn_more, skipn_length, !flat_len, L. f_equal. Z.div_mod_to_equations. lia.
  - destruct C as [C|C]; [discriminate C|]. injection R as <-. cbn [s_tsc s_arfcn s_hop]. now rewrite C.
Qed.

Lemma code_gprs t c : code_of (t_cs t) = Some c -> of_cs t false = c /\ coding_ok c.
Proof.
  unfold of_cs, code_of. destruct (t_cs t); intros E; try discriminate E; injection E as <-; split; try reflexivity;
    unfold coding_ok, in_bits; lia.
Qed.
Lemma code_egprs t n : egprs_code_of (t_cs t) = Some n -> of_cs t true = Egprs n true 64 /\ coding_ok (Egprs n true 64).
Proof.
  unfold of_cs, egprs_code_of. destruct (t_cs t); intros E; try discriminate E; injection E as <-; split; try reflexivity;
    unfold coding_ok, in_bits; (split; [lia|exists 0; split; [lia|reflexivity]]).
Qed.

Lemma up_gprs junk d tlli t p alpha gamma rrbp b c : tbf_ok t p -> cell_ok d alpha gamma rrbp -> 0 <= tlli < 2 ^ 32 ->
  d_egprs d = false -> code_of (t_cs t) = Some c ->
  create_packet_ul_assign junk d tlli t alpha gamma rrbp = Sent b ->
  length b = 184%nat /\ reads r_uplink b = Some (uplink_told d tlli t p alpha gamma rrbp c).
Proof.
  intros OK CE TL EG C S. destruct (code_gprs t c C) as [C1 C2].
  pose proof (uplink_outcome junk d tlli t p alpha gamma rrbp OK CE TL) as X. rewrite EG, C1 in X.
  specialize (X C2 ltac:(discriminate)). cbv zeta in X. now rewrite S in X.
Qed.
Lemma up_egprs junk d tlli t p alpha gamma rrbp b n : tbf_ok t p -> cell_ok d alpha gamma rrbp -> 0 <= tlli < 2 ^ 32 ->
  d_egprs d = true -> egprs_code_of (t_cs t) = Some n -> window_ok (t_window t) ->
  create_packet_ul_assign junk d tlli t alpha gamma rrbp = Sent b ->
  length b = 184%nat /\ reads r_uplink b = Some (uplink_told d tlli t p alpha gamma rrbp (Egprs n true 64)).
Proof.
  intros OK CE TL EG C WO S. destruct (code_egprs t n C) as [C1 C2].
  pose proof (uplink_outcome junk d tlli t p alpha gamma rrbp OK CE TL) as X. rewrite EG, C1 in X.
  specialize (X C2 (fun _ => WO)). cbv zeta in X. now rewrite S in X.
Qed.
Lemma up_sent junk d tlli t p alpha gamma rrbp : tbf_ok t p -> cell_ok d alpha gamma rrbp -> 0 <= tlli < 2 ^ 32 ->
  (if d_egprs d then egprs_code_of (t_cs t) <> None /\ window_ok (t_window t) else code_of (t_cs t) <> None) ->
  s_hop p = None -> slot_count (t_slots t) <= 7 ->
  exists b, create_packet_ul_assign junk d tlli t alpha gamma rrbp = Sent b.
Proof.
  intros OK CE TL C H N. apply uplink_sent with p; try assumption; destruct (d_egprs d).
  - destruct C as [C _]. destruct (egprs_code_of (t_cs t)) as [n|] eqn:E; [|congruence].
    destruct (code_egprs t n E) as [-> X]. exact X.
  - destruct (code_of (t_cs t)) as [n|] eqn:E; [|congruence]. destruct (code_gprs t n E) as [-> X]. exact X.
  - intros _. apply C.
  - discriminate.
Qed.
Lemma down_gprs junk d t p alpha gamma rrbp b : tbf_ok t p -> cell_ok d alpha gamma rrbp -> d_egprs d = false ->
  create_packet_dl_assign junk d t alpha gamma rrbp = Sent b ->
  length b = 184%nat /\ reads r_downlink b = Some (downlink_told d t p alpha gamma rrbp None).
Proof.
  intros OK CE EG S.
  assert (NR : d_known d && (t_tlli t =? RESERVED_TLLI) = false).
  { unfold create_packet_dl_assign in S. destruct (d_known d && (t_tlli t =? RESERVED_TLLI)); [discriminate S|reflexivity]. }
  pose proof (downlink_outcome junk d t p alpha gamma rrbp OK CE) as X. rewrite EG, NR in X.
  specialize (X ltac:(discriminate) eq_refl). cbv zeta in X. rewrite S in X. destruct X as [X1 [X2|[X2 _]]]; [auto|discriminate X2].
Qed.
Lemma down_egprs junk d t p alpha gamma rrbp b : tbf_ok t p -> cell_ok d alpha gamma rrbp -> d_egprs d = true -> window_ok (t_window t) ->
  create_packet_dl_assign junk d t alpha gamma rrbp = Sent b ->
  length b = 184%nat /\
  (reads r_downlink b = Some (downlink_told d t p alpha gamma rrbp (Some (t_window t))) \/
   (s_hop p <> None /\ reads r_downlink b = Some (downlink_told d t p alpha gamma rrbp None))).
Proof.
  intros OK CE EG WO S.
  assert (NR : d_known d && (t_tlli t =? RESERVED_TLLI) = false).
  { unfold create_packet_dl_assign in S. destruct (d_known d && (t_tlli t =? RESERVED_TLLI)); [discriminate S|reflexivity]. }
  pose proof (downlink_outcome junk d t p alpha gamma rrbp OK CE) as X. rewrite EG, NR in X.
  specialize (X (fun _ => WO) eq_refl). cbv zeta in X. rewrite S in X. destruct X as [X1 [X2|(_ & N & X2)]]; [auto|].
  split; [exact X1|]. right. split; [|exact X2]. intros H.
  pose proof (downlink_len d t p alpha gamma rrbp (Some (t_window t)) OK H). lia.
Qed.
Lemma down_sent junk d t p alpha gamma rrbp : tbf_ok t p -> cell_ok d alpha gamma rrbp -> (d_egprs d = true -> window_ok (t_window t)) ->
  s_hop p = None -> t_tlli t <> RESERVED_TLLI ->
  exists b, create_packet_dl_assign junk d t alpha gamma rrbp = Sent b.
Proof.
  intros OK CE WO H N.
  assert (NR : d_known d && (t_tlli t =? RESERVED_TLLI) = false) by (rewrite (proj2 (Z.eqb_neq _ _) N); apply andb_false_r).
  pose proof (downlink_outcome junk d t p alpha gamma rrbp OK CE WO NR) as X. cbv zeta in X.
  pose proof (downlink_len d t p alpha gamma rrbp (if d_egprs d then Some (t_window t) else None) OK H) as B.
  destruct (create_packet_dl_assign _ _ _ _ _ _); [eauto|destruct (d_egprs d); lia|destruct X].
Qed.

(** ** Examples *)
Definition x_slot : slot := mk_slot 7 871 None.
Definition x_hop (n : Z) (l : list Z) : slot := mk_slot 2 871 (Some (mk_hop 3 17 n l)).
Definition x_tbf (cs : scheme) (w : Z) (k : nat) (p : slot) : tbf :=
  mk_tbf 21 9 w cs 3456789012 (repeat None (8 - k) ++ repeat (Some p) k) [0; 1; 2; 3; 4; 5; 6; 0].
Definition x_sender (egprs known : bool) : sender := mk_sender 5 true egprs known false.
Lemma x_slot_ok : slot_ok x_slot.
Proof. unfold slot_ok. cbn. split; [lia|]. split; [lia|]. intros h H. discriminate H. Qed.
Lemma x_hop_ok : slot_ok (x_hop 24 [129; 2; 67]).
Proof.
  unfold slot_ok. cbn [s_tsc s_arfcn s_hop x_hop]. split; [lia|]. split; [lia|]. intros h H. injection H as <-.
  unfold hop_ok. cbn [h_maio h_hsn h_bits h_ma length]. split; [lia|]. split; [lia|]. split; [lia|reflexivity].
Qed.
Lemma x_tbf_ok cs w k p : slot_ok p -> (1 <= k <= 8)%nat -> tbf_ok (x_tbf cs w k p) p.
Proof.
  intros S K. unfold tbf_ok, x_tbf. cbn [t_tfi t_ta t_tlli t_slots t_usf].
  split; [lia|]. split; [lia|]. split; [lia|]. split; [rewrite app_length, !repeat_length; lia|]. split; [reflexivity|].
  split; [intros u U; cbn [In] in U; lia|]. split; [|split; [|exact S]].
  - apply in_or_app. right. destruct k; [lia|]. now left.
  - intros q Q. apply in_app_or in Q. destruct Q as [Q|Q]; apply repeat_spec in Q; [discriminate Q|]. now injection Q.
Qed.
Lemma x_cell_ok e k : cell_ok (x_sender e k) 10 3 2.
Proof. unfold cell_ok, x_sender. cbn. lia. Qed.
Lemma x_window : window_ok 192.
Proof. exists 4. lia. Qed.
