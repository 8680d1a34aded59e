(** The measurements kept for a mobile, over its history. *)
From Coq Require Import ZArith List Bool Lia.
Import ListNotations.
From Verif Require Import Model.Csn1 Model.Csn1Tables Model.MsClass Model.L1Meas Spec.UlControlSpec Spec.MsClassSpec Spec.MeasSpec Spec.MeasHistSpec
  Proofs.Csn1Msgs Proofs.MsClassR Proofs.L1MeasP Proofs.L1MeasQ.
Open Scope Z_scope.

(** ** The levels *)
Lemma levels_fold e lv : forall k m, let r := fold_left (fun m i => if negb (e i =? 0) then set_ms_i_level i (-2 * lv i) m else m) (seq 0 k) m in
  rssi r = rssi m /\ ber r = ber m /\ bto r = bto m /\ link_qual r = link_qual m /\ ms_rx_qual r = ms_rx_qual m /\ ms_c_value r = ms_c_value m /\
  ms_sign_var r = ms_sign_var m /\ have_ms_i_level r = have_ms_i_level m || existsb (fun i => negb (e i =? 0)) (seq 0 k) /\
  forall i, ts r i = if (i <? k)%nat && negb (e i =? 0) then Some (-2 * lv i) else ts m i.
Proof.
  induction k; intros m r.
  - subst r. cbn [seq fold_left existsb]. rewrite orb_false_r. repeat split.
  - subst r. rewrite seq_S, fold_left_app, existsb_app. cbn [Nat.add fold_left existsb]. destruct (IHk m) as (H1 & H2 & H3 & H4 & H5 & H6 & H7 & H8 & H9).
    set (r := fold_left _ (seq 0 k) m) in *. clearbody r. rewrite orb_false_r.
    destruct (e k =? 0) eqn:E; cbn [negb].
    + rewrite orb_false_r. repeat split; try assumption. intro i. rewrite H9. destruct (Nat.eq_dec i k) as [->|N].
      * rewrite E, andb_false_r, andb_false_r. reflexivity.
      * replace (i <? S k)%nat with (i <? k)%nat; [reflexivity|]. apply eq_true_iff_eq. rewrite !Nat.ltb_lt. lia.
    + cbn [set_ms_i_level rssi ber bto link_qual ms_rx_qual ms_c_value ms_sign_var have_ms_i_level ts]. rewrite !orb_true_r. repeat split; try assumption. intro i. destruct (Nat.eqb_spec i k) as [->|N].
      * rewrite E. replace (k <? S k)%nat with true by (symmetry; apply Nat.ltb_lt; lia). reflexivity.
      * rewrite H9. replace (i <? S k)%nat with (i <? k)%nat; [reflexivity|]. apply eq_true_iff_eq. rewrite !Nat.ltb_lt. lia.
Qed.

(** ** A message *)
Lemma rxqual_ok c : 0 <= c < 8 -> nearest 100 (rxqual_value c) (get_rx_qual_meas c).
Proof.
  intro R. assert (A : forallb (fun c => 2 * Z.abs (100 * get_rx_qual_meas c - rxqual_value c) <=? 100) [0; 1; 2; 3; 4; 5; 6; 7] = true) by (vm_compute; reflexivity).
  rewrite forallb_forall in A. apply Z.leb_le, A. cbn. lia.
Qed.
Lemma var_ok c : 0 <= c -> nearest 4 c (Z.quot (c + 2) 4).
Proof. intro R. unfold nearest. rewrite Z.quot_div_nonneg by lia. Z.div_mod_to_equations. lia. Qed.

Definition mine (q : quality) (m0 m : l1_meas) : Prop :=
  rssi m = rssi m0 /\ ber m = ber m0 /\ bto m = bto m0 /\ link_qual m = link_qual m0 /\
  ms_c_value m = Some (q_c q) /\ in_units 100 rxqual_value (q_rxqual q) (ms_rx_qual m) /\ in_units 4 (fun c => c) (q_var q) (ms_sign_var m) /\
  have_ms_i_level m = any_level q /\ forall i, (i < 8)%nat -> ts m i = option_map (Z.mul (-2)) (q_level q i).

Lemma field_pos m p k : 0 <= k -> 0 <= field m p k < 2 ^ k.
Proof. intro K. apply field_range. exact K. Qed.

Lemma first_class_same s q e c l : (forall a, a < 778 -> mem s a = mem q a) -> (forall j, In j l -> (j < 11)%nat) -> e <= 11 -> c <= 11 ->
  first_class s 17 e c l = first_class q 17 e c l.
Proof.
  intros K B E C. induction l as [|j l IH]; [reflexivity|]. cbn [first_class].
  assert (J : (j < 11)%nat) by (apply B; now left). rewrite IH by (intros; apply B; now right).
  unfold class_in, get8. rewrite !K by (unfold content_at; lia). reflexivity.
Qed.

Section Message.
Variable msg : list Z.
Hypothesis OCT : octets msg.
Hypothesis L : length msg = 23%nat.
Variable s : state.
Hypothesis D : decode_ul msg = Go s.

Lemma levels_mine p e lv : (forall i, (i < 8)%nat -> e i = Z.b2z (there msg (slot_pos msg p i)) /\
    (there msg (slot_pos msg p i) = true -> lv i = field msg (slot_pos msg p i + 1) 4)) ->
  existsb (fun i => negb (e i =? 0)) (seq 0 8) = existsb (fun i => match levels_at msg p i with Some _ => true | None => false end) (seq 0 8) /\
  forall i, (i < 8)%nat -> (if (i <? 8)%nat && negb (e i =? 0) then Some (-2 * lv i) else None) = option_map (Z.mul (-2)) (levels_at msg p i).
Proof.
  intro A. split.
  - apply eq_true_iff_eq. rewrite !existsb_exists. split; intros (i & I & E); exists i; (split; [exact I|]); apply in_seq in I; destruct (A i ltac:(lia)) as (A1 & _);
      unfold levels_at, optional in *; rewrite (proj2 (Nat.ltb_lt i 8)) in * by lia; rewrite A1 in *; destruct (there msg (slot_pos msg p i)); (reflexivity || discriminate).
  - intros i I. destruct (A i I) as (A1 & A2). unfold levels_at, optional. rewrite (proj2 (Nat.ltb_lt i 8)) by lia. rewrite A1.
    destruct (there msg (slot_pos msg p i)); cbn [Z.b2z Z.eqb negb andb option_map]; [|reflexivity]. now rewrite A2.
Qed.

Lemma ack_mine m0 : message_type msg = DOWNLINK_ACK_NACK -> have_ms_i_level m0 = false -> ts m0 = (fun _ => None) -> ms_rx_qual m0 = None -> ms_sign_var m0 = None ->
  mine (ack_quality msg) m0 (get_meas_ack s m0).
Proof.
  intros M H0 T0 _ _. destruct (ack_read msg OCT ltac:(lia) s D M) as (R1 & R2 & R3 & R4). cbv zeta in *. set (p := if there msg 91 then 116 else 92) in *.
  unfold get_meas_ack, get_levels.
  match goal with |- context [fold_left _ (seq 0 8) ?m] => destruct (levels_fold (cqr_exist s) (cqr_level s) 8 m) as (H1 & H2 & H3 & H4 & H5 & H6 & H7 & H8 & H9);
    set (r := fold_left _ (seq 0 8) m) in *; clearbody r end.
  destruct (levels_mine (p + 15) _ _ R4) as (E1 & E2). cbn [rssi ber bto link_qual ms_rx_qual ms_c_value ms_sign_var have_ms_i_level ts] in *.
  unfold mine, ack_quality. fold p. cbv zeta. unfold any_level. cbn [q_c q_rxqual q_var q_level]. rewrite H1, H2, H3, H4, H5, H6, H7, H8, H0, R1, R2, R3.
  repeat (split; [reflexivity|]). split; [apply rxqual_ok; apply (field_pos msg (p + 6) 3); lia|].
  split; [apply var_ok; apply (field_pos msg (p + 9) 6); lia|]. split; [exact E1|]. intros i I. rewrite H9, T0. now apply E2.
Qed.

Lemma request_mine m0 l : message_type msg = RESOURCE_REQUEST -> request_techs msg l -> Forall (long_form msg) l ->
  have_ms_i_level m0 = false -> ts m0 = (fun _ => None) -> ms_rx_qual m0 = None -> ms_sign_var m0 = None ->
  mine (request_quality msg l) m0 (get_meas_request s m0).
Proof.
  intros M T F H0 T0 X0 V0. destruct (body_go msg OCT L s D M l T F) as (q & A & PE & Z0 & G & _).
  destruct (tail_go msg OCT L _ _ _ A PE G) as (_ & R1 & R2 & R3 & R4). cbv zeta in *.
  set (mark := request_body msg l + 24) in *. set (c := if there msg mark then mark + 3 else mark + 1) in *. set (lvl := if there msg (c + 6) then c + 6 + 7 else c + 6 + 1) in *.
  assert (R4' : forall i, (i < 8)%nat -> prr_exist s i = Z.b2z (there msg (slot_pos msg lvl i)) /\ (there msg (slot_pos msg lvl i) = true -> prr_level s i = field msg (slot_pos msg lvl i + 1) 4)).
  { intros i I. apply R4; [exact I| | |]; apply Z0; lia. }
  unfold get_meas_request, get_levels.
  match goal with |- context [fold_left _ (seq 0 8) ?m] => destruct (levels_fold (prr_exist s) (prr_level s) 8 m) as (H1 & H2 & H3 & H4 & H5 & H6 & H7 & H8 & H9);
    set (r := fold_left _ (seq 0 8) m) in *; clearbody r end.
  destruct (levels_mine lvl _ _ R4') as (E1 & E2). cbn [rssi ber bto link_qual ms_rx_qual ms_c_value ms_sign_var have_ms_i_level ts] in *.
  unfold mine, request_quality. fold mark. cbv zeta. fold c. fold lvl. unfold any_level. cbn [q_c q_rxqual q_var q_level]. rewrite H1, H2, H3, H4, H5, H6, H7, H8, H0, R1, X0, V0.
  repeat (split; [reflexivity|]).
  split; [|split; [exact E1|intros i I; rewrite H9, T0; now apply E2]].
  unfold optional. rewrite R2. destruct (there msg (c + 6)); cbn [Z.b2z Z.eqb negb in_units]; [|exact Logic.I].
  rewrite R3 by reflexivity. apply var_ok. apply (field_pos msg (c + 6 + 1) 6). lia.
Qed.

Lemma request_announced l old : message_type msg = RESOURCE_REQUEST -> request_techs msg l -> Forall (long_form msg) l ->
  request_classes s old = (take_class (announced (map (gprs_class msg) l)) (fst old), take_class (announced (map (egprs_class msg) l)) (snd old)).
Proof.
  intros M T F. destruct (body_go msg OCT L s D M l T F) as (q & A & PE & Z0 & G & X & C).
  destruct (tail_go msg OCT L _ _ _ A PE G) as (K & _). unfold request_classes.
  assert (U : u8 s 16 = Z.b2z (there msg (request_capability msg))).
  { unfold u8, get8. rewrite K, X by lia. now destruct (there msg (request_capability msg)). }
  rewrite U. destruct l as [|t r] eqn:EL.
  - cbn [request_techs] in T. rewrite T. destruct old; reflexivity.
  - destruct T as (T1 & T2). rewrite T1. rewrite <- EL in *. specialize (C ltac:(rewrite EL; discriminate)).
    destruct C as (C0 & C1 & C2). cbn [Z.b2z Z.eqb]. rewrite <- C1, <- C2. unfold get_ms_class_by_capability, get_egprs_ms_class_by_capability.
    assert (EE : elements s 17 = elements q 17) by (unfold elements, get8; now rewrite K by lia). rewrite EE.
    assert (FE : forall j, In j (elements q 17) -> (j < 11)%nat) by (intros j J; unfold elements in J; apply in_seq in J; lia).
    now rewrite !(first_class_same _ _ _ _ _ K FE) by lia.
Qed.
End Message.

(** ** The history *)
Lemma last_said_snoc {A B} (f : A -> option B) h x : last_said f (h ++ [x]) = match f x with Some y => Some y | None => last_said f h end.
Proof.
  induction h as [|a h IH]; cbn [app last_said]; [now destruct (f x)|]. rewrite IH. now destruct (f x).
Qed.

Lemma agree_bts k Q r : 0 <= b_ber10k r <= 10000 -> agree k Q -> agree (ms_update_l1_meas k (indication r)) (Q ++ [Some (r, None)]).
Proof.
  intros B (A1 & A2 & A3 & A4 & A5 & A6 & A7 & A8). unfold agree. rewrite !last_said_snoc.
  unfold by_bts, by_ms, indication, l1_of_ind, ms_update_l1_meas, set_if in *. cbn [rssi ber bto link_qual ms_rx_qual ms_c_value ms_sign_var have_ms_i_level ts option_map fst].
  assert (E : Z.quot (b_ber10k r) 100 mod 256 = b_ber10k r / 100).
  { rewrite Z.quot_div_nonneg by lia. apply Z.mod_small. Z.div_mod_to_equations. lia. }
  rewrite E. auto 10.
Qed.

Lemma agree_ms k Q r m q : 0 <= b_ber10k r <= 10000 -> mine q (indication r) m -> agree k Q -> agree (ms_update_l1_meas k m) (Q ++ [Some (r, Some q)]).
Proof.
  intros B (M1 & M2 & M3 & M4 & M5 & M6 & M7 & M8 & M9) (A1 & A2 & A3 & A4 & A5 & A6 & A7 & A8). unfold agree. rewrite !last_said_snoc.
  assert (E : Z.quot (b_ber10k r) 100 mod 256 = b_ber10k r / 100).
  { rewrite Z.quot_div_nonneg by lia. apply Z.mod_small. Z.div_mod_to_equations. lia. }
  unfold by_bts, by_ms, levels, indication, l1_of_ind, ms_update_l1_meas in *. cbn [rssi ber bto link_qual ms_rx_qual ms_c_value ms_sign_var have_ms_i_level ts option_map fst] in *.
  rewrite M1, M2, M3, M4, M5, M8, E. cbn [set_if].
  repeat (split; [reflexivity|]). split; [|split].
  - destruct (q_rxqual q), (ms_rx_qual m); cbn [in_units set_if] in *; (exact M6 || exact A6 || contradiction).
  - destruct (q_var q), (ms_sign_var m); cbn [in_units set_if] in *; (exact M7 || exact A7 || contradiction).
  - intros i I. destruct (any_level q); [now apply M9|now apply A8].
Qed.

Lemma handled_by msg s : octets msg -> length msg = 23%nat -> decode_ul msg = Go s -> message_type msg <> PAUSE ->
  rcv_control_block msg = Some (dispatch (message_type msg), s).
Proof.
  intros O L D P. assert (E : rcv_control_block msg = Some (dispatch (get8 s 0), s)) by (unfold rcv_control_block; now rewrite D).
  rewrite E. f_equal. f_equal. apply (right_handler msg O ltac:(lia) _ _ E P).
Qed.

Theorem kept_last h Q : Forall2 tells h Q -> Forall (fun x => 0 <= b_ber10k (fst x) <= 10000) h -> agree (kept h) Q.
Proof.
  revert Q. induction h as [|x h IH] using rev_ind; intros Q T B.
  - inversion T. unfold agree, kept. cbn. repeat split.
  - apply Forall2_app_inv_l in T. destruct T as (Q1 & Q2 & T1 & T2 & ->). inversion T2 as [|? o ? Q3 T X]; subst. inversion X; subst. clear X T2.
    apply Forall_app in B as (B1 & B2). inversion B2 as [|? ? B3 _]; subst. specialize (IH Q1 T1 B1). unfold kept in *. rewrite fold_left_app. cbn [fold_left].
    set (k := fold_left _ h l1_none) in *. clearbody k. clear - IH T B3.
    destruct T as [r|r msg s O L D M|r msg s O L D M|r msg s l O L D M R F|r msg O L P N1 N2 N3|r msg N]; cbn [fst snd ms_hear] in *.
    + now apply agree_bts.
    + rewrite (handled_by msg s O L D) by (rewrite M; discriminate). rewrite M. cbn [dispatch CELL_CHANGE_NOTIFICATION]. now apply agree_bts.
    + rewrite (handled_by msg s O L D) by (rewrite M; discriminate). pose proof (ack_mine msg O L s D (indication r) M eq_refl eq_refl eq_refl eq_refl) as X.
      rewrite M. cbn [dispatch DOWNLINK_ACK_NACK]. now apply agree_ms.
    + rewrite (handled_by msg s O L D) by (rewrite M; discriminate). pose proof (request_mine msg O L s D (indication r) l M R F eq_refl eq_refl eq_refl eq_refl) as X.
      rewrite M. cbn [dispatch RESOURCE_REQUEST]. now apply agree_ms.
    + assert (K : match rcv_control_block msg with None => k | Some (OnDlAckNack, s) => ms_update_l1_meas k (get_meas_ack s (indication r))
        | Some (OnResourceRequest, s) => ms_update_l1_meas k (get_meas_request s (indication r)) | Some (OnCellChangeNotification, _) => ms_update_l1_meas k (indication r) | Some _ => k end = k).
      { destruct (rcv_control_block msg) as [[hd s]|] eqn:E; [|reflexivity]. rewrite (right_handler msg O ltac:(lia) _ _ E P).
        unfold CELL_CHANGE_NOTIFICATION, DOWNLINK_ACK_NACK, RESOURCE_REQUEST in *. unfold dispatch. set (mt := message_type msg) in *. clearbody mt. clear - N1 N2 N3.
        repeat match goal with |- context [match ?z with _ => _ end] => is_var z; destruct z end; (reflexivity || lia). }
      rewrite K. clear K. unfold agree in *. rewrite !last_said_snoc. exact IH.
    + assert (E : rcv_control_block msg = None) by (unfold rcv_control_block; destruct (decode_ul msg) as [s|c s|s] eqn:E; [now destruct (N s)|reflexivity|reflexivity]).
      rewrite E. unfold agree in *. rewrite !last_said_snoc. exact IH.
Qed.
