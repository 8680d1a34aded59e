(** Consequences of the uplink window invariant: C05-C07. *)
From Coq Require Import ZArith Znumtheory List Bool Lia ZifyBool.
From Verif Require Import Base.Arith Model.RlcWindow Model.RlcWindowUl Model.TbfUlWindow
  Spec.UlWindowSpec Proofs.UlWindowP Proofs.UlWindowI.
Import ListNotations.
Local Open Scope Z_scope.

Lemma c05_window : forall n ws o, ul_reach n ws o ->
  Z.of_nat (length (u_out o)) = u_Q o /\
  0 <= u_Q o <= u_R o /\ u_R o <= u_Q o + uws o /\
  uw_vq (ut_w (u_t o)) = u_Q o mod n /\ uw_vr (ut_w (u_t o)) = u_R o mod n /\
  (forall k c, nth_error (u_out o) k = Some c -> exists far, In (Arr (Z.of_nat k) c far) (u_log o)).
Proof.
  intros n ws o H. destruct (reach_UInv _ _ _ H) as [HJ H1 H2 _]. destruct HJ.
  unfold uws. splits; auto; lia.
Qed.

Lemma c05_total : forall n ws o op, ul_reach n ws o -> ul_op_ok n op o ->
  exists o', uobs_step op o = Some o'.
Proof.
  intros n ws o op H Hok. destruct (step_UInv n ws o op (reach_UInv _ _ _ H) Hok)
    as (o' & E & _). eauto.
Qed.

Lemma c05_end : forall n ws o, ul_reach n ws o -> uws o < 1024 -> u_fin o = true ->
  u_Q o = u_R o /\ exists c far, In (Arr (u_R o - 1) c far) (u_log o) /\ uc_cv c = 0.
Proof. intros n ws o H Hw Hf. destruct (reach_UInv _ _ _ H) as [_ _ _ H4]. now apply H4. Qed.

(** A sender with fixed contents. *)
Definition all_f (f : Z -> ul_content) (log : list uev) : Prop :=
  forall i c far, In (Arr i c far) log -> c = f i.

Lemma number_sent : forall n ws Q i, 0 < n -> 2 * ws <= n -> Q - ws <= i < Q + ws ->
  ul_number n Q (i mod n) = i \/ Q + ws <= ul_number n Q (i mod n).
Proof.
  intros n ws Q i Hn Hw Hi. unfold ul_number. rewrite Zminus_mod_idemp_l.
  destruct (Z_le_gt_dec Q i).
  - left. rewrite Z.mod_small; lia.
  - right. assert (E : (i - Q) mod n = i - Q + n) by (symmetry; apply Zmod_unique with (-1); lia).
    lia.
Qed.

Lemma all_f_loop : forall n ws0 f l t Q R log, J n ws0 t Q R log ->
  Forall (sent_block n (uw_ws (ut_w t)) Q f) l -> all_f f log ->
  all_f f (fst (uobs_loop t Q R l log)).
Proof.
  intros n ws0 f. induction l as [|b l IH]; intros t Q R log HJ Hf Ha; [exact Ha|].
  inversion Hf as [|? ? Hb Hl]; subst. cbn [uobs_loop].
  destruct (ul_rcv_one t b) as [t1 ret] eqn:E1.
  assert (Hn0 := sns_pos n (j_ok _ _ _ _ _ _ HJ)).
  destruct Hb as (i & Hi & Hbsn & Hc).
  assert (Hb0 : 0 <= ub_bsn b < n) by (rewrite Hbsn; apply Z.mod_pos_bound; lia).
  destruct (J_one n ws0 t Q R log b t1 ret HJ Hb0 E1) as (R' & HR' & Hws & HJ').
  assert (Ha1 : all_f f (uobs_one Q R n (uw_ws (ut_w t)) b log)).
  { unfold uobs_one. rewrite Hbsn.
    destruct (number_sent n (uw_ws (ut_w t)) Q i Hn0 (j_wsb _ _ _ _ _ _ HJ) Hi) as [E|E].
    - rewrite E. destruct ((i <? Q + uw_ws (ut_w t)) && negb (ub_incomplete b) && ub_tlli_ok b) eqn:Eb.
      + intros k c far [Hin|Hin]; [|eapply Ha; eauto].
        injection Hin as <- <- <-. apply Hc. destruct (ub_incomplete b); [lia|reflexivity].
      + exact Ha.
    - replace (ul_number n Q (i mod n) <? Q + uw_ws (ut_w t)) with false by lia. exact Ha. }
  rewrite (j_sns _ _ _ _ _ _ HJ). rewrite <- HR'.
  destruct ret; [exact Ha1|].
  apply IH; auto. rewrite Hws. exact Hl.
Qed.

Lemma from_inv : forall n ws f o, ul_reach_from n ws f o -> UInv n ws o /\ all_f f (u_log o).
Proof.
  intros n ws f o H. induction H as [H|o rel flow l o' Hr IH Hs He|o ws' o' Hr IH Hok He].
  - split; [now apply init_UInv|]. intros i c far [].
  - destruct IH as [HI Ha].
    assert (HJ := ui_J _ _ _ HI). assert (Hn0 := sns_pos n (j_ok _ _ _ _ _ _ HJ)).
    assert (Hok : ul_op_ok n (URcv rel flow l) o).
    { cbn. eapply Forall_impl; [|exact Hs]. intros b (i & _ & Hb & _). rewrite Hb.
      apply Z.mod_pos_bound. lia. }
    destruct (step_UInv n ws o _ HI Hok) as (o2 & E2 & I2).
    assert (o2 = o') by congruence. subst o2. split; auto.
    pose proof (all_f_loop n ws f l (u_t o) (u_Q o) (u_R o) (u_log o) HJ Hs Ha) as Hl.
    cbn [uobs_step] in He. destruct (ul_rcv rel flow (u_t o) l) as [[[t' out] fin]|]; [|discriminate].
    destruct rel; [injection He as <-; exact Ha|].
    destruct (uobs_loop (u_t o) (u_Q o) (u_R o) l (u_log o)) as [log' R'].
    injection He as <-. exact Hl.
  - destruct IH as [HI Ha].
    destruct (step_UInv n ws o _ HI Hok) as (o2 & E2 & I2).
    assert (o2 = o') by congruence. subst o2. split; auto.
    cbn [uobs_step] in He. destruct (ul_set_ws (u_t o) ws'); [|discriminate].
    injection He as <-. exact Ha.
Qed.

Lemma c05_sender : forall n ws f o, ul_reach_from n ws f o ->
  u_out o = map (fun k => f (Z.of_nat k)) (seq 0 (Z.to_nat (u_Q o))).
Proof.
  intros n ws f o H. destruct (from_inv n ws f o H) as [[HJ H1 H2 _] Ha].
  assert (Hlen : length (u_out o) = Z.to_nat (u_Q o)) by lia.
  rewrite <- Hlen. clear H1 Hlen.
  assert (Hg : forall k c, nth_error (u_out o) k = Some c -> c = f (Z.of_nat k)).
  { intros k c Hk. destruct (H2 k c Hk) as [far Hin]. now apply Ha in Hin. }
  clear - Hg. revert Hg.
  generalize (u_out o) as l. intro l.
  assert (G : forall l m, (forall k c, nth_error l k = Some c -> c = f (Z.of_nat (m + k))) ->
              l = map (fun k => f (Z.of_nat k)) (seq m (length l))).
  { clear l. induction l as [|a l IH]; intros m Hl; [reflexivity|]. cbn. f_equal.
    - rewrite (Hl 0%nat a eq_refl). do 2 f_equal. lia.
    - apply IH. intros k c Hk. rewrite (Hl (S k) c Hk). do 2 f_equal. lia. }
  intro Hg. apply G. exact Hg.
Qed.

(** C06. *)
Lemma c06_state : forall n ws o i, ul_reach n ws o -> ul_half n (uws o) -> no_far (u_log o) ->
  arrived o i -> i < u_R o /\
    (u_Q o <= i \/ u_R o - ws <= i -> st (ut_w (u_t o)) i = UlReceived).
Proof.
  intros n ws o i H Hh Hnf Ha. destruct (reach_UInv _ _ _ H) as [HJ _ _ _]. destruct HJ.
  destruct (j_cmp Hh Hnf) as [A B]. split; [now apply A|].
  intro Hi. apply B; auto.
Qed.

Lemma reach_params : forall n ws o, ul_reach n ws o -> sns_ok n /\ 64 <= ws <= uws o /\ 2 * uws o <= n.
Proof.
  intros n ws o H. destruct (reach_UInv _ _ _ H) as [HJ _ _ _]. destruct HJ. unfold uws.
  splits; auto; lia.
Qed.

(** Far arrivals need a window of half the sequence space. *)
Lemma loop_no_far : forall n ws0 l t Q R log, J n ws0 t Q R log ->
  Forall (fun b => 0 <= ub_bsn b < n) l -> 2 * uw_ws (ut_w t) < n -> no_far log ->
  no_far (fst (uobs_loop t Q R l log)).
Proof.
  intros n ws0. induction l as [|b l IH]; intros t Q R log HJ Hf Hw Hnf; [exact Hnf|].
  inversion Hf; subst. cbn [uobs_loop].
  destruct (ul_rcv_one t b) as [t1 ret] eqn:E1.
  destruct (J_one n ws0 t Q R log b t1 ret HJ H1 E1) as (R' & HR' & Hws & HJ').
  rewrite (j_sns _ _ _ _ _ _ HJ). rewrite <- HR'.
  assert (Ha1 : no_far (uobs_one Q R n (uw_ws (ut_w t)) b log)).
  { unfold uobs_one. destruct (_ && ub_tlli_ok b); [|exact Hnf].
    apply no_far_cons. split; auto.
    replace (2 * uw_ws (ut_w t) =? n) with false by lia. apply andb_false_r. }
  destruct ret; [exact Ha1|]. apply IH; auto. now rewrite Hws.
Qed.

Lemma reach_no_far : forall n ws o, ul_reach n ws o -> 2 * uws o < n -> no_far (u_log o).
Proof.
  intros n ws o H. induction H as [H|o op o' Hr IH Hok He]; intro Hw.
  - intros i c far [].
  - assert (HI := reach_UInv _ _ _ Hr). assert (HJ := ui_J _ _ _ HI).
    destruct op as [rel flow l|ws']; cbn [uobs_step ul_op_ok] in *.
    + destruct (ul_rcv rel flow (u_t o) l) as [[[t' out] fin]|] eqn:Er; [|discriminate].
      destruct rel.
      { injection He as <-. cbn [u_log]. apply IH. unfold ul_rcv in Er. injection Er as <- <- <-.
        exact Hw. }
      pose proof (loop_no_far n ws l (u_t o) (u_Q o) (u_R o) (u_log o) HJ Hok) as Hl.
      assert (Hws : uw_ws (ut_w t') = uw_ws (ut_w (u_t o))).
      { unfold ul_rcv in Er. destruct (ul_rcv_loop (u_t o) l) as [t1 ret] eqn:El.
        destruct (J_loop n ws l _ _ _ _ t1 ret HJ Hok El) as [Hws _].
        destruct ret; [injection Er as <- _ _; exact Hws|].
        destruct (ul_raise_v_q (ut_w t1)) as [[w2 cnt]|] eqn:Eq; [|discriminate].
        injection Er as <- _ _. cbn [with_w ut_w]. rewrite <- Hws.
        unfold ul_raise_v_q in Eq.
        revert Eq. generalize (Z.to_nat (uw_sns (ut_w t1))) as k. generalize 0 as c0.
        generalize (ut_w t1) as w1. clear.
        intros w1 c0 k. revert w1 c0. induction k as [|k IH]; intros w1 c0 E; [discriminate|].
        cbn [ul_raise_v_q_loop] in E.
        destruct (uw_vq w1 =? uw_vr w1); [injection E as <- _; reflexivity|].
        destruct (vn_is_received w1 (uw_vq w1)); [|injection E as <- _; reflexivity].
        apply IH in E. exact E. }
      destruct (uobs_loop (u_t o) (u_Q o) (u_R o) l (u_log o)) as [log' R'].
      injection He as <-. cbn [u_log fst] in *. unfold uws in *. cbn [u_t] in Hw.
      rewrite Hws in Hw. apply Hl; auto.
    + unfold ul_set_ws in He. destruct (set_ws_check ws'); [|discriminate].
      injection He as <-. cbn [u_log]. apply IH. change (2 * ws' < n) in Hw. lia.
Qed.

(** C07, GPRS. *)
Lemma vn_st : forall w bsn i, sns_ok (uw_sns w) -> slot (uw_sns w) i = bsn mod 1024 ->
  vn_is_received w bsn = ul_is_rcvd (st w i).
Proof.
  intros w bsn i H E. unfold vn_is_received, vn_get, st, mod_sns_half.
  rewrite land_1023, E. reflexivity.
Qed.

Lemma map_seq_nth : forall A (f : nat -> A) m k d, (k < m)%nat -> nth k (map f (seq 0 m)) d = f k.
Proof.
  intros A f m k d Hk. rewrite nth_indep with (d' := f 0%nat) by now rewrite map_length, seq_length.
  rewrite map_nth. now rewrite seq_nth.
Qed.

Lemma rbb_nth : forall n ws o k, ul_reach n ws o -> (Z.of_nat k < uws o) ->
  nth k (ul_update_rbb (ut_w (u_t o))) false
  = ul_is_rcvd (st (ut_w (u_t o)) (u_R o - uws o + Z.of_nat k)).
Proof.
  intros n ws o k H Hk. destruct (reach_UInv _ _ _ H) as [HJ _ _ _]. destruct HJ.
  unfold uws in *. unfold ul_update_rbb.
  rewrite map_seq_nth by lia.
  apply vn_st; [now rewrite j_sns|].
  rewrite j_sns, land_mask_mod by auto. unfold slot. f_equal.
  rewrite j_vr. set (wsz := uw_ws (ut_w (u_t o))).
  replace (u_R o mod n - 1 - (wsz - 1 - Z.of_nat k)) with (u_R o mod n + (Z.of_nat k - wsz)) by lia.
  rewrite mod_add_l by now apply sns_pos. f_equal. lia.
Qed.

Lemma gprs_ws : forall ws o, ul_reach 128 ws o -> uws o = 64 /\ ws = 64.
Proof. intros ws o H. destruct (reach_params _ _ _ H) as (_ & H1 & H2). lia. Qed.

Lemma rcvd_true : forall s, ul_is_rcvd s = true <-> s = UlReceived.
Proof. intros []; cbn; split; intro; congruence. Qed.

Lemma c07_gprs : forall ws o ssn bits, ul_reach 128 ws o ->
  ul_report_gprs (ut_w (u_t o)) = (ssn, bits) ->
  ssn = u_R o mod 128 /\ length bits = 64%nat /\
  forall k, (k < 64)%nat ->
    (nth k bits false = true -> arrived o (u_R o - 64 + Z.of_nat k)) /\
    (no_far (u_log o) -> arrived o (u_R o - 64 + Z.of_nat k) -> nth k bits false = true).
Proof.
  intros ws o ssn bits H He. destruct (gprs_ws _ _ H) as [Hw Hw'].
  unfold ul_report_gprs in He. apply pair_equal_spec in He. destruct He as [<- <-].
  pose proof (reach_UInv _ _ _ H) as [HJ _ _ _]. pose proof HJ as HJ0. destruct HJ0.
  assert (Hh : ul_half 128 (uws o)) by (rewrite Hw; cbv; discriminate).
  splits; auto.
  intros k Hk. rewrite map_seq_nth by auto.
  rewrite (rbb_nth 128 ws o k H) by (rewrite Hw; lia). rewrite Hw, rcvd_true. split.
  - intro Hs. apply (j_half Hh); auto. fold (uws o). rewrite Hw. change (M 128) with 128. lia.
  - intros Hnf Ha. apply (c06_state 128 ws o _ H Hh Hnf Ha). lia.
Qed.

(** C07, EGPRS without compression. *)
Lemma rev_seq_nth : forall m k, (k < m)%nat -> nth k (rev (seq 1 m)) 0%nat = (m - k)%nat.
Proof.
  intros m k Hk. rewrite rev_nth by now rewrite seq_length. rewrite seq_length, seq_nth by lia. lia.
Qed.

Lemma c07_egprs : forall ws o rest ssn eow bits, ul_reach 2048 ws o -> uws o <= 512 ->
  0 <= rest < 256 ->
  ul_report_egprs_unc (ut_w (u_t o)) rest = (ssn, eow, bits) ->
  ssn = (u_Q o + 1) mod 2048 /\
  (length bits <= Z.to_nat rest)%nat /\
  (Z.of_nat (length bits) = Z.min rest (Z.max 0 (u_R o - u_Q o - 1))) /\
  (eow = true <-> u_R o - u_Q o - 1 <= rest) /\
  forall k, (k < length bits)%nat ->
    (nth k bits false = true <-> arrived o (u_Q o + Z.of_nat (length bits) - Z.of_nat k)).
Proof.
  intros ws o rest ssn eow bits H Hws Hrest He.
  pose proof (reach_UInv _ _ _ H) as [HJ _ _ _]. pose proof HJ as HJ0. destruct HJ0.
  fold (uws o) in *.
  assert (Hh : ul_half 2048 (uws o)) by (unfold ul_half; change (Z.min 2048 1024) with 1024; lia).
  assert (Hnf : no_far (u_log o)) by (apply (reach_no_far _ _ _ H); lia).
  set (w := ut_w (u_t o)) in *.
  assert (Hok : sns_ok (uw_sns w)) by now rewrite j_sns.
  unfold ul_report_egprs_unc in He.
  rewrite !umod_mod in He by auto. rewrite j_sns, j_vq, j_vr in He.
  rewrite mod_add_l in He by lia.
  rewrite (mod_sub_l 2048 (u_Q o + 1) 1) in He by lia.
  replace (u_Q o + 1 - 1) with (u_Q o) in He by lia.
  rewrite (mod_sub_dist 2048 (u_Q o) (u_R o)) in He by lia.
  set (nb := if u_R o - u_Q o >? 0 then u_R o - u_Q o - 1 else u_R o - u_Q o) in He.
  change (uw_ws w) with (uws o) in He.
  assert (Hnb : nb = Z.max 0 (u_R o - u_Q o - 1)) by (unfold nb; destruct (u_R o - u_Q o >? 0) eqn:E; lia).
  replace (nb >? uws o) with false in He by lia.
  set (len := if nb >? rest then rest else nb) in He.
  assert (Hlen : len = Z.min rest nb) by (unfold len; destruct (nb >? rest) eqn:E; lia).
  rewrite (Z.mod_small len 256) in He by lia.
  injection He as <- <- <-.
  rewrite map_length, rev_length, seq_length.
  splits; try lia.
  intros k Hk.
  rewrite nth_indep with (d' := vn_is_received w (u_Q o mod 2048 + Z.of_nat 0))
    by (rewrite map_length, rev_length, seq_length; lia).
  rewrite (map_nth (fun k0 : nat => vn_is_received w (u_Q o mod 2048 + Z.of_nat k0))
             (rev (seq 1 (Z.to_nat len))) 0%nat k).
  rewrite rev_seq_nth by lia.
  set (i := u_Q o + Z.of_nat (Z.to_nat len) - Z.of_nat k).
  assert (Hi : u_Q o < i < u_R o) by (unfold i; lia).
  rewrite (vn_st w _ i); auto.
  2:{ rewrite slot_min by auto. rewrite j_sns. change (Z.min 2048 1024) with 1024.
      rewrite <- (Zplus_mod_idemp_l (u_Q o mod 2048)).
      rewrite <- (Zmod_div_mod 1024 2048 (u_Q o)); try lia; [|now exists 2].
      rewrite Zplus_mod_idemp_l. f_equal. unfold i. lia. }
  rewrite rcvd_true. split.
  - intro Hs. destruct (j_snd i ltac:(lia) Hs) as [far Hin]. eexists; eexists; eauto.
  - intro Ha. apply (c06_state 2048 ws o i H Hh Hnf Ha). lia.
Qed.

(** C06 through the reports. *)
Lemma c06_gprs : forall ws o i, ul_reach 128 ws o -> no_far (u_log o) -> arrived o i ->
  let bits := snd (ul_report_gprs (ut_w (u_t o))) in
  i < u_R o /\
  (i < u_R o - 64 -> i < u_Q o) /\
  (u_R o - 64 <= i -> nth (Z.to_nat (i - (u_R o - 64))) bits false = true).
Proof.
  intros ws o i H Hnf Ha bits. destruct (gprs_ws _ _ H) as [Hw Hw'].
  assert (Hh : ul_half 128 (uws o)) by (rewrite Hw; cbv; discriminate).
  destruct (c06_state 128 ws o i H Hh Hnf Ha) as [H1 _].
  destruct (c05_window _ _ _ H) as (_ & Hr & Hr2 & _).
  splits; auto; try lia.
  intro Hi. unfold bits.
  destruct (ul_report_gprs (ut_w (u_t o))) as [ssn b] eqn:E. cbn [snd].
  destruct (c07_gprs ws o ssn b H E) as (_ & _ & Hk).
  apply (Hk (Z.to_nat (i - (u_R o - 64)))); auto; try lia.
  replace (u_R o - 64 + Z.of_nat (Z.to_nat (i - (u_R o - 64)))) with i by lia. exact Ha.
Qed.

Lemma c06_egprs : forall ws o rest i, ul_reach 2048 ws o -> uws o <= 512 -> 0 <= rest < 256 ->
  u_R o - u_Q o - 1 <= rest -> arrived o i ->
  let bits := snd (ul_report_egprs_unc (ut_w (u_t o)) rest) in
  i <= u_Q o \/
  (u_Q o < i < u_R o /\
   nth (Z.to_nat (u_Q o + Z.of_nat (length bits) - i)) bits false = true).
Proof.
  intros ws o rest i H Hws Hrest Hfit Ha bits.
  assert (Hh : ul_half 2048 (uws o)) by (unfold ul_half; change (Z.min 2048 1024) with 1024; lia).
  assert (Hnf : no_far (u_log o)) by (apply (reach_no_far _ _ _ H); lia).
  destruct (c06_state 2048 ws o i H Hh Hnf Ha) as [H1 _].
  destruct (Z_le_gt_dec i (u_Q o)) as [|Hgt]; [left; lia|right]. split; [lia|].
  unfold bits. destruct (ul_report_egprs_unc (ut_w (u_t o)) rest) as [[ssn eow] b] eqn:E. cbn [snd].
  destruct (c07_egprs ws o rest ssn eow b H Hws Hrest E) as (_ & _ & Hl & _ & Hk).
  apply Hk; [lia|].
  match goal with |- arrived o ?x => replace x with i by lia end. exact Ha.
Qed.

(** Delivery is not delayed: once a radio block has been processed completely, the next
    block to be delivered has not arrived. *)
Lemma c06_prompt : forall n ws o flow l o', ul_reach n ws o -> ul_op_ok n (URcv false flow l) o ->
  Forall (fun b => ub_incomplete b = false) l ->
  uobs_step (URcv false flow l) o = Some o' -> ul_half n (uws o') -> no_far (u_log o') ->
  ~ arrived o' (u_Q o').
Proof.
  intros n ws o flow l o' Hr Hok Hinc He Hh Hnf Ha.
  assert (Hr' : ul_reach n ws o') by (eapply ureach_step; eauto).
  destruct (c06_state n ws o' _ Hr' Hh Hnf Ha) as [H1 H2].
  specialize (H2 ltac:(lia)).
  assert (HJ := ui_J _ _ _ (reach_UInv _ _ _ Hr)).
  cbn [uobs_step] in He. unfold ul_rcv in He.
  destruct (ul_rcv_loop (u_t o) l) as [t1 ret] eqn:El.
  assert (ret = false).
  { clear - El Hinc. revert El. generalize (u_t o). revert t1 ret.
    induction Hinc as [|b l Hb _ IH]; intros t1 ret t El; cbn [ul_rcv_loop] in El.
    - now apply pair_equal_spec in El.
    - assert (E1 : snd (ul_rcv_one t b) = false).
      { unfold ul_rcv_one. rewrite Hb. destruct (negb _); [reflexivity|].
        destruct (vn_is_received _ _); [reflexivity|]. now destruct (ub_tlli_ok b). }
      destruct (ul_rcv_one t b) as [t2 r2]. cbn in E1. subst r2. eauto. }
  subst ret.
  destruct (J_loop n ws l _ _ _ _ t1 false HJ Hok El) as [Hws HJ1].
  destruct (uobs_loop (u_t o) (u_Q o) (u_R o) l (u_log o)) as [log' R'] eqn:Eo.
  assert (HJ1' : J n ws (mk_ult (ut_w t1) (ut_blocks t1)) (u_Q o) R' log')
    by (destruct t1; exact HJ1).
  pose proof HJ1 as HJd. destruct HJd.
  assert (Hn0 := sns_pos n j_ok). assert (Hle := sns_le n j_ok).
  destruct (raise_vq_spec n ws log' (Z.to_nat (uw_sns (ut_w t1))) (ut_w t1) (ut_blocks t1)
              (u_Q o) R' 0 HJ1') as (w' & d & A1 & A2 & A3 & A4 & A5);
    try (rewrite ?j_sns; lia).
  unfold ul_raise_v_q in He. rewrite A1 in He. injection He as <-.
  cbn [u_Q u_R u_t with_w ut_w] in *. rewrite map_length, seq_length in *.
  change (0 + d) with d in *. rewrite Z2Nat.id in * by lia.
  destruct A5 as [A5|A5]; [lia|]. apply A5.
  rewrite A3 in H2. rewrite ?Z2Nat.id in H2 by lia. exact H2.
Qed.
