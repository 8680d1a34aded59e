(** Proofs about the sub-machines of a TBF. *)
From Coq Require Import ZArith Lia List Bool.
From Verif Require Import Base.Arith Model.TbfFsm Spec.TbfFsmSpec Proofs.TbfFsmP Proofs.TbfFsmQ
  Model.TbfSub Spec.TbfSubSpec.
Import ListNotations.
Open Scope Z_scope.

(** The life-cycle machine of the TBF is in a state that it can reach. *)
Definition reach (c : tconf) (t : tbf) : Prop :=
  exists now,
    match t_dir t with
    | DL => exists ops, dl_run c (fsm_new now) ops = Some (t_f t)
    | UL => exists ops, ul_run c (fsm_new now) ops = Some (t_f t)
    end.

(** What effects of the life-cycle machine may change. *)
Definition frame (t t' : tbf) : Prop :=
  t_dir t' = t_dir t /\ t_uk t' = t_uk t /\ t_n1 t' = t_n1 t /\ t_n3 t' = t_n3 t /\ t_n5 t' = t_n5 t /\
  t_p t' = t_p t /\ t_usf t' = t_usf t /\ t_l1 t' = t_l1 t /\ t_l3 t' = t_l3 t /\ t_l5 t' = t_l5 t /\
  ((t_ua t' = t_ua t /\ t_uaT t' = t_uaT t /\ t_uatm t' = t_uatm t) \/
   (t_ua t' = UA_NONE /\ (t_ua t = UA_SEND \/ t_ua t = UA_REJ) /\ (t_uaT t' = -2000 \/ t_uatm t' = None))) /\
  (t_da t' = t_da t \/ (t_da t = DA_NONE /\ t_da t' = DA_SEND)).

Lemma frame_refl : forall t, frame t t.
Proof. intros t. unfold frame. splits; try reflexivity; left; auto. Qed.

Lemma frame_trans : forall a b d, frame a b -> frame b d -> frame a d.
Proof.
  unfold frame. intros a b d (A1 & A2 & A3 & A4 & A5 & A6 & A7 & A8 & A9 & A10 & A11 & A12)
    (B1 & B2 & B3 & B4 & B5 & B6 & B7 & B8 & B9 & B10 & B11 & B12).
  splits; try congruence.
  - destruct A11 as [(X1 & X2 & X3)|(X1 & X2 & X3)], B11 as [(Y1 & Y2 & Y3)|(Y1 & Y2 & Y3)].
    + left. splits; congruence.
    + right. rewrite X1 in Y2. splits; assumption.
    + right. split; [congruence|]. split; [exact X2|]. destruct X3; [left|right]; congruence.
    + rewrite X1 in Y2. destruct Y2; discriminate.
  - destruct A12 as [X|[X1 X2]], B12 as [Y|[Y1 Y2]].
    + left. congruence.
    + right. split; congruence.
    + right. split; congruence.
    + congruence.
Qed.

Lemma apply_effs_frame : forall c l t,
  frame t (apply_effs c l t) /\ t_f (apply_effs c l t) = t_f t.
Proof.
  intros c l. induction l as [|e l IH]; intros t; cbn [apply_effs].
  - split; [apply frame_refl | reflexivity].
  - destruct e; try apply IH.
    + destruct (IH (ua_abort c t)) as [A B].
      assert (F : frame t (ua_abort c t) /\ t_f (ua_abort c t) = t_f t).
      { destruct t as [d f ua uaT uatm da uk n1 n3 n5 p usf l1 l3 l5].
        destruct ua, d; unfold ua_abort, ua_none, frame; cbn;
          (split; [splits; try reflexivity; auto 8|]); reflexivity. }
      destruct F as [F1 F2]. split; [eapply frame_trans; [exact F1 | exact A] | congruence].
    + destruct (IH (da_sched t)) as [A B].
      assert (F : frame t (da_sched t) /\ t_f (da_sched t) = t_f t).
      { destruct t as [d f ua uaT uatm da uk n1 n3 n5 p usf l1 l3 l5].
        destruct da; unfold da_sched, frame; cbn;
          (split; [splits; try reflexivity; auto 8|]); reflexivity. }
      destruct F as [F1 F2]. split; [eapply frame_trans; [exact F1 | exact A] | congruence].
Qed.

(** The order of states for either direction. *)
Definition next (d : dir) : tst -> tst -> Prop := match d with DL => dl_next | UL => ul_next end.

Lemma life_step : forall c t o, reach c t -> alive t ->
  exists t', life c o t = Some t' /\ reach c t' /\ frame t t' /\
    (state t' = state t \/ next (t_dir t) (state t) (state t')).
Proof.
  intros c t o (now & R) AL. unfold alive in AL. unfold life.
  destruct (t_dir t) eqn:D, o as [o|o].
  - destruct R as (ops & R).
    destruct (dl_run c (fsm_new now) (ops ++ [o])) as [f'|] eqn:R2.
    2: { exfalso. exact (dl_no_assert _ _ _ R2). }
    pose proof R2 as R3. apply runs_snoc in R2 as (g & R4 & S). unfold dl_run in R. rewrite R in R4.
    injection R4 as <-. pose proof S as S0. unfold dl_step in S. rewrite AL in S.
    destruct (dl_op c o (t_f t)) as [[f2 l]|] eqn:OP; [|discriminate]. cbn in S. injection S as ->.
    cbn [option_map fst snd]. eexists. split; [reflexivity|].
    destruct (apply_effs_frame c l (set_f f' t)) as [F TF].
    assert (F0 : frame t (apply_effs c l (set_f f' t))).
    { eapply frame_trans; [|exact F]. destruct t; unfold frame, set_f; cbn. splits; try reflexivity; auto. }
    split; [|split; [exact F0|]].
    + exists now. rewrite (proj1 F0), D, TF. exists (ops ++ [o]). exact R3.
    + unfold state. rewrite TF. cbn [set_f t_f]. exact (dl_order _ _ _ _ _ _ R S0).
  - exists t. split; [reflexivity|]. split; [exists now; rewrite D; exact R|].
    split; [apply frame_refl | left; reflexivity].
  - exists t. split; [reflexivity|]. split; [exists now; rewrite D; exact R|].
    split; [apply frame_refl | left; reflexivity].
  - destruct R as (ops & R).
    destruct (ul_run c (fsm_new now) (ops ++ [o])) as [f'|] eqn:R2.
    2: { exfalso. exact (ul_no_assert _ _ _ R2). }
    pose proof R2 as R3. apply runs_snoc in R2 as (g & R4 & S). unfold ul_run in R. rewrite R in R4.
    injection R4 as <-. pose proof S as S0. unfold ul_step in S. rewrite AL in S.
    destruct (ul_op c o (t_f t)) as [[f2 l]|] eqn:OP; [|discriminate]. cbn in S. injection S as ->.
    cbn [option_map fst snd]. eexists. split; [reflexivity|].
    destruct (apply_effs_frame c l (set_f f' t)) as [F TF].
    assert (F0 : frame t (apply_effs c l (set_f f' t))).
    { eapply frame_trans; [|exact F]. destruct t; unfold frame, set_f; cbn. splits; try reflexivity; auto. }
    split; [|split; [exact F0|]].
    + exists now. rewrite (proj1 F0), D, TF. exists (ops ++ [o]). exact R3.
    + unfold state. rewrite TF. cbn [set_f t_f]. exact (ul_order _ _ _ _ _ _ R S0).
Qed.

(** * The invariant *)
Definition late (s : tst) : Prop := s = RELEASING \/ s = WAIT_REUSE.

Definition core (t : tbf) : Prop :=
  state t <> NEW /\
  (t_uatm t <> None -> t_uaT t = -2000 \/ t_uaT t = 3168) /\
  (p_ua (t_p t) <= 1)%nat /\ (p_uk (t_p t) <= 1)%nat /\
  (p_ua (t_p t) = 1%nat -> t_ua t = UA_WAIT) /\
  (p_uk (t_p t) = 1%nat -> t_uk t = UK_WAIT) /\
  (t_uk t = UK_WAIT -> t_dir t = UL /\ (state t = FINISHED \/ state t = RELEASING)) /\
  (p_dk (t_p t) <> 0%nat -> t_dir t = DL) /\
  (t_usf t <> 0%nat -> t_dir t = UL /\ (state t = FLOW \/ state t = FINISHED \/ state t = RELEASING)).

(** Who waits for an answer has a poll, unless the TBF is about to end. *)
Definition wa (t : tbf) : Prop :=
  t_ua t = UA_WAIT -> p_ua (t_p t) = 1%nat \/ (t_dir t = DL /\ late (state t)).
Definition wk (t : tbf) : Prop :=
  t_uk t = UK_WAIT -> p_uk (t_p t) = 1%nat \/ state t = RELEASING.

Definition inv0 (t : tbf) : Prop := core t /\ wa t /\ wk t.

Definition inv (c : tconf) (t : tbf) : Prop := reach c t /\ inv0 t.

Lemma next_late : forall d s s', next d s s' -> ~ late s.
Proof.
  intros d s s' N [-> | ->]; destruct d; inversion N; subst;
    match goal with H : In _ _ |- _ => cbn in H; decompose [or] H; congruence end.
Qed.

Lemma next_new : forall d s s', next d s s' -> s' <> NEW.
Proof. intros d s s' N ->. destruct d; inversion N. Qed.

Lemma ul_next_late : forall s s', ul_next s s' ->
  (s = FINISHED \/ s = RELEASING -> s' = RELEASING) /\
  (s = FLOW \/ s = FINISHED \/ s = RELEASING -> s' = FLOW \/ s' = FINISHED \/ s' = RELEASING).
Proof.
  intros s s' N. inversion N; subst; try (split; intros H; decompose [or] H; try discriminate; auto; fail).
  split; auto.
Qed.

(** The invariant survives a step of the life-cycle machine. *)
Section Frame.
Variables t t' : tbf.
Hypothesis F : frame t t'.
Hypothesis N : state t' = state t \/ next (t_dir t) (state t) (state t').

Lemma late_next : late (state t) -> late (state t').
Proof.
  intros L. destruct N as [E|E]; [congruence|]. exfalso. exact (next_late _ _ _ E L).
Qed.

Lemma core_frame : core t -> core t'.
Proof.
  intros (I1 & I2 & I3 & I4 & I5 & I7 & I8 & I9 & I10).
  destruct F as (F1 & F2 & F3 & F4 & F5 & F6 & F7 & F8 & F9 & F10 & F11 & F12).
  unfold core. rewrite F6, F2, F7, F1.
  split; [|split; [|split; [|split; [|split; [|split; [|split; [|split]]]]]]]; try assumption.
  - destruct N as [E|E]; [congruence | exact (next_new _ _ _ E)].
  - intros H. destruct F11 as [(X1 & X2 & X3)|(X1 & X2 & [X3|X3])]; [|auto|congruence].
    rewrite X2. apply I2. congruence.
  - intros H. destruct F11 as [(X1 & X2 & X3)|(X1 & X2 & X3)]; [rewrite X1; auto|].
    specialize (I5 H). rewrite I5 in X2. destruct X2; discriminate.
  - intros H. destruct (I8 H) as [A B]. split; [exact A|].
    destruct N as [E|E]; [rewrite E; exact B|]. rewrite A in E.
    destruct (ul_next_late _ _ E) as [L1 _]. right. auto.
  - intros H. destruct (I10 H) as [A B]. split; [exact A|].
    destruct N as [E|E]; [rewrite E; exact B|]. rewrite A in E.
    destruct (ul_next_late _ _ E) as [_ L2]. auto.
Qed.

Lemma wa_frame : wa t -> wa t'.
Proof.
  intros I H. destruct F as (F1 & F2 & F3 & F4 & F5 & F6 & F7 & F8 & F9 & F10 & F11 & F12).
  destruct F11 as [(X1 & X2 & X3)|(X1 & X2 & X3)]; [|congruence].
  rewrite F1, F6. destruct I as [A|[A B]]; [congruence | left; exact A | right].
  split; [exact A | exact (late_next B)].
Qed.

Lemma wk_frame : core t -> wk t -> wk t'.
Proof.
  intros C I H. destruct F as (F1 & F2 & F3 & F4 & F5 & F6 & F7 & F8 & F9 & F10 & F11 & F12).
  rewrite F2 in H. rewrite F6. destruct (I H) as [A|A]; [left; exact A | right].
  destruct C as (_ & _ & _ & _ & _ & _ & C & _). destruct (C H) as [D _].
  destruct N as [E|E]; [congruence|]. rewrite D in E. destruct (ul_next_late _ _ E) as [L1 _]. auto.
Qed.

Lemma inv_frame : inv0 t -> inv0 t'.
Proof.
  intros (C & A & K). split; [exact (core_frame C)|]. split; [exact (wa_frame A) | exact (wk_frame C K)].
Qed.
End Frame.

Lemma life_inv : forall c t o, inv c t -> alive t ->
  exists t', life c o t = Some t' /\ inv c t' /\ frame t t' /\
    (state t' = state t \/ next (t_dir t) (state t) (state t')).
Proof.
  intros c t o [R I] A. destruct (life_step c t o R A) as (t' & L & R' & F & N).
  exists t'. split; [exact L|]. split; [split; [exact R' | eapply inv_frame; eassumption]|]. split; assumption.
Qed.

(** Where the limit events lead. *)
Lemma life_n3105 : forall c t t', state t <> NEW -> t_dir t = DL ->
  life c (LDl (DEv MAX_N3105)) t = Some t' -> late (state t').
Proof.
  intros c t t' I D. unfold life. rewrite D. cbn [dl_op].
  destruct (dl_dispatch c MAX_N3105 (t_f t)) as [[f' l]|] eqn:E; [|discriminate].
  cbn. intros H. injection H as <-. unfold state. rewrite (proj2 (apply_effs_frame c l (set_f f' t))).
  cbn [set_f t_f]. unfold state in I. destruct (t_f t) as [st T tm cc pc t31 fst1 nw dd].
  destruct st; cbn in *; try congruence; injection E as <- <-; cbn; unfold late; auto.
Qed.

Lemma life_n3103 : forall c t t', state t = FINISHED -> t_dir t = UL ->
  life c (LUl (UEv MAX_N3103)) t = Some t' -> state t' = RELEASING.
Proof.
  intros c t t' I D. unfold life. rewrite D. cbn [ul_op].
  destruct (ul_dispatch c MAX_N3103 (t_f t)) as [[f' l]|] eqn:E; [|discriminate].
  cbn. intros H. injection H as <-. unfold state in *. rewrite (proj2 (apply_effs_frame c l (set_f f' t))).
  cbn [set_f t_f]. destruct (t_f t) as [st T tm cc pc t31 fst1 nw dd]. cbn in I. subst st.
  cbn in E. injection E as <- <-. reflexivity.
Qed.

Lemma life_n3101 : forall c t t',
  state t = FLOW \/ state t = FINISHED \/ state t = RELEASING -> t_dir t = UL ->
  life c (LUl (UEv MAX_N3101)) t = Some t' -> state t' = FINISHED \/ state t' = RELEASING.
Proof.
  intros c t t' I D. unfold life. rewrite D. cbn [ul_op].
  destruct (ul_dispatch c MAX_N3101 (t_f t)) as [[f' l]|] eqn:E; [|discriminate].
  cbn. intros H. injection H as <-. unfold state in *. rewrite (proj2 (apply_effs_frame c l (set_f f' t))).
  cbn [set_f t_f]. destruct (t_f t) as [st T tm cc pc t31 fst1 nw dd]. cbn in I.
  destruct I as [-> | [-> | ->]]; cbn in E; injection E as <- <-; cbn; auto.
Qed.

(** * One step *)
Lemma reach_same : forall c t t', reach c t -> t_dir t' = t_dir t -> t_f t' = t_f t -> reach c t'.
Proof. intros c t t' (now & R) D F. exists now. rewrite D, F. exact R. Qed.

Ltac inv_done := solve [assumption | congruence | lia | auto 6].
Ltac inv_fin :=
  first [inv_done |
    repeat match goal with
    | H : ?P -> ?Q |- _ =>
        let X := fresh in
        assert (X : P) by (solve [assumption | reflexivity | congruence | lia | (intro; congruence)]);
        specialize (H X); clear X
    | H : _ /\ _ |- _ => destruct H
    end; try inv_done;
    repeat match goal with H : _ \/ _ |- _ => destruct H end;
    repeat match goal with H : _ /\ _ |- _ => destruct H end; try inv_done].

Ltac inv_auto :=
  unfold inv0, core, wa, wk, late, state in *; cbn in *;
  try match goal with |- context [S ?q] => is_var q; destruct q as [|[|?]]; cbn in * end;
  repeat match goal with H : _ /\ _ |- _ => destruct H end;
  splits; intros; cbn in *; inv_fin.

Ltac inv_same R := split; [eapply reach_same; [exact R | reflexivity | reflexivity] | inv_auto].

Ltac sub_destruct t :=
  destruct t as [d f ua uaT uatm da uk n1 n3 n5 [qa qd qk qq] usf l1 l3 l5].

Ltac sub_destruct2 t :=
  destruct t as [d' f' ua' uaT' uatm' da' uk' n1' n3' n5' [qa' qd' qk' qq'] usf' l1' l3' l5'].

(** The result of a step: the invariant holds as long as the TBF lives. *)
Definition good (c : tconf) (r : option (tbf * list sout)) : Prop :=
  exists t' l, r = Some (t', l) /\ (alive t' -> inv c t').

Lemma good_ret : forall c t, inv c t -> good c (ret t).
Proof. intros c t I. exists t, []. split; [reflexivity | intros _; exact I]. Qed.

Lemma good_life : forall c t o l, inv c t -> alive t -> good c (option_map (fun t => (t, l)) (life c o t)).
Proof.
  intros c t o l I A. destruct (life_inv c t o I A) as (t' & L & I' & _). rewrite L.
  exists t', l. split; [reflexivity | intros _; exact I'].
Qed.

Lemma good_sched : forall c t, inv c t ->
  inv c (ua_sched c t) /\ inv c (ua_rej t) /\ inv c (ua_abort c t) /\
  inv c (da_sched t) /\ inv c (da_abort t) /\ (t_dir t = UL -> inv c (uk_sched t)).
Proof.
  intros c t [R I]. sub_destruct t.
  split; [destruct ua; try (split; assumption); inv_same R|].
  split; [destruct ua; try (split; assumption); inv_same R|].
  split; [destruct ua, d; try (split; assumption); inv_same R|].
  split; [destruct da; try (split; assumption); inv_same R|].
  split; [destruct da; try (split; assumption); inv_same R|].
  intros D; destruct uk; try (split; assumption); inv_same R.
Qed.

Lemma good_ua_rts : forall c t a b d e, inv c t -> good c (ua_rts c a b d e t).
Proof.
  intros c t a b d1 e I. pose proof I as [R I0]. unfold ua_rts. sub_destruct t.
  destruct a; cbn [negb t_ua]; [|apply good_ret; exact I].
  destruct ua; cbn [negb t_ua]; try (apply good_ret; exact I).
  - destruct b; cbn [negb]; [|apply good_ret; exact I].
    destruct d1; cbn [negb].
    + destruct e; cbn [negb]; [|apply good_ret; exact I].
      do 2 eexists; split; [reflexivity|]; intros _. clear I. inv_same R.
    + do 2 eexists; split; [reflexivity|]; intros _. clear I. unfold ua_none. cbn [t_ua t_dir]. inv_same R.
  - do 2 eexists; split; [reflexivity|]; intros _. clear I. unfold ua_none. cbn [t_ua t_dir]. destruct d; inv_same R.
Qed.

Lemma good_da_rts : forall c t a b d e g h, inv c t -> good c (da_rts a b d e g h t).
Proof.
  intros c t a b d1 e g h I. pose proof I as [R I0].
  assert (S1 : inv c (set_da DA_NONE t)).
  { split; [eapply reach_same; [exact R | reflexivity | reflexivity]|]. sub_destruct t. exact I0. }
  assert (S2 : inv c (more_polls P_DL_ASS (set_da DA_WAIT t))).
  { split; [eapply reach_same; [exact R | reflexivity | reflexivity]|]. sub_destruct t. exact I0. }
  unfold da_rts. destruct a; [|apply good_ret; exact I]. cbn [negb].
  assert (G : good c (if match t_dir t with UL => negb b | DL => false end then Some (t, [])
    else if negb d1 then Some (t, []) else if negb e then Some (set_da DA_NONE t, [])
    else if negb g then Some (set_da DA_NONE t, []) else if negb h then Some (t, [])
    else Some (more_polls P_DL_ASS (set_da DA_WAIT t), [Msg P_DL_ASS]))).
  { destruct (match t_dir t with UL => negb b | DL => false end); [apply good_ret; exact I|].
    destruct d1; cbn [negb]; [|apply good_ret; exact I].
    destruct e; cbn [negb]; [|apply good_ret; exact S1].
    destruct g; cbn [negb]; [|apply good_ret; exact S1].
    destruct h; cbn [negb]; [|apply good_ret; exact I].
    do 2 eexists; split; [reflexivity|]; intros _. exact S2. }
  destruct (t_da t), (t_ua t); try (apply good_ret; exact I); exact G.
Qed.

Lemma good_uk_rts : forall c t a b g, inv c t -> alive t -> t_dir t = UL -> good c (uk_rts c a b g t).
Proof.
  intros c t a b g I A D. pose proof I as [R I0]. unfold uk_rts.
  destruct a; [|apply good_ret; exact I]. cbn [negb].
  destruct (t_uk t) eqn:UK; try (apply good_ret; exact I).
  destruct (tst_eqb (f_st (t_f t)) FINISHED) eqn:FIN.
  - assert (ST : f_st (t_f t) = FINISHED) by (destruct (f_st (t_f t)); try discriminate; reflexivity).
    destruct b; [|apply good_ret; exact I]. cbn [negb andb].
    assert (I2 : inv c (more_polls P_UL_ACK (set_uk UK_WAIT t))).
    { sub_destruct t. cbn in D, ST, UK. subst. inv_same R. }
    destruct g; [apply good_life; [exact I2 | exact A]|].
    do 2 eexists. split; [reflexivity | intros _; exact I2].
  - cbn [andb].
    assert (I2 : inv c (set_uk UK_NONE t)).
    { sub_destruct t. cbn in D, UK. subst. inv_same R. }
    destruct g; [apply good_life; [exact I2 | exact A]|].
    do 2 eexists. split; [reflexivity | intros _; exact I2].
Qed.

Lemma good_ua_timer : forall c t, inv c t -> good c (ua_timer t).
Proof.
  intros c t I. pose proof I as [R ((_ & T & _) & _)]. unfold ua_timer.
  destruct (due (t_uatm t) (f_now (t_f t))) eqn:DU; [|apply good_ret; exact I].
  destruct T as [-> | ->].
  { intros E. rewrite E in DU. discriminate. }
  all: cbn [Z.eqb Pos.eqb]; do 2 eexists; (split; [reflexivity|]); intros A; discriminate A.
Qed.

Lemma n_inc_some : forall n t, right_dir n t = true ->
  exists t' b, n_inc n t = Some (t', b) /\ t_dir t' = t_dir t /\ t_f t' = t_f t /\ t_ua t' = t_ua t /\
    t_uaT t' = t_uaT t /\ t_uatm t' = t_uatm t /\ t_da t' = t_da t /\ t_uk t' = t_uk t /\ t_p t' = t_p t /\
    t_usf t' = t_usf t /\ value n t' = (value n t + 1) mod 256 /\ b = ((value n t + 1) mod 256 =? limit n t).
Proof.
  intros n t H. unfold n_inc. rewrite H. destruct n; do 2 eexists; (split; [reflexivity|]);
    splits; reflexivity.
Qed.

Lemma eqb_st : forall a b, tst_eqb a b = true <-> a = b.
Proof. intros a b. split; [destruct a, b; cbn; congruence | intros ->; destruct b; reflexivity]. Qed.

(** A counted timeout: at the limit [life], else [k]. *)
Lemma good_count : forall c t n e k,
  right_dir n t = true -> reach c t -> alive t ->
  (forall t' t2, t_dir t' = t_dir t -> t_f t' = t_f t -> t_ua t' = t_ua t -> t_uaT t' = t_uaT t ->
     t_uatm t' = t_uatm t -> t_da t' = t_da t -> t_uk t' = t_uk t -> t_p t' = t_p t -> t_usf t' = t_usf t ->
     life c e t' = Some t2 -> frame t' t2 -> (state t2 = state t' \/ next (t_dir t') (state t') (state t2)) -> inv0 t2) ->
  (forall t', t_dir t' = t_dir t -> t_f t' = t_f t -> t_ua t' = t_ua t -> t_uaT t' = t_uaT t ->
     t_uatm t' = t_uatm t -> t_da t' = t_da t -> t_uk t' = t_uk t -> t_p t' = t_p t -> t_usf t' = t_usf t ->
     good c (k t')) ->
  good c (count c n e k t).
Proof.
  intros c t n e k D R A HL HK. unfold count.
  destruct (n_inc_some n t D) as (t' & b & E & E1 & E2 & E3 & E4 & E5 & E6 & E7 & E8 & E9 & _). rewrite E.
  destruct b; [|apply HK; assumption].
  assert (R' : reach c t') by (eapply reach_same; [exact R | exact E1 | exact E2]).
  assert (A' : alive t') by (unfold alive; rewrite E2; exact A).
  destruct (life_step c t' e R' A') as (t2 & L & R2 & F & N). rewrite L.
  exists t2, [Lost n]. split; [reflexivity|]. intros _. split; [exact R2|].
  eapply HL; eassumption.
Qed.

Lemma alive_same : forall t t', alive t -> t_f t' = t_f t -> alive t'.
Proof. intros t t' A E. unfold alive. rewrite E. exact A. Qed.

Ltac samefields :=
  repeat match goal with H : t_dir _ = _ |- _ => progress cbn in H end.

Lemma ua_timeout_same : forall c t, t_dir (ua_timeout c t) = t_dir t /\ t_f (ua_timeout c t) = t_f t.
Proof.
  intros c t. sub_destruct t. unfold ua_timeout, ua_none. destruct ua, d; cbn;
    try destruct (tst_eqb _ _); split; reflexivity.
Qed.

(** Every poll that was not answered. *)
Lemma good_unanswered : forall c t r, inv c t -> alive t ->
  good c (sop_step c (SUnanswered r) t).
Proof.
  intros c t r I A. pose proof I as [R I0]. cbn [sop_step].
  destruct (outstanding r t) as [|k] eqn:OUT; [apply good_ret; exact I|].
  assert (R1 : reach c (less_polls r t)) by (eapply reach_same; [exact R | destruct r; reflexivity | destruct r; reflexivity]).
  assert (A1 : alive (less_polls r t)) by (eapply alive_same; [exact A | destruct r; reflexivity]).
  destruct r; unfold poll_timeout.
  - (* uplink assignment *)
    change (t_ua (less_polls P_UL_ASS t)) with (t_ua t). change (t_dir (less_polls P_UL_ASS t)) with (t_dir t).
    pose proof I0 as ((C1 & C2 & C3 & C4 & C5 & C6 & C7 & C8 & C9) & IA & IK).
    cbn in OUT.
    assert (UW : t_ua t = UA_WAIT) by (apply C5; lia). rewrite UW.
    assert (P0 : pred (p_ua (t_p t)) = 0%nat) by lia.
    destruct (t_dir t) eqn:D.
    + apply good_count; try assumption; [cbn; rewrite D; reflexivity| |].
      * intros t' t2 E1 E2 E3 E4 E5 E6 E7 E8 E9 L F N.
        assert (S' : state t' = state t) by (unfold state; rewrite E2; reflexivity).
        assert (D' : t_dir t' = DL) by (rewrite E1; exact D).
        assert (LT : late (state t2)) by (eapply life_n3105; [|exact D' | exact L]; congruence).
        assert (C' : core t').
        { unfold core. rewrite E1, E3, E4, E5, E7, E8, E9, S'. cbn. rewrite ?D.
          splits; try assumption; try lia; try congruence. }
        split; [eapply core_frame; eassumption|]. split.
        -- intros _. right. split; [|exact LT]. rewrite (proj1 F). exact D'.
        -- intros H. exfalso. rewrite (proj1 (proj2 F)), E7 in H. cbn in H. destruct (C7 H). congruence.
      * intros t' E1 E2 E3 E4 E5 E6 E7 E8 E9. apply good_ret. split.
        -- eapply reach_same; [exact R1 | |].
           ++ rewrite (proj1 (ua_timeout_same c t')). exact E1.
           ++ rewrite (proj2 (ua_timeout_same c t')). exact E2.
        -- unfold ua_timeout. rewrite E3, E2. cbn. rewrite UW.
           sub_destruct t. sub_destruct2 t'. cbn in *. subst. injection E8 as -> -> -> ->. unfold ua_none. cbn [t_ua t_dir].
           destruct (tst_eqb (f_st _) ASSIGN); inv_auto.
    + apply good_ret. split.
      * eapply reach_same; [exact R1 | apply ua_timeout_same | apply ua_timeout_same].
      * unfold ua_timeout. cbn. rewrite UW.
        sub_destruct t. cbn in *. subst. unfold ua_none. cbn [t_ua t_dir].
        destruct (tst_eqb (f_st f) ASSIGN); inv_auto.
  - (* downlink assignment *)
    change (t_da (less_polls P_DL_ASS t)) with (t_da t). change (t_dir (less_polls P_DL_ASS t)) with (t_dir t).
    assert (IL : inv c (less_polls P_DL_ASS t)).
    { split; [exact R1|]. sub_destruct t. exact I0. }
    destruct (t_da t) eqn:DW; try (apply good_ret; exact IL).
    destruct (t_dir t) eqn:D.
    + apply good_count; try assumption; [cbn; rewrite D; reflexivity| |].
      * intros t' t2 E1 E2 E3 E4 E5 E6 E7 E8 E9 L F N.
        eapply inv_frame; [exact F | exact N|]. destruct IL as [_ IL].
        clear - IL E1 E2 E3 E4 E5 E6 E7 E8 E9. unfold inv0, core, wa, wk, state in *.
        rewrite E1, E2, E3, E4, E5, E7, E8, E9. exact IL.
      * intros t' E1 E2 E3 E4 E5 E6 E7 E8 E9. apply good_ret. unfold da_timeout. rewrite E6. cbn. rewrite DW.
        split; [eapply reach_same; [exact R1 | exact E1 | exact E2]|]. destruct IL as [_ IL].
        clear - IL E1 E2 E3 E4 E5 E6 E7 E8 E9. unfold inv0, core, wa, wk, state in *.
        cbn [set_da t_dir t_f t_ua t_uaT t_uatm t_uk t_p t_usf].
        rewrite E1, E2, E3, E4, E5, E7, E8, E9. exact IL.
    + apply good_ret. unfold da_timeout. cbn. rewrite DW.
      split; [eapply reach_same; [exact R1 | reflexivity | reflexivity]|]. destruct IL as [_ IL].
      sub_destruct t. exact IL.
  - (* uplink acknowledgement *)
    change (t_uk (less_polls P_UL_ACK t)) with (t_uk t). change (t_dir (less_polls P_UL_ACK t)) with (t_dir t).
    change (t_f (less_polls P_UL_ACK t)) with (t_f t).
    pose proof I0 as ((C1 & C2 & C3 & C4 & C5 & C6 & C7 & C8 & C9) & IA & IK).
    cbn in OUT.
    assert (UW : t_uk t = UK_WAIT) by (apply C6; lia). rewrite UW.
    destruct (C7 UW) as [D ST]. rewrite D.
    destruct (tst_eqb (f_st (t_f t)) FINISHED) eqn:FIN.
    + apply eqb_st in FIN.
      apply good_count; try assumption; [cbn; rewrite D; reflexivity| |].
      * intros t' t2 E1 E2 E3 E4 E5 E6 E7 E8 E9 L F N.
        assert (S' : state t' = state t) by (unfold state; rewrite E2; reflexivity).
        assert (D' : t_dir t' = UL) by (rewrite E1; exact D).
        assert (LT : state t2 = RELEASING) by (eapply life_n3103; [|exact D' | exact L]; unfold state; rewrite E2; exact FIN).
        assert (C' : core t').
        { unfold core. rewrite E1, E3, E4, E5, E7, E8, E9, S'. cbn.
          splits; try assumption; try lia; try congruence. }
        split; [eapply core_frame; eassumption|]. split.
        -- eapply wa_frame; [exact F | exact N|]. unfold wa. rewrite E3, E8, E1, S'. exact IA.
        -- intros _. right. exact LT.
      * intros t' E1 E2 E3 E4 E5 E6 E7 E8 E9. apply good_ret. unfold uk_timeout. rewrite E7. cbn. rewrite UW.
        split; [eapply reach_same; [exact R1 | exact E1 | exact E2]|].
        sub_destruct t. sub_destruct2 t'. cbn in *. subst. injection E8 as -> -> -> ->. inv_auto.
    + apply good_ret. unfold uk_timeout. cbn. rewrite UW.
      split; [eapply reach_same; [exact R1 | reflexivity | reflexivity]|].
      sub_destruct t. cbn in *. subst. inv_auto.
  - (* downlink data *)
    change (t_dir (less_polls P_DL_ACK t)) with (t_dir t).
    pose proof I0 as ((C1 & C2 & C3 & C4 & C5 & C6 & C7 & C8 & C9) & IA & IK).
    cbn in OUT. assert (D : t_dir t = DL) by (apply C8; lia). rewrite D.
    assert (IL : inv c (less_polls P_DL_ACK t)).
    { split; [exact R1|]. sub_destruct t. cbn in *. subst. inv_auto. }
    apply good_count; try assumption; [cbn; rewrite D; reflexivity| |].
    + intros t' t2 E1 E2 E3 E4 E5 E6 E7 E8 E9 L F N.
      eapply inv_frame; [exact F | exact N|]. destruct IL as [_ IL].
      clear - IL E1 E2 E3 E4 E5 E6 E7 E8 E9. unfold inv0, core, wa, wk, state in *.
      rewrite E1, E2, E3, E4, E5, E7, E8, E9. exact IL.
    + intros t' E1 E2 E3 E4 E5 E6 E7 E8 E9. apply good_life.
      * split; [eapply reach_same; [exact R1 | exact E1 | exact E2]|]. destruct IL as [_ IL].
        clear - IL E1 E2 E3 E4 E5 E6 E7 E8 E9. unfold inv0, core, wa, wk, state in *.
        rewrite E1, E2, E3, E4, E5, E7, E8, E9. exact IL.
      * eapply alive_same; [exact A1 | exact E2].
Qed.

(** Every poll that was answered. *)
Lemma good_answer : forall c t r new, inv c t -> alive t ->
  good c (sop_step c (SAnswer r new) t).
Proof.
  intros c t r new I A. pose proof I as [R I0]. cbn [sop_step].
  destruct (outstanding r t) as [|k] eqn:OUT; [apply good_ret; exact I|].
  destruct r; unfold poll_answer.
  - destruct (t_ua t) eqn:UW; try (apply good_ret; exact I).
    sub_destruct t. cbn in UW, OUT, A, I0. subst. unfold n_reset_dl, n_reset. cbn [less_polls set_p t_dir].
    destruct d; cbn [right_dir option_map]; do 2 eexists; (split; [reflexivity|]); intros _;
      unfold ua_ack, ua_none; cbn [set_n t_ua t_dir]; inv_same R.
  - destruct (t_da t) eqn:DW; try (apply good_ret; exact I).
    sub_destruct t. cbn in DW, OUT, A, I0. subst. unfold n_reset_dl, n_reset. cbn [less_polls set_p t_dir].
    unfold da_ack; destruct d; cbn;
      destruct (f_st f) eqn:ST; try destruct new; do 2 eexists; (split; [reflexivity|]);
      try (intros X; discriminate X); intros _;
      (split; [eapply reach_same; [exact R | reflexivity | reflexivity]|]); exact I0.
  - pose proof I0 as ((C1 & C2 & C3 & C4 & C5 & C6 & C7 & C8 & C9) & IA & IK). cbn in OUT.
    assert (UW : t_uk t = UK_WAIT) by (apply C6; lia). rewrite UW.
    destruct (C7 UW) as [D ST]. rewrite D.
    assert (I1 : inv c (uk_ack (less_polls P_UL_ACK t))).
    { unfold uk_ack. cbn. rewrite UW. sub_destruct t. cbn in *. subst. inv_same R. }
    assert (A1 : alive (uk_ack (less_polls P_UL_ACK t))).
    { eapply alive_same; [exact A|]. unfold uk_ack. cbn. rewrite UW. reflexivity. }
    destruct (tst_eqb _ _); [apply good_life; assumption | apply good_ret; exact I1].
  - apply good_ret. exact I.
Qed.

Lemma good_step : forall c t o, inv c t -> alive t -> good c (sub_step c t o).
Proof.
  intros c t o I A. unfold sub_step. unfold alive in A. rewrite A. fold (alive t) in A.
  pose proof (good_sched c t I) as (G1 & G2 & G3 & G4 & G5 & G6).
  pose proof I as [R I0].
  destruct o; try (apply good_answer; assumption); try (apply good_unanswered; assumption); cbn [sop_step].
  - destruct (life_ok o); [apply good_life; assumption | apply good_ret; exact I].
  - apply good_ret. split; [eapply reach_same; [exact R | reflexivity | reflexivity]|]. sub_destruct t. exact I0.
  - apply good_ret; exact G1.
  - apply good_ret; exact G2.
  - apply good_ret; exact G3.
  - apply good_ua_rts; exact I.
  - apply good_ua_timer; exact I.
  - apply good_ret; exact G4.
  - apply good_ret; exact G5.
  - apply good_da_rts; exact I.
  - destruct (t_dir t) eqn:D; apply good_ret; [exact I | exact (G6 eq_refl)].
  - destruct (t_dir t) eqn:D; [apply good_ret; exact I | apply good_uk_rts; assumption].
  - destruct (t_dir t) eqn:D; apply good_ret; [|exact I].
    sub_destruct t. cbn in D. subst. inv_same R.
  - destruct (t_dir t) eqn:D; [|apply good_ret; exact I].
    unfold n_reset. cbn [right_dir less_polls set_p t_dir]. rewrite D. apply good_life.
    + sub_destruct t. cbn in D. subst. inv_same R.
    + eapply alive_same; [exact A | reflexivity].
  - destruct (t_dir t) eqn:D; [apply good_ret; exact I|].
    destruct (f_st (t_f t)) eqn:ST; apply good_ret; try exact I.
    sub_destruct t. cbn in D, ST. subst. inv_same R.
  - destruct (t_usf t) as [|k] eqn:U; [apply good_ret; exact I|].
    pose proof I0 as ((C1 & C2 & C3 & C4 & C5 & C6 & C7 & C8 & C9) & IA & IK).
    destruct C9 as [D ST]; [lia|].
    assert (IL : inv c (set_usf k t)).
    { sub_destruct t. cbn in D, ST, U. subst. inv_same R. }
    destruct IL as [R1 IL].
    apply good_count; [cbn; rewrite D; reflexivity | exact R1 | exact A | |].
    + intros t' t2 E1 E2 E3 E4 E5 E6 E7 E8 E9 L F N.
      eapply inv_frame; [exact F | exact N|].
      clear - IL E1 E2 E3 E4 E5 E6 E7 E8 E9. unfold inv0, core, wa, wk, state in *.
      rewrite E1, E2, E3, E4, E5, E7, E8, E9. exact IL.
    + intros t' E1 E2 E3 E4 E5 E6 E7 E8 E9. apply good_ret.
      split; [eapply reach_same; [exact R1 | exact E1 | exact E2]|].
      clear - IL E1 E2 E3 E4 E5 E6 E7 E8 E9. unfold inv0, core, wa, wk, state in *.
      rewrite E1, E2, E3, E4, E5, E7, E8, E9. exact IL.
  - destruct (t_dir t) eqn:D; [apply good_ret; exact I|].
    unfold n_reset. cbn [right_dir set_usf t_dir]. rewrite D. cbn [option_map].
    do 2 eexists. split; [reflexivity|]. intros _.
    sub_destruct t. cbn in D. subst. destruct usf; inv_same R.
  - destruct (t_dir t) eqn:D; [apply good_ret; exact I|].
    unfold n_reset. cbn [right_dir t_dir]. rewrite D. cbn [option_map].
    do 2 eexists. split; [reflexivity|]. intros _.
    sub_destruct t. cbn in D. subst. inv_same R.
  - apply good_ret. sub_destruct t. destruct usf; inv_same R.
  - destruct (t_dir t) eqn:D; [apply good_ret; exact I|].
    destruct (f_st (t_f t)) eqn:ST; try (apply good_ret; exact I).
    destruct (life_inv c t (LUl (UEv LAST_UL_DATA)) I A) as (t' & L & [R' I'] & F & N). rewrite L.
    unfold n_reset. cbn [right_dir]. rewrite (proj1 F), D. cbn [option_map].
    do 2 eexists. split; [reflexivity|]. intros _. split.
    + eapply reach_same; [exact R' | reflexivity | reflexivity].
    + sub_destruct t'. exact I'.
  - destruct (t_dir t) eqn:D; [apply good_ret; exact I|].
    destruct (outstanding P_UL_ACK t) as [|k] eqn:OUT; [apply good_ret; exact I|].
    unfold n_reset. cbn [right_dir]. rewrite D.
    pose proof I0 as ((C1 & C2 & C3 & C4 & C5 & C6 & C7 & C8 & C9) & IA & IK). cbn in OUT.
    assert (UW : t_uk t = UK_WAIT) by (apply C6; lia).
    destruct (tst_eqb _ _) eqn:FIN.
    + apply eqb_st in FIN. cbn in FIN. set (t1 := less_polls _ _).
      assert (R1 : reach c t1) by (eapply reach_same; [exact R | reflexivity | reflexivity]).
      destruct (life_step c t1 (LUl (UEv FINAL_UL_ACK)) R1 A) as (t' & L & _). rewrite L.
      do 2 eexists. split; [reflexivity|]. intros A2. exfalso.
      unfold life in L. change (t_dir t1) with (t_dir t) in L. rewrite D in L. cbn [ul_op] in L.
      change (t_f t1) with (t_f t) in L. unfold ul_dispatch, ul_in, ul_action in L. rewrite FIN in L.
      cbn [option_map fst snd] in L. injection L as <-. unfold alive in A2.
      discriminate A2.
    + do 2 eexists. split; [reflexivity|]. intros X. discriminate X.
Qed.

(** * Runs *)
Lemma new_inv : forall c d w now l1 l3 l5, exists t,
  sub_new c d w now l1 l3 l5 = Some t /\ inv c t /\ alive t /\ t_n1 t = 0 /\ t_n3 t = 0 /\ t_n5 t = 0 /\
  t_l1 t = u8 l1 /\ t_l3 t = u8 l3 /\ t_l5 t = u8 l5 /\ state t = ASSIGN /\ t_p t = Polls 0 0 0 0 /\ t_usf t = 0%nat /\
  t_da t = DA_NONE /\ t_dir t = d.
Proof.
  intros c d w now l1 l3 l5.
  assert (R : reach c (sub_blank d now l1 l3 l5)).
  { exists now. destruct d; exists []; reflexivity. }
  assert (A : alive (sub_blank d now l1 l3 l5)) by reflexivity.
  unfold sub_new. set (o := match d with DL => _ | UL => _ end).
  destruct (life_step c _ o R A) as (t & L & R' & F & N). exists t. split; [exact L|].
  assert (E : state t = ASSIGN /\ alive t /\ t_ua t = UA_NONE /\ t_uatm t = None /\ t_da t = DA_NONE).
  { subst o. unfold life, sub_blank in L. destruct d, w; cbn in L; injection L as <-; splits; reflexivity. }
  destruct F as (F1 & F2 & F3 & F4 & F5 & F6 & F7 & F8 & F9 & F10 & _ & _).
  cbn in *. destruct E as (E1 & E2 & E3 & E4 & E5).
  assert (I : inv0 t).
  { unfold inv0, core, wa, wk, late. rewrite F6, F2, F7, F1, E1, E3, E4. cbn.
    splits; intros; try congruence; try lia; try discriminate. }
  split; [split; assumption|]. splits; assumption.
Qed.

Lemma run_inv : forall c ops t, inv c t -> alive t -> good c (sub_run c t ops).
Proof.
  intros c ops. induction ops as [|o ops IH]; intros t I A; cbn [sub_run].
  - apply good_ret; exact I.
  - destruct (good_step c t o I A) as (t' & l & S & I'). rewrite S.
    destruct (f_dead (t_f t')) eqn:DD.
    + assert (E : forall ops, sub_run c t' ops = Some (t', [])).
      { clear - DD. induction ops as [|o ops IH]; [reflexivity|]. cbn [sub_run]. unfold sub_step. rewrite DD.
        unfold ret. rewrite IH. reflexivity. }
      rewrite E. do 2 eexists. split; [reflexivity|]. intros A'. unfold alive in A'. congruence.
    + destruct (IH t' (I' DD) DD) as (t2 & m & R & I2). rewrite R.
      do 2 eexists. split; [reflexivity | exact I2].
Qed.

(** * The counters *)

(** A step of the life-cycle machine leaves them alone. *)
Lemma life_values : forall c t o t', life c o t = Some t' ->
  frame t t'.
Proof.
  intros c t o t' L. unfold life in L. destruct (t_dir t) eqn:D, o as [o|o];
    try (injection L as <-; apply frame_refl).
  - destruct (dl_op c o (t_f t)) as [[f l]|]; [|discriminate]. cbn in L. injection L as <-.
    eapply frame_trans; [|apply apply_effs_frame]. destruct t; unfold frame, set_f; cbn. splits; try reflexivity; auto.
  - destruct (ul_op c o (t_f t)) as [[f l]|]; [|discriminate]. cbn in L. injection L as <-.
    eapply frame_trans; [|apply apply_effs_frame]. destruct t; unfold frame, set_f; cbn. splits; try reflexivity; auto.
Qed.

Definition vals (t : tbf) : Z * Z * Z := (t_n1 t, t_n3 t, t_n5 t).
Lemma frame_vals : forall t t', frame t t' -> vals t' = vals t.
Proof. intros t t' F. unfold vals. destruct F as (_ & _ & A & B & C & _). congruence. Qed.

(** What a step does to the counters and when it declares the TBF lost. *)
Definition cnt_eff (t : tbf) (o : sop) (t' : tbf) (l : list sout) : Prop :=
  forall n,
    (missed n t o = true -> value n t' = (value n t + 1) mod 256) /\
    (missed n t o = false -> value n t' = if answered n t o then 0 else value n t) /\
    (In (Lost n) l <-> missed n t o = true /\ (value n t + 1) mod 256 = limit n t).

Lemma life_map : forall c t o (l : list sout) t' l', option_map (fun t => (t, l)) (life c o t) = Some (t', l') ->
  l' = l /\ vals t' = vals t.
Proof.
  intros c t o l t' l' E. destruct (life c o t) as [t2|] eqn:L; [|discriminate]. cbn in E. injection E as <- <-.
  split; [reflexivity | apply frame_vals; eapply life_values; exact L].
Qed.

Lemma vals_value : forall t t', vals t' = vals t <-> forall n, value n t' = value n t.
Proof.
  intros t t'. unfold vals. split.
  - intros H n. injection H as H1 H2 H3. destruct n; assumption.
  - intros H. pose proof (H N3101). pose proof (H N3103). pose proof (H N3105). cbn in *. congruence.
Qed.

Lemma no_eff : forall t o t' l,
  (forall n, missed n t o = false) -> (forall n, answered n t o = false) ->
  vals t' = vals t -> (forall n, ~ In (Lost n) l) -> cnt_eff t o t' l.
Proof.
  intros t o t' l M A V L n. rewrite M, A. pose proof (proj1 (vals_value t t') V) as V'. splits; intros.
  - discriminate.
  - apply V'.
  - split; [intros H; exfalso; exact (L n H) | intros [H _]; discriminate].
Qed.

Lemma count_eff : forall c n e k t t' l o t0,
  count c n e k t = Some (t', l) ->
  (forall m, missed m t0 o = true <-> m = n) -> (forall m, answered m t0 o = false) ->
  vals t = vals t0 -> (forall m, limit m t = limit m t0) ->
  (forall t1 t2 l2, k t1 = Some (t2, l2) -> vals t2 = vals t1 /\ forall m, ~ In (Lost m) l2) ->
  cnt_eff t0 o t' l.
Proof.
  intros c n e k t t' l o t0 E M A V LM K.
  unfold count in E. destruct (n_inc n t) as [[t1 b]|] eqn:NI; [|discriminate].
  assert (V1 : (forall m, value m t1 = if (match m, n with N3101, N3101 | N3103, N3103 | N3105, N3105 => true | _, _ => false end) then (value m t + 1) mod 256 else value m t) /\
               b = ((value n t + 1) mod 256 =? limit n t)).
  { unfold n_inc in NI. destruct (right_dir n t); [|discriminate].
    destruct n; injection NI as <- <-; (split; [intros []; reflexivity | reflexivity]). }
  destruct V1 as [V1 B].
  assert (V2 : vals t' = vals t1 /\ (forall m, In (Lost m) l <-> b = true /\ m = n)).
  { destruct b.
    - apply life_map in E as [-> Q]. split; [exact Q|]. intros m. cbn. split.
      + intros [H|[]]. injection H as ->. auto.
      + intros [_ ->]. left. reflexivity.
    - destruct (K _ _ _ E) as [Q1 Q2]. split; [exact Q1|]. intros m. split.
      + intros H. exfalso. exact (Q2 m H).
      + intros [H _]. discriminate. }
  destruct V2 as [V2 L2].
  pose proof (proj1 (vals_value _ _) V) as W. pose proof (proj1 (vals_value _ _) V2) as W2.
  intros m. rewrite A. split; [|split].
  - intros H. apply M in H. subst m. rewrite W2, V1. destruct n; rewrite W; reflexivity.
  - intros H. rewrite W2, V1. destruct m, n; try (rewrite W; reflexivity);
      match goal with |- context [value ?k t] => rewrite (proj2 (M k) eq_refl) in H; discriminate end.
  - rewrite L2, B, Z.eqb_eq. split.
    + intros [H ->]. split; [apply M; reflexivity|]. rewrite <- W, <- LM. exact H.
    + intros [H1 H2]. apply M in H1. subst m. split; [|reflexivity]. rewrite W, LM. exact H2.
Qed.
