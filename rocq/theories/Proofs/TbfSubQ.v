(** Polls and counters of a TBF. *)
From Coq Require Import ZArith Lia List Bool.
From Verif Require Import Base.Arith Model.TbfFsm Spec.TbfFsmSpec Proofs.TbfFsmP Proofs.TbfFsmQ
  Model.TbfSub Spec.TbfSubSpec Proofs.TbfSubP.
Import ListNotations.
Open Scope Z_scope.

Ltac no_lost := cbn; intros ? H; repeat (destruct H as [H|H]); try discriminate; try contradiction.

Ltac simple_eff := apply no_eff; [intros []; reflexivity | intros []; reflexivity | reflexivity | no_lost].

Lemma none_vals : forall c t, vals (ua_none c t) = vals t.
Proof. intros c t. unfold ua_none. destruct (t_ua t), (t_dir t); reflexivity. Qed.

Lemma same_eff : forall t o t' l,
  (forall n, missed n t o = false) -> (forall n, answered n t o = false) ->
  ret t' = Some (t', l) -> vals t' = vals t -> cnt_eff t o t' l.
Proof. intros t o t' l M A R V. injection R as <-. apply no_eff; try assumption. no_lost. Qed.

Lemma step_cnt : forall c t o t' l, inv c t -> alive t ->
  sub_step c t o = Some (t', l) -> cnt_eff t o t' l.
Proof.
  intros c t o t' l (R & C & _) AL E. unfold sub_step in E. unfold alive in AL. rewrite AL in E.
  destruct o; cbn [sop_step] in E.
  - destruct (life_ok o).
    + apply life_map in E as [-> V]. apply no_eff; [intros []; destruct (t_dir t) eqn:D; cbn; rewrite ?D; reflexivity .. | exact V | no_lost].
    + injection E as <- <-. apply no_eff; [intros []; cbn; destruct (t_dir t); reflexivity .. | reflexivity | no_lost].
  - injection E as <- <-. apply no_eff; [intros []; cbn; destruct (t_dir t); reflexivity .. | reflexivity | no_lost].
  - injection E as <- <-. apply no_eff; [intros []; cbn; destruct (t_dir t); reflexivity .. | unfold ua_sched; destruct (t_ua t); reflexivity | no_lost].
  - injection E as <- <-. apply no_eff; [intros []; cbn; destruct (t_dir t); reflexivity .. | unfold ua_rej; destruct (t_ua t); reflexivity | no_lost].
  - injection E as <- <-. apply no_eff; [intros []; cbn; destruct (t_dir t); reflexivity .. | unfold ua_abort; destruct (t_ua t); try reflexivity; apply none_vals | no_lost].
  - assert (V : vals t' = vals t /\ forall n, ~ In (Lost n) l).
    { unfold ua_rts in E. destruct ctrl; cbn [negb] in E; [|injection E as <- <-; split; [reflexivity | no_lost]].
      destruct (t_ua t); [injection E as <- <-; split; [reflexivity | no_lost] | | injection E as <- <-; split; [apply none_vals | no_lost] | injection E as <- <-; split; [reflexivity | no_lost]].
      destruct poll; cbn [negb] in E; [|injection E as <- <-; split; [reflexivity | no_lost]].
      destruct peer; cbn [negb] in E; [|injection E as <- <-; split; [apply none_vals | no_lost]].
      destruct enc; cbn [negb] in E; injection E as <- <-; (split; [reflexivity | no_lost]). }
    apply no_eff; [intros []; cbn; destruct (t_dir t); reflexivity .. | apply V | apply V].
  - assert (V : vals t' = vals t /\ forall n, ~ In (Lost n) l).
    { unfold ua_timer in E. destruct (due _ _); [|injection E as <- <-; split; [reflexivity | no_lost]].
      destruct (t_uaT t =? -2000); [injection E as <- <-; split; [reflexivity | no_lost]|].
      destruct (t_uaT t =? 3168); [injection E as <- <-; split; [reflexivity | no_lost]|]. discriminate. }
    apply no_eff; [intros []; cbn; destruct (t_dir t); reflexivity .. | apply V | apply V].
  - injection E as <- <-. apply no_eff; [intros []; cbn; destruct (t_dir t); reflexivity .. | unfold da_sched; destruct (t_da t); reflexivity | no_lost].
  - injection E as <- <-. apply no_eff; [intros []; cbn; destruct (t_dir t); reflexivity .. | unfold da_abort; destruct (t_da t); reflexivity | no_lost].
  - assert (V : vals t' = vals t /\ forall n, ~ In (Lost n) l).
    { unfold da_rts in E.
      repeat match type of E with context [match ?x with _ => _ end] => destruct x end; try discriminate;
        injection E as <- <-; (split; [reflexivity | no_lost]). }
    apply no_eff; [intros []; cbn; destruct (t_dir t); reflexivity .. | apply V | apply V].
  - destruct (t_dir t) eqn:D; injection E as <- <-;
      (apply no_eff; [intros []; cbn; rewrite D; reflexivity .. | unfold uk_sched; destruct (t_uk t); reflexivity | no_lost]).
  - destruct (t_dir t) eqn:D.
    + injection E as <- <-. apply no_eff; [intros []; cbn; rewrite D; reflexivity .. | reflexivity | no_lost].
    + assert (V : vals t' = vals t /\ forall n, ~ In (Lost n) l).
      { unfold uk_rts in E.
        destruct ctrl; cbn [negb] in E; [|injection E as <- <-; split; [reflexivity | no_lost]].
        destruct (t_uk t); [injection E as <- <-; split; [reflexivity | no_lost] | | injection E as <- <-; split; [reflexivity | no_lost]].
        destruct (tst_eqb (f_st (t_f t)) FINISHED && negb poll); [injection E as <- <-; split; [reflexivity | no_lost]|].
        destruct tlli.
        - apply life_map in E as [-> V]. split; [rewrite V; destruct (tst_eqb _ _); reflexivity | no_lost].
        - injection E as <- <-. split; [destruct (tst_eqb _ _); reflexivity | no_lost]. }
      apply no_eff; [intros []; cbn; rewrite D; reflexivity .. | apply V | apply V].
  - destruct (t_dir t) eqn:D; injection E as <- <-;
      (apply no_eff; [intros []; cbn; rewrite D; reflexivity .. | reflexivity | no_lost]).
  - (* Packet Downlink Ack/Nack *)
    destruct (t_dir t) eqn:D.
    + unfold n_reset in E. cbn [right_dir less_polls set_p t_dir] in E. rewrite D in E.
      apply life_map in E as [-> V]. pose proof (proj1 (vals_value _ _) V) as W.
      intros n. destruct n; cbn [missed answered]; rewrite D; splits; intros; try discriminate;
        try (rewrite W; reflexivity); try (split; [intros [] | intros [X _]; discriminate]).
    + injection E as <- <-. apply no_eff; [intros []; cbn; rewrite D; reflexivity .. | reflexivity | no_lost].
  - (* USF *)
    destruct (t_dir t) eqn:D.
    + injection E as <- <-. apply no_eff; [intros []; cbn; rewrite D; reflexivity .. | reflexivity | no_lost].
    + destruct (f_st (t_f t)); injection E as <- <-; (apply no_eff; [intros []; cbn; rewrite D; reflexivity .. | reflexivity | no_lost]).
  - (* USF not used *)
    destruct (t_usf t) as [|k] eqn:U.
    + injection E as <- <-. apply no_eff; [intros []; cbn; rewrite ?U; destruct (t_dir t); reflexivity .. | reflexivity | no_lost].
    + destruct C as (_ & _ & _ & _ & _ & _ & _ & _ & C). destruct (C ltac:(rewrite U; discriminate)) as [D _].
      eapply count_eff; [exact E | | | reflexivity | intros []; reflexivity | ].
      * intros []; cbn [missed]; rewrite D; split; intros; try discriminate; try reflexivity; rewrite ?U; reflexivity.
      * intros []; cbn; rewrite D; reflexivity.
      * intros t1 t2 l2 X. injection X as <- <-. split; [reflexivity | no_lost].
  - (* uplink data *)
    destruct (t_dir t) eqn:D.
    + injection E as <- <-. apply no_eff; [intros []; cbn; rewrite D; reflexivity .. | reflexivity | no_lost].
    + unfold n_reset in E. cbn [right_dir set_usf t_dir] in E. rewrite D in E. cbn in E. injection E as <- <-.
      intros n. destruct n; cbn [missed answered]; rewrite D; splits; intros; try discriminate; try reflexivity;
        try (split; [intros [] | intros [X _]; discriminate]).
  - (* stray uplink data *)
    destruct (t_dir t) eqn:D.
    + injection E as <- <-. apply no_eff; [intros []; cbn; rewrite D; reflexivity .. | reflexivity | no_lost].
    + unfold n_reset in E. cbn [right_dir t_dir] in E. rewrite D in E. cbn in E. injection E as <- <-.
      intros n. destruct n; cbn [missed answered]; rewrite D; splits; intros; try discriminate; try reflexivity;
        try (split; [intros [] | intros [X _]; discriminate]).
  - (* USF used *)
    injection E as <- <-. apply no_eff; [intros []; cbn; destruct (t_dir t); reflexivity .. | reflexivity | no_lost].
  - (* last uplink data *)
    destruct (t_dir t) eqn:D.
    + injection E as <- <-. apply no_eff; [intros []; cbn; rewrite D; reflexivity .. | reflexivity | no_lost].
    + destruct (f_st (t_f t)) eqn:F;
        try (injection E as <- <-; apply no_eff; [intros []; cbn; unfold state; rewrite ?D, ?F; reflexivity .. | reflexivity | no_lost]).
      destruct (life c (LUl (UEv LAST_UL_DATA)) t) as [t1|] eqn:L; [|discriminate].
      pose proof (life_values _ _ _ _ L) as FR. pose proof (frame_vals _ _ FR) as V.
      pose proof (proj1 (vals_value _ _) V) as W.
      unfold n_reset, right_dir in E. rewrite (proj1 FR), D in E. cbn in E. injection E as <- <-.
      intros n. destruct n; cbn [missed answered]; unfold state; rewrite D, ?F; splits; intros; try discriminate;
        try (match goal with |- context [value ?n] => exact (W n) end); try reflexivity;
        try (split; [intros [] | intros [X _]; discriminate]).
  - (* answer *)
    destruct (outstanding r t) as [|k] eqn:OS.
    { injection E as <- <-. apply no_eff; [intros []; cbn; destruct (t_dir t); try reflexivity; destruct r; rewrite ?OS; reflexivity .. | reflexivity | no_lost]. }
    unfold poll_answer in E.
    destruct r.
    + destruct (t_ua t) eqn:UA;
        try (injection E as <- <-; apply no_eff; [intros []; cbn [missed answered waits]; rewrite ?UA, ?OS; destruct (t_dir t); reflexivity .. | reflexivity | no_lost]).
      destruct (t_dir t) eqn:D.
      * unfold n_reset_dl, n_reset, right_dir in E. cbn [less_polls set_p t_dir] in E. rewrite D in E.
        cbn [option_map] in E. injection E as <- <-.
        intros n. destruct n; cbn [missed answered waits]; rewrite D, ?UA, ?OS; splits; intros; try discriminate;
          try (split; [intros [] | intros [X _]; discriminate]);
          unfold ua_ack, ua_none; cbn; rewrite ?UA; cbn; rewrite ?UA; reflexivity.
      * unfold n_reset_dl in E. cbn [less_polls set_p t_dir] in E. rewrite D in E.
        cbn [option_map] in E. injection E as <- <-.
        apply no_eff; [intros []; cbn; rewrite D; reflexivity .. | unfold ua_ack, ua_none; cbn; rewrite ?UA, ?D; reflexivity | no_lost].
    + destruct (t_da t) eqn:DA;
        try (injection E as <- <-; apply no_eff; [intros []; cbn [missed answered waits]; rewrite ?DA, ?OS; destruct (t_dir t); reflexivity .. | reflexivity | no_lost]).
      destruct (t_dir t) eqn:D.
      * unfold n_reset_dl, n_reset, right_dir in E. cbn [less_polls set_p t_dir] in E. rewrite D in E.
        cbn [option_map] in E.
        assert (Q : value N3101 t' = value N3101 t /\ value N3103 t' = value N3103 t /\ value N3105 t' = 0 /\ l = []).
        { unfold da_ack in E. cbn in E. rewrite DA in E. cbn in E.
          destruct (f_st (t_f t)), new; injection E as <- <-; cbn; auto. }
        destruct Q as (Q1 & Q2 & Q3 & ->).
        intros n. destruct n; cbn [missed answered waits]; rewrite D, ?DA, ?OS; splits; intros; try discriminate;
          try (split; [intros [] | intros [X _]; discriminate]); assumption.
      * unfold n_reset_dl in E. cbn [less_polls set_p t_dir] in E. rewrite D in E.
        cbn [option_map] in E.
        assert (Q : vals t' = vals t /\ l = []).
        { unfold da_ack in E. cbn in E. rewrite DA in E. cbn in E.
          destruct (f_st (t_f t)), new; injection E as <- <-; cbn; auto. }
        destruct Q as (Q1 & ->).
        apply no_eff; [intros []; cbn; rewrite D; reflexivity .. | exact Q1 | no_lost].
    + destruct (t_dir t) eqn:D; [discriminate|].
      assert (Q : vals t' = vals t /\ l = []).
      { destruct (t_uk t) eqn:UK; try (injection E as <- <-; auto).
        unfold uk_ack in E. cbn in E. rewrite UK in E. cbn in E.
        destruct (tst_eqb (f_st (t_f t)) FINISHED); [|injection E as <- <-; auto].
        apply life_map in E as [-> V]. split; [exact V | reflexivity]. }
      destruct Q as (Q1 & ->).
      apply no_eff; [intros []; cbn; rewrite D; reflexivity .. | exact Q1 | no_lost].
    + injection E as <- <-. apply no_eff; [intros []; cbn; destruct (t_dir t); reflexivity .. | reflexivity | no_lost].
  - (* no answer *)
    destruct (outstanding r t) as [|k] eqn:OS.
    { injection E as <- <-. apply no_eff; [intros []; cbn [missed answered]; destruct (t_dir t); try reflexivity; destruct r; rewrite ?OS; reflexivity .. | reflexivity | no_lost]. }
    unfold poll_timeout in E.
    destruct r; cbn [less_polls set_p t_ua t_da t_uk t_dir t_f] in E.
    + destruct (t_ua t) eqn:UA;
        try (injection E as <- <-; apply no_eff; [intros []; cbn [missed answered waits]; rewrite ?UA, ?OS; destruct (t_dir t); reflexivity .. | reflexivity | no_lost]).
      destruct (t_dir t) eqn:D.
      * eapply count_eff; [exact E | | | reflexivity | intros []; reflexivity | ].
        -- intros []; cbn [missed waits]; rewrite D, ?OS, ?UA; split; intros; try discriminate; reflexivity.
        -- intros []; cbn; rewrite D; reflexivity.
        -- intros t1 t2 l2 X. injection X as <- <-. split; [|no_lost].
           unfold ua_timeout. destruct (t_ua t1); try reflexivity. destruct (tst_eqb _ _); [reflexivity | apply none_vals].
      * injection E as <- <-. apply no_eff; [intros []; cbn; rewrite D; reflexivity .. | | no_lost].
        unfold ua_timeout. cbn. rewrite UA. destruct (tst_eqb _ _); [reflexivity|]. rewrite none_vals. reflexivity.
    + destruct (t_da t) eqn:DA;
        try (injection E as <- <-; apply no_eff; [intros []; cbn [missed answered waits]; rewrite ?DA, ?OS; destruct (t_dir t); reflexivity .. | reflexivity | no_lost]).
      destruct (t_dir t) eqn:D.
      * eapply count_eff; [exact E | | | reflexivity | intros []; reflexivity | ].
        -- intros []; cbn [missed waits]; rewrite D, ?OS, ?DA; split; intros; try discriminate; reflexivity.
        -- intros []; cbn; rewrite D; reflexivity.
        -- intros t1 t2 l2 X. injection X as <- <-. split; [|no_lost].
           unfold da_timeout. destruct (t_da t1); reflexivity.
      * injection E as <- <-. apply no_eff; [intros []; cbn; rewrite D; reflexivity .. | | no_lost].
        unfold da_timeout. cbn. rewrite DA. reflexivity.
    + destruct (t_dir t) eqn:D; [discriminate|].
      destruct (t_uk t) eqn:UK;
        try (injection E as <- <-; apply no_eff; [intros []; cbn [missed answered waits]; rewrite ?UK, ?OS, ?D; reflexivity .. | reflexivity | no_lost]).
      destruct (tst_eqb (f_st (t_f t)) FINISHED) eqn:F.
      * eapply count_eff; [exact E | | | reflexivity | intros []; reflexivity | ].
        -- intros []; cbn [missed waits]; unfold state; rewrite D, ?OS, ?UK, ?F; split; intros; try discriminate; reflexivity.
        -- intros []; cbn; rewrite D; reflexivity.
        -- intros t1 t2 l2 X. injection X as <- <-. split; [|no_lost].
           unfold uk_timeout. destruct (t_uk t1); reflexivity.
      * injection E as <- <-. apply no_eff; [intros []; cbn [missed answered waits]; unfold state; rewrite ?D, ?UK, ?OS, ?F; reflexivity .. | | no_lost].
        unfold uk_timeout. cbn. rewrite UK. reflexivity.
    + destruct (t_dir t) eqn:D; [|discriminate].
      eapply count_eff; [exact E | | | reflexivity | intros []; reflexivity | ].
      * intros []; cbn [missed waits]; rewrite D, ?OS; split; intros; try discriminate; reflexivity.
      * intros []; cbn; rewrite D; reflexivity.
      * intros t1 t2 l2 X. apply life_map in X as [-> V]. split; [exact V | no_lost].
  - (* Packet Resource Request *)
    destruct (t_dir t) eqn:D.
    + injection E as <- <-. apply no_eff; [intros []; cbn; rewrite D; reflexivity .. | reflexivity | no_lost].
    + destruct (outstanding P_UL_ACK t) as [|k] eqn:OS.
      * injection E as <- <-. apply no_eff; [intros []; cbn [missed answered]; rewrite D, ?OS; reflexivity .. | reflexivity | no_lost].
      * unfold n_reset, right_dir in E. rewrite D in E. cbn [less_polls set_p t_f set_n] in E.
        assert (Q : value N3101 t' = value N3101 t /\ value N3105 t' = value N3105 t /\ value N3103 t' = 0 /\ l = []).
        { destruct (tst_eqb (f_st (t_f t)) FINISHED).
          - apply life_map in E as [-> V]. pose proof (proj1 (vals_value _ _) V) as W.
            splits; [exact (W N3101) | exact (W N3105) | exact (W N3103) | reflexivity].
          - injection E as <- <-. cbn. auto. }
        destruct Q as (Q1 & Q2 & Q3 & ->).
        intros n. destruct n; cbn [missed answered]; rewrite D, ?OS; splits; intros; try discriminate;
          try (split; [intros [] | intros [X _]; discriminate]); assumption.
Qed.

(** * Where a step leads *)
Definition mid (t t1 : tbf) : Prop :=
  t_dir t1 = t_dir t /\ t_f t1 = t_f t /\ t_l1 t1 = t_l1 t /\ t_l3 t1 = t_l3 t /\ t_l5 t1 = t_l5 t.

Definition tr (t t' : tbf) : Prop :=
  t_dir t' = t_dir t /\ t_l1 t' = t_l1 t /\ t_l3 t' = t_l3 t /\ t_l5 t' = t_l5 t /\
  (state t' = state t \/ next (t_dir t) (state t) (state t')).

Definition lost_ev (n : counter) : lifeop :=
  match n with N3101 => LUl (UEv MAX_N3101) | N3103 => LUl (UEv MAX_N3103) | N3105 => LDl (DEv MAX_N3105) end.

Definition leads (c : tconf) (t t' : tbf) (l : list sout) : Prop :=
  tr t t' /\ forall n, In (Lost n) l -> exists t1, mid t t1 /\ life c (lost_ev n) t1 = Some t'.

Lemma mid_refl : forall t, mid t t.
Proof. intros t. unfold mid. splits; reflexivity. Qed.

Lemma mid_leads : forall c t t' l, mid t t' -> (forall n, ~ In (Lost n) l) -> leads c t t' l.
Proof.
  intros c t t' l (A & B & D & E & F) N. split.
  - unfold tr, state. rewrite B. splits; auto.
  - intros n H. exfalso. exact (N n H).
Qed.

Lemma life_leads : forall c t t1 o l t' l', reach c t -> alive t -> mid t t1 ->
  (forall n, In (Lost n) l -> o = lost_ev n) ->
  option_map (fun t => (t, l)) (life c o t1) = Some (t', l') -> leads c t t' l'.
Proof.
  intros c t t1 o l t' l' R A (M1 & M2 & M3 & M4 & M5) H E.
  assert (R1 : reach c t1) by (eapply reach_same; eassumption).
  assert (A1 : alive t1) by (unfold alive; rewrite M2; exact A).
  destruct (life_step c t1 o R1 A1) as (t2 & L & _ & F & N). rewrite L in E. cbn in E. injection E as <- <-.
  destruct F as (F1 & F2 & F3 & F4 & F5 & F6 & F7 & F8 & F9 & F10 & _).
  split.
  - unfold tr, state in *. rewrite M2, M1 in N. splits; try congruence.
  - intros n I. exists t1. rewrite <- (H n I). split; [unfold mid; splits; assumption | exact L].
Qed.

Lemma count_leads : forall c t t1 n k t' l, reach c t -> alive t -> mid t t1 ->
  (forall t2, mid t t2 -> k t2 = Some (t', l) -> leads c t t' l) ->
  count c n (lost_ev n) k t1 = Some (t', l) -> leads c t t' l.
Proof.
  intros c t t1 n k t' l R A M K E. unfold count in E.
  destruct (n_inc n t1) as [[t2 b]|] eqn:NI; [|discriminate].
  assert (M2 : mid t t2).
  { unfold n_inc in NI. destruct (right_dir n t1); [|discriminate].
    destruct n; injection NI as <- <-; exact M. }
  destruct b.
  - eapply (life_leads c t t2); [exact R | exact A | exact M2 | | exact E].
    intros m [H|[]]. congruence.
  - apply (K t2 M2 E).
Qed.

Lemma none_mid : forall c t, mid t (ua_none c t).
Proof. intros c t. unfold ua_none. destruct (t_ua t), (t_dir t) eqn:D; unfold mid; cbn; splits; congruence. Qed.

Lemma mid_trans : forall a b d, mid a b -> mid b d -> mid a d.
Proof. unfold mid. intros a b d (A1 & A2 & A3 & A4 & A5) (B1 & B2 & B3 & B4 & B5). splits; congruence. Qed.

Lemma kill_leads : forall c t t1 w, mid t t1 -> leads c t (kill w t1) [].
Proof.
  intros c t t1 w (A & B & D & E & F). split; [|intros n []].
  unfold tr, state, kill. cbn. rewrite B. destruct (t_f t); cbn. splits; auto.
Qed.

Ltac step_mid := 
  first [ apply mid_refl | unfold mid; cbn; splits; reflexivity | apply none_mid | unfold mid; cbn; splits; congruence ].

Lemma step_leads : forall c t o t' l, inv c t -> alive t ->
  (forall a b d, o <> SLimits a b d) ->
  sub_step c t o = Some (t', l) -> leads c t t' l.
Proof.
  intros c t o t' l (R & C & _) AL NL E. unfold sub_step in E. pose proof AL as AL0. unfold alive in AL0. rewrite AL0 in E.
  assert (SAME : forall x, ret x = Some (t', l) -> mid t x -> leads c t t' l).
  { intros x X M. injection X as <- <-. apply mid_leads; [exact M | no_lost]. }
  assert (SAMEM : forall x m, Some (x, m) = Some (t', l) -> mid t x -> (forall n, ~ In (Lost n) m) -> leads c t t' l).
  { intros x m X M. injection X as <- <-. apply mid_leads. exact M. }
  assert (LIFE : forall x o, option_map (fun t => (t, [])) (life c o x) = Some (t', l) -> mid t x -> leads c t t' l).
  { intros x q X M. refine (life_leads c t x q [] t' l R AL M _ X). intros n []. }
  destruct o; cbn [sop_step] in E.
  - destruct (life_ok o); [eapply LIFE; [exact E | apply mid_refl] | eapply SAME; [exact E | apply mid_refl]].
  - exfalso. exact (NL _ _ _ eq_refl).
  - eapply SAME; [exact E|]. unfold ua_sched. destruct (t_ua t); step_mid.
  - eapply SAME; [exact E|]. unfold ua_rej. destruct (t_ua t); step_mid.
  - eapply SAME; [exact E|]. unfold ua_abort. destruct (t_ua t); step_mid.
  - unfold ua_rts in E. destruct ctrl; cbn [negb] in E; [|eapply SAMEM; [exact E | step_mid | no_lost]].
    destruct (t_ua t); try (eapply SAMEM; [exact E | step_mid | no_lost]).
    destruct poll; cbn [negb] in E; [|eapply SAMEM; [exact E | step_mid | no_lost]].
    destruct peer; cbn [negb] in E; [|eapply SAMEM; [exact E | apply none_mid | no_lost]].
    destruct enc; cbn [negb] in E; (eapply SAMEM; [exact E | step_mid | no_lost]).
  - unfold ua_timer in E. destruct (due _ _); [|eapply SAMEM; [exact E | step_mid | no_lost]].
    destruct (t_uaT t =? -2000); [injection E as <- <-; apply kill_leads; apply mid_refl|].
    destruct (t_uaT t =? 3168); [injection E as <- <-; apply kill_leads; apply mid_refl|]. discriminate.
  - eapply SAME; [exact E|]. unfold da_sched. destruct (t_da t); step_mid.
  - eapply SAME; [exact E|]. unfold da_abort. destruct (t_da t); step_mid.
  - unfold da_rts in E.
    repeat match type of E with context [match ?x with _ => _ end] => destruct x end; try discriminate;
      (eapply SAMEM; [exact E | step_mid | no_lost]).
  - destruct (t_dir t) eqn:D; (eapply SAME; [exact E|]); unfold uk_sched; destruct (t_uk t); step_mid.
  - destruct (t_dir t) eqn:D; [eapply SAME; [exact E | apply mid_refl]|].
    unfold uk_rts in E.
    destruct ctrl; cbn [negb] in E; [|eapply SAMEM; [exact E | step_mid | no_lost]].
    destruct (t_uk t); try (eapply SAMEM; [exact E | step_mid | no_lost]).
    destruct (tst_eqb (f_st (t_f t)) FINISHED && negb poll); [eapply SAMEM; [exact E | step_mid | no_lost]|].
    destruct tlli.
    + eapply (life_leads c t); [exact R | exact AL | | | exact E]; [destruct (tst_eqb _ _); step_mid|].
      intros n [H|[]]. discriminate.
    + eapply SAMEM; [exact E | destruct (tst_eqb _ _); step_mid | no_lost].
  - destruct (t_dir t) eqn:D; (eapply SAME; [exact E | step_mid]).
  - destruct (t_dir t) eqn:D; [|eapply SAME; [exact E | step_mid]].
    unfold n_reset in E. cbn [right_dir less_polls set_p t_dir] in E. rewrite D in E.
    eapply LIFE; [exact E | step_mid].
  - destruct (t_dir t) eqn:D; [eapply SAME; [exact E | step_mid]|].
    destruct (f_st (t_f t)); (eapply SAME; [exact E | step_mid]).
  - destruct (t_usf t) as [|k] eqn:U; [eapply SAME; [exact E | step_mid]|].
    eapply (count_leads c t (set_usf k t) N3101); [exact R | exact AL | step_mid | | exact E].
    intros t2 M X. exact (SAME t2 X M).
  - destruct (t_dir t) eqn:D; [eapply SAME; [exact E | step_mid]|].
    unfold n_reset in E. cbn [right_dir set_usf t_dir] in E. rewrite D in E. cbn [option_map] in E.
    eapply SAMEM; [exact E | step_mid | no_lost].
  - destruct (t_dir t) eqn:D; [eapply SAME; [exact E | step_mid]|].
    unfold n_reset in E. cbn [right_dir t_dir] in E. rewrite D in E. cbn [option_map] in E.
    eapply SAMEM; [exact E | step_mid | no_lost].
  - eapply SAME; [exact E | step_mid].
  - destruct (t_dir t) eqn:D; [eapply SAME; [exact E | step_mid]|].
    destruct (f_st (t_f t)) eqn:F; try (eapply SAME; [exact E | step_mid]).
    destruct (life c (LUl (UEv LAST_UL_DATA)) t) as [t1|] eqn:L; [|discriminate].
    assert (LD : leads c t t1 []) by (apply (life_leads c t t (LUl (UEv LAST_UL_DATA)) []); [exact R | exact AL | apply mid_refl | intros n [] | rewrite L; reflexivity]).
    unfold n_reset, right_dir in E. rewrite (proj1 (proj1 LD)), D in E. cbn in E. injection E as <- <-.
    split; [exact (proj1 LD) | intros n []].
  - destruct (outstanding r t) as [|k] eqn:OS; [eapply SAME; [exact E | step_mid]|].
    unfold poll_answer in E. destruct r.
    + destruct (t_ua t) eqn:UA; try (eapply SAME; [exact E | step_mid]).
      destruct (t_dir t) eqn:D.
      * unfold n_reset_dl, n_reset, right_dir in E. cbn [less_polls set_p t_dir] in E. rewrite D in E.
        cbn [option_map] in E. eapply SAMEM; [exact E | | no_lost].
        unfold ua_ack, ua_none. cbn. rewrite UA. cbn. rewrite ?UA. unfold mid; cbn; splits; congruence.
      * unfold n_reset_dl, n_reset, right_dir in E. cbn [less_polls set_p t_dir] in E. rewrite D in E.
        cbn [option_map] in E. eapply SAMEM; [exact E | | no_lost].
        unfold ua_ack, ua_none. cbn. rewrite UA. cbn. rewrite ?UA. unfold mid; cbn; splits; congruence.
    + destruct (t_da t) eqn:DA; try (eapply SAME; [exact E | step_mid]).
      assert (Q : exists t1, mid t t1 /\ (Some (t1, []) = Some (t', l) \/ Some (kill ByReplaced t1, []) = Some (t', l))).
      { unfold n_reset_dl, n_reset, right_dir in E. cbn [less_polls set_p t_dir] in E.
        destruct (t_dir t) eqn:D; cbn [option_map] in E; unfold da_ack in E; 
          change (t_da (less_polls P_DL_ASS t)) with (t_da t) in E;
          cbn [set_n t_da] in E; change (t_da (less_polls P_DL_ASS t)) with (t_da t) in E; rewrite DA in E;
          cbn [set_da t_f set_n less_polls set_p] in E;
          destruct (f_st (t_f t)), new; 
          first [ solve [eexists; split; [|left; exact E]; step_mid] | solve [eexists; split; [|right; exact E]; step_mid] ]. }
      destruct Q as (t1 & M & [X|X]).
      * eapply SAMEM; [exact X | exact M | no_lost].
      * injection X as <- <-. apply kill_leads. exact M.
    + destruct (t_dir t) eqn:D; [discriminate|].
      destruct (t_uk t) eqn:UK; try (eapply SAME; [exact E | step_mid]).
      unfold uk_ack in E. cbn in E. rewrite UK in E. cbn in E.
      destruct (tst_eqb (f_st (t_f t)) FINISHED); [eapply LIFE; [exact E | step_mid] | eapply SAME; [exact E | step_mid]].
    + eapply SAME; [exact E | step_mid].
  - destruct (outstanding r t) as [|k] eqn:OS; [eapply SAME; [exact E | step_mid]|].
    unfold poll_timeout in E.
    destruct r; cbn [less_polls set_p t_ua t_da t_uk t_dir t_f] in E.
    + destruct (t_ua t) eqn:UA; try (eapply SAME; [exact E | step_mid]).
      destruct (t_dir t) eqn:D.
      * eapply (count_leads c t _ N3105); [exact R | exact AL | | | exact E]; [step_mid|].
        intros t2 M X. eapply SAME; [exact X|]. eapply mid_trans; [exact M|].
        unfold ua_timeout. destruct (t_ua t2); try step_mid. destruct (tst_eqb _ _); step_mid.
      * eapply SAME; [exact E|]. unfold ua_timeout. cbn. rewrite UA. destruct (tst_eqb _ _); [step_mid|].
        eapply mid_trans; [|apply none_mid]. step_mid.
    + destruct (t_da t) eqn:DA; try (eapply SAME; [exact E | step_mid]).
      destruct (t_dir t) eqn:D.
      * eapply (count_leads c t _ N3105); [exact R | exact AL | | | exact E]; [step_mid|].
        intros t2 M X. eapply SAME; [exact X|]. eapply mid_trans; [exact M|].
        unfold da_timeout. destruct (t_da t2); step_mid.
      * eapply SAME; [exact E|]. unfold da_timeout. cbn. rewrite DA. step_mid.
    + destruct (t_dir t) eqn:D; [discriminate|].
      destruct (t_uk t) eqn:UK; try (eapply SAME; [exact E | step_mid]).
      destruct (tst_eqb (f_st (t_f t)) FINISHED) eqn:F.
      * eapply (count_leads c t _ N3103); [exact R | exact AL | | | exact E]; [step_mid|].
        intros t2 M X. eapply SAME; [exact X|]. eapply mid_trans; [exact M|].
        unfold uk_timeout. destruct (t_uk t2); step_mid.
      * eapply SAME; [exact E|]. unfold uk_timeout. cbn. rewrite UK. step_mid.
    + destruct (t_dir t) eqn:D; [|discriminate].
      eapply (count_leads c t _ N3105); [exact R | exact AL | | | exact E]; [step_mid|].
      intros t2 M X. eapply LIFE; [exact X | exact M].
  - destruct (t_dir t) eqn:D; [eapply SAME; [exact E | step_mid]|].
    destruct (outstanding P_UL_ACK t) as [|k] eqn:OS; [eapply SAME; [exact E | step_mid]|].
    unfold n_reset, right_dir in E. rewrite D in E. cbn [less_polls set_p t_f set_n] in E.
    destruct (tst_eqb (f_st (t_f t)) FINISHED).
    + eapply LIFE; [exact E | step_mid].
    + injection E as <- <-. apply kill_leads. step_mid.
Qed.

(** * Lost TBFs *)
Lemma lost_state : forall c t o t' l n, inv c t -> alive t -> sub_step c t o = Some (t', l) ->
  In (Lost n) l -> counting n (state t) = true -> state t' = RELEASING.
Proof.
  intros c t o t' l n I A S L CN.
  assert (NL : forall a b d, o <> SLimits a b d).
  { intros a b d ->. unfold sub_step in S. unfold alive in A. rewrite A in S. injection S as <- <-. destruct L. }
  destruct (step_leads c t o t' l I A NL S) as [_ H]. destruct (H n L) as (t1 & (M1 & M2 & _) & E).
  pose proof (proj2 (step_cnt c t o t' l I A S n)) as Q. destruct Q as [_ Q]. apply Q in L as [L _].
  unfold missed in L. unfold state in *. unfold lost_ev in E.
  destruct n, (t_dir t) eqn:D; try discriminate; unfold life in E; rewrite M1, ?D in E.
  - cbn [ul_op] in E. rewrite M2 in E.
    destruct (ul_dispatch c MAX_N3101 (t_f t)) as [[f' m]|] eqn:X; [|discriminate].
    cbn in E. injection E as <-. rewrite (proj2 (apply_effs_frame c m (set_f f' t1))). cbn [set_f t_f].
    assert (U : t_usf t <> 0%nat) by (destruct o; try discriminate; destruct (t_usf t); [discriminate | congruence]).
    destruct I as (_ & C & _). destruct C as (_ & _ & _ & _ & _ & _ & _ & _ & C). destruct (C U) as [_ C2].
    unfold state in C2.
    destruct (t_f t) as [st T tm cc pc t31 fst1 nw dd]. cbn in CN, C2. destruct st; try discriminate.
    + destruct C2 as [C2|[C2|C2]]; discriminate.
    + cbn in X. injection X as <- <-. reflexivity.
  - cbn [ul_op] in E. rewrite M2 in E.
    destruct (ul_dispatch c MAX_N3103 (t_f t)) as [[f' m]|] eqn:X; [|discriminate].
    cbn in E. injection E as <-. rewrite (proj2 (apply_effs_frame c m (set_f f' t1))). cbn [set_f t_f].
    destruct (t_f t) as [st T tm cc pc t31 fst1 nw dd]. cbn in CN. destruct st; try discriminate.
    cbn in X. injection X as <- <-. reflexivity.
  - cbn [dl_op] in E. rewrite M2 in E.
    destruct (dl_dispatch c MAX_N3105 (t_f t)) as [[f' m]|] eqn:X; [|discriminate].
    cbn in E. injection E as <-. rewrite (proj2 (apply_effs_frame c m (set_f f' t1))). cbn [set_f t_f].
    destruct (t_f t) as [st T tm cc pc t31 fst1 nw dd]. cbn in CN. destruct st; try discriminate;
      cbn in X; injection X as <- <-; reflexivity.
Qed.

(** The limit is a proper one, and the count below it. *)
Definition capped (n : counter) (t : tbf) (k : Z) : Prop :=
  1 <= limit n t <= 255 /\ 0 <= k /\ value n t = k mod 256 /\
  (counting n (state t) = true -> k < limit n t) /\
  (n = N3103 -> state t = ASSIGN \/ state t = FLOW -> k = 0).

Lemma tr_counting : forall n t t', tr t t' -> right_dir n t = true -> state t <> NEW -> counting n (state t') = true ->
  counting n (state t) = true \/ (n = N3103 /\ (state t = ASSIGN \/ state t = FLOW)).
Proof.
  intros n t t' (D & _ & _ & _ & [E|E]) RD NN H; [left; congruence|].
  unfold right_dir in RD. destruct n, (t_dir t) eqn:D0; try discriminate; cbn [next] in E; inversion E; subst;
    cbn; auto; try congruence; try (match goal with X : In _ _ |- _ => cbn in X; decompose [or] X; subst end);
    cbn; auto; try contradiction;
    repeat match goal with X : _ = state _ |- _ => rewrite <- X in * end; try discriminate; auto; try congruence.
Qed.

Lemma missed_dir : forall n t o, missed n t o = true -> right_dir n t = true.
Proof. intros n t o H. unfold missed in H. unfold right_dir. destruct n, (t_dir t); try discriminate; reflexivity. Qed.

Lemma finished_stays : forall t t', tr t t' -> t_dir t = UL -> state t = FINISHED ->
  state t' <> ASSIGN /\ state t' <> FLOW.
Proof.
  intros t t' (_ & _ & _ & _ & [E|E]) D F; [rewrite E, F; split; discriminate|].
  rewrite D, F in E. destruct (ul_next_late _ _ E) as [H _]. rewrite (H (or_introl eq_refl)). split; discriminate.
Qed.

Lemma early_back : forall t t', tr t t' -> t_dir t = UL -> state t <> NEW ->
  state t' = ASSIGN \/ state t' = FLOW -> state t = ASSIGN \/ state t = FLOW.
Proof.
  intros t t' (_ & _ & _ & _ & [E|E]) D NN H; [rewrite <- E; exact H|].
  rewrite D in E. cbn [next] in E. inversion E; subst; auto;
    repeat match goal with X : _ = state _ |- _ => rewrite <- X in * end; try congruence;
    destruct H; discriminate.
Qed.

Lemma missed_n3103 : forall t o, missed N3103 t o = true -> t_dir t = UL /\ state t = FINISHED.
Proof.
  intros t o H. cbn [missed] in H. destruct (t_dir t); [discriminate|]. split; [reflexivity|].
  destruct o; try discriminate. destruct r; try discriminate. destruct (outstanding P_UL_ACK t); [discriminate|].
  apply andb_true_iff in H as [_ H]. apply eqb_st. exact H.
Qed.

Lemma answered_dir : forall n t o, answered n t o = true -> right_dir n t = true.
Proof. intros n t o H. unfold answered in H. unfold right_dir. destruct n, (t_dir t); try discriminate; reflexivity. Qed.

Definition cap (n : counter) (t : tbf) (k : Z) : Prop := capped n t k /\ (right_dir n t = false -> k = 0).

Lemma cap_step : forall c t o t' l n k, inv c t -> alive t -> (forall a b d, o <> SLimits a b d) ->
  sub_step c t o = Some (t', l) -> cap n t k -> cap n t' (tally n t o k) /\ limit n t' = limit n t.
Proof.
  intros c t o t' l n k I A NL S ((L & K & V & B & Z0) & W).
  pose proof (step_leads c t o t' l I A NL S) as [T _].
  destruct (step_cnt c t o t' l I A S n) as (C1 & C2 & C3).
  assert (NN : state t <> NEW) by exact (proj1 (proj1 (proj2 I))).
  assert (LE : limit n t' = limit n t) by (destruct T as (_ & T1 & T2 & T3 & _); destruct n; assumption).
  assert (RD : right_dir n t' = right_dir n t) by (unfold right_dir; destruct T as (T1 & _); rewrite T1; reflexivity).
  split; [|exact LE]. split.
  - split; [rewrite LE; exact L|]. unfold tally. destruct (missed n t o) eqn:M.
    + split; [lia|]. split; [rewrite (C1 eq_refl), V, Zplus_mod_idemp_l; reflexivity|]. split.
      * intros H. rewrite LE. pose proof (missed_dir _ _ _ M) as D.
        destruct (tr_counting n t t' T D NN H) as [H2|(-> & H2)].
        -- specialize (B H2). destruct (Z.eq_dec (k + 1) (limit n t)) as [Q|Q]; [|lia].
           exfalso. assert (LO : In (Lost n) l).
           { apply C3. split; [reflexivity|]. rewrite V, Zplus_mod_idemp_l, Q. apply Z.mod_small. lia. }
           pose proof (lost_state c t o t' l n I A S LO H2) as X. rewrite X in H. destruct n; discriminate.
        -- exfalso. destruct (missed_n3103 _ _ M) as [_ F]. rewrite F in H2. destruct H2; discriminate.
      * intros -> H. exfalso. destruct (missed_n3103 _ _ M) as [D F].
        destruct (finished_stays _ _ T D F). tauto.
    + specialize (C2 eq_refl).
      assert (KB : 0 <= (if answered n t o then 0 else k) <= k) by (destruct (answered n t o); lia).
      split; [lia|]. split; [rewrite C2; destruct (answered n t o); [reflexivity | exact V]|]. split.
      * intros H. rewrite LE. destruct (right_dir n t) eqn:D.
        -- destruct (tr_counting n t t' T D NN H) as [H2|(-> & H2)]; [specialize (B H2); lia|].
           specialize (Z0 eq_refl H2). lia.
        -- specialize (W eq_refl). lia.
      * intros -> H. destruct (t_dir t) eqn:D.
        -- unfold right_dir in W. rewrite D in W. specialize (W eq_refl). lia.
        -- specialize (Z0 eq_refl (early_back _ _ T D NN H)). lia.
  - rewrite RD. intros D. specialize (W D). unfold tally. destruct (missed n t o) eqn:M.
    + rewrite (missed_dir _ _ _ M) in D. discriminate.
    + destruct (answered n t o); lia.
Qed.

Lemma dead_run : forall c ops t, f_dead (t_f t) <> None -> sub_run c t ops = Some (t, []).
Proof.
  intros c ops t D. induction ops as [|o ops IH]; [reflexivity|]. cbn [sub_run]. unfold sub_step.
  destruct (f_dead (t_f t)); [|congruence]. unfold ret. rewrite IH. reflexivity.
Qed.

Lemma dead_row : forall c n ops t k, f_dead (t_f t) <> None -> missed_in_a_row c n t ops k = k.
Proof. intros c n ops t k D. destruct ops; [reflexivity|]. cbn [missed_in_a_row]. destruct (f_dead (t_f t)); [reflexivity | congruence]. Qed.

(** A relation between a TBF and its count that every step keeps. *)
Lemma row_run : forall c n (P : tbf -> Z -> Prop) (ok : sop -> Prop),
  (forall t o t' l k, inv c t -> alive t -> ok o -> sub_step c t o = Some (t', l) -> P t k -> P t' (tally n t o k)) ->
  forall ops t t' outs k, inv c t -> alive t -> Forall ok ops ->
  sub_run c t ops = Some (t', outs) -> P t k -> P t' (missed_in_a_row c n t ops k).
Proof.
  intros c n P ok ST ops. induction ops as [|o ops IH]; intros t t' outs k I A F R H.
  - cbn in R. injection R as <- <-. exact H.
  - inversion F; subst. cbn [sub_run] in R.
    destruct (sub_step c t o) as [[t1 l]|] eqn:S; [|discriminate].
    destruct (sub_run c t1 ops) as [[t2 m]|] eqn:R1; [|discriminate]. injection R as <- <-.
    cbn [missed_in_a_row]. pose proof A as A0. unfold alive in A0. rewrite A0, S.
    pose proof (ST t o t1 l k I A H2 S H) as H1.
    destruct (f_dead (t_f t1)) eqn:D.
    + rewrite dead_run in R1 by congruence. injection R1 as <- <-. rewrite dead_row by congruence. exact H1.
    + destruct (good_step c t o I A) as (t3 & l3 & S3 & I3). rewrite S in S3. injection S3 as <- <-.
      exact (IH t1 t2 m _ (I3 D) D H3 R1 H1).
Qed.

(** Every reachable TBF. *)
Definition start (c : tconf) (d : dir) (w : on_channel) (now l1 l3 l5 : Z) (t : tbf) : Prop :=
  sub_new c d w now l1 l3 l5 = Some t.

Lemma run_reach : forall c d w now l1 l3 l5 t ops t' outs,
  sub_new c d w now l1 l3 l5 = Some t -> sub_run c t ops = Some (t', outs) -> alive t' -> inv c t'.
Proof.
  intros c d w now l1 l3 l5 t ops t' outs N R A.
  destruct (new_inv c d w now l1 l3 l5) as (t0 & N0 & I & AL & _). rewrite N in N0. injection N0 as <-.
  destruct (run_inv c ops t I AL) as (t2 & m & R2 & I2). rewrite R in R2. injection R2 as <- <-. auto.
Qed.

Lemma no_assert : forall c d w now l1 l3 l5, exists t, sub_new c d w now l1 l3 l5 = Some t /\
  forall ops, sub_run c t ops <> None.
Proof.
  intros c d w now l1 l3 l5. destruct (new_inv c d w now l1 l3 l5) as (t & N & I & A & _).
  exists t. split; [exact N|]. intros ops. destruct (run_inv c ops t I A) as (t2 & m & R & _). rewrite R. discriminate.
Qed.

Lemma count_run : forall c d w now l1 l3 l5 t ops t' outs n,
  sub_new c d w now l1 l3 l5 = Some t -> sub_run c t ops = Some (t', outs) ->
  value n t' = missed_in_a_row c n t ops 0 mod 256.
Proof.
  intros c d w now l1 l3 l5 t ops t' outs n N R.
  destruct (new_inv c d w now l1 l3 l5) as (t0 & N0 & I & A & V1 & V3 & V5 & _). rewrite N in N0. injection N0 as <-.
  apply (row_run c n (fun t k => value n t = k mod 256) (fun _ => True)) with (t := t) (outs := outs); auto.
  - intros t1 o t2 l k I1 A1 _ S H. destruct (step_cnt c t1 o t2 l I1 A1 S n) as (C1 & C2 & _).
    unfold tally. destruct (missed n t1 o).
    + rewrite (C1 eq_refl), H, Zplus_mod_idemp_l. reflexivity.
    + rewrite (C2 eq_refl). destruct (answered n t1 o); [reflexivity | exact H].
  - apply Forall_forall. auto.
  - destruct n; assumption.
Qed.

Lemma lost_exactly : forall c d w now l1 l3 l5 t ops t' outs o t'' l n,
  sub_new c d w now l1 l3 l5 = Some t -> sub_run c t ops = Some (t', outs) -> alive t' ->
  sub_step c t' o = Some (t'', l) ->
  (In (Lost n) l <-> missed n t' o = true /\ (missed_in_a_row c n t ops 0 + 1) mod 256 = limit n t').
Proof.
  intros c d w now l1 l3 l5 t ops t' outs o t'' l n N R A S.
  pose proof (run_reach _ _ _ _ _ _ _ _ _ _ _ N R A) as I.
  destruct (step_cnt c t' o t'' l I A S n) as (_ & _ & C).
  rewrite C, (count_run _ _ _ _ _ _ _ _ _ _ _ n N R), Zplus_mod_idemp_l. reflexivity.
Qed.

Lemma cap_run : forall c d w now l1 l3 l5 t ops t' outs n,
  sub_new c d w now l1 l3 l5 = Some t -> no_reconfiguration ops ->
  1 <= configured n l1 l3 l5 <= 255 ->
  sub_run c t ops = Some (t', outs) ->
  limit n t' = configured n l1 l3 l5 /\ cap n t' (missed_in_a_row c n t ops 0).
Proof.
  intros c d w now l1 l3 l5 t ops t' outs n N NR L R.
  destruct (new_inv c d w now l1 l3 l5) as (t0 & N0 & I & A & V1 & V3 & V5 & L1 & L3 & L5 & ST & _).
  rewrite N in N0. injection N0 as <-.
  assert (LN : limit n t = configured n l1 l3 l5).
  { destruct n; cbn [limit configured] in *; rewrite ?L1, ?L3, ?L5; unfold u8; apply Z.mod_small; lia. }
  apply (row_run c n (fun t' k => limit n t' = configured n l1 l3 l5 /\ cap n t' k) (fun o => forall a b d, o <> SLimits a b d)) with (t := t) (outs := outs); auto.
  - intros t1 o t2 l k I1 A1 OK S [H1 H2]. destruct (cap_step c t1 o t2 l n k I1 A1 OK S H2) as [X Y].
    split; [congruence | exact X].
  - apply Forall_forall. intros o H a b e ->. exact (NR a b e H).
  - split; [exact LN|]. split; [|auto]. split; [lia|]. split; [lia|]. split; [destruct n; cbn; assumption|].
    split; [lia | auto].
Qed.

Lemma never_beyond : forall c d w now l1 l3 l5 t ops t' outs n,
  sub_new c d w now l1 l3 l5 = Some t -> no_reconfiguration ops ->
  1 <= configured n l1 l3 l5 <= 255 ->
  sub_run c t ops = Some (t', outs) -> counting n (state t') = true ->
  missed_in_a_row c n t ops 0 < configured n l1 l3 l5.
Proof.
  intros c d w now l1 l3 l5 t ops t' outs n N NR L R CN.
  destruct (cap_run _ _ _ _ _ _ _ _ _ _ _ n N NR L R) as [E ((_ & _ & _ & B & _) & _)]. specialize (B CN). lia.
Qed.

Lemma lost_at_limit : forall c d w now l1 l3 l5 t ops t' outs o t'' l n,
  sub_new c d w now l1 l3 l5 = Some t -> no_reconfiguration ops ->
  1 <= configured n l1 l3 l5 <= 255 ->
  sub_run c t ops = Some (t', outs) -> alive t' -> counting n (state t') = true ->
  sub_step c t' o = Some (t'', l) ->
  (In (Lost n) l <-> missed n t' o = true /\ missed_in_a_row c n t ops 0 + 1 = configured n l1 l3 l5) /\
  (In (Lost n) l -> state t'' = RELEASING).
Proof.
  intros c d w now l1 l3 l5 t ops t' outs o t'' l n N NR L R A CN S. split.
  - rewrite (lost_exactly _ _ _ _ _ _ _ _ _ _ _ _ _ _ n N R A S).
    destruct (cap_run _ _ _ _ _ _ _ _ _ _ _ n N NR L R) as [E ((_ & B0 & _ & B & _) & _)]. specialize (B CN).
    rewrite Z.mod_small by lia. rewrite E. reflexivity.
  - intros LO. exact (lost_state c t' o t'' l n (run_reach _ _ _ _ _ _ _ _ _ _ _ N R A) A S LO CN).
Qed.
