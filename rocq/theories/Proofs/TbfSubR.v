(** Polls of the sub-machines of a TBF. *)
From Coq Require Import ZArith Lia List Bool.
From Verif Require Import Base.Arith Model.TbfFsm Spec.TbfFsmSpec Proofs.TbfFsmP Proofs.TbfFsmQ
  Model.TbfSub Spec.TbfSubSpec Proofs.TbfSubP Proofs.TbfSubQ.
Import ListNotations.
Open Scope Z_scope.

Section Reached.
Variables (c : tconf) (d : dir) (w : on_channel) (now l1 l3 l5 : Z) (t : tbf) (ops : list sop) (t' : tbf) (outs : list sout).
Hypothesis NEW : sub_new c d w now l1 l3 l5 = Some t.
Hypothesis RUN : sub_run c t ops = Some (t', outs).
Hypothesis AL : alive t'.

Lemma reached : inv c t'.
Proof. exact (run_reach _ _ _ _ _ _ _ _ _ _ _ NEW RUN AL). Qed.

Lemma one_poll : (outstanding P_UL_ASS t' <= 1)%nat /\ (outstanding P_UL_ACK t' <= 1)%nat.
Proof. destruct reached as (_ & (_ & _ & A & B & _) & _). split; assumption. Qed.

Lemma poll_waits : forall r, r = P_UL_ASS \/ r = P_UL_ACK -> outstanding r t' = 1%nat -> waits r t' = true.
Proof.
  intros r H O. destruct reached as (_ & (_ & _ & _ & _ & A & B & _) & _).
  destruct H as [-> | ->]; cbn in *; [rewrite (A O) | rewrite (B O)]; reflexivity.
Qed.

Lemma waits_poll : forall r, r = P_UL_ASS \/ r = P_UL_ACK -> waits r t' = true ->
  outstanding r t' = 1%nat \/ state t' = RELEASING \/ (t_dir t' = DL /\ state t' = WAIT_REUSE).
Proof.
  intros r H W. destruct reached as (_ & _ & A & B).
  destruct H as [-> | ->]; cbn in *.
  - destruct (t_ua t') eqn:U; try discriminate. destruct (A U) as [X|[X [Y|Y]]]; auto.
  - destruct (t_uk t') eqn:U; try discriminate. destruct (B U) as [X|X]; auto.
Qed.

Lemma answer_idle : forall r new t'' l, outstanding r t' <> 0%nat -> waits r t' = true ->
  sub_step c t' (SAnswer r new) = Some (t'', l) ->
  idle r t'' /\ (r <> P_DL_ACK -> S (outstanding r t'') = outstanding r t').
Proof.
  intros r new t'' l O W S. unfold sub_step in S. unfold alive in AL. rewrite AL in S. cbn [sop_step] in S.
  destruct (outstanding r t') as [|k] eqn:OS; [congruence|].
  unfold poll_answer in S. destruct r; cbn [waits idle] in *.
  - destruct (t_ua t') eqn:UA; try discriminate.
    unfold n_reset_dl, n_reset, right_dir in S. cbn [less_polls set_p t_dir] in S.
    destruct (t_dir t') eqn:D; cbn [option_map] in S; injection S as <- <-;
      unfold ua_ack, ua_none; cbn in *; rewrite UA; cbn; rewrite ?UA, ?D, OS; auto.
  - destruct (t_da t') eqn:DA; try discriminate.
    unfold n_reset_dl, n_reset, right_dir in S. cbn [less_polls set_p t_dir] in S.
    destruct (t_dir t') eqn:D; cbn [option_map] in S; unfold da_ack in S; cbn in S; rewrite DA in S; cbn in S;
      destruct (f_st (t_f t')), new; injection S as <- <-; cbn in *; rewrite OS; auto.
  - destruct (t_dir t') eqn:D; [discriminate|]. destruct (t_uk t') eqn:UK; try discriminate.
    unfold uk_ack in S. cbn in S. rewrite UK in S. cbn in S.
    destruct (tst_eqb (f_st (t_f t')) FINISHED).
    + set (t1 := set_uk _ _) in S. destruct (life c (LUl (UEv FINAL_UL_ACK)) t1) as [t2|] eqn:L; [|discriminate].
      cbn in S. injection S as <- <-.
      pose proof (life_values _ _ _ _ L) as (F1 & F2 & F3 & F4 & F5 & F6 & _).
      unfold outstanding in *. rewrite F2, F6. subst t1. cbn. rewrite OS. auto.
    + injection S as <- <-. cbn in *. rewrite OS. auto.
  - split; [exact I | congruence].
Qed.

Lemma life_ua_wait : forall o t1 t2, life c o t1 = Some t2 -> t_ua t1 = UA_WAIT -> t_ua t2 = UA_WAIT.
Proof.
  intros o t1 t2 L U. pose proof (life_values _ _ _ _ L) as (_ & _ & _ & _ & _ & _ & _ & _ & _ & _ & F & _).
  destruct F as [(F & _)|(_ & [F|F] & _)]; congruence.
Qed.

Lemma timeout_retries : forall r t'' l, r <> P_DL_ACK -> outstanding r t' <> 0%nat -> waits r t' = true ->
  sub_step c t' (SUnanswered r) = Some (t'', l) ->
  S (outstanding r t'') = outstanding r t' /\
  ((exists n, In (Lost n) l /\ (state t'' = RELEASING \/ state t'' = WAIT_REUSE)) \/
   (l = [] /\ match r with
              | P_UL_ASS => if tst_eqb (state t') ASSIGN then retries r t'' else idle r t''
              | _ => retries r t''
              end)).
Proof.
  intros r t'' l NR O W S. pose proof reached as I. unfold sub_step in S. pose proof AL as AL0. unfold alive in AL0.
  rewrite AL0 in S. cbn [sop_step] in S.
  destruct (outstanding r t') as [|k] eqn:OS; [congruence|].
  assert (NN : state t' <> TbfFsm.NEW) by exact (proj1 (proj1 (proj2 I))).
  unfold poll_timeout in S.
  destruct r; cbn [less_polls set_p t_ua t_da t_uk t_dir t_f] in S; cbn [waits retries idle] in *; [| | |congruence].
  - destruct (t_ua t') eqn:UA; try discriminate. destruct (t_dir t') eqn:D.
    + unfold count, n_inc, right_dir in S. 
      match type of S with context [t_dir (less_polls ?r t')] => change (t_dir (less_polls r t')) with (t_dir t') in S end.
      rewrite D in S. match type of S with context [?x =? ?y] => destruct (x =? y) end.
      * set (t1 := set_n _ _ _ _) in S. destruct (life c (LDl (DEv MAX_N3105)) t1) as [t2|] eqn:L; [|discriminate].
        cbn in S. injection S as <- <-.
        pose proof (life_values _ _ _ _ L) as (F1 & F2 & F3 & F4 & F5 & F6 & _).
        split; [unfold outstanding in *; rewrite F6; subst t1; cbn; rewrite OS; reflexivity|].
        left. exists N3105. split; [left; reflexivity|].
        apply (life_n3105 c t1); [exact NN | subst t1; exact D | exact L].
      * injection S as <- <-. unfold ua_timeout. cbn [set_n set_p t_ua t_f less_polls]. rewrite UA. unfold state.
        destruct (tst_eqb (f_st (t_f t')) ASSIGN).
        -- cbn in *. rewrite OS. split; [reflexivity|]. right. auto.
        -- unfold ua_none. cbn in *. rewrite UA. cbn. rewrite OS. split; [reflexivity|]. right. auto.
    + injection S as <- <-. unfold ua_timeout. cbn [set_n set_p t_ua t_f less_polls]. rewrite UA. unfold state.
      destruct (tst_eqb (f_st (t_f t')) ASSIGN).
      * cbn in *. rewrite OS. split; [reflexivity|]. right. auto.
      * unfold ua_none. cbn in *. rewrite UA. cbn. rewrite OS. split; [reflexivity|]. right. auto.
  - destruct (t_da t') eqn:DA; try discriminate. destruct (t_dir t') eqn:D.
    + unfold count, n_inc, right_dir in S. 
      match type of S with context [t_dir (less_polls ?r t')] => change (t_dir (less_polls r t')) with (t_dir t') in S end.
      rewrite D in S. match type of S with context [?x =? ?y] => destruct (x =? y) end.
      * set (t1 := set_n _ _ _ _) in S. destruct (life c (LDl (DEv MAX_N3105)) t1) as [t2|] eqn:L; [|discriminate].
        cbn in S. injection S as <- <-.
        pose proof (life_values _ _ _ _ L) as (F1 & F2 & F3 & F4 & F5 & F6 & _).
        split; [unfold outstanding in *; rewrite F6; subst t1; cbn; rewrite OS; reflexivity|].
        left. exists N3105. split; [left; reflexivity|].
        apply (life_n3105 c t1); [exact NN | subst t1; exact D | exact L].
      * injection S as <- <-. unfold da_timeout. cbn [set_n set_p t_da less_polls]. rewrite DA.
        cbn in *. rewrite OS. split; [reflexivity|]. right. auto.
    + injection S as <- <-. unfold da_timeout. cbn [set_n set_p t_da less_polls]. rewrite DA.
      cbn in *. rewrite OS. split; [reflexivity|]. right. auto.
  - destruct (t_dir t') eqn:D; [discriminate|]. destruct (t_uk t') eqn:UK; try discriminate.
    destruct (tst_eqb (f_st (t_f t')) FINISHED) eqn:F.
    + unfold count, n_inc, right_dir in S. 
      match type of S with context [t_dir (less_polls ?r t')] => change (t_dir (less_polls r t')) with (t_dir t') in S end.
      rewrite D in S. match type of S with context [?x =? ?y] => destruct (x =? y) end.
      * set (t1 := set_n _ _ _ _) in S. destruct (life c (LUl (UEv MAX_N3103)) t1) as [t2|] eqn:L; [|discriminate].
        cbn in S. injection S as <- <-.
        pose proof (life_values _ _ _ _ L) as (F1 & F2 & F3 & F4 & F5 & F6 & _).
        split; [unfold outstanding in *; rewrite F6; subst t1; cbn; rewrite OS; reflexivity|].
        left. exists N3103. split; [left; reflexivity|]. left.
        apply (life_n3103 c t1); [subst t1; apply eqb_st; exact F | subst t1; exact D | exact L].
      * injection S as <- <-. unfold uk_timeout. cbn [set_n set_p t_uk less_polls]. rewrite UK.
        cbn in *. rewrite OS. split; [reflexivity|]. right. auto.
    + injection S as <- <-. unfold uk_timeout. cbn [set_n set_p t_uk less_polls]. rewrite UK.
      cbn in *. rewrite OS. split; [reflexivity|]. right. auto.
Qed.
End Reached.

(** * The downlink assignment *)
Definition da_keep (t t' : tbf) : Prop :=
  p_da (t_p t') = p_da (t_p t) /\ t_dir t' = t_dir t /\
  (t_da t' = t_da t \/ (t_da t = DA_NONE /\ t_da t' = DA_SEND)).

Lemma keep_refl : forall t, da_keep t t.
Proof. intros t. unfold da_keep. auto. Qed.
Lemma keep_trans : forall a b d, da_keep a b -> da_keep b d -> da_keep a d.
Proof.
  intros a b d (A1 & A2 & A3) (B1 & B2 & B3). unfold da_keep. splits; try congruence.
  destruct A3 as [A3|[A3 A4]], B3 as [B3|[B3 B4]]; [left | right | right | right]; try split; congruence.
Qed.
Lemma frame_keep : forall t t', frame t t' -> da_keep t t'.
Proof.
  intros t t' (F1 & F2 & F3 & F4 & F5 & F6 & F7 & F8 & F9 & F10 & F11 & F12).
  unfold da_keep. rewrite F6. auto.
Qed.
Lemma life_keep : forall c t t1 o (l : list sout) t' l', da_keep t t1 ->
  option_map (fun t => (t, l)) (life c o t1) = Some (t', l') -> da_keep t t'.
Proof.
  intros c t t1 o l t' l' K E. destruct (life c o t1) as [t2|] eqn:L; [|discriminate]. cbn in E. injection E as <- <-.
  eapply keep_trans; [exact K | apply frame_keep; exact (life_values _ _ _ _ L)].
Qed.
Lemma count_keep : forall c t t1 n e k t' l, da_keep t t1 ->
  (forall t2, da_keep t t2 -> k t2 = Some (t', l) -> da_keep t t') ->
  count c n e k t1 = Some (t', l) -> da_keep t t'.
Proof.
  intros c t t1 n e k t' l M K E. unfold count in E.
  destruct (n_inc n t1) as [[t2 b]|] eqn:NI; [|discriminate].
  assert (M2 : da_keep t t2).
  { unfold n_inc in NI. destruct (right_dir n t1); [|discriminate].
    destruct n; injection NI as <- <-; exact M. }
  destruct b; [eapply life_keep; [exact M2 | exact E] | exact (K t2 M2 E)].
Qed.
Lemma none_keep : forall c t, da_keep t (ua_none c t).
Proof. intros c t. unfold ua_none. destruct (t_ua t), (t_dir t) eqn:D; unfold da_keep; cbn; splits; auto; congruence. Qed.

Ltac step_keep := first [ apply keep_refl | apply none_keep | unfold da_keep; cbn; splits; auto; congruence ].

Definition da_op (o : sop) : bool :=
  match o with
  | SDaSched | SDaAbort | SDaRts _ _ _ _ _ _ | SAnswer P_DL_ASS _ | SUnanswered P_DL_ASS => true
  | _ => false
  end.

Lemma step_keeps : forall c t o t' l, alive t -> da_op o = false ->
  sub_step c t o = Some (t', l) -> da_keep t t'.
Proof.
  intros c t o t' l AL NO E. unfold sub_step in E. unfold alive in AL. rewrite AL in E.
  assert (SAME : forall x m, Some (x, m) = Some (t', l) -> da_keep t x -> da_keep t t').
  { intros x m X M. injection X as <- <-. exact M. }
  assert (LIFE : forall x o (m : list sout), option_map (fun t => (t, m)) (life c o x) = Some (t', l) -> da_keep t x -> da_keep t t').
  { intros x q m X M. exact (life_keep c t x q m t' l M X). }
  unfold ret in E.
  destruct o; cbn [sop_step da_op] in E, NO; try discriminate; unfold ret in E.
  - destruct (life_ok o); [eapply LIFE; [exact E | step_keep] | eapply SAME; [exact E | step_keep]].
  - eapply SAME; [exact E | step_keep].
  - eapply SAME; [exact E|]. unfold ua_sched. destruct (t_ua t); step_keep.
  - eapply SAME; [exact E|]. unfold ua_rej. destruct (t_ua t); step_keep.
  - eapply SAME; [exact E|]. unfold ua_abort. destruct (t_ua t); step_keep.
  - unfold ua_rts in E. destruct ctrl; cbn [negb] in E; [|eapply SAME; [exact E | step_keep]].
    destruct (t_ua t); try (eapply SAME; [exact E | step_keep]).
    destruct poll; cbn [negb] in E; [|eapply SAME; [exact E | step_keep]].
    destruct peer; cbn [negb] in E; [|eapply SAME; [exact E | step_keep]].
    destruct enc; cbn [negb] in E; (eapply SAME; [exact E | step_keep]).
  - unfold ua_timer in E. destruct (due _ _); [|eapply SAME; [exact E | step_keep]].
    destruct (t_uaT t =? -2000); [eapply SAME; [exact E | step_keep]|].
    destruct (t_uaT t =? 3168); [eapply SAME; [exact E | step_keep]|]. discriminate.
  - destruct (t_dir t) eqn:D; (eapply SAME; [exact E|]); unfold uk_sched; destruct (t_uk t); step_keep.
  - destruct (t_dir t) eqn:D; [eapply SAME; [exact E | step_keep]|].
    unfold uk_rts in E.
    destruct ctrl; cbn [negb] in E; [|eapply SAME; [exact E | step_keep]].
    destruct (t_uk t); try (eapply SAME; [exact E | step_keep]).
    destruct (tst_eqb (f_st (t_f t)) FINISHED && negb poll); [eapply SAME; [exact E | step_keep]|].
    destruct tlli.
    + eapply LIFE; [exact E | destruct (tst_eqb _ _); step_keep].
    + eapply SAME; [exact E | destruct (tst_eqb _ _); step_keep].
  - destruct (t_dir t) eqn:D; (eapply SAME; [exact E | step_keep]).
  - destruct (t_dir t) eqn:D; [|eapply SAME; [exact E | step_keep]].
    unfold n_reset in E. cbn [right_dir less_polls set_p t_dir] in E. rewrite D in E.
    eapply LIFE; [exact E | step_keep].
  - destruct (t_dir t) eqn:D; [eapply SAME; [exact E | step_keep]|].
    destruct (f_st (t_f t)); (eapply SAME; [exact E | step_keep]).
  - destruct (t_usf t) as [|k] eqn:U; [eapply SAME; [exact E | step_keep]|].
    eapply (count_keep c t (set_usf k t)); [step_keep | | exact E].
    intros t2 M X. eapply SAME; [exact X | exact M].
  - destruct (t_dir t) eqn:D; [eapply SAME; [exact E | step_keep]|].
    unfold n_reset in E. cbn [right_dir set_usf t_dir] in E. rewrite D in E. cbn [option_map] in E.
    eapply SAME; [exact E | step_keep].
  - destruct (t_dir t) eqn:D; [eapply SAME; [exact E | step_keep]|].
    unfold n_reset in E. cbn [right_dir t_dir] in E. rewrite D in E. cbn [option_map] in E.
    eapply SAME; [exact E | step_keep].
  - eapply SAME; [exact E | step_keep].
  - destruct (t_dir t) eqn:D; [eapply SAME; [exact E | step_keep]|].
    destruct (f_st (t_f t)) eqn:F; try (eapply SAME; [exact E | step_keep]).
    destruct (life c (LUl (UEv LAST_UL_DATA)) t) as [t1|] eqn:L; [|discriminate].
    pose proof (frame_keep _ _ (life_values _ _ _ _ L)) as K.
    unfold n_reset, right_dir in E. rewrite (proj1 (proj2 K)), D in E. cbn in E. injection E as <- <-. exact K.
  - destruct (outstanding r t) as [|k] eqn:OS; [eapply SAME; [exact E | step_keep]|].
    unfold poll_answer, ret in E. destruct r; try discriminate.
    + destruct (t_ua t) eqn:UA; try (eapply SAME; [exact E | step_keep]).
      unfold n_reset_dl, n_reset, right_dir in E. cbn [less_polls set_p t_dir] in E.
      destruct (t_dir t) eqn:D; cbn [option_map] in E; (eapply SAME; [exact E|]);
        unfold ua_ack, ua_none; cbn; rewrite UA; cbn; rewrite ?UA; step_keep.
    + destruct (t_dir t) eqn:D; [discriminate|].
      destruct (t_uk t) eqn:UK; try (eapply SAME; [exact E | step_keep]).
      unfold uk_ack in E. cbn in E. rewrite UK in E. cbn in E.
      destruct (tst_eqb (f_st (t_f t)) FINISHED); [eapply LIFE; [exact E | step_keep] | eapply SAME; [exact E | step_keep]].
    + eapply SAME; [exact E | step_keep].
  - destruct (outstanding r t) as [|k] eqn:OS; [eapply SAME; [exact E | step_keep]|].
    unfold poll_timeout, ret in E.
    destruct r; cbn [less_polls set_p t_ua t_da t_uk t_dir t_f] in E; try discriminate.
    + destruct (t_ua t) eqn:UA; try (eapply SAME; [exact E | step_keep]).
      destruct (t_dir t) eqn:D.
      * eapply (count_keep c t); [| | exact E]; [step_keep|].
        intros t2 M X. eapply SAME; [exact X|]. eapply keep_trans; [exact M|].
        unfold ua_timeout. destruct (t_ua t2); try step_keep. destruct (tst_eqb _ _); step_keep.
      * eapply SAME; [exact E|]. unfold ua_timeout. cbn. rewrite UA. destruct (tst_eqb _ _); [step_keep|].
        eapply keep_trans; [|apply none_keep]. step_keep.
    + destruct (t_dir t) eqn:D; [discriminate|].
      destruct (t_uk t) eqn:UK; try (eapply SAME; [exact E | step_keep]).
      destruct (tst_eqb (f_st (t_f t)) FINISHED) eqn:F.
      * eapply (count_keep c t); [| | exact E]; [step_keep|].
        intros t2 M X. eapply SAME; [exact X|]. eapply keep_trans; [exact M|].
        unfold uk_timeout. destruct (t_uk t2); step_keep.
      * eapply SAME; [exact E|]. unfold uk_timeout. cbn. rewrite UK. step_keep.
    + destruct (t_dir t) eqn:D; [|discriminate].
      eapply (count_keep c t); [| | exact E]; [step_keep|].
      intros t2 M X. eapply LIFE; [exact X | exact M].
  - destruct (t_dir t) eqn:D; [eapply SAME; [exact E | step_keep]|].
    destruct (outstanding P_UL_ACK t) as [|k] eqn:OS; [eapply SAME; [exact E | step_keep]|].
    unfold n_reset, right_dir in E. rewrite D in E. cbn [less_polls set_p t_f set_n] in E.
    destruct (tst_eqb (f_st (t_f t)) FINISHED).
    + eapply LIFE; [exact E | step_keep].
    + eapply SAME; [exact E | step_keep].
Qed.

Definition wd (t : tbf) : Prop :=
  (p_da (t_p t) <= 1)%nat /\ (p_da (t_p t) = 1%nat -> t_da t = DA_WAIT) /\
  (t_da t = DA_WAIT -> p_da (t_p t) = 1%nat \/ (t_dir t = DL /\ late (state t))).

Lemma late_step : forall c t o t' l, inv c t -> alive t -> sub_step c t o = Some (t', l) ->
  late (state t) -> late (state t').
Proof.
  intros c t o t' l I A S L. destruct (match o with SLimits _ _ _ => true | _ => false end) eqn:O.
  - destruct o; try discriminate. unfold sub_step in S. unfold alive in A. rewrite A in S. cbn in S.
    injection S as <- <-. exact L.
  - destruct (step_leads c t o t' l I A) as [(_ & _ & _ & _ & [E|E]) _]; [|exact S|congruence|].
    + intros a b d ->. discriminate.
    + exfalso. exact (next_late _ _ _ E L).
Qed.

Lemma wd_step : forall c t o t' l, inv c t -> alive t -> o <> SDaAbort ->
  sub_step c t o = Some (t', l) -> wd t -> wd t'.
Proof.
  intros c t o t' l I A NA S (W1 & W2 & W3).
  pose proof (late_step c t o t' l I A S) as LT.
  destruct (da_op o) eqn:DO.
  2: { destruct (step_keeps c t o t' l A DO S) as (K1 & K2 & K3). unfold wd. rewrite K1, K2.
       split; [exact W1|]. split.
       - intros H. specialize (W2 H). destruct K3 as [K|[K _]]; congruence.
       - intros H. destruct K3 as [K|[_ K]]; [|congruence]. rewrite K in H.
         destruct (W3 H) as [X|[X Y]]; auto. }
  unfold sub_step in S. unfold alive in A. rewrite A in S.
  destruct o; try discriminate; cbn [sop_step] in S.
  - injection S as <- <-. unfold wd, da_sched. destruct (t_da t) eqn:DA; cbn; rewrite ?DA; splits; auto; try discriminate.
    intros H. specialize (W2 H). discriminate.
  - congruence.
  - unfold da_rts in S.
    repeat match type of S with context [if ?x then _ else _] => destruct x end; try discriminate;
    try (injection S as <- <-; unfold wd; splits; assumption);
    destruct (t_da t) eqn:DA, (t_ua t); try (injection S as <- <-; unfold wd; rewrite ?DA; splits; assumption);
      repeat match type of S with context [match ?x with _ => _ end] => destruct x end; try discriminate;
      injection S as <- <-; unfold wd; cbn; rewrite ?DA;
      assert (Z0 : p_da (t_p t) = 0%nat) by (destruct (p_da (t_p t)) as [|[|?]]; [reflexivity | specialize (W2 eq_refl); discriminate | lia]);
      rewrite ?Z0; splits; auto; try lia; try discriminate; try congruence.
  - destruct r; try discriminate. destruct (outstanding P_DL_ASS t) as [|k] eqn:OS.
    { injection S as <- <-. unfold wd. splits; assumption. }
    unfold poll_answer in S. destruct (t_da t) eqn:DA; try (injection S as <- <-; unfold wd; rewrite DA; splits; assumption).
    assert (Q : t_da t' = DA_NONE /\ p_da (t_p t') = k).
    { unfold n_reset_dl, n_reset, right_dir in S. cbn [less_polls set_p t_dir] in S.
      destruct (t_dir t) eqn:D; cbn [option_map] in S; unfold da_ack in S; cbn in S; rewrite DA in S; cbn in S, OS; rewrite ?OS in S;
        destruct (f_st (t_f t)), new; injection S as <- <-; cbn; rewrite ?OS; auto. }
    destruct Q as [Q1 Q2]. cbn in OS. unfold wd. rewrite Q1, Q2. splits; [lia | intros; lia | discriminate].
  - destruct r; try discriminate. destruct (outstanding P_DL_ASS t) as [|k] eqn:OS.
    { injection S as <- <-. unfold wd. splits; assumption. }
    cbn in OS. assert (k = 0%nat) by lia. subst k.
    unfold poll_timeout in S. cbn [less_polls set_p t_ua t_da t_uk t_dir t_f] in S.
    destruct (t_da t) eqn:DA; try (specialize (W2 OS); discriminate).
    assert (NN : state t <> NEW) by exact (proj1 (proj1 (proj2 I))).
    destruct (t_dir t) eqn:D.
    + unfold count, n_inc, right_dir in S. 
      match type of S with context [t_dir (less_polls ?r t)] => change (t_dir (less_polls r t)) with (t_dir t) in S end.
      rewrite D in S. match type of S with context [?x =? ?y] => destruct (x =? y) end.
      * set (t1 := set_n _ _ _ _) in S. destruct (life c (LDl (DEv MAX_N3105)) t1) as [t2|] eqn:L; [|discriminate].
        cbn in S. injection S as <- <-.
        pose proof (frame_keep _ _ (life_values _ _ _ _ L)) as (K1 & K2 & K3).
        unfold wd. rewrite K1, K2. subst t1. cbn in K3 |- *. rewrite OS. cbn. rewrite DA in K3.
        split; [lia|]. split; [discriminate|]. intros _. right. split; [exact D|].
        refine (life_n3105 c _ _ _ _ L); [exact NN | exact D].
      * injection S as <- <-. unfold da_timeout, wd. cbn. rewrite ?DA. cbn. rewrite ?OS. cbn. splits; [lia | discriminate | discriminate].
    + injection S as <- <-. unfold da_timeout, wd. cbn. rewrite ?DA. cbn. rewrite ?OS. cbn. splits; [lia | discriminate | discriminate].
Qed.

Lemma wd_run : forall c ops t t' outs, inv c t -> alive t -> wd t -> ~ In SDaAbort ops ->
  sub_run c t ops = Some (t', outs) -> wd t'.
Proof.
  intros c ops. induction ops as [|o ops IH]; intros t t' outs I A W NA R.
  - cbn in R. injection R as <- <-. exact W.
  - cbn [sub_run] in R. destruct (sub_step c t o) as [[t1 l]|] eqn:S; [|discriminate].
    destruct (sub_run c t1 ops) as [[t2 m]|] eqn:R1; [|discriminate]. injection R as <- <-.
    assert (W1 : wd t1).
    { eapply wd_step; [exact I | exact A | | exact S | exact W]. intros ->. apply NA. left. reflexivity. }
    destruct (f_dead (t_f t1)) eqn:D.
    + rewrite dead_run in R1 by congruence. injection R1 as <- <-. exact W1.
    + destruct (good_step c t o I A) as (t3 & l3 & S3 & I3). rewrite S in S3. injection S3 as <- <-.
      exact (IH t1 t2 m (I3 D) D W1 (fun H => NA (or_intror H)) R1).
Qed.

Lemma dl_ass_polls : forall c d w now l1 l3 l5 t ops t' outs,
  sub_new c d w now l1 l3 l5 = Some t -> ~ In SDaAbort ops -> sub_run c t ops = Some (t', outs) ->
  (outstanding P_DL_ASS t' <= 1)%nat /\
  (outstanding P_DL_ASS t' = 1%nat -> waits P_DL_ASS t' = true) /\
  (waits P_DL_ASS t' = true -> outstanding P_DL_ASS t' = 1%nat \/ state t' = RELEASING \/
     (t_dir t' = DL /\ state t' = WAIT_REUSE)).
Proof.
  intros c d w now l1 l3 l5 t ops t' outs N NA R.
  destruct (new_inv c d w now l1 l3 l5) as (t0 & N0 & I & A & _ & _ & _ & _ & _ & _ & _ & P & _ & DA & _).
  rewrite N in N0. injection N0 as <-.
  assert (W : wd t) by (unfold wd; rewrite P, DA; cbn; splits; [lia | discriminate | discriminate]).
  destruct (wd_run c ops t t' outs I A W NA R) as (W1 & W2 & W3). cbn [outstanding waits].
  split; [exact W1|]. split.
  - intros H. rewrite (W2 H). reflexivity.
  - intros H. destruct (t_da t') eqn:DA'; try discriminate. destruct (W3 eq_refl) as [X|[X [Y|Y]]]; auto.
Qed.
