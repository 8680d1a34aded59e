(** Proofs about the routing of uplink blocks: what one step of a TBF does to its
    polls and grants. *)
From Coq Require Import ZArith Lia List Bool.
From Verif Require Import Base.Arith Model.TbfFsm Spec.TbfFsmSpec Proofs.TbfFsmP Proofs.TbfFsmQ
  Model.TbfSub Spec.TbfSubSpec Proofs.TbfSubP Proofs.TbfSubQ Proofs.TbfSubR Model.Route Spec.RouteSpec.
Import ListNotations.
Open Scope Z_scope.

Definition K (t : tbf) : dir * polls * nat := (t_dir t, t_p t, t_usf t).

Lemma life_K : forall c t o t', life c o t = Some t' -> K t' = K t.
Proof.
  intros c t o t' L. destruct (life_values _ _ _ _ L) as (A & _ & _ & _ & _ & B & D & _). unfold K. congruence.
Qed.
Lemma lifemap_K : forall c t o (m : list sout) t' l,
  option_map (fun t => (t, m)) (life c o t) = Some (t', l) -> K t' = K t.
Proof.
  intros c t o m t' l E. destruct (life c o t) as [x|] eqn:L; [|discriminate]. cbn in E. injection E as <- <-.
  exact (life_K _ _ _ _ L).
Qed.
Lemma reset_K : forall n t t', n_reset n t = Some t' -> K t' = K t.
Proof. intros n t t' E. unfold n_reset in E. destruct (right_dir n t); [|discriminate]. destruct n; injection E as <-; reflexivity. Qed.
Lemma reset_dl_K : forall t t', n_reset_dl t = Some t' -> K t' = K t.
Proof. intros t t' E. unfold n_reset_dl in E. destruct (t_dir t); [exact (reset_K _ _ _ E) | injection E as <-; reflexivity]. Qed.
Lemma count_K : forall c n e k t t' l K0, K t = K0 ->
  (forall t2, K t2 = K0 -> k t2 = Some (t', l) -> K t' = K0) ->
  count c n e k t = Some (t', l) -> K t' = K0.
Proof.
  intros c n e k t t' l K0 E H S. unfold count in S. destruct (n_inc n t) as [[t2 b]|] eqn:NI; [|discriminate].
  assert (E2 : K t2 = K0).
  { unfold n_inc in NI. destruct (right_dir n t); [|discriminate]. destruct n; injection NI as <- <-; exact E. }
  destruct b; [rewrite (lifemap_K _ _ _ _ _ _ S); exact E2 | exact (H t2 E2 S)].
Qed.
Lemma none_K : forall c t, K (ua_none c t) = K t.
Proof. intros c t. unfold ua_none. destruct (t_ua t), (t_dir t) eqn:D; unfold K; cbn; congruence. Qed.
Lemma ret_K : forall t t' l, ret t = Some (t', l) -> K t' = K t.
Proof. intros t t' l E. injection E as <- <-. reflexivity. Qed.

Definition less_p r t := t_p (less_polls r t).

(** What an operation does to the polls and grants, messages with a poll apart. *)
Definition after (o : sop) (t : tbf) : dir * polls * nat :=
  match o with
  | SDlAck _ => match t_dir t with DL => K (less_polls P_DL_ACK t) | UL => K t end
  | SUsf => match t_dir t, f_st (t_f t) with UL, FLOW => K (set_usf (S (t_usf t)) t) | _, _ => K t end
  | SUsfTimeout => match t_usf t with O => K t | S n => K (set_usf n t) end
  | SUlData => match t_dir t with UL => K (set_usf (pred (t_usf t)) t) | DL => K t end
  | SUsfUsed => K (set_usf (pred (t_usf t)) t)
  | SAnswer r _ => match outstanding r t with O => K t | S _ => if awaits r t then K (less_polls r t) else K t end
  | SUnanswered r => match outstanding r t with O => K t | S _ => K (less_polls r t) end
  | SResReq => match t_dir t, outstanding P_UL_ACK t with UL, S _ => K (less_polls P_UL_ACK t) | _, _ => K t end
  | _ => K t
  end.
Definition polling (o : sop) : option reason :=
  match o with
  | SUaRts _ _ _ _ => Some P_UL_ASS
  | SDaRts _ _ _ _ _ _ => Some P_DL_ASS
  | SUkRts _ _ _ => Some P_UL_ACK
  | SDlPoll => Some P_DL_ACK
  | _ => None
  end.

Ltac kr := unfold K; cbn; congruence.

Lemma step_K : forall c t o t' l, alive t -> sub_step c t o = Some (t', l) ->
  K t' = after o t \/ (exists r, polling o = Some r /\ K t' = K (more_polls r t)).
Proof.
  intros c t o t' l AL E. unfold sub_step in E. unfold alive in AL. rewrite AL in E.
  destruct o; cbn [sop_step after polling] in *; try (left; rewrite (ret_K _ _ _ E); reflexivity).
  - left. destruct (life_ok o); [exact (lifemap_K _ _ _ _ _ _ E) | exact (ret_K _ _ _ E)].
  - left. rewrite (ret_K _ _ _ E). unfold ua_sched. destruct (t_ua t); reflexivity.
  - left. rewrite (ret_K _ _ _ E). unfold ua_rej. destruct (t_ua t); reflexivity.
  - left. rewrite (ret_K _ _ _ E). unfold ua_abort. destruct (t_ua t); try reflexivity; apply none_K.
  - unfold ua_rts in E. destruct ctrl; cbn [negb] in E; [|left; exact (ret_K _ _ _ E)].
    destruct (t_ua t); try (left; exact (ret_K _ _ _ E)).
    + destruct poll; cbn [negb] in E; [|left; exact (ret_K _ _ _ E)].
      destruct peer; cbn [negb] in E; [|left; injection E as <- <-; apply none_K].
      destruct enc; cbn [negb] in E; [|left; exact (ret_K _ _ _ E)].
      right. exists P_UL_ASS. split; [reflexivity|]. injection E as <- <-. reflexivity.
    + left. injection E as <- <-. apply none_K.
  - left. unfold ua_timer in E.
    repeat match type of E with context [if ?x then _ else _] => destruct x end; try discriminate; injection E as <- <-; reflexivity.
  - left. rewrite (ret_K _ _ _ E). unfold da_sched. destruct (t_da t); reflexivity.
  - left. rewrite (ret_K _ _ _ E). unfold da_abort. destruct (t_da t); reflexivity.
  - unfold da_rts in E.
    repeat match type of E with context [match ?x with _ => _ end] => destruct x end; try discriminate;
      injection E as <- <-; try (left; reflexivity); right; exists P_DL_ASS; split; reflexivity.
  - left. destruct (t_dir t) eqn:D; rewrite (ret_K _ _ _ E); [reflexivity|]. unfold uk_sched. destruct (t_uk t); reflexivity.
  - destruct (t_dir t) eqn:D; [left; exact (ret_K _ _ _ E)|].
    unfold uk_rts in E. destruct ctrl; cbn [negb] in E; [|left; exact (ret_K _ _ _ E)].
    destruct (t_uk t); try (left; exact (ret_K _ _ _ E)).
    destruct (tst_eqb (f_st (t_f t)) FINISHED) eqn:F; cbn [andb] in E.
    + destruct (negb poll); [left; exact (ret_K _ _ _ E)|]. right. exists P_UL_ACK. split; [reflexivity|].
      destruct tlli; [rewrite (lifemap_K _ _ _ _ _ _ E) | injection E as <- <-]; reflexivity.
    + left. destruct tlli; [rewrite (lifemap_K _ _ _ _ _ _ E) | injection E as <- <-]; reflexivity.
  - destruct (t_dir t) eqn:D; [|left; exact (ret_K _ _ _ E)]. right. exists P_DL_ACK. split; [reflexivity|].
    exact (ret_K _ _ _ E).
  - left. destruct (t_dir t) eqn:D; [|exact (ret_K _ _ _ E)].
    destruct (n_reset N3105 _) as [t1|] eqn:N; [|discriminate].
    rewrite (lifemap_K _ _ _ _ _ _ E). exact (reset_K _ _ _ N).
  - left. destruct (t_dir t), (f_st (t_f t)); exact (ret_K _ _ _ E).
  - left. destruct (t_usf t) as [|n] eqn:U; [exact (ret_K _ _ _ E)|].
    refine (count_K _ _ _ _ _ _ _ _ eq_refl _ E). intros t2 X Y. rewrite (ret_K _ _ _ Y). exact X.
  - left. destruct (t_dir t) eqn:D; [exact (ret_K _ _ _ E)|].
    destruct (n_reset N3101 _) as [t1|] eqn:N; [|discriminate]. injection E as <- <-. exact (reset_K _ _ _ N).
  - left. destruct (t_dir t) eqn:D; [exact (ret_K _ _ _ E)|].
    destruct (n_reset N3101 _) as [t1|] eqn:N; [|discriminate]. injection E as <- <-. exact (reset_K _ _ _ N).
  - left. destruct (t_dir t) eqn:D; [exact (ret_K _ _ _ E)|].
    destruct (f_st (t_f t)); try exact (ret_K _ _ _ E).
    destruct (life c _ t) as [t1|] eqn:L; [|discriminate].
    destruct (n_reset N3103 t1) as [t2|] eqn:N; [|discriminate]. injection E as <- <-.
    rewrite (reset_K _ _ _ N). exact (life_K _ _ _ _ L).
  - left. destruct (outstanding r t) as [|k] eqn:OS; [exact (ret_K _ _ _ E)|].
    unfold poll_answer in E. destruct r; cbn [awaits].
    + destruct (t_ua t) eqn:UA; try exact (ret_K _ _ _ E).
      destruct (n_reset_dl _) as [t1|] eqn:N; [|discriminate]. injection E as <- <-.
      rewrite <- (reset_dl_K _ _ N). unfold ua_ack. destruct (t_ua t1); try reflexivity. apply none_K.
    + destruct (t_da t) eqn:DA; try exact (ret_K _ _ _ E).
      destruct (n_reset_dl _) as [t1|] eqn:N; [|discriminate]. cbn [option_map] in E.
      rewrite <- (reset_dl_K _ _ N).
      assert (X : K (da_ack t1) = K t1) by (unfold da_ack; destruct (t_da t1); reflexivity).
      rewrite <- X. destruct (f_st (t_f (da_ack t1))), new; injection E as <- <-; reflexivity.
    + destruct (t_dir t) eqn:D; [discriminate|].
      destruct (t_uk t) eqn:UK; try exact (ret_K _ _ _ E).
      assert (X : K (uk_ack (less_polls P_UL_ACK t)) = K (less_polls P_UL_ACK t)) by (unfold uk_ack; cbn [t_uk less_polls set_p]; rewrite UK; reflexivity).
      rewrite <- X. destruct (tst_eqb _ _); [exact (lifemap_K _ _ _ _ _ _ E) | exact (ret_K _ _ _ E)].
    + exact (ret_K _ _ _ E).
  - left. destruct (outstanding r t) as [|k] eqn:OS; [exact (ret_K _ _ _ E)|].
    unfold poll_timeout in E. set (t1 := less_polls r t) in *.
    destruct r.
    + destruct (t_ua t1), (t_dir t1); try exact (ret_K _ _ _ E).
      * refine (count_K _ _ _ _ _ _ _ _ eq_refl _ E). intros t2 X Y. rewrite (ret_K _ _ _ Y), <- X.
        unfold ua_timeout. destruct (t_ua t2); try reflexivity. destruct (tst_eqb _ _); [reflexivity | apply none_K].
      * rewrite (ret_K _ _ _ E). unfold ua_timeout. destruct (t_ua t1); try reflexivity. destruct (tst_eqb _ _); [reflexivity | apply none_K].
    + destruct (t_da t1), (t_dir t1); try exact (ret_K _ _ _ E).
      * refine (count_K _ _ _ _ _ _ _ _ eq_refl _ E). intros t2 X Y. rewrite (ret_K _ _ _ Y), <- X.
        unfold da_timeout. destruct (t_da t2); reflexivity.
      * rewrite (ret_K _ _ _ E). unfold da_timeout. destruct (t_da t1); reflexivity.
    + destruct (t_dir t1), (t_uk t1); try discriminate; try exact (ret_K _ _ _ E).
      assert (X0 : forall t2, K (uk_timeout t2) = K t2) by (intros t2; unfold uk_timeout; destruct (t_uk t2); reflexivity).
      destruct (tst_eqb _ _).
      * refine (count_K _ _ _ _ _ _ _ _ eq_refl _ E). intros t2 X Y. rewrite (ret_K _ _ _ Y), X0. exact X.
      * rewrite (ret_K _ _ _ E). apply X0.
    + destruct (t_dir t1); [|discriminate].
      refine (count_K _ _ _ _ _ _ _ _ eq_refl _ E). intros t2 X Y. rewrite (lifemap_K _ _ _ _ _ _ Y). exact X.
  - left. destruct (t_dir t) eqn:D; [exact (ret_K _ _ _ E)|].
    destruct (outstanding P_UL_ACK t) as [|k] eqn:OS; [exact (ret_K _ _ _ E)|].
    destruct (n_reset N3103 t) as [t1|] eqn:N; [|discriminate].
    assert (X : K (less_polls P_UL_ACK t1) = K (less_polls P_UL_ACK t)).
    { unfold n_reset, right_dir in N. rewrite D in N. injection N as <-. reflexivity. }
    rewrite <- X. cbv zeta in E. destruct (tst_eqb _ _); [exact (lifemap_K _ _ _ _ _ _ E) | rewrite (ret_K _ _ _ E); reflexivity].
Qed.
