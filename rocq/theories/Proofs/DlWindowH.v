(** The downlink window as seen by the observer of [Spec.DlWindowSpec]. *)
From Coq Require Import ZArith List Bool Lia ZifyBool.
From Verif Require Import Base.Arith Model.RlcWindow Model.RlcWindowDl Model.TbfDlWindow
  Spec.SendWindow Proofs.DlWindowP.
From Verif Require Spec.DlWindowSpec.
Import ListNotations.
Local Open Scope Z_scope.

Lemma stalled_spec : forall w a, Rdl w a -> dl_stalled w = true <-> sS a - sA a = dw_ws w.
Proof.
  intros w a HR. unfold dl_stalled. rewrite dmod_spec by apply HR.
  rewrite (r_va _ _ HR), (r_vs _ _ HR). rewrite mod_sub_dist.
  - apply Z.eqb_eq.
  - apply sns_pos, HR.
  - pose proof (r_rng _ _ HR). pose proof (po_ws2 _ _ (r_par _ _ HR)).
    pose proof (po_ws _ _ (r_par _ _ HR)). lia.
Qed.

Lemma empty_spec : forall w a, Rdl w a -> dl_empty w = true <-> sS a = sA a.
Proof.
  intros w a HR. unfold dl_empty. rewrite (r_va _ _ HR), (r_vs _ _ HR). rewrite Z.eqb_eq.
  split; intro H.
  - apply mod_inj_range in H; auto. apply sns_pos, HR.
    pose proof (r_rng _ _ HR). pose proof (po_ws2 _ _ (r_par _ _ HR)).
    pose proof (po_ws _ _ (r_par _ _ HR)). lia.
  - now rewrite H.
Qed.

Definition snew (a : swin) : swin := mk_swin (sA a) (sS a + 1) (upd (sst a) (sS a) Unacked).

Lemma create_new_spec : forall w a, Rdl w a -> sS a - sA a < dw_ws w ->
  exists w', tbf_create_new_bsn w = (w', sS a mod dw_sns w) /\ Rdl w' (snew a) /\
             dw_sns w' = dw_sns w /\ dw_ws w' = dw_ws w.
Proof.
  intros w a HR Hr. unfold tbf_create_new_bsn. rewrite (r_vs _ _ HR).
  eexists. split; [reflexivity|]. splits; try reflexivity.
  pose proof HR as [Hp Hva Hvs Hrg Hst].
  constructor; simpl; auto.
  - rewrite land_mask_mod by apply Hp. rewrite Hvs. apply mod_add_l. apply sns_pos, Hp.
  - lia.
  - intros i Hi. unfold mod_sns_half. rewrite land_1023.
    fold (slot (dw_sns w) (sS a)).
    destruct (Z.eq_dec i (sS a)).
    + subst. now rewrite !upd_same.
    + rewrite !upd_diff; auto.
      * apply Hst. lia.
      * intro He. apply n. eapply slot_out_inj with (A := sA a); eauto; lia.
Qed.

(** [a1] is [a], possibly with its unacknowledged blocks marked for resend. *)
Definition marked (a a1 : swin) : Prop :=
  sA a1 = sA a /\ sS a1 = sS a /\
  ((forall j, sA a <= j < sS a -> sst a1 j = sst a j) \/
   (forall j, sA a <= j < sS a -> sst a1 j = mark1 (sst a j))).

Inductive take_out (ws sns : Z) (a : swin) (prev : Z) : swin -> Z -> Prop :=
| to_skip : forall a1, marked a a1 -> 0 <= prev -> take_out ws sns a prev a1 (-1)
| to_resend : forall a1 i, marked a a1 -> oldest_resend a1 i ->
    take_out ws sns a prev (sset a1 i Unacked) (i mod sns)
| to_new : sS a - sA a < ws -> none_to_resend a -> take_out ws sns a prev (snew a) (sS a mod sns)
| to_again : sS a = sA a -> take_out ws sns a prev a ((sS a - 1) mod sns).

Lemma marked_refl : forall a, marked a a.
Proof. intros a. unfold marked. splits; auto. Qed.

Lemma again_spec : forall w a, Rdl w a -> dmod w (dw_vs w - 1) = (sS a - 1) mod dw_sns w.
Proof.
  intros w a HR. rewrite dmod_spec by apply HR. rewrite (r_vs _ _ HR).
  apply mod_sub_l. apply sns_pos, HR.
Qed.

(** Outcome of the branch that found a block to resend. *)
Lemma take_found : forall f e prev w a i,
  Rdl w a -> oldest_resend a i ->
  exists w' a' n,
    tbf_take_next_bsn (S f) e prev w = Some (w', n) /\ Rdl w' a' /\
    dw_sns w' = dw_sns w /\ dw_ws w' = dw_ws w /\
    ((a' = a /\ n = -1 /\ 0 <= prev) \/
     (a' = sset a i Unacked /\ n = i mod dw_sns w)).
Proof.
  intros f e prev w a i HR Ho.
  pose proof (sns_pos _ (po_sns _ _ (r_par _ _ HR))) as Hpos.
  destruct (resend_needed_spec w a HR) as [[j [Hj Er]]|[Hn Er]].
  2:{ exfalso. destruct Ho as [H1 [H2 _]]. exact (Hn i H1 H2). }
  assert (j = i).
  { destruct Hj as [J1 [J2 J3]], Ho as [O1 [O2 O3]].
    destruct (Z.lt_trichotomy i j) as [H|[H|H]]; auto.
    - exfalso. apply (J3 i); auto; lia.
    - exfalso. apply (O3 j); auto; lia. }
  subst j. clear Hj.
  cbn [tbf_take_next_bsn]. rewrite Er.
  pose proof (Z.mod_pos_bound i (dw_sns w) Hpos) as Hb.
  replace (0 <=? i mod dw_sns w) with true by lia.
  assert (Hno : 0 <= prev ->
    exists w' a' n, Some (w, -1) = Some (w', n) /\ Rdl w' a' /\
      dw_sns w' = dw_sns w /\ dw_ws w' = dw_ws w /\
    ((a' = a /\ n = -1 /\ 0 <= prev) \/ (a' = sset a i Unacked /\ n = i mod dw_sns w))).
  { intros Hpv. exists w, a, (-1). splits; auto. }
  destruct ((0 <=? prev) && negb (te_prev_edge e)) eqn:E1; [apply Hno; lia|].
  destruct (prev =? i mod dw_sns w) eqn:E2; [apply Hno; lia|].
  destruct ((0 <=? prev) && (RLC_EGPRS_MAX_BSN_DELTA <? dmod w (i mod dw_sns w - prev))) eqn:E3;
    [apply Hno; lia|].
  destruct ((0 <=? prev) && (0 <? te_len e prev)
                && negb (te_len e prev =? te_len e (i mod dw_sns w))) eqn:E4; [apply Hno; lia|].
  eexists _, (sset a i Unacked), _. split; [reflexivity|].
  splits; try reflexivity.
  - change DlUnacked with (conc Unacked). apply R_mark; auto. apply Ho.
  - right. auto.
Qed.

Lemma restart_take : forall f e prev w a,
  Rdl w a -> none_to_resend a -> sst a (sA a) <> Acked -> sA a < sS a ->
  exists w1 a1, tbf_restart_bsn_cycle w = Some (w1, true) /\ Rdl w1 a1 /\ marked a a1 /\
    exists w' a' n,
      tbf_take_next_bsn (S f) e prev w1 = Some (w', n) /\ Rdl w' a' /\
      dw_sns w' = dw_sns w /\ dw_ws w' = dw_ws w /\
      take_out (dw_ws w) (dw_sns w) a prev a' n.
Proof.
  intros f e prev w a HR Hn Hedge Hlt. unfold tbf_restart_bsn_cycle.
  destruct (dl_empty w) eqn:Ee.
  { apply (empty_spec _ _ HR) in Ee. lia. }
  destruct (mark_for_resend_spec w a HR) as [w1 [a1 [E1 [E2 [E3 [E4 [E5 [E6 E7]]]]]]]].
  rewrite E1.
  assert (Hu : sst a (sA a) = Unacked).
  { pose proof (Hn (sA a) ltac:(lia)) as Hx. unfold needs_resend in Hx.
    destruct (sst a (sA a)); auto; tauto. }
  assert (Hc : 0 < count_unacked_from a (sA a) (Z.to_nat (sS a - sA a))).
  { apply count_pos with (j := sA a); auto. lia. }
  assert (Hm : marked a a1). { unfold marked. splits; auto. }
  exists w1, a1. splits; auto.
  { f_equal. f_equal. apply negb_true_iff. apply Z.eqb_neq. lia. }
  assert (Ho : oldest_resend a1 (sA a)).
  { split; [lia|]. split.
    - right. rewrite E7 by lia. now rewrite Hu.
    - intros j Hj. lia. }
  destruct (take_found f e prev w1 a1 (sA a) E2 Ho) as [w' [a' [n [T1 [T2 [T3 [T4 T5]]]]]]].
  exists w', a', n. splits; auto; try congruence.
  destruct T5 as [[P1 [P2 P3]]|[P1 P2]]; subst.
  - now constructor.
  - rewrite E6. now constructor.
Qed.

Lemma take_spec : forall e prev w a,
  Rdl w a -> edge_ok a ->
  exists w' a' n,
    tbf_take_next_bsn 3 e prev w = Some (w', n) /\ Rdl w' a' /\
    dw_sns w' = dw_sns w /\ dw_ws w' = dw_ws w /\
    take_out (dw_ws w) (dw_sns w) a prev a' n.
Proof.
  intros e prev w a HR Hedge.
  destruct (resend_needed_spec w a HR) as [[i [Hi Er]]|[Hn Er]].
  - destruct (take_found 2 e prev w a i HR Hi) as [w' [a' [n [T1 [T2 [T3 [T4 T5]]]]]]].
    exists w', a', n. splits; auto.
    destruct T5 as [[P1 [P2 P3]]|[P1 P2]]; subst.
    + constructor; auto. apply marked_refl.
    + constructor; auto. apply marked_refl.
  - remember 2%nat as f2 eqn:Hf2.
    cbn [tbf_take_next_bsn]. rewrite Er. replace (0 <=? -1) with false by reflexivity.
    destruct ((0 <=? prev) && negb (te_prev_edge e)) eqn:E1.
    { exists w, a, (-1). splits; auto. constructor; [apply marked_refl|]. lia. }
    assert (Hrestart : forall k : option (dl_window * Z),
      k = match tbf_restart_bsn_cycle w with
          | None => None
          | Some (w', go) =>
              if go then tbf_take_next_bsn f2 e prev w' else Some (w', dmod w' (dw_vs w' - 1))
          end ->
      exists w' a' n, k = Some (w', n) /\ Rdl w' a' /\
        dw_sns w' = dw_sns w /\ dw_ws w' = dw_ws w /\
        take_out (dw_ws w) (dw_sns w) a prev a' n).
    { intros k Hk. pose proof (r_rng _ _ HR) as Hrng.
      destruct (Z.eq_dec (sS a) (sA a)) as [He|He].
      - assert (Em : dl_empty w = true) by (apply (empty_spec _ _ HR); auto).
        unfold tbf_restart_bsn_cycle in Hk. rewrite Em in Hk.
        exists w, a, ((sS a - 1) mod dw_sns w). subst k. splits; auto.
        + f_equal. f_equal. now apply again_spec.
        + now constructor.
      - destruct (restart_take 1 e prev w a HR Hn (Hedge ltac:(lia)) ltac:(lia))
          as [w1 [a1 [R1 [R2 [R3 [w' [a' [n [T1 [T2 [T3 [T4 T5]]]]]]]]]]]].
        rewrite R1 in Hk. subst f2. exists w', a', n. subst k. splits; auto. }
    assert (Hnew : dl_stalled w = false ->
      exists w' a' n, Some (tbf_create_new_bsn w) = Some (w', n) /\ Rdl w' a' /\
        dw_sns w' = dw_sns w /\ dw_ws w' = dw_ws w /\
        take_out (dw_ws w) (dw_sns w) a prev a' n).
    { intros Es.
      assert (Hlt : sS a - sA a < dw_ws w).
      { pose proof (r_rng _ _ HR). destruct (Z.eq_dec (sS a - sA a) (dw_ws w)) as [H1|H1]; [|lia].
        apply (stalled_spec _ _ HR) in H1. congruence. }
      destruct (create_new_spec w a HR Hlt) as [w' [N1 [N2 [N3 N4]]]].
      exists w', (snew a), (sS a mod dw_sns w). rewrite N1. splits; auto. now constructor. }
    destruct (te_finished e); [now apply Hrestart|].
    destruct (dl_stalled w) eqn:Es; [now apply Hrestart|].
    destruct (te_have_data e); [now apply Hnew|].
    destruct (te_preemptive e && negb (dl_empty w)); [now apply Hrestart|now apply Hnew].
Qed.

(** What a step of the scheduler does to the statuses: [a'] extends [a], and a block
    whose status changed is either not acknowledged in both, or was just sent. *)
Definition keeps (a a' : swin) (sent : list Z) : Prop :=
  sA a' = sA a /\ sS a <= sS a' /\
  (forall j, sA a <= j < sS a' -> ~ In j sent ->
     (sst a' j = Acked <-> sst a j = Acked) /\ (sst a j = Nacked -> sst a' j = Nacked)) /\
  (forall j, sA a <= j < sS a' -> In j sent -> sst a' j <> Acked) /\
  (forall j, sS a <= j < sS a' -> In j sent).

Lemma mark1_acked : forall s, mark1 s = Acked <-> s = Acked.
Proof. intros []; simpl; split; congruence. Qed.

Lemma marked_keeps : forall a a1, marked a a1 -> keeps a a1 [].
Proof.
  intros a a1 [H1 [H2 H3]]. unfold keeps. splits; try lia; auto.
  - intros j Hj _. rewrite H2 in Hj. destruct H3 as [H3|H3]; rewrite H3 by lia.
    + tauto.
    + split; [apply mark1_acked|]. intros ->; reflexivity.
Qed.

Lemma keeps_edge : forall a a' sent, keeps a a' sent -> edge_ok a ->
  (sA a < sS a \/ sS a = sA a) -> edge_ok a'.
Proof.
  intros a a' sent [K1 [K2 [K3 [K4 K5]]]] He Hc Hlt.
  rewrite K1 in *.
  destruct (in_dec Z.eq_dec (sA a) sent) as [Hin|Hin].
  - apply K4; auto; lia.
  - intro Hack. destruct Hc as [Hc|Hc].
    + apply He; auto. apply (proj1 (K3 (sA a) ltac:(lia) Hin)); auto.
    + apply Hin. apply K5. lia.
Qed.

Lemma notin1 : forall i j : Z, ~ In j [i] -> j <> i.
Proof. intros i j H E. apply H. left. auto. Qed.

Lemma take_keeps : forall ws sns a prev a' n, take_out ws sns a prev a' n ->
  0 < sns -> sA a <= sS a ->
  (n = -1 /\ 0 <= prev /\ sS a' = sS a /\ keeps a a' []) \/
  (exists i, n = i mod sns /\ keeps a a' [i] /\ sA a <= i < sS a' /\ (sS a' = sS a \/ (i = sS a /\ sS a' = sS a + 1))) \/
  (sS a = sA a /\ n = (sS a - 1) mod sns /\ a' = a /\ keeps a a' [sS a - 1]).
Proof.
  intros ws sns a prev a' n H Hs Hle. destruct H.
  - left. splits; auto. apply H. now apply marked_keeps.
  - right. left. exists i. split; auto.
    pose proof (marked_keeps _ _ H) as [K1 [K2 [K3 [K4 K5]]]].
    destruct H as [M1 [M2 M3]]. destruct H0 as [O1 [O2 O3]].
    splits; try (simpl; lia).
    unfold keeps. simpl. splits; try lia; auto.
    + intros j Hj Hni. apply notin1 in Hni. rewrite upd_diff by auto. apply K3; auto.
    + intros j Hj [->|[]]. rewrite upd_same. congruence.
  - right. left. exists (sS a). splits; auto; try (simpl; lia).
    unfold keeps. simpl. splits; try lia.
    + intros j Hj Hni. apply notin1 in Hni.
      rewrite upd_diff by auto. tauto.
    + intros j Hj [<-|[]]. rewrite upd_same. congruence.
  - right. right. splits; auto. unfold keeps. splits; try lia.
    all: intros j Hj; try tauto; simpl; lia.
Qed.

Lemma keeps_trans : forall a b c s t, keeps a b s -> keeps b c t -> keeps a c (t ++ s).
Proof.
  intros a b c s t [A1 [A2 [A3 [A4 A5]]]] [B1 [B2 [B3 [B4 B5]]]].
  unfold keeps. splits; try lia.
  - intros j Hj Hni. rewrite in_app_iff in Hni.
    destruct (B3 j ltac:(lia) ltac:(tauto)) as [P1 P2].
    assert (j < sS b). { destruct (Z.lt_ge_cases j (sS b)); auto. exfalso. apply Hni. left. apply B5. lia. }
    destruct (A3 j ltac:(lia) ltac:(tauto)) as [Q1 Q2]. tauto.
  - intros j Hj Hin. rewrite in_app_iff in Hin.
    destruct (in_dec Z.eq_dec j t) as [Ht|Ht].
    + apply B4; auto; lia.
    + destruct Hin as [Hin|Hin]; [tauto|].
      assert (j < sS b). { destruct (Z.lt_ge_cases j (sS b)); auto. exfalso. apply Ht. apply B5. lia. }
      intro Hc. apply (proj1 (B3 j ltac:(lia) Ht)) in Hc. revert Hc. apply A4; auto; lia.
  - intros j Hj. rewrite in_app_iff. destruct (Z.lt_ge_cases j (sS b)).
    + right. apply A5. lia.
    + left. apply B5. lia.
Qed.

Lemma keeps_refl : forall a, keeps a a [].
Proof. intros a. apply marked_keeps, marked_refl. Qed.

(** Marking a sent block as the first half. *)
Lemma R_mark_any : forall w a i,
  Rdl w a -> sA a - 1 <= i < sS a -> (i = sA a - 1 -> sS a - sA a < 64) ->
  exists a', Rdl (tbf_first_seg_sent w (i mod dw_sns w)) a' /\ sS a' = sS a /\ keeps a a' [i].
Proof.
  intros w a i HR Hi Hsm.
  destruct (Z.eq_dec i (sA a - 1)) as [He|He].
  - exists a. pose proof HR as [Hp Hva Hvs Hr Hst]. specialize (Hsm He).
    splits; auto.
    + unfold tbf_first_seg_sent. rewrite vb_mark_mod by apply Hp.
      constructor; simpl; auto.
      intros j Hj. rewrite upd_diff; [now apply Hst|].
      intro Hs. assert (j = i); [|lia].
      apply slot_inj with (n := dw_sns w); auto. apply Hp.
      pose proof (sns_le _ (po_sns _ _ Hp)). lia.
    + unfold keeps. splits; try lia.
      * intros j Hj _. tauto.
      * intros j Hj [->|[]]. lia.
  - exists (sset a i Nacked). splits; auto.
    + exact (R_mark w a i Nacked HR ltac:(lia)).
    + unfold keeps. simpl. splits; try lia.
      * intros j Hj Hni. apply notin1 in Hni. rewrite upd_diff by auto. tauto.
      * intros j Hj [->|[]]. rewrite upd_same. congruence.
Qed.

(** The whole scheduler step. *)
(** Keeping is monotone in the list of sent blocks as long as the extra ones were
    sent as well; used to merge the marks of one block. *)
Lemma keeps_same_set : forall a a' s t, keeps a a' s -> (forall j, In j s <-> In j t) -> keeps a a' t.
Proof.
  intros a a' s t [K1 [K2 [K3 [K4 K5]]]] H. unfold keeps. splits; auto.
  - intros j Hj Hn. apply K3; auto. rewrite H. auto.
  - intros j Hj Hn. apply K4; auto. now apply H.
  - intros j Hj. apply H. auto.
Qed.

Lemma seg_keeps : forall (b : bool) w a0 a i s,
  Rdl w a -> keeps a0 a s -> In i s ->
  sA a - 1 <= i < sS a -> (i = sA a - 1 -> sS a - sA a < 64) ->
  exists a', Rdl (if b then tbf_first_seg_sent w (i mod dw_sns w) else w) a' /\
     sS a' = sS a /\ keeps a0 a' s /\
     dw_sns (if b then tbf_first_seg_sent w (i mod dw_sns w) else w) = dw_sns w /\
     dw_vs (if b then tbf_first_seg_sent w (i mod dw_sns w) else w) = dw_vs w /\
     dw_ws (if b then tbf_first_seg_sent w (i mod dw_sns w) else w) = dw_ws w.
Proof.
  intros b w a0 a i s HR HK Hin Hi Hs. destruct b.
  - destruct (R_mark_any w a i HR Hi Hs) as [a' [H1 [H2 H3]]].
    exists a'. splits; auto.
    apply keeps_same_set with (s := [i] ++ s).
    + eapply keeps_trans; eauto.
    + intros j. simpl. split; [intros [->|]; auto|auto].
  - exists a. splits; auto.
Qed.

Lemma mod_nonneg_ltb : forall i n, 0 < n -> (i mod n <? 0) = false.
Proof. intros. pose proof (Z.mod_pos_bound i n). lia. Qed.

Lemma block_spec : forall e1 e2 s1 s2 w a,
  Rdl w a -> edge_ok a ->
  exists w' a' sent,
    tbf_create_dl_acked_block e1 e2 s1 s2 w
      = Some (w', map (fun i => i mod dw_sns w) sent) /\
    Rdl w' a' /\ dw_sns w' = dw_sns w /\ dw_ws w' = dw_ws w /\
    keeps a a' (rev sent) /\ sS a' <= sS a + 2 /\
    (forall i, In i sent -> sA a - 1 <= i < sS a') /\
    edge_ok a'.
Proof.
  intros e1 e2 s1 s2 w a HR He.
  pose proof (r_rng _ _ HR) as Hrng.
  pose proof (sns_pos _ (po_sns _ _ (r_par _ _ HR))) as Hpos.
  pose proof (po_ws _ _ (r_par _ _ HR)) as Hws.
  pose proof (po_ws2 _ _ (r_par _ _ HR)) as Hws2.
  unfold tbf_create_dl_acked_block.
  destruct (take_spec e1 (-1) w a HR He) as [w1 [a1 [n1 [T1 [R1 [P1 [P2 O1]]]]]]].
  rewrite T1.
  pose proof (r_rng _ _ R1) as Hrng1.
  (* the first block is always found *)
  assert (H1 : exists i1, n1 = i1 mod dw_sns w /\ keeps a a1 [i1] /\ sA a - 1 <= i1 < sS a1 /\
                sS a1 <= sS a + 1 /\ (i1 = sA a - 1 -> sS a1 = sA a1)).
  { destruct (take_keeps _ _ _ _ _ _ O1 Hpos ltac:(lia)) as [[_ [Hc _]]|[[i [E1 [E2 [E3 E4]]]]|[E1 [E2 [E3 E4]]]]].
    - lia.
    - exists i. splits; auto; lia.
    - exists (sS a - 1). subst a1. splits; auto; lia. }
  destruct H1 as [i1 [N1 [K1 [B1 [S1 Em1]]]]]. subst n1.
  pose proof (proj1 K1) as HA1.
  rewrite mod_nonneg_ltb by auto.
  assert (He1 : edge_ok a1). { eapply keeps_edge; eauto. lia. }
  destruct e2 as [e2|].
  - destruct (take_spec e2 (i1 mod dw_sns w) w1 a1 R1 He1) as [w2 [a2 [n2 [T2 [R2 [Q1 [Q2 O2]]]]]]].
    rewrite T2. rewrite P1 in O2.
    pose proof (r_rng _ _ R2) as Hrng2.
    destruct (take_keeps _ _ _ _ _ _ O2 Hpos ltac:(lia)) as [[En [_ [ES K2]]]|H2].
    + subst n2. replace (-1 <? 0) with true by reflexivity.
      pose proof (keeps_trans _ _ _ _ _ K1 K2) as K12. simpl app in K12.
      pose proof (proj1 K2) as HA2.
      destruct (seg_keeps s1 w2 a a2 i1 [i1] R2 K12 ltac:(left; auto) ltac:(lia) ltac:(intros; lia))
        as [a3 [G1 [G2 [G3 [G4 [G5 G6]]]]]].
      rewrite Q1, P1 in G1, G4, G5, G6.
      eexists _, a3, [i1]. split; [reflexivity|]. splits; auto; try congruence; try lia.
      * intros i [<-|[]]. rewrite G2. lia.
      * eapply keeps_edge; eauto. lia.
    + assert (H3 : exists i2, n2 = i2 mod dw_sns w /\ keeps a1 a2 [i2] /\ sA a - 1 <= i2 < sS a2 /\
                sS a2 <= sS a1 + 1 /\ (i2 = sA a - 1 -> sS a2 = sA a2)).
      { destruct H2 as [[i [E1 [E2 [E3 E4]]]]|[E1 [E2 [E3 E4]]]].
        - exists i. splits; auto; lia.
        - exists (sS a1 - 1). subst a2. splits; auto; try lia. }
      clear H2. destruct H3 as [i2 [N2 [K2 [B2 [S2 Em2]]]]]. subst n2.
      rewrite mod_nonneg_ltb by auto.
      pose proof (keeps_trans _ _ _ _ _ K1 K2) as K12. simpl app in K12.
      pose proof (proj1 K2) as HA2. pose proof (proj1 (proj2 K2)) as HS2.
      destruct (seg_keeps s1 w2 a a2 i1 [i2; i1] R2 K12 ltac:(right; left; auto) ltac:(lia) ltac:(intros; lia))
        as [a3 [G1 [G2 [G3 [G4 [G5 G6]]]]]].
      rewrite Q1, P1 in G1, G4, G5, G6.
      pose proof (proj1 G3) as HA3.
      set (w3 := if s1 then tbf_first_seg_sent w2 (i1 mod dw_sns w) else w2) in *.
      destruct (seg_keeps s2 w3 a a3 i2 [i2; i1] G1 G3 ltac:(left; auto) ltac:(lia) ltac:(intros; lia))
        as [a4 [F1 [F2 [F3 [F4 [F5 F6]]]]]].
      rewrite G4 in F1, F4, F5, F6.
      eexists _, a4, [i1; i2]. split; [reflexivity|]. splits; auto; try congruence; try lia.
      * intros i [<-|[<-|[]]]; lia.
      * eapply keeps_edge; eauto. lia.
  - destruct (seg_keeps s1 w1 a a1 i1 [i1] R1 K1 ltac:(left; auto) ltac:(lia) ltac:(intros; lia))
        as [a3 [G1 [G2 [G3 [G4 [G5 G6]]]]]].
    rewrite P1 in G1, G4, G5, G6.
    eexists _, a3, [i1]. split; [reflexivity|]. splits; auto; try congruence; try lia.
    + intros i [<-|[]]. lia.
    + eapply keeps_edge; eauto. lia.
Qed.
