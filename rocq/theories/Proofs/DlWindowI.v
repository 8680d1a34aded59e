(** Invariant of the observed downlink window, and the lemmas behind C01-C04. *)
From Coq Require Import ZArith List Bool Lia ZifyBool.
From Verif Require Import Base.Arith Model.RlcWindow Model.RlcWindowDl Model.TbfDlWindow
  Spec.SendWindow Proofs.DlWindowP Proofs.DlWindowH.
From Verif Require Import Spec.DlWindowSpec.
Import ListNotations.
Local Open Scope Z_scope.

Definition log_ok (a : swin) (log : list ev) : Prop :=
  forall i, sA a <= i < sS a ->
    (sst a i = Acked <-> last_about i log = Some (AckRep i)) /\
    (last_about i log = Some (NackRep i) -> sst a i = Nacked).

Definition Inv (sns : Z) (o : obs) (st : Z -> status) : Prop :=
  let a := mk_swin (o_A o) (o_S o) st in
  dw_sns (o_w o) = sns /\ Rdl (o_w o) a /\ edge_ok a /\ log_ok a (o_log o).

Lemma unwrap_mod : forall sns top i, 0 < sns -> top - sns <= i < top ->
  unwrap sns top (i mod sns) = i.
Proof.
  intros sns top i Hs Hi. unfold unwrap.
  rewrite mod_sub_r by auto. rewrite Z.mod_small by lia. lia.
Qed.

Lemma find_sent : forall l i log,
  last_about i (map Sent l ++ log)
  = if existsb (fun j => j =? i) l then Some (Sent i) else last_about i log.
Proof.
  induction l as [|j l IH]; intros i log; simpl; auto.
  unfold last_about in *. simpl. destruct (Z.eqb_spec j i).
  - subst. reflexivity.
  - simpl. apply IH.
Qed.

Lemma existsb_In : forall l i, existsb (fun j => j =? i) l = true <-> In i l.
Proof.
  intros l i. rewrite existsb_exists. split.
  - intros [x [H1 H2]]. apply Z.eqb_eq in H2. now subst.
  - intros H. exists i. split; auto. apply Z.eqb_refl.
Qed.

Lemma find_report : forall A bits m i log,
  last_about i (map (fun k => let i := A + Z.of_nat k in
                if nth k bits false then AckRep i else NackRep i) (rev (seq 0 m)) ++ log)
  = if (A <=? i) && (i <? A + Z.of_nat m) then
      Some (if nth (Z.to_nat (i - A)) bits false then AckRep i else NackRep i)
    else last_about i log.
Proof.
  intros A bits m i log. induction m as [|m IH].
  - simpl. destruct ((A <=? i) && (i <? A + 0)) eqn:E; auto. lia.
  - rewrite seq_S, rev_app_distr, Nat.add_0_l. simpl rev. cbn [map app].
    unfold last_about in *. cbn [find]. cbv zeta.
    assert (Ha : about (if nth m bits false then AckRep (A + Z.of_nat m)
                else NackRep (A + Z.of_nat m)) = A + Z.of_nat m).
    { destruct (nth m bits false); reflexivity. }
    rewrite Ha. cbv zeta in IH. rewrite IH.
    destruct (Z.eqb_spec (A + Z.of_nat m) i) as [He|He].
    + destruct ((A <=? i) && (i <? A + Z.of_nat (S m))) eqn:E; [|lia].
      subst i. replace (Z.to_nat (A + Z.of_nat m - A)) with m by lia. reflexivity.
    + replace ((A <=? i) && (i <? A + Z.of_nat (S m))) with ((A <=? i) && (i <? A + Z.of_nat m)) by lia.
      reflexivity.
Qed.

Lemma keeps_log : forall a a' sent log, keeps a a' sent -> log_ok a log ->
  log_ok a' (map Sent sent ++ log).
Proof.
  intros a a' sent log [K1 [K2 [K3 [K4 K5]]]] HL i Hi. rewrite K1 in Hi.
  rewrite find_sent.
  destruct (existsb (fun j => j =? i) sent) eqn:E.
  - apply existsb_In in E. split; [|congruence]. split; [|congruence].
    intro Hc. exfalso. revert Hc. apply K4; auto.
  - assert (Hn : ~ In i sent).
    { intro Hc. apply existsb_In in Hc. congruence. }
    assert (i < sS a). { destruct (Z.lt_ge_cases i (sS a)); auto. exfalso. apply Hn, K5. lia. }
    destruct (K3 i Hi Hn) as [P1 P2]. destruct (HL i ltac:(lia)) as [Q1 Q2]. tauto.
Qed.

Lemma Rdl_eta : forall w a, Rdl w a -> Rdl w (mk_swin (sA a) (sS a) (sst a)).
Proof. intros w [A S st] H. exact H. Qed.

(** Effect of an acknowledgement report. *)
Lemma report_spec : forall w a bits, Rdl w a ->
  exists w' b lost recv,
    tbf_rcvd_dl_ack false (dw_va w) bits w = Some (w', lost, recv) /\
    lost = count_lost (used_bits a bits) /\
    recv = count_new_acks a (sA a) (used_bits a bits) /\
    sA a <= b <= sS a /\
    (forall j, sA a <= j < b -> after_report a bits j = Acked) /\
    (b < sS a -> after_report a bits b <> Acked) /\
    Rdl w' (mk_swin b (sS a) (after_report a bits)) /\
    dw_ws w' = dw_ws w /\ dw_sns w' = dw_sns w.
Proof.
  intros w a bits HR. pose proof (r_rng _ _ HR) as Hr.
  destruct (update_spec w a bits HR) as [w1 [U1 [U2 [U3 U4]]]].
  unfold tbf_rcvd_dl_ack. rewrite U1.
  set (a1 := apply_bits a (sA a) (used_bits a bits)) in *.
  destruct (apply_bits_edges (used_bits a bits) a (sA a)) as [HA HS].
  fold a1 in HA, HS.
  destruct (move_raise_spec w1 a1 U2) as [w2 [moved [b [M1 [M2 [M3 [M4 [M5 [M6 [M7 M8]]]]]]]]]].
  rewrite M1.
  assert (Hst : forall i, sA a <= i < sS a -> sst a1 i = after_report a bits i).
  { intros i Hi. apply apply_used_after; auto. lia. }
  eexists _, b, _, _. split; [reflexivity|]. splits; auto; try lia; try (simpl; congruence).
  - intros j Hj. rewrite <- Hst by lia. apply M4. lia.
  - intros Hb. rewrite <- Hst by lia. apply M5. lia.
  - destruct M6 as [X1 X2 X3 X4 X5]. simpl in X2, X3, X4, X5.
    constructor; simpl; auto.
    + rewrite X3. now rewrite HS.
    + rewrite <- HS. auto.
    + intros i Hi. rewrite X5 by lia. rewrite Hst by lia. reflexivity.
Qed.

Lemma init_Inv : forall sns ws, dl_params sns ws ->
  Inv sns (obs_init sns ws) (fun _ => Unacked).
Proof.
  intros sns ws [H1 [H2 H3]]. unfold Inv. simpl.
  pose proof (sns_pos _ H1).
  splits; auto.
  - constructor; simpl; try reflexivity; try lia.
    constructor; auto.
  - intro Hc. simpl in Hc. lia.
  - intros i Hi. simpl in Hi. lia.
Qed.

Lemma nth_nth_error : forall (l : list bool) k b, nth_error l k = Some b -> nth k l false = b.
Proof. intros l k b H. now apply nth_error_nth. Qed.

Lemma step_Inv : forall sns op o st, Inv sns o st -> ws_grows op (o_w o) ->
  (match op with DSetWs ws => ws <= 1024 | _ => True end) ->
  exists o' st', obs_step op o = Some o' /\ Inv sns o' st'.
Proof.
  intros sns op o st [Hs [HR [He HL]]] Hg Hg2.
  set (a := mk_swin (o_A o) (o_S o) st) in *.
  pose proof (r_rng _ _ HR) as Hrng. simpl in Hrng.
  pose proof (sns_pos _ (po_sns _ _ (r_par _ _ HR))) as Hpos.
  pose proof (po_ws _ _ (r_par _ _ HR)) as Hws.
  pose proof (po_ws2 _ _ (r_par _ _ HR)) as Hws2.
  pose proof (sns_le _ (po_sns _ _ (r_par _ _ HR))) as Hle.
  destruct op as [e1 e2 s1 s2 | final bits | ws'].
  - destruct (block_spec e1 e2 s1 s2 (o_w o) a HR He)
      as [w' [a' [sent [B1 [B2 [B3 [B4 [B5 [B6 [B7 B8]]]]]]]]]].
    simpl obs_step. rewrite B1.
    assert (HS : o_S o + (dw_vs w' - dw_vs (o_w o)) mod dw_sns (o_w o) = sS a').
    { rewrite (r_vs _ _ B2), (r_vs _ _ HR), B3. simpl.
      pose proof (proj1 (proj2 B5)) as Hx. simpl in Hx, B6.
      rewrite mod_sub_dist by lia. lia. }
    rewrite HS.
    eexists _, (sst a'). split; [reflexivity|]. unfold Inv. simpl.
    pose proof (proj1 B5) as HA. simpl in HA. rewrite <- HA.
    splits; try congruence.
    + now apply Rdl_eta.
    + exact B8.
    + assert (Hm : map (fun bsn => Sent (unwrap (dw_sns (o_w o)) (sS a') bsn))
                  (rev (map (fun i => i mod dw_sns (o_w o)) sent)) = map Sent (rev sent)).
      { rewrite <- map_rev, map_map. apply map_ext_in. intros i Hi.
        apply in_rev in Hi. specialize (B7 i Hi). simpl in B7.
        pose proof (r_rng _ _ B2) as Hr2. rewrite B4 in Hr2.
        rewrite unwrap_mod; auto. lia. }
      rewrite Hm. apply (keeps_log a a'); auto.
  - destruct (report_spec (o_w o) a bits HR)
      as [w' [b [lost [recv [T1 [T2 [T3 [T4 [T5 [T6 [T7 [T8 T9]]]]]]]]]]]].
    simpl obs_step. destruct final.
    + unfold tbf_rcvd_dl_ack in *.
      destruct (dl_update (o_w o) (dw_va (o_w o)) bits) as [[w1 l1] r1].
      destruct (dl_move_window w1) as [[w2 m]|]; [|discriminate].
      inversion T1; subst w'. clear T1.
      eexists _, (fun _ => Unacked). split; [reflexivity|].
      simpl in T8, T9.
      unfold Inv. simpl. splits; try congruence.
      * constructor; simpl; try reflexivity; try lia.
        -- simpl in T8, T9. rewrite T8, T9. apply HR.
      * intro Hc. simpl in Hc. lia.
      * intros i Hi. simpl in Hi. lia.
    + rewrite T1.
      assert (HA : o_A o + (dw_va w' - dw_va (o_w o)) mod dw_sns (o_w o) = b).
      { rewrite (r_va _ _ T7), (r_va _ _ HR), T9. simpl. simpl in T4.
        rewrite mod_sub_dist by lia. lia. }
      rewrite HA.
      eexists _, (after_report a bits). split; [reflexivity|]. unfold Inv. simpl.
      splits; try congruence; auto.
      intros i Hi. simpl in Hi, T4. simpl sst.
      unfold report_events. rewrite find_report.
      unfold after_report. simpl sA.
      destruct (nth_error bits (Z.to_nat (i - o_A o))) as [c|] eqn:En.
      * pose proof (nth_nth_error _ _ _ En) as Hn. rewrite Hn.
        assert (Hlt : (Z.to_nat (i - o_A o) < length bits)%nat).
        { apply nth_error_Some. congruence. }
        destruct ((o_A o <=? i) &&
           (i <? o_A o + Z.of_nat (Z.to_nat (Z.min (o_S o - o_A o) (Z.of_nat (length bits)))))) eqn:E;
          [|lia].
        destruct c; split; try congruence; split; congruence.
      * apply nth_error_None in En.
        destruct ((o_A o <=? i) &&
           (i <? o_A o + Z.of_nat (Z.to_nat (Z.min (o_S o - o_A o) (Z.of_nat (length bits)))))) eqn:E;
          [lia|].
        apply HL. simpl. lia.
  - simpl obs_step. unfold dl_set_ws. cbn [ws_grows] in Hg.
    replace (set_ws_check ws') with true.
    2:{ unfold set_ws_check, RLC_GPRS_SNS, RLC_MAX_SNS. symmetry.
        change (128 / 2) with 64. change (2048 / 2) with 1024. lia. }
    eexists _, st. split; [reflexivity|]. unfold Inv. simpl.
    splits; auto.
    destruct HR as [X1 X2 X3 X4 X5].
    constructor; cbn [dw_sns dw_ws dw_va dw_vs dw_vb]; auto.
    + destruct X1. constructor; auto; lia.
    + cbn [sA sS a] in *. lia.
Qed.

Lemma reach_Inv : forall sns ws o, dl_reach sns ws o -> exists st, Inv sns o st.
Proof.
  intros sns ws o H. induction H as [Hp | o op o' H IH Hg Hstep].
  - eexists. now apply init_Inv.
  - destruct IH as [st HI].
    destruct (step_Inv sns op o st HI Hg) as [o2 [st2 [E HI2]]].
    + destruct op; auto. destruct HI as [Hs [HR _]]. cbn [ws_grows] in Hg.
      pose proof (sns_le _ (po_sns _ _ (r_par _ _ HR))). lia.
    + rewrite Hstep in E. inversion E; subst. eauto.
Qed.

Lemma step_total : forall sns ws o op, dl_reach sns ws o -> ws_grows op (o_w o) ->
  exists o', obs_step op o = Some o'.
Proof.
  intros sns ws o op H Hg. destruct (reach_Inv _ _ _ H) as [st HI].
  destruct (step_Inv sns op o st HI Hg) as [o2 [st2 [E HI2]]]; eauto.
  destruct op; auto. destruct HI as [Hs [HR _]]. cbn [ws_grows] in Hg.
  pose proof (sns_le _ (po_sns _ _ (r_par _ _ HR))). lia.
Qed.
