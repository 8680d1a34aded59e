(** The two blocks of one radio block: the second is less than half the number space after the first. *)
From Coq Require Import ZArith List Bool Lia ZifyBool.
From Verif Require Import Base.Arith Model.RlcWindow Model.RlcWindowDl Model.TbfDlWindow
  Spec.SendWindow Spec.DlWindowSpec Proofs.DlWindowP Proofs.DlWindowH Proofs.DlWindowI.
Import ListNotations.
Local Open Scope Z_scope.

Lemma mark_loop_keeps : forall f w b c w' n, mark_resend_loop f w b c = Some (w', n) -> dw_vs w' = dw_vs w /\ dw_sns w' = dw_sns w.
Proof.
  induction f as [|f IH]; intros w b c w' n; cbn [mark_resend_loop]; destruct (b =? dw_vs w).
  - intros E. injection E as <- <-. auto.
  - discriminate.
  - intros E. injection E as <- <-. auto.
  - destruct (vb_is w b DlUnacked); intros E; apply IH in E; auto.
Qed.

Lemma take_delta : forall f e prev w w' n, tbf_take_next_bsn f e prev w = Some (w', n) -> 0 <= prev ->
  n = -1 \/ dmod w (n - prev) <= 512 \/ n = dw_vs w \/ n = dmod w (dw_vs w - 1).
Proof.
  induction f as [|f IH]; intros e prev w w' n; [discriminate|]. cbn [tbf_take_next_bsn].
  destruct (dl_resend_needed w) as [b|]; [|discriminate]. intros E P.
  replace (0 <=? prev) with true in E by lia. cbn [andb] in E.
  assert (N : forall k, k = Some (tbf_create_new_bsn w) -> k = Some (w', n) -> n = dw_vs w)
    by (intros k -> H; unfold tbf_create_new_bsn in H; now injection H).
  assert (RS : match tbf_restart_bsn_cycle w with
               | None => None
               | Some (w0, go) => if go then tbf_take_next_bsn f e prev w0 else Some (w0, dmod w0 (dw_vs w0 - 1))
               end = Some (w', n) -> n = -1 \/ dmod w (n - prev) <= 512 \/ n = dw_vs w \/ n = dmod w (dw_vs w - 1)).
  { intros H. destruct (tbf_restart_bsn_cycle w) as [[w0 go]|] eqn:T; [|discriminate].
    assert (Q : dw_vs w0 = dw_vs w /\ dw_sns w0 = dw_sns w).
    { unfold tbf_restart_bsn_cycle in T. destruct (dl_empty w); [now injection T as <- <-|].
      destruct (dl_mark_for_resend w) as [[w1 k]|] eqn:M; [|discriminate]. injection T as <- <-. eapply mark_loop_keeps, M. }
    destruct Q as [Q1 Q2]. assert (D : forall x, dmod w0 x = dmod w x) by (intros; unfold dmod; now rewrite Q2).
    destruct go.
    - apply IH in H; [|exact P]. rewrite !D, Q1 in H. exact H.
    - injection H as <- <-. rewrite D, Q1. auto. }
  destruct (negb (te_prev_edge e)); [injection E as <- <-; auto|].
  destruct (0 <=? b) eqn:B.
  - destruct (prev =? b); [injection E as <- <-; auto|].
    destruct (RLC_EGPRS_MAX_BSN_DELTA <? dmod w (b - prev)) eqn:L; [injection E as <- <-; auto|].
    destruct ((0 <? te_len e prev) && negb (te_len e prev =? te_len e b)); [injection E as <- <-; auto|].
    injection E as <- <-. unfold RLC_EGPRS_MAX_BSN_DELTA in L. right. left. lia.
  - destruct (te_finished e); [auto|]. destruct (dl_stalled w); [auto|].
    destruct (te_have_data e); [right; right; left; exact (N _ eq_refl E)|].
    destruct (te_preemptive e && negb (dl_empty w)); [auto|right; right; left; exact (N _ eq_refl E)].
Qed.

Theorem bsn_delta : forall sns ws o e1 e2 s1 s2 w' b1 b2, sns = 2048 ->
  dl_reach sns ws o -> tbf_create_dl_acked_block e1 e2 s1 s2 (o_w o) = Some (w', [b1; b2]) ->
  0 <= b1 < sns /\ 0 <= b2 < sns /\ (b2 - b1) mod sns < 1024.
Proof.
  intros sns ws o e1 e2 s1 s2 w' b1 b2 S8 RE E.
  destruct (reach_Inv _ _ _ RE) as [st [HS [HR [HE _]]]]. set (w := o_w o) in *. set (a := mk_swin (o_A o) (o_S o) st) in *.
  pose proof (r_rng _ _ HR) as Hrng. pose proof (po_ws2 _ _ (r_par _ _ HR)) as W2.
  assert (Hpos : 0 < dw_sns w) by lia.
  unfold tbf_create_dl_acked_block in E.
  destruct (take_spec e1 (-1) w a HR HE) as [w1 [a1 [n1 [T1 [R1 [P1 [P2 O1]]]]]]]. rewrite T1 in E.
  pose proof (r_rng _ _ R1) as Hrng1.
  assert (H1 : exists i1, n1 = i1 mod dw_sns w /\ keeps a a1 [i1] /\ sA a - 1 <= i1 < sS a1 /\ (i1 = sA a - 1 -> sS a1 = sA a1)).
  { destruct (take_keeps _ _ _ _ _ _ O1 Hpos ltac:(lia)) as [[_ [Hc _]]|[[i [E1 [E2 [E3 E4]]]]|[E1 [E2 [E3 E4]]]]].
    - lia.
    - exists i. splits; auto; lia.
    - exists (sS a - 1). subst a1. splits; auto; lia. }
  destruct H1 as [i1 [N1 [K1 [B1 Em1]]]]. subst n1. pose proof (proj1 K1) as HA1.
  rewrite mod_nonneg_ltb in E by auto.
  destruct e2 as [e2|]; [|discriminate].
  assert (He1 : edge_ok a1) by (eapply keeps_edge; eauto; lia).
  destruct (take_spec e2 (i1 mod dw_sns w) w1 a1 R1 He1) as [w2 [a2 [n2 [T2 [R2 [Q1 [Q2 O2]]]]]]]. rewrite T2 in E.
  destruct (n2 <? 0) eqn:NN; [discriminate|]. injection E as _ <- <-.
  rewrite P1, HS in *. rewrite P2 in *. rewrite S8 in *.
  pose proof (Z.mod_pos_bound i1 2048 eq_refl) as M1.
  assert (D : exists i2, n2 = i2 mod 2048 /\ ((i2 - i1) mod 2048 <= 512 \/ 0 <= i2 - i1 < 1024)).
  { inversion O2; subst.
    - lia.
    - exists i. split; [reflexivity|]. destruct H0 as [[G1 G2] _]. destruct H as [M3 [M4 _]].
      destruct (take_delta _ _ _ _ _ _ T2 (proj1 M1)) as [X|[X|[X|X]]].
      + lia.
      + left. rewrite dmod_spec in X by apply R1. rewrite P1 in X. rewrite <- Zminus_mod in X. exact X.
      + exfalso. rewrite (r_vs _ _ R1), P1 in X. apply mod_inj_range in X; lia.
      + rewrite (again_spec _ _ R1), P1 in X. apply mod_inj_range in X; [|lia|lia]. right. lia.
    - exists (sS a1). split; [reflexivity|]. right. destruct (Z.eq_dec i1 (sA a - 1)) as [Y|Y]; [specialize (Em1 Y)|]; lia.
    - exists (sS a2 - 1). split; [reflexivity|]. right. lia. }
  destruct D as [i2 [-> D]]. pose proof (Z.mod_pos_bound i2 2048 eq_refl).
  splits; try lia. rewrite <- Zminus_mod. destruct D as [D|D]; [lia|]. rewrite Z.mod_small by lia. lia.
Qed.
