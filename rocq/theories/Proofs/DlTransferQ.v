(** The PCU's side: the stored blocks are those made, in order, and the window numbers them. *)
From Coq Require Import ZArith List Bool Lia ZifyBool.
From Verif Require Import Base.Arith Model.CodingScheme Model.RlcCps Model.RlcWindow Model.RlcWindowDl Model.TbfDlWindow Model.Segment Model.DlTransfer
  Spec.SendWindow Proofs.DlWindowP Proofs.DlWindowH Proofs.DlWindowI Proofs.DlWindowProps Spec.SegSpec Proofs.SegP Proofs.SegQ Proofs.DlTransferP.
From Verif Require Import Spec.DlWindowSpec Spec.DlLoopSpec Spec.DlTransferSpec.
Import ListNotations.
Local Open Scope Z_scope.

(** ** Segmentation *)
Record SInv (edge : bool) (s : sender) (fin : bool) (blocks : list sent_block) (xin : list (list Z)) : Prop := {
  si_all : all_of s = xin;
  si_dmy : dmy s;
  si_ne : Forall (fun f => f <> []) (s_queue s);
  si_open : fin = false -> Forall (fun b => sb_fbi b = false) blocks;
  si_fin : fin = true -> l_frame (s_llc s) = [] /\ exists l b, blocks = l ++ [b] /\ sb_fbi b = true /\ Forall (fun b => sb_fbi b = false) l;
  si_rx : exists R lost, rx_run edge blocks ([], []) = Some R /\ fst R ++ lost = map fst (s_done s) /\
    (lost = [] /\ agree edge s R \/ edge = false /\ fin = true /\ exists x, lost = [x]) }.

Lemma sinv_new edge : SInv edge (mk_snd no_llc false [] []) false [] [].
Proof.
  constructor; try discriminate; try constructor; try constructor; try discriminate.
  exists ([], []), []. split; [reflexivity|]. split; [reflexivity|]. left. split; [reflexivity|]. apply agree_fresh.
Qed.
Lemma sinv_queue edge s fin blocks xin f : f <> [] -> SInv edge s fin blocks xin ->
  SInv edge (mk_snd (s_llc s) (s_dummy s) (s_queue s ++ [f]) (s_done s)) fin blocks (xin ++ [f]).
Proof.
  intros NE [A B C D E (R & lost & F1 & F2 & F3)]. constructor; cbn [s_llc s_queue s_done]; try assumption.
  - unfold all_of, under_way. cbn [s_llc s_queue s_done s_dummy]. rewrite <- A. unfold all_of, under_way. now rewrite !app_assoc.
  - apply Forall_app. split; [exact C|]. constructor; [exact NE|constructor].
  - exists R, lost. split; [exact F1|]. split; [exact F2|]. destruct F3 as [[F3 F4]|F3]; [left|right; exact F3]. split; [exact F3|].
    apply (agree_new edge s R [f] F4). constructor; [exact NE|constructor].
Qed.
Lemma len_suits edge k : suits edge k -> len_ok edge (Z.to_nat (mcs_max_data_block_bytes (k_cs k))).
Proof.
  unfold suits, len_ok. destruct edge; intros H; destruct (k_cs k); try discriminate H;
  match goal with |- context [Z.to_nat ?x] => let v := eval vm_compute in (Z.to_nat x) in change (Z.to_nat x) with v end; lia.
Qed.
Lemma sinv_create edge s blocks xin k : SInv edge s false blocks xin -> suits edge k ->
  exists sb s', create_block edge (Z.to_nat (mcs_max_data_block_bytes (k_cs k))) (is_final (k_keep k) s) s = Some (sb, s') /\
    SInv edge s' (sb_fbi sb) (blocks ++ [sb]) xin.
Proof.
  intros [A B C D E (R & lost & F1 & F2 & F3)] SU.
  destruct F3 as [[-> F3]|(_ & X & _)]; [|discriminate].
  destruct (create_ok edge _ (is_final (k_keep k) s) s R (len_suits _ _ SU) F3) as (sb & s' & C1 & C2 & C3).
  exists sb, s'. split; [exact C1|].
  assert (FB : sb_fbi sb = true -> l_frame (s_llc s') = [] /\ s_queue s' = []) by (apply (create_fbi _ _ _ _ _ _ C1)).
  constructor.
  - congruence.
  - eapply create_dmy; eassumption.
  - destruct C3 as [(R' & _ & AG)|(_ & _ & _ & R' & x & d0 & _ & _ & _ & _ & R2 & AG)]; apply AG.
  - intros X. apply Forall_app. split; [apply D; reflexivity|]. constructor; [exact X|constructor].
  - intros X. split; [apply FB, X|]. exists blocks, sb. split; [reflexivity|]. split; [exact X|apply D; reflexivity].
  - rewrite rx_app, F1. cbn [rx_run]. destruct C3 as [(R' & E1 & AG)|(EE & _ & FT & R' & x & d0 & E1 & E2 & E3 & E4 & R2 & AG)].
    + exists R', []. rewrite E1. split; [reflexivity|]. rewrite app_nil_r. split; [apply AG|]. left. split; [reflexivity|exact AG].
    + subst edge. exists R', [fst x]. rewrite E1. split; [reflexivity|]. split; [rewrite E2, E3, map_app; reflexivity|]. right.
      split; [reflexivity|]. split; [exact FT|]. eexists. reflexivity.
Qed.

(** ** The window *)
Lemma mark_loop_vs fuel : forall w b c w' n, mark_resend_loop fuel w b c = Some (w', n) -> dw_vs w' = dw_vs w.
Proof.
  induction fuel as [|f IH]; intros w b c w' n E; cbn [mark_resend_loop] in E; (destruct (b =? dw_vs w); [injection E as <- <-; reflexivity|]); [discriminate|].
  destruct (vb_is w b DlUnacked); apply IH in E; exact E.
Qed.
Lemma restart_vs w w' go : tbf_restart_bsn_cycle w = Some (w', go) -> dw_vs w' = dw_vs w.
Proof.
  unfold tbf_restart_bsn_cycle. destruct (dl_empty w); [intros E; injection E as <- <-; reflexivity|].
  destruct (dl_mark_for_resend w) as [[w1 n]|] eqn:E; [|discriminate]. intros X. injection X as <- <-. eapply mark_loop_vs. exact E.
Qed.
Lemma finished_vs e : te_finished e = true -> forall fuel prev w w' b, tbf_take_next_bsn fuel e prev w = Some (w', b) -> dw_vs w' = dw_vs w.
Proof.
  intros F. induction fuel as [|f IH]; intros prev w w' b E; [discriminate|]. cbn [tbf_take_next_bsn] in E.
  destruct (dl_resend_needed w) as [n|]; [|discriminate].
  destruct ((0 <=? prev) && negb (te_prev_edge e)); [injection E as <- <-; reflexivity|].
  destruct (0 <=? n).
  - destruct (prev =? n); [injection E as <- <-; reflexivity|].
    destruct ((0 <=? prev) && (RLC_EGPRS_MAX_BSN_DELTA <? dmod w (n - prev))); [injection E as <- <-; reflexivity|].
    destruct ((0 <=? prev) && (0 <? te_len e prev) && negb (te_len e prev =? te_len e n)); injection E as <- <-; reflexivity.
  - rewrite F in E. destruct (tbf_restart_bsn_cycle w) as [[w1 go]|] eqn:R; [|discriminate]. apply restart_vs in R.
    destruct go; [apply IH in E; congruence|injection E as <- <-; exact R].
Qed.
Lemma empty_take e prev w a w' b : Rdl w a -> sS a = sA a -> te_finished e = false -> tbf_take_next_bsn 3 e prev w = Some (w', b) ->
  (w' = w /\ b = -1 /\ 0 <= prev) \/ (w', b) = tbf_create_new_bsn w.
Proof.
  intros R SA F E. remember 2%nat as f2. cbn [tbf_take_next_bsn] in E.
  destruct (resend_needed_spec w a R) as [(j & (J & _) & _)|[_ X]]; [lia|]. rewrite X in E.
  destruct ((0 <=? prev) && negb (te_prev_edge e)) eqn:P; [left; injection E as <- <-; repeat split; lia|].
  change (0 <=? -1) with false in E. cbn iota in E. rewrite F in E.
  assert (dl_stalled w = false) as ST. { destruct (dl_stalled w) eqn:Y; [|reflexivity]. apply (stalled_spec w a R) in Y. pose proof (po_ws _ _ (r_par _ _ R)). lia. }
  assert (dl_empty w = true) as EM by (apply (empty_spec w a R), SA). rewrite ST, EM in E. cbn [negb] in E. rewrite andb_false_r in E.
  right. destruct (te_have_data e); congruence.
Qed.

Definition nob : sent_block := mk_sb false false [].
Definition bth (l : list sent_block) (i : Z) : sent_block := nth (Z.to_nat i) l nob.
Lemma bth_app l x i : 0 <= i < Z.of_nat (length l) -> bth (l ++ [x]) i = bth l i.
Proof. intros I. unfold bth. apply app_nth1. lia. Qed.
Lemma bth_last l x : bth (l ++ [x]) (Z.of_nat (length l)) = x.
Proof. unfold bth. rewrite Nat2Z.id, app_nth2 by lia. now rewrite Nat.sub_diag. Qed.
Lemma space_ok edge : sns_ok (space edge). Proof. unfold sns_ok, space. destruct edge; lia. Qed.
Lemma land_slot edge i : Z.land (i mod space edge) mod_sns_half = slot (space edge) i.
Proof. unfold slot. change mod_sns_half with (1024 - 1). apply land_mask_mod. unfold sns_ok. lia. Qed.

Record DInv (edge : bool) (x : dtx) (blocks : list sent_block) (xin : list (list Z)) : Prop := {
  di_store : forall i, 0 <= i < Z.of_nat (length blocks) -> Z.of_nat (length blocks) - Z.min (space edge) 1024 <= i ->
     block_at x (i mod space edge) = bth blocks i;
  di_seg : SInv edge (x_s x) (x_fin x) blocks xin }.

Lemma take_step edge pre k prev x blocks xin a : Rdl (x_w x) a -> edge_ok a -> dw_sns (x_w x) = space edge -> 0 <= sA a ->
  sS a = Z.of_nat (length blocks) -> DInv edge x blocks xin -> suits edge k ->
  exists x' b blocks' a', d_take edge pre k prev x = Some (x', b) /\
    tbf_take_next_bsn 3 (env_of edge pre x) prev (x_w x) = Some (x_w x', b) /\
    Rdl (x_w x') a' /\ edge_ok a' /\ dw_sns (x_w x') = space edge /\ dw_ws (x_w x') = dw_ws (x_w x) /\ sA a' = sA a /\
    sS a' = Z.of_nat (length blocks') /\ DInv edge x' blocks' xin /\
    ((blocks' = blocks /\ x_s x' = x_s x) \/ exists sb, blocks' = blocks ++ [sb] /\ x_fin x = false /\
       create_block edge (Z.to_nat (mcs_max_data_block_bytes (k_cs k))) (is_final (k_keep k) (x_s x)) (x_s x) = Some (sb, x_s x') /\ x_fin x' = sb_fbi sb) /\
    (x_fin x = true -> x_fin x' = true) /\
    ((b = -1 /\ 0 <= prev) \/ exists j, b = j mod space edge /\ 0 <= j /\ (sA a <= j < sS a' \/ j = sS a - 1 /\ sS a' = sA a)).
Proof.
  intros R EO SN A0 SL D SU. pose proof (r_rng _ _ R) as RNG. pose proof (sns_pos _ (space_ok edge)) as SP.
  pose proof (po_ws2 _ _ (r_par _ _ R)) as WS2.
  pose proof (params_half _ _ (r_par _ _ R)) as WH. rewrite SN in WH, WS2.
  destruct (take_spec (env_of edge pre x) prev (x_w x) a R EO) as (w' & a' & b & T & R' & T1 & T2 & TO). rewrite SN in T1, TO.
  pose proof (take_keeps _ _ _ _ _ _ TO SP ltac:(lia)) as TK.
  assert (EO' : edge_ok a').
  { assert (K : exists l, keeps a a' l) by (destruct TK as [(_ & _ & _ & X)|[(i & _ & X & _)|(_ & _ & _ & X)]]; eauto).
    destruct K as [l K]. apply (keeps_edge _ _ _ K EO). lia. }
  assert (SA' : sA a' = sA a) by (destruct TK as [(_ & _ & _ & X)|[(i & _ & X & _)|(_ & _ & _ & X)]]; apply X).
  assert (VS : dw_vs w' = sS a' mod space edge) by (rewrite (r_vs _ _ R'), T1; reflexivity).
  assert (VS0 : dw_vs (x_w x) = sS a mod space edge) by (rewrite (r_vs _ _ R), SN; reflexivity).
  unfold d_take. rewrite T.
  destruct (dw_vs w' =? dw_vs (x_w x)) eqn:SAME.
  - (* nothing new *)
    assert (SS : sS a' = sS a).
    { destruct TK as [(_ & _ & X & _)|[(i & _ & _ & _ & [X|[_ X]])|(_ & _ & -> & _)]]; try exact X; try reflexivity.
      exfalso. apply Z.eqb_eq in SAME. rewrite VS, VS0, X in SAME.
      assert (space edge > 1) by (unfold space; destruct edge; lia). apply mod_inj_range in SAME; lia. }
    eexists _, b, blocks, a'. split; [reflexivity|]. cbn [x_w x_s x_fin]. rewrite T1. repeat (split; [first [assumption|reflexivity|lia]|]).
    split; [destruct D as [D1 D2]; constructor; [exact D1|exact D2]|]. split; [left; split; reflexivity|]. split; [auto|].
    destruct TK as [(-> & P & _)|[(i & -> & _ & I & _)|(Q & -> & -> & _)]]; [left; split; [reflexivity|exact P]| |].
    + right. exists i. split; [reflexivity|]. split; [lia|]. left. exact I.
    + right. exists (sS a - 1). split; [reflexivity|]. split; [|right; split; [reflexivity|exact Q]].
      destruct (x_fin x) eqn:F.
      * destruct D as [_ D2]. rewrite F in D2. destruct (si_fin _ _ _ _ _ D2 eq_refl) as (_ & l & y & -> & _). rewrite app_length in SL. cbn [length] in SL. lia.
      * exfalso. destruct (empty_take (env_of edge pre x) _ _ _ _ _ R Q F T) as [(-> & E & _)|E].
        -- pose proof (Z.mod_pos_bound (sS a - 1) (space edge) SP). lia.
        -- destruct (create_new_spec (x_w x) a R ltac:(pose proof (po_ws _ _ (r_par _ _ R)); lia)) as (w2 & E2 & R2 & N2 & _).
           rewrite E2 in E. injection E as -> E. rewrite (r_vs _ _ R2), N2, SN, VS0 in SAME. cbn [snew sS] in SAME.
           apply Z.eqb_eq in SAME. assert (space edge > 1) by (unfold space; destruct edge; lia).
           apply mod_inj_range in SAME; lia.
  - (* a new block *)
    assert (SS : sS a' = sS a + 1 /\ b = sS a mod space edge).
    { apply Z.eqb_neq in SAME. destruct TK as [(_ & _ & X & _)|[(i & -> & _ & _ & [X|[-> X]])|(_ & _ & -> & _)]]; try (exfalso; apply SAME; rewrite VS, VS0, ?X; reflexivity).
      split; [exact X|reflexivity]. }
    destruct SS as [SS ->].
    assert (F : x_fin x = false).
    { destruct (x_fin x) eqn:F; [|reflexivity]. apply (finished_vs (env_of edge pre x) F) in T. rewrite T, Z.eqb_refl in SAME. discriminate. }
    destruct D as [D1 D2]. rewrite F in D2. destruct (sinv_create _ _ _ _ k D2 SU) as (sb & s' & C1 & C2).
    rewrite C1. eexists _, _, (blocks ++ [sb]), a'. split; [reflexivity|]. cbn [x_w x_s x_fin]. rewrite T1. rewrite F. cbn [orb].
    repeat (split; [first [assumption|reflexivity|lia]|]).
    split; [rewrite app_length; cbn [length]; lia|].
    split.
    { constructor; [|exact C2]. intros i I J. unfold block_at. cbn [x_store]. rewrite !land_slot. rewrite app_length in I, J. cbn [length] in I, J.
      unfold upd. destruct (slot (space edge) i =? slot (space edge) (sS a)) eqn:E.
      - apply Z.eqb_eq in E. apply (slot_inj _ i (sS a) (space_ok edge) ltac:(lia)) in E. subst i. rewrite SL, bth_last. reflexivity.
      - rewrite bth_app. 2:{ destruct (Z.eq_dec i (sS a)); [subst i; rewrite Z.eqb_refl in E; discriminate|lia]. }
        specialize (D1 i). unfold block_at in D1. rewrite land_slot in D1. apply D1; [|lia].
        destruct (Z.eq_dec i (sS a)); [subst i; rewrite Z.eqb_refl in E; discriminate|lia]. }
    split; [right; exists sb; repeat split; assumption|]. split; [discriminate|].
    right. exists (sS a). split; [reflexivity|]. split; [lia|]. left. lia.
Qed.

Lemma half_x h b x : x_store (half h b x) = x_store x /\ x_s (half h b x) = x_s x /\ x_fin (half h b x) = x_fin x /\
  x_w (half h b x) = (if h then tbf_first_seg_sent (x_w x) b else x_w x) /\ dw_vs (x_w (half h b x)) = dw_vs (x_w x).
Proof. unfold half. destruct h; repeat split. Qed.
Lemma dinv_half edge h b x blocks xin : DInv edge x blocks xin -> DInv edge (half h b x) blocks xin.
Proof.
  intros [A B]. destruct (half_x h b x) as (E1 & E2 & E3 & _). constructor; [|rewrite E2, E3; exact B].
  intros i I J. unfold block_at. rewrite E1. apply A; assumption.
Qed.

Definition hs (edge : bool) : Z := if edge then 1024 else 64.
Definition onair (edge : bool) (blocks : list sent_block) (u : Z * sent_block) : Prop :=
  exists j, fst u = j mod space edge /\ 0 <= j < Z.of_nat (length blocks) /\ Z.of_nat (length blocks) - j <= hs edge /\ snd u = bth blocks j.

Lemma send_step edge pre k1 k2 h1 h2 x blocks xin a : Rdl (x_w x) a -> edge_ok a -> dw_sns (x_w x) = space edge -> 0 <= sA a ->
  sS a = Z.of_nat (length blocks) -> DInv edge x blocks xin -> suits edge k1 -> suits2 edge k2 ->
  exists x' air blocks' e1 e2, d_send edge pre k1 k2 h1 h2 x = Some (x', air) /\
    tbf_create_dl_acked_block e1 e2 h1 h2 (x_w x) = Some (x_w x', map fst air) /\
    DInv edge x' blocks' xin /\ Forall (onair edge blocks') air /\ (exists l, blocks' = blocks ++ l) /\
    Z.of_nat (length blocks) <= Z.of_nat (length blocks') <= Z.of_nat (length blocks) + 2 /\
    dw_vs (x_w x') = Z.of_nat (length blocks') mod space edge.
Proof.
  intros R EO SN A0 SL D S1 S2. pose proof (sns_pos _ (space_ok edge)) as SP.
  assert (HALF2 : 64 <= hs edge <= 1024 /\ space edge = 2 * hs edge /\ Z.min (space edge) 1024 >= hs edge) by (clear; unfold hs, space; destruct edge; lia).
  destruct (take_step edge pre k1 (-1) x blocks xin a R EO SN A0 SL D S1)
    as (x1 & b1 & bl1 & a1 & T & TT & R1 & E1 & N1 & W1 & A1 & L1 & D1 & B1 & F1 & J1).
  destruct J1 as [[_ X]|(j1 & -> & J0 & J1)]; [lia|].
  assert (WS : 2 * dw_ws (x_w x) <= space edge) by (pose proof (po_ws2 _ _ (r_par _ _ R)); rewrite SN in *; lia).
  assert (WG : 64 <= dw_ws (x_w x)) by (apply (po_ws _ _ (r_par _ _ R))).
  pose proof (r_rng _ _ R) as RN. pose proof (r_rng _ _ R1) as RN1. rewrite W1 in RN1.
  assert (P1 : exists l, bl1 = blocks ++ l).
  { destruct B1 as [[-> _]|(sb & -> & _)]; [exists []; symmetry; apply app_nil_r|eexists; reflexivity]. }
  assert (Q1 : Z.of_nat (length blocks) <= Z.of_nat (length bl1) <= Z.of_nat (length blocks) + 1).
  { destruct B1 as [[-> _]|(sb & -> & _)]; [lia|rewrite app_length; cbn [length]; lia]. }
  assert (AIR1 : forall x2 bl2, DInv edge x2 bl2 xin -> (exists l, bl2 = bl1 ++ l) -> Z.of_nat (length bl2) <= Z.of_nat (length bl1) + 1 ->
    Z.of_nat (length bl2) - sA a <= dw_ws (x_w x) -> onair edge bl2 (j1 mod space edge, block_at x2 (j1 mod space edge))).
  { intros x2 bl2 D2 (l & PL) QL WL. assert (Z.of_nat (length bl1) <= Z.of_nat (length bl2)) by (rewrite PL, app_length; lia).
    exists j1. cbn [fst snd]. split; [reflexivity|]. split; [lia|]. assert (Z.of_nat (length bl2) - j1 <= hs edge) by lia.
    split; [assumption|]. apply (di_store _ _ _ _ D2); lia. }
  unfold d_send. rewrite T. rewrite mod_nonneg_ltb by exact SP.
  destruct k2 as [k2|].
  - destruct (take_step edge pre k2 (j1 mod space edge) x1 bl1 xin a1 R1 E1 N1 ltac:(lia) L1 D1 S2)
      as (x2 & b2 & bl2 & a2 & T2 & TT2 & R2 & E2 & N2 & W2 & A2 & L2 & D2 & B2 & F2 & J2). rewrite T2.
    pose proof (r_rng _ _ R2) as RN2. rewrite W2, W1 in RN2.
    assert (P2 : exists l, bl2 = bl1 ++ l).
    { destruct B2 as [[-> _]|(sb & -> & _)]; [exists []; symmetry; apply app_nil_r|eexists; reflexivity]. }
    assert (Q2 : Z.of_nat (length bl1) <= Z.of_nat (length bl2) <= Z.of_nat (length bl1) + 1).
    { destruct B2 as [[-> _]|(sb & -> & _)]; [lia|rewrite app_length; cbn [length]; lia]. }
    assert (P : exists l, bl2 = blocks ++ l).
    { destruct P1 as [l1 ->], P2 as [l2 ->]. exists (l1 ++ l2). symmetry. apply app_assoc. }
    assert (VS : dw_vs (x_w x2) = Z.of_nat (length bl2) mod space edge) by (rewrite (r_vs _ _ R2), N2, L2; reflexivity).
    destruct J2 as [[-> J2]|(j2 & -> & J20 & J2)].
    + change (-1 <? 0) with true. cbn iota.
      exists (half h1 (j1 mod space edge) x2), [(j1 mod space edge, block_at x2 (j1 mod space edge))], bl2, (env_of edge pre x), (Some (env_of edge pre x1)).
      split; [reflexivity|]. split.
      { unfold tbf_create_dl_acked_block. rewrite TT, mod_nonneg_ltb by exact SP. rewrite TT2. change (-1 <? 0) with true. cbn iota.
        destruct (half_x h1 (j1 mod space edge) x2) as (_ & _ & _ & -> & _). reflexivity. }
      split; [apply dinv_half, D2|]. split; [constructor; [apply AIR1; try assumption; lia|constructor]|]. split; [exact P|].
      split; [lia|]. destruct (half_x h1 (j1 mod space edge) x2) as (_ & _ & _ & _ & ->). exact VS.
    + rewrite mod_nonneg_ltb by exact SP.
      eexists _, _, bl2, (env_of edge pre x), (Some (env_of edge pre x1)).
      split; [reflexivity|]. split.
      { unfold tbf_create_dl_acked_block. rewrite TT, mod_nonneg_ltb by exact SP. rewrite TT2. rewrite mod_nonneg_ltb by exact SP.
        destruct (half_x h2 (j2 mod space edge) (half h1 (j1 mod space edge) x2)) as (_ & _ & _ & -> & _).
        destruct (half_x h1 (j1 mod space edge) x2) as (_ & _ & _ & -> & _). reflexivity. }
      split; [apply dinv_half, dinv_half, D2|]. split.
      { constructor; [apply AIR1; try assumption; lia|]. constructor; [|constructor].
        exists j2. cbn [fst snd]. split; [reflexivity|]. split; [lia|]. assert (Z.of_nat (length bl2) - j2 <= hs edge) by lia.
        split; [assumption|]. apply (di_store _ _ _ _ D2); lia. }
      split; [exact P|]. split; [lia|].
      destruct (half_x h2 (j2 mod space edge) (half h1 (j1 mod space edge) x2)) as (_ & _ & _ & _ & ->).
      destruct (half_x h1 (j1 mod space edge) x2) as (_ & _ & _ & _ & ->). exact VS.
  - eexists _, _, bl1, (env_of edge pre x), None.
    split; [reflexivity|]. split.
    { unfold tbf_create_dl_acked_block. rewrite TT, mod_nonneg_ltb by exact SP.
      destruct (half_x h1 (j1 mod space edge) x1) as (_ & _ & _ & -> & _). reflexivity. }
    split; [apply dinv_half, D1|]. split; [constructor; [apply AIR1; try assumption; [exists []; symmetry; apply app_nil_r|lia|lia]|constructor]|].
    split; [exact P1|]. split; [lia|].
    destruct (half_x h1 (j1 mod space edge) x1) as (_ & _ & _ & _ & ->). rewrite (r_vs _ _ R1), N1, L1. reflexivity.
Qed.
