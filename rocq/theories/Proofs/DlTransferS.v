(** Every transfer can be brought to its end. *)
From Coq Require Import ZArith List Bool Lia ZifyBool.
From Verif Require Import Base.Arith Model.CodingScheme Model.RlcCps Model.RlcWindow Model.RlcWindowDl Model.TbfDlWindow Model.Segment Model.DlTransfer
  Spec.SendWindow Proofs.DlWindowP Proofs.DlWindowH Proofs.DlWindowI Proofs.DlWindowProps Spec.SegSpec Proofs.SegP Proofs.SegQ Proofs.DlTransferP.
From Verif Require Import Spec.DlWindowSpec Spec.DlLoopSpec Spec.DlTransferSpec Proofs.DlLoopP Proofs.DlTransferQ Proofs.DlTransferR.
Import ListNotations.
Local Open Scope Z_scope.

Lemma xs_trans edge pre mw a b c : xsteps edge pre mw a b -> xsteps edge pre mw b c -> xsteps edge pre mw a c.
Proof. induction 1; intros; [assumption|]. econstructor; eauto. Qed.
Lemma xs_one edge pre mw a b : xstep edge pre mw a b -> xsteps edge pre mw a b.
Proof. intros X. econstructor; [exact X|constructor]. Qed.

Lemma drop_reports edge pre mw s : xsteps edge pre mw s (mk_xfer (t_x s) (t_in s) (t_air s) (t_have s) (t_got s) [] (t_over s)).
Proof.
  destruct s as [x i a h g r v]. cbn [t_x t_in t_air t_have t_got t_rep t_over]. induction r as [|y r IH]; [constructor|].
  econstructor; [|exact IH]. apply (X_lost edge pre mw (mk_xfer x i a h g (y :: r) v) [] y r). reflexivity.
Qed.

Lemma vr_exists h n : (forall i, h i = true -> 0 <= i < n) -> exists r, is_vr h r.
Proof.
  intros B. destruct (Z_lt_le_dec n 0) as [N|N].
  { exists 0. split; [lia|]. split; [|left; reflexivity]. intros i I. apply B in I. lia. }
  revert B. pattern n. apply natlike_ind; [| |exact N].
  - intros B. exists 0. split; [lia|]. split; [|left; reflexivity]. intros i I. apply B in I. lia.
  - intros k K IH B. destruct (h k) eqn:E.
    + exists (k + 1). split; [lia|]. split; [intros i I; apply B in I; lia|]. right. replace (k + 1 - 1) with k by lia. exact E.
    + apply IH. intros i I. pose proof (B _ I). destruct (Z.eq_dec i k); [subst; congruence|lia].
Qed.

(** A truthful answer that covers all a mobile can tell. *)
Definition best (edge : bool) (h : have) (q r n : Z) : answer :=
  if edge then Egprs ((q + 1) mod 2048) None (map (fun k => h (q + 1 + Z.of_nat k)) (seq 0 (Z.to_nat (n - q))))
  else Gprs (r mod 128) (fun p => h (r - (64 - p))).
Lemma best_truthful edge h q r n : is_vq h q -> is_vr h r -> truthful (space edge) h (best edge h q r n).
Proof.
  intros Q R. unfold best, space. destruct edge.
  - exists q. split; [exact Q|]. split; [reflexivity|]. unfold bitmap_of.
    set (l := map _ _). assert (L : forall k, (k < length l)%nat -> nth k l false = h (q + 1 + Z.of_nat k)).
    { intros k K. subst l. rewrite map_length, seq_length in K. rewrite nth_map_seq by lia. reflexivity. }
    destruct l; [exact Logic.I|exact L].
  - split; [reflexivity|]. exists r. split; [exact R|]. split; [reflexivity|]. intros b B. f_equal. lia.
Qed.
Lemma best_covers edge h q r n i : is_vq h q -> is_vr h r -> i < n -> (edge = true \/ i < r) -> covers h (best edge h q r n) i.
Proof.
  intros Q R I C. unfold best. destruct edge.
  - exists q. split; [exact Q|]. unfold bitmap_of. destruct (map _ _) as [|y l] eqn:E.
    + apply map_eq_nil in E. destruct (Z.to_nat (n - q)) eqn:Z; [lia|discriminate].
    + rewrite <- E, map_length, seq_length. lia.
  - exists r. split; [exact R|]. destruct C as [C|C]; [discriminate|exact C].
Qed.

(** After it the window starts at the first missing block, which is to be sent again if the answer told so. *)
Lemma do_report edge pre ws mw s o last blocks q r : XInv edge ws mw s o last blocks -> t_over s = false -> is_vq (t_have s) q -> is_vr (t_have s) r ->
  exists s1 o1 last1, xsteps edge pre mw s s1 /\ XInv edge ws mw s1 o1 last1 blocks /\ t_in s1 = t_in s /\ t_have s1 = t_have s /\ t_over s1 = false /\
    x_s (t_x s1) = x_s (t_x s) /\ x_fin (t_x s1) = x_fin (t_x s) /\ o_S o1 = o_S o /\ o_A o1 = q /\
    (q < o_S o -> edge = true \/ q < r -> blk o1 q = DlNacked).
Proof.
  intros X OV VQ VR.
  set (a := best edge (t_have s) q r (o_S o)).
  set (s0 := mk_xfer (t_x s) (t_in s) (t_air s) (t_have s) (t_got s) [] (t_over s)).
  set (sa := mk_xfer (t_x s) (t_in s) (t_air s) (t_have s) (t_got s) [(t_have s, a)] (t_over s)).
  assert (TR : truthful (space edge) (t_have s) a) by (apply best_truthful; assumption).
  assert (ST : xsteps edge pre mw s sa).
  { eapply xs_trans; [apply drop_reports|]. apply xs_one. exact (X_answer edge pre mw s0 a TR). }
  pose proof X as [XL XW XN XD XA XG XO].
  assert (XS : XInv edge ws mw sa o last blocks).
  { constructor; cbn [sa t_x t_in t_air t_have t_got t_rep t_over]; try assumption.
    assert (L0 : forall rr, dl_loop (space edge) ws (mk_loop o (t_have s) rr last) -> dl_loop (space edge) ws (mk_loop o (t_have s) [] last)).
    { intros rr. induction rr as [|y rr IH]; intros L; [exact L|]. apply IH. exact (L_lost _ _ _ [] y rr L eq_refl). }
    exact (L_answer _ _ _ a (L0 _ XL) TR). }
  destruct (answer_taken _ _ _ (t_have s) a [] (xi_loop _ _ _ _ _ _ _ XS) eq_refl) as (o1 & O1 & S1 & U). cbn [p_o] in O1, S1, U.
  assert (DR : exists x, d_report (bits_of_answer a (x_w (t_x sa))) (t_x sa) = Some x).
  { cbn [obs_step] in O1. rewrite XW in O1. unfold d_report. cbn [sa t_x]. destruct (tbf_rcvd_dl_ack _ _ _ _) as [[[w l1] l2]|]; [|discriminate]. eexists. reflexivity. }
  destruct DR as [x DR].
  destruct (xinv_arrives _ _ _ _ _ _ _ (t_have s) a [] x XS OV eq_refl DR) as (o2 & X2 & O2 & _ & ES & EF).
  rewrite O1 in O2. injection O2 as <-.
  exists (mk_xfer x (t_in sa) (t_air sa) (t_have sa) (t_got sa) [] (t_over sa)), o1, (t_have s).
  split; [eapply xs_trans; [exact ST|]; apply xs_one; exact (X_arrives edge pre mw sa (t_have s) a [] x OV eq_refl DR)|].
  split; [exact X2|]. cbn [sa t_x t_in t_have t_over]. split; [reflexivity|]. split; [reflexivity|]. split; [exact OV|].
  split; [exact ES|]. split; [exact EF|]. split; [exact S1|].
  destruct (loop_inv _ _ _ (xi_loop _ _ _ _ _ _ _ X2)) as [R2 A2 C2 HV2 T2 LG2 P2]. cbn [p_o p_have p_air p_last t_have t_rep sa] in *.
  destruct (loop_inv _ _ _ XL) as [R A C HV T LG P]. cbn [p_o p_have p_air p_last] in *.
  assert (AQ : o_A o1 <= q <= o_S o1) by (apply (vq_le (space edge) ws o1 (t_have s)); assumption).
  assert (RQ : q <= r). { destruct (Z_lt_le_dec r q); [|lia]. destruct VQ as (_ & VQ & _), VR as (V0 & V1 & _). specialize (VQ r ltac:(lia)). apply V1 in VQ. lia. }
  assert (AA : o_A o <= o_A o1).
  { clear - O1 R. destruct (reach_Inv _ _ _ R) as [st [Hs [HR _]]]. pose proof (sns_pos _ (po_sns _ _ (r_par _ _ HR))) as SP.
    cbn [obs_step] in O1. destruct (tbf_rcvd_dl_ack _ _ _ _) as [[[w' l] r0]|]; [|discriminate]. injection O1 as <-. cbn [o_A].
    pose proof (Z.mod_pos_bound (dw_va w' - dw_va (o_w o)) (dw_sns (o_w o)) ltac:(lia)). lia. }
  assert (EQ : o_A o1 = q).
  { destruct (Z.eq_dec (o_A o1) q) as [|NE]; [assumption|exfalso].
    assert (OUT : outstanding o1 (o_A o1)) by (unfold outstanding; lia). destruct (c02_edge _ _ _ R2 OUT) as [_ NA].
    assert (OI : outstanding o (o_A o1)) by (unfold outstanding; lia). destruct (U _ OI) as [U1 _].
    specialize (U1 (best_covers edge (t_have s) q r (o_S o) (o_A o1) VQ VR ltac:(lia) ltac:(right; lia))). destruct VQ as (_ & VQ & _). rewrite VQ in U1 by lia.
    unfold status_after in U1. rewrite Z.ltb_irrefl in U1. contradiction. }
  split; [exact EQ|]. intros QS CV. assert (OI : outstanding o q) by (unfold outstanding; lia). destruct (U _ OI) as [U1 _].
  specialize (U1 (best_covers edge (t_have s) q r (o_S o) q VQ VR ltac:(lia) CV)). destruct VQ as (_ & _ & VQ). rewrite VQ in U1. unfold status_after in U1.
  replace (q <? o_A o1) with false in U1 by lia. exact U1.
Qed.

(** ** One block sent *)
Definition plain (edge : bool) : pick := mk_pick (if edge then MCS1 else CS1) (fun _ => false).
Lemma plain_suits edge : suits edge (plain edge). Proof. destruct edge; reflexivity. Qed.

Lemma do_send edge pre ws mw s o last blocks : XInv edge ws mw s o last blocks -> t_over s = false ->
  exists x j o1 blocks1, let s1 := mk_xfer x (t_in s) [(j mod space edge, bth blocks1 j)] (t_have s) (t_got s) (t_rep s) (t_over s) in
    xstep edge pre mw s s1 /\ XInv edge ws mw s1 o1 last blocks1 /\ o_A o1 = o_A o /\
    (blocks1 = blocks /\ x_s x = x_s (t_x s) /\ x_fin x = x_fin (t_x s) \/
     exists sb, blocks1 = blocks ++ [sb] /\ x_fin (t_x s) = false /\ x_fin x = sb_fbi sb /\
       create_block edge (Z.to_nat (mcs_max_data_block_bytes (k_cs (plain edge)))) (is_final (k_keep (plain edge)) (x_s (t_x s))) (x_s (t_x s)) = Some (sb, x_s x)) /\
    (o_A o <= j < o_S o1 \/ j = o_S o - 1 /\ o_S o1 = o_A o) /\
    (o_A o < o_S o -> blk o (o_A o) = DlNacked -> j = o_A o /\ blocks1 = blocks) /\
    (o_A o = o_S o -> x_fin (t_x s) = false -> blocks1 <> blocks).
Proof.
  intros X OV. destruct (hs_space edge) as [H1 H2]. pose proof (sns_pos _ (space_ok edge)) as SP.
  destruct (loop_inv _ _ _ (xi_loop _ _ _ _ _ _ _ X)) as [R A C HV T LG P]. cbn [p_o p_have p_air p_last] in *.
  destruct (reach_Inv _ _ _ R) as [st [Hs [HR [HE _]]]]. pose proof HR as HRo. rewrite (xi_w _ _ _ _ _ _ _ X) in HR, Hs.
  pose proof (xi_len _ _ _ _ _ _ _ X) as XN. pose proof (xi_d _ _ _ _ _ _ _ X) as XD.
  destruct (take_step edge pre (plain edge) (-1) (t_x s) blocks (t_in s) _ HR HE Hs A XN XD (plain_suits edge))
    as (x1 & b1 & bl1 & a1 & TT & TK & R1 & E1 & N1 & W1 & A1 & L1 & D1 & B1 & F1 & J).
  destruct J as [[_ J]|(j & -> & J0 & J)]; [lia|]. cbn [sA sS] in *.
  pose proof (po_ws2 _ _ (r_par _ _ HR)) as WS2. rewrite Hs in WS2. pose proof (po_ws _ _ (r_par _ _ HR)) as WS1.
  pose proof (r_rng _ _ HR) as RN. cbn [sA sS] in RN. pose proof (r_rng _ _ R1) as RN1. rewrite W1 in RN1.
  assert (Q1 : exists l, bl1 = blocks ++ l /\ Z.of_nat (length blocks) <= Z.of_nat (length bl1) <= Z.of_nat (length blocks) + 1).
  { destruct B1 as [[-> _]|(sb & -> & _)]; [exists []; rewrite app_nil_r; split; [reflexivity|lia]|eexists; split; [reflexivity|rewrite app_length; cbn [length]; lia]]. }
  destruct Q1 as (l & Q1 & Q2).
  assert (JB : 0 <= j < Z.of_nat (length bl1) /\ Z.of_nat (length bl1) - j <= hs edge) by lia.
  assert (BJ : block_at x1 (j mod space edge) = bth bl1 j).
  { apply (di_store _ _ _ _ D1); [lia|]. assert (Z.min (space edge) 1024 >= hs edge) by lia. lia. }
  assert (DS : d_send edge pre (plain edge) None false false (t_x s) = Some (x1, [(j mod space edge, bth bl1 j)])).
  { unfold d_send. rewrite TT, mod_nonneg_ltb by exact SP. cbn [half]. rewrite BJ. reflexivity. }
  assert (VS1 : dw_vs (x_w x1) = Z.of_nat (length bl1) mod space edge) by (rewrite (r_vs _ _ R1), N1, L1; reflexivity).
  destruct (xinv_send edge ws mw s o last blocks (env_of edge pre (t_x s)) None false false x1 [(j mod space edge, bth bl1 j)] bl1 l) as (o1 & X1 & EA); try assumption; try lia.
  { unfold tbf_create_dl_acked_block. rewrite TK, mod_nonneg_ltb by exact SP. reflexivity. }
  { constructor; [|constructor]. exists j. cbn [fst snd]. split; [reflexivity|]. split; [apply JB|]. split; [apply JB|reflexivity]. }
  exists x1, j, o1, bl1. cbv zeta.
  pose proof (xi_len _ _ _ _ _ _ _ X1) as SN1.
  split; [exact (X_send edge pre mw s (plain edge) None false false x1 _ OV (plain_suits edge) Logic.I DS)|].
  split; [exact X1|]. split; [exact EA|]. split.
  { destruct B1 as [[B1 B2]|(sb & B1 & B2 & B3 & B4)].
    - left. split; [exact B1|]. split; [exact B2|]. destruct (x_fin (t_x s)) eqn:F; [apply F1; reflexivity|].
      destruct (x_fin x1) eqn:F2; [|reflexivity]. exfalso. destruct D1 as [_ D1]. rewrite F2 in D1. destruct (si_fin _ _ _ _ _ D1 eq_refl) as (_ & l0 & b & E0 & FB & _).
      destruct XD as [_ XD]. rewrite F in XD. pose proof (si_open _ _ _ _ _ XD eq_refl) as OP. rewrite <- B1, E0 in OP. apply Forall_app in OP. destruct OP as [_ OP].
      inversion OP. congruence.
    - right. exists sb. split; [exact B1|]. split; [exact B2|]. split; assumption. }
  split; [rewrite SN1, <- L1; lia|]. split.
  - intros LT NK. assert (NR : DlWindowSpec.needs_resend (blk o (o_A o))) by (left; exact NK).
    destruct (c03_oldest _ _ _ R) as [(i & RN2 & OI & _ & MIN)|[_ NO]]; [|exfalso; apply (NO (o_A o)); [unfold outstanding; lia|exact NR]].
    assert (i = o_A o) as ->. { unfold outstanding in OI. destruct (Z.eq_dec i (o_A o)); [assumption|]. exfalso. apply (MIN (o_A o)); [lia|exact NR]. }
    rewrite (xi_w _ _ _ _ _ _ _ X) in RN2. assert (T2 : tbf_take_next_bsn 3 (env_of edge pre (t_x s)) (-1) (x_w (t_x s)) = Some (vb_mark (x_w (t_x s)) (o_A o mod space edge) DlUnacked, o_A o mod space edge)).
    { remember 2%nat as f2. cbn [tbf_take_next_bsn]. rewrite RN2. change (0 <=? -1) with false. cbn [andb].
      pose proof (Z.mod_pos_bound (o_A o) (space edge) SP). replace (0 <=? o_A o mod space edge) with true by lia. replace (-1 =? o_A o mod space edge) with false by lia. reflexivity. }
    rewrite TK in T2. injection T2 as T2 T3.
    assert (VE : dw_vs (x_w x1) = dw_vs (x_w (t_x s))) by (rewrite T2; reflexivity).
    rewrite VS1, (r_vs _ _ HR), Hs in VE. cbn [sS] in VE. rewrite XN in VE.
    assert (LE : bl1 = blocks).
    { destruct B1 as [[B1 _]|(sb & -> & _)]; [exact B1|exfalso]. rewrite app_length in VE. cbn [length] in VE.
      apply mod_inj_range in VE; lia. }
    split; [|exact LE]. subst bl1. apply mod_inj_range in T3; lia.
  - intros EQ F EB. subst bl1. rewrite EB in VS1, L1.
    destruct (empty_take (env_of edge pre (t_x s)) _ _ _ _ _ HR (eq_sym EQ) F TK) as [(_ & Z & _)|E].
    + pose proof (Z.mod_pos_bound j (space edge) SP). lia.
    + destruct (create_new_spec (x_w (t_x s)) _ HR ltac:(cbn [sA sS]; lia)) as (w2 & E2 & R2 & N2 & _).
      rewrite E2 in E. injection E as E _. rewrite E, (r_vs _ _ R2), N2, Hs in VS1. cbn [snew sS] in VS1. rewrite XN in VS1.
      apply mod_inj_range in VS1; lia.
Qed.

(** ** It arrives *)
Lemma do_receive edge pre ws mw s o last blocks j q : sizes edge ws mw -> XInv edge ws mw s o last blocks -> t_air s = [(j mod space edge, bth blocks j)] ->
  is_vq (t_have s) q -> q <= j < q + mw -> j < o_S o ->
  let s' := mk_xfer (t_x s) (t_in s) (t_air s) (upd (t_have s) j true) (upd (t_got s) j (bth blocks j)) (t_rep s) (t_over s) in
  xstep edge pre mw s s' /\ XInv edge ws mw s' o last blocks.
Proof.
  intros [(_ & _ & Z1) Z2] X AIR V J JS. pose proof X as [XL XW XN XD XA XG XO].
  assert (E : q + (j mod space edge - q) mod space edge = j) by (rewrite Zminus_mod_idemp_l, Z.mod_small; lia).
  assert (Q0 : 0 <= q) by apply V.
  split.
  - pose proof (X_receive edge pre mw s (j mod space edge) (bth blocks j) q) as ST. cbv zeta in ST. rewrite E in ST. apply ST; [|exact V|lia].
    rewrite AIR. left. reflexivity.
  - constructor; cbn [t_x t_in t_air t_have t_got t_rep t_over]; try assumption.
    + exact (L_receive _ _ _ j XL ltac:(cbn [p_o]; lia)).
    + intros i I. unfold upd in *. destruct (i =? j) eqn:EI; [apply Z.eqb_eq in EI; subst; reflexivity|apply XG, I].
    + intros OV. destruct (XO OV) as [O1 O2]. split; [exact O1|]. intros i I. unfold upd. destruct (i =? j); [reflexivity|apply O2, I].
Qed.
Lemma vq_grows edge ws mw s o last blocks q : XInv edge ws mw s o last blocks -> is_vq (t_have s) q -> forall h', h' = upd (t_have s) q true -> q < o_S o ->
  exists q', is_vq h' q' /\ q < q'.
Proof.
  intros X V h' -> QS. destruct (loop_inv _ _ _ (xi_loop _ _ _ _ _ _ _ X)) as [R A C HV T LG P]. cbn [p_o p_have p_air p_last] in *.
  destruct V as (V0 & V1 & V2).
  destruct (vq_exists (upd (t_have s) q true) (o_S o)) as [q' V'].
  { intros i I. unfold upd in I. destruct (i =? q) eqn:E; [lia|apply HV, I]. }
  exists q'. split; [exact V'|]. destruct V' as (W0 & _ & W2). unfold upd in W2. destruct (q' =? q) eqn:E; [discriminate|].
  destruct (Z_lt_le_dec q' q); [rewrite V1 in W2 by lia; discriminate|lia].
Qed.

Definition rank (s : xfer) : nat := if x_fin (t_x s) then 0%nat else Datatypes.S (work (x_s (t_x s))).

Lemma new_block edge s blocks xin sb s' : SInv edge s false blocks xin ->
  create_block edge (Z.to_nat (mcs_max_data_block_bytes (k_cs (plain edge)))) (is_final (k_keep (plain edge)) s) s = Some (sb, s') ->
  (sb_fbi sb = true \/ (work s' < work s)%nat) /\ (sb_fbi sb = true -> s_queue s' = []).
Proof.
  intros [_ _ NE _ _ (R & lost & _ & _ & AG)] C. split; [|intros F; apply (create_fbi _ _ _ _ _ _ C F)].
  destruct AG as [[_ (_ & _ & OK & _)]|(_ & X & _)]; [|discriminate].
  eapply create_work; [exact C| |destruct OK as [[-> ->]|(_ & OK & _)]; [cbn; lia|exact OK]|exact NE|reflexivity].
  destruct edge; vm_compute; lia.
Qed.

Lemma progress edge pre ws mw s o last blocks q : sizes edge ws mw -> XInv edge ws mw s o last blocks -> t_over s = false -> is_vq (t_have s) q ->
  (exists s', xsteps edge pre mw s s' /\ t_over s' = true /\ t_in s' = t_in s /\ left_over s' = left_over s /\ x_fin (t_x s) = true) \/
  exists s' o' last' blocks' q', xsteps edge pre mw s s' /\ XInv edge ws mw s' o' last' blocks' /\ t_over s' = false /\ t_in s' = t_in s /\ is_vq (t_have s') q' /\
    ((x_s (t_x s') = x_s (t_x s) /\ x_fin (t_x s') = x_fin (t_x s) /\ q' <= o_S o' /\ o_S o' - q' < o_S o - q) \/
     (x_fin (t_x s) = false /\ (rank s' < rank s)%nat /\ (x_fin (t_x s') = true -> left_over s' = []))).
Proof.
  intros SZ X OV V. destruct (hs_space edge) as [H1 H2].
  destruct (loop_inv _ _ _ (xi_loop _ _ _ _ _ _ _ X)) as [R A C HV T LG P]. cbn [p_o p_have p_air p_last] in *.
  destruct (row_is _ _ _ _ _ _ _ _ X V) as [Q _]. destruct (vr_exists _ _ HV) as [r VR].
  destruct (Z.eq_dec q (o_S o)) as [QS|QS]; [destruct (x_fin (t_x s)) eqn:F|].
  - left. destruct (di_seg _ _ _ _ (xi_d _ _ _ _ _ _ _ X)) as [_ _ _ _ SF _]. destruct (SF F) as (_ & l & b & BL & FB & _).
    pose proof (xi_len _ _ _ _ _ _ _ X) as XN. rewrite BL, app_length in XN. cbn [length] in XN.
    exists (mk_xfer (t_x s) (t_in s) (t_air s) (t_have s) (t_got s) (t_rep s) true).
    split; [apply xs_one, (X_final edge pre mw s q V); [lia|]|].
    { rewrite (xi_got _ _ _ _ _ _ _ X) by (apply V; lia). replace (q - 1) with (Z.of_nat (length l)) by lia. rewrite BL, bth_last. exact FB. }
    repeat split.
  - (* a new block *)
    right. destruct (do_report _ pre _ _ _ _ _ _ _ _ X OV V VR) as (s1 & o1 & l1 & ST1 & X1 & I1 & HV1 & OV1 & ES1 & EF1 & SO1 & AO1 & NK1).
    destruct (do_send _ pre _ _ _ _ _ _ X1 OV1) as (x & j & o2 & bl2 & ST2 & X2 & AO2 & B2 & J2 & N2 & E2).
    specialize (E2 ltac:(congruence) ltac:(congruence)). destruct B2 as [[B2 _]|(sb & B2 & B3 & B4 & B5)]; [contradiction|].
    eexists _, o2, l1, bl2, q. split; [eapply xs_trans; [exact ST1|apply xs_one, ST2]|]. split; [exact X2|]. cbn [t_x t_in t_have t_over].
    split; [exact OV1|]. split; [exact I1|]. split; [rewrite HV1; exact V|]. right. split; [reflexivity|].
    pose proof (di_seg _ _ _ _ (xi_d _ _ _ _ _ _ _ X1)) as SI. rewrite B3 in SI. destruct (new_block _ _ _ _ _ _ SI B5) as [W1 W2].
    unfold rank, left_over. cbn [t_x]. rewrite B4, F, <- ES1. split; [destruct (sb_fbi sb); [lia|destruct W1; [discriminate|lia]]|exact W2].
  - right. destruct (do_report _ pre _ _ _ _ _ _ _ _ X OV V VR) as (s1 & o1 & l1 & ST1 & X1 & I1 & HV1 & OV1 & ES1 & EF1 & SO1 & AO1 & NK1).
    destruct (do_send _ pre _ _ _ _ _ _ X1 OV1) as (x & j & o2 & bl2 & ST2 & X2 & AO2 & B2 & J2 & N2 & _).
    destruct B2 as [(B2 & B3 & B4)|(sb & B2 & B3 & B4 & B5)].
    2:{ eexists _, o2, l1, bl2, q. split; [eapply xs_trans; [exact ST1|apply xs_one, ST2]|]. split; [exact X2|]. cbn [t_x t_in t_have t_over].
      split; [exact OV1|]. split; [exact I1|]. split; [rewrite HV1; exact V|]. right. split; [congruence|].
      pose proof (di_seg _ _ _ _ (xi_d _ _ _ _ _ _ _ X1)) as SI. rewrite B3 in SI. destruct (new_block _ _ _ _ _ _ SI B5) as [W1 W2].
      unfold rank, left_over. cbn [t_x]. rewrite B4, <- EF1, B3, <- ES1. split; [destruct (sb_fbi sb); [lia|destruct W1; [discriminate|lia]]|exact W2]. }
    subst bl2. assert (SO2 : o_S o2 = o_S o) by (rewrite (xi_len _ _ _ _ _ _ _ X2), <- (xi_len _ _ _ _ _ _ _ X); reflexivity).
    set (s2 := mk_xfer x (t_in s1) [(j mod space edge, bth blocks j)] (t_have s1) (t_got s1) (t_rep s1) (t_over s1)) in *.
    assert (V2 : is_vq (t_have s2) q) by (cbn [s2 t_have]; rewrite HV1; exact V).
    assert (JR : q <= j < o_S o) by lia. assert (MW : 0 < mw) by (destruct SZ as [_ Z]; lia).
    destruct (Z.eq_dec j q) as [JQ|JQ].
    + subst j. destruct (do_receive edge pre ws mw s2 o2 l1 blocks q q SZ X2 eq_refl V2 ltac:(lia) ltac:(lia)) as [ST3 X3].
      destruct (vq_grows _ _ _ _ _ _ _ _ X2 V2 _ eq_refl ltac:(lia)) as (q' & V' & QQ).
      eexists _, o2, l1, blocks, q'. split; [eapply xs_trans; [exact ST1|]; eapply xs_trans; [apply xs_one, ST2|apply xs_one, ST3]|].
      split; [exact X3|]. destruct (row_is _ _ _ _ _ _ _ _ X3 V') as [Q' _]. cbn [t_x t_in t_have t_over s2]. split; [exact OV1|]. split; [exact I1|]. split; [exact V'|].
      left. split; [congruence|]. split; [congruence|]. lia.
    + assert (ED : edge = false /\ r <= q).
      { split; [destruct edge; [|reflexivity]; exfalso|destruct (Z_lt_le_dec q r); [exfalso|assumption]];
        (destruct N2 as [N2 _]; [lia|rewrite AO1; apply NK1; [lia|auto]|lia]). }
      destruct ED as [-> RQ].
      destruct (loop_inv _ _ _ (xi_loop _ _ _ _ _ _ _ X2)) as [R2 _ _ HV2 _ _ _]. cbn [p_o p_have p_air p_last] in *.
      destruct (c01_window _ _ _ R2) as [W _]. destruct (reach_Inv _ _ _ R2) as [st [Hs [HR _]]]. pose proof (po_ws2 _ _ (r_par _ _ HR)) as WS. rewrite Hs in WS.
      destruct (do_receive false pre ws mw s2 o2 l1 blocks j q SZ X2 eq_refl V2) as [ST3 X3]; [destruct SZ as [_ Z]; unfold space in WS; lia|lia|].
      set (s3 := mk_xfer (t_x s2) (t_in s2) (t_air s2) (upd (t_have s2) j true) (upd (t_got s2) j (bth blocks j)) (t_rep s2) (t_over s2)) in *.
      assert (V3 : is_vq (t_have s3) q).
      { cbn [s3 t_have]. destruct V2 as (V20 & V21 & V22). split; [exact V20|]. unfold upd. split; [intros i I; destruct (i =? j); [reflexivity|apply V21, I]|].
        replace (q =? j) with false by lia. exact V22. }
      assert (VR3 : is_vr (t_have s3) (j + 1)).
      { cbn [s3 s2 t_have]. rewrite HV1. destruct VR as (R0 & R1 & _). split; [lia|]. unfold upd. split.
        - intros i I. destruct (i =? j) eqn:E; [lia|]. apply R1 in I. lia.
        - right. replace (j + 1 - 1 =? j) with true by lia. reflexivity. }
      destruct (do_report _ pre _ _ _ _ _ _ _ _ X3 OV1 V3 VR3) as (s4 & o4 & l4 & ST4 & X4 & I4 & HV4 & OV4 & ES4 & EF4 & SO4 & AO4 & NK4).
      destruct (do_send _ pre _ _ _ _ _ _ X4 OV4) as (x5 & j5 & o5 & bl5 & ST5 & X5 & AO5 & B5 & J5 & N5 & _).
      destruct N5 as [-> ->]; [lia|rewrite AO4; apply NK4; [lia|right; lia]|]. rewrite AO4 in *.
      destruct B5 as [(_ & B6 & B7)|(sb & B5 & _)].
      2:{ exfalso. apply (f_equal (@length _)) in B5. rewrite app_length in B5. cbn [length] in B5. lia. }
      assert (SO5 : o_S o5 = o_S o) by (rewrite (xi_len _ _ _ _ _ _ _ X5), <- (xi_len _ _ _ _ _ _ _ X); reflexivity).
      set (s5 := mk_xfer x5 (t_in s4) [(q mod space false, bth blocks q)] (t_have s4) (t_got s4) (t_rep s4) (t_over s4)) in *.
      assert (V5 : is_vq (t_have s5) q) by (cbn [s5 t_have]; rewrite HV4; exact V3).
      destruct (do_receive false pre ws mw s5 o5 l4 blocks q q SZ X5 eq_refl V5 ltac:(lia) ltac:(lia)) as [ST6 X6].
      destruct (vq_grows _ _ _ _ _ _ _ _ X5 V5 _ eq_refl ltac:(lia)) as (q' & V' & QQ).
      eexists _, o5, l4, blocks, q'.
      split. { eapply xs_trans; [exact ST1|]. eapply xs_trans; [apply xs_one, ST2|]. eapply xs_trans; [apply xs_one, ST3|]. eapply xs_trans; [exact ST4|].
        eapply xs_trans; [apply xs_one, ST5|apply xs_one, ST6]. }
      split; [exact X6|]. destruct (row_is _ _ _ _ _ _ _ _ X6 V') as [Q' _]. cbn [t_x t_in t_have t_over s5]. split; [exact OV4|]. split; [rewrite I4; exact I1|]. split; [exact V'|].
      left. split; [rewrite B6, ES4; cbn [s3 s2 t_x]; congruence|]. split; [rewrite B7, EF4; cbn [s3 s2 t_x]; congruence|]. lia.
Qed.

Lemma to_the_end edge pre ws mw : sizes edge ws mw -> forall n m s o last blocks q, XInv edge ws mw s o last blocks -> t_over s = false -> is_vq (t_have s) q ->
  (rank s <= n)%nat -> o_S o - q <= Z.of_nat m ->
  exists s', xsteps edge pre mw s s' /\ t_over s' = true /\ t_in s' = t_in s /\
    (x_fin (t_x s) = true -> left_over s' = left_over s) /\ (x_fin (t_x s) = false -> left_over s' = []).
Proof.
  intros SZ. induction n as [n IHn] using lt_wf_ind. induction m as [m IHm] using lt_wf_ind. intros s o last blocks q X OV V RN GP.
  destruct (progress edge pre ws mw s o last blocks q SZ X OV V) as [(s' & ST & A & B & C & D)|(s1 & o1 & l1 & b1 & q1 & ST & X1 & OV1 & I1 & V1 & PR)].
  - exists s'. split; [exact ST|]. split; [exact A|]. split; [exact B|]. split; [intros _; exact C|]. intros F. congruence.
  - destruct PR as [(ES & EF & QL & GL)|(F & RL & FL)].
    + destruct (IHm (Z.to_nat (o_S o1 - q1)) ltac:(lia) s1 o1 l1 b1 q1 X1 OV1 V1) as (s' & ST' & A & B & C & D); [unfold rank in *; rewrite ES, EF; exact RN|lia|].
      exists s'. split; [eapply xs_trans; eassumption|]. split; [exact A|]. split; [congruence|]. rewrite EF in C, D. split; [|exact D].
      intros G. rewrite C by exact G. unfold left_over. congruence.
    + destruct (IHn (rank s1) ltac:(lia) (Z.to_nat (o_S o1 - q1)) s1 o1 l1 b1 q1 X1 OV1 V1) as (s' & ST' & A & B & C & D); [lia|lia|].
      exists s'. split; [eapply xs_trans; eassumption|]. split; [exact A|]. split; [congruence|]. split; [congruence|]. intros _.
      destruct (x_fin (t_x s1)); [rewrite C by reflexivity; apply FL; reflexivity|apply D; reflexivity].
Qed.

Lemma live_end edge pre ws mw s : xreach edge pre ws mw s -> t_over s = false ->
  exists s', xsteps edge pre mw s s' /\ t_over s' = true /\ t_in s' = t_in s /\
    (x_fin (t_x s) = true -> left_over s' = left_over s) /\ (x_fin (t_x s) = false -> left_over s' = []).
Proof.
  intros RC OV. destruct (xinv _ _ _ _ _ RC) as (o & last & blocks & X). destruct RC as [SZ _].
  destruct (loop_inv _ _ _ (xi_loop _ _ _ _ _ _ _ X)) as [R A C HV T LG P]. cbn [p_o p_have p_air p_last] in *.
  destruct (vq_exists _ _ HV) as [q V].
  apply (to_the_end edge pre ws mw SZ (rank s) (Z.to_nat (o_S o - q)) s o last blocks q X OV V); lia.
Qed.
