(** PCU, radio link and mobile together. *)
From Coq Require Import ZArith List Bool Lia ZifyBool.
From Verif Require Import Base.Arith Model.CodingScheme Model.RlcCps Model.RlcWindow Model.RlcWindowDl Model.TbfDlWindow Model.Segment Model.DlTransfer
  Spec.SendWindow Proofs.DlWindowP Proofs.DlWindowH Proofs.DlWindowI Proofs.DlWindowProps Spec.SegSpec Proofs.SegP Proofs.SegQ Proofs.DlTransferP.
From Verif Require Import Spec.DlWindowSpec Spec.DlLoopSpec Spec.DlTransferSpec Proofs.DlLoopP Proofs.DlTransferQ.
Import ListNotations.
Local Open Scope Z_scope.

Record XInv (edge : bool) (ws mw : Z) (s : xfer) (o : obs) (last : have) (blocks : list sent_block) : Prop := {
  xi_loop : dl_loop (space edge) ws (mk_loop o (t_have s) (t_rep s) last);
  xi_w : o_w o = x_w (t_x s);
  xi_len : o_S o = Z.of_nat (length blocks);
  xi_d : DInv edge (t_x s) blocks (t_in s);
  xi_air : Forall (onair edge blocks) (t_air s);
  xi_got : forall i, t_have s i = true -> t_got s i = bth blocks i;
  xi_over : t_over s = true -> x_fin (t_x s) = true /\ forall i, 0 <= i < o_S o -> t_have s i = true }.

Lemma hs_space edge : space edge = 2 * hs edge /\ 64 <= hs edge <= 1024.
Proof. unfold space, hs. destruct edge; lia. Qed.

Lemma xinv_new edge ws mw : sizes edge ws mw -> XInv edge ws mw (xfer_new (space edge) ws) (obs_init (space edge) ws) nothing [].
Proof.
  intros [P _]. constructor; cbn; try reflexivity; try discriminate.
  - apply L_start, P.
  - constructor; [cbn; lia|apply sinv_new].
  - constructor.
Qed.

Lemma bth_pre l l' i : 0 <= i < Z.of_nat (length l) -> bth (l ++ l') i = bth l i.
Proof. intros I. unfold bth. apply app_nth1. lia. Qed.

(** Where a block that is on the air belongs. *)
Lemma placed edge ws s o last blocks b sb q mw : XInv edge ws mw s o last blocks -> mw <= hs edge -> In (b, sb) (t_air s) -> is_vq (t_have s) q ->
  (b - q) mod space edge < mw -> let i := q + (b - q) mod space edge in 0 <= i < o_S o /\ sb = bth blocks i /\ q <= i.
Proof.
  intros X MW I V L. destruct (loop_inv _ _ _ (xi_loop _ _ _ _ _ _ _ X)) as [R A C HV T LG P]. cbn [p_o p_have p_air p_last] in *.
  destruct (hs_space edge) as [H1 H2].
  pose proof (xi_air _ _ _ _ _ _ _ X) as AIR. rewrite Forall_forall in AIR. destruct (AIR _ I) as (j & E & J1 & J2 & J3). cbn [fst snd] in E, J3. subst b sb.
  pose proof (xi_len _ _ _ _ _ _ _ X) as LN.
  destruct (vq_le (space edge) ws o (t_have s) q R A HV) as [Q1 Q2]; [|exact V|].
  { intros k K. apply (chain_sub _ _ _ C), P, K. }
  destruct (c01_window _ _ _ R) as [W _].
  assert (WS : dw_ws (o_w o) <= hs edge).
  { destruct (reach_Inv _ _ _ R) as [st [Hs [HR _]]]. pose proof (po_ws2 _ _ (r_par _ _ HR)). lia. }
  cbv zeta. rewrite Zminus_mod_idemp_l in *.
  destruct (Z_lt_le_dec j q) as [LT|GE].
  - exfalso. replace (j - q) with ((space edge + j - q) + (-1) * space edge) in L by lia. rewrite Z_mod_plus_full in L.
    rewrite Z.mod_small in L by lia. lia.
  - rewrite Z.mod_small in * by lia. replace (q + (j - q)) with j by lia. split; [lia|]. split; [reflexivity|lia].
Qed.

Lemma xinv_send edge ws mw s o last blocks e1 e2 h1 h2 x air bl' l : XInv edge ws mw s o last blocks -> t_over s = false ->
  tbf_create_dl_acked_block e1 e2 h1 h2 (x_w (t_x s)) = Some (x_w x, map fst air) -> DInv edge x bl' (t_in s) -> Forall (onair edge bl') air ->
  bl' = blocks ++ l -> Z.of_nat (length blocks) <= Z.of_nat (length bl') <= Z.of_nat (length blocks) + 2 ->
  dw_vs (x_w x) = Z.of_nat (length bl') mod space edge ->
  exists o', XInv edge ws mw (mk_xfer x (t_in s) air (t_have s) (t_got s) (t_rep s) (t_over s)) o' last bl' /\ o_A o' = o_A o.
Proof.
  intros X OV S2 S3 S4 S5 S6 S7. destruct (hs_space edge) as [H1 H2].
  destruct (loop_inv _ _ _ (xi_loop _ _ _ _ _ _ _ X)) as [R A C HV T LG P]. cbn [p_o p_have p_air p_last] in *.
  pose proof X as [XL XW XN XD XA XG XO].
  destruct (reach_Inv _ _ _ R) as [st [Hs _]]. rewrite XW in Hs.
  destruct (c01_window _ _ _ R) as (_ & _ & _ & _ & VS & _). rewrite XW in VS.
  set (o' := mk_obs (x_w x) (o_A o) (o_S o + (dw_vs (x_w x) - dw_vs (o_w o)) mod dw_sns (o_w o))
               (map (fun bsn => Sent (unwrap (dw_sns (o_w o)) (o_S o + (dw_vs (x_w x) - dw_vs (o_w o)) mod dw_sns (o_w o)) bsn)) (rev (map fst air)) ++ o_log o)).
  assert (OB : obs_step (DBlock e1 e2 h1 h2) o = Some o') by (cbn [obs_step]; rewrite XW, S2; subst o'; rewrite XW; reflexivity).
  assert (SO : o_S o' = Z.of_nat (length bl')).
  { subst o'. cbn [o_S]. rewrite XW, Hs, S7, VS. rewrite <- Zminus_mod, Z.mod_small; lia. }
  exists o'. split; [|reflexivity]. constructor; cbn [t_x t_in t_air t_have t_got t_rep t_over].
  + exact (L_send _ _ _ e1 e2 h1 h2 o' XL OB).
  + reflexivity.
  + exact SO.
  + exact S3.
  + exact S4.
  + intros i I. rewrite S5, bth_pre; [apply XG, I|]. apply HV in I. lia.
  + congruence.
Qed.
Lemma xinv_arrives edge ws mw s o last blocks h a r x : XInv edge ws mw s o last blocks -> t_over s = false -> t_rep s = (h, a) :: r ->
  d_report (bits_of_answer a (x_w (t_x s))) (t_x s) = Some x ->
  exists o', XInv edge ws mw (mk_xfer x (t_in s) (t_air s) (t_have s) (t_got s) r (t_over s)) o' h blocks /\
    obs_step (DReport false (bits_of_answer a (o_w o))) o = Some o' /\ o_S o' = o_S o /\ x_s x = x_s (t_x s) /\ x_fin x = x_fin (t_x s).
Proof.
  intros X OV ER DR. pose proof X as [XL XW XN XD XA XG XO].
  assert (OB : exists o', obs_step (DReport false (bits_of_answer a (o_w o))) o = Some o' /\ o_w o' = x_w x /\ o_S o' = o_S o /\ x_s x = x_s (t_x s) /\ x_fin x = x_fin (t_x s)).
  { cbn [obs_step]. rewrite XW. unfold d_report in DR. destruct (tbf_rcvd_dl_ack _ _ _ _) as [[[w l1] l2]|]; [|discriminate]. injection DR as <-.
    eexists. split; [reflexivity|]. split; [reflexivity|]. split; [reflexivity|]. split; reflexivity. }
  destruct OB as (o' & OB & W' & S' & ES & EF). exists o'. split; [|split; [exact OB|split; [exact S'|split; assumption]]].
  constructor; cbn [t_x t_in t_air t_have t_got t_rep t_over]; try assumption.
  + exact (L_arrives _ _ _ h a r o' XL ER OB).
  + congruence.
  + unfold d_report in DR. destruct (tbf_rcvd_dl_ack _ _ _ _) as [[[w l1] l2]|]; [|discriminate]. injection DR as <-. destruct XD as [D1 D2]. constructor; [exact D1|exact D2].
  + congruence.
Qed.

Lemma xinv_step edge pre ws mw s s' o last blocks : sizes edge ws mw -> XInv edge ws mw s o last blocks -> xstep edge pre mw s s' ->
  exists o' last' blocks', XInv edge ws mw s' o' last' blocks' /\ exists l, blocks' = blocks ++ l.
Proof.
  intros SZ X ST. destruct (hs_space edge) as [H1 H2]. assert (MW : mw <= hs edge) by (destruct SZ as [(_ & _ & Z1) Z2]; lia).
  destruct (loop_inv _ _ _ (xi_loop _ _ _ _ _ _ _ X)) as [R A C HV T LG P]. cbn [p_o p_have p_air p_last] in *.
  pose proof X as [XL XW XN XD XA XG XO].
  assert (NIL : exists l : list sent_block, blocks = blocks ++ l) by (exists []; symmetry; apply app_nil_r).
  inversion ST as [f NE E|k1 k2 h1 h2 x air OV K1 K2 SE E|n x OV G DW E|b sb q IN V L i E|a TR E|u v w EU E|h a r x OV ER DR E|q V Q0 FB E]; subst s'.
  - exists o, last, blocks. split; [|exact NIL]. constructor; cbn [t_x t_in t_air t_have t_got t_rep t_over]; try assumption.
    destruct XD as [D1 D2]. constructor; [exact D1|]. cbn [d_queue x_s x_fin]. apply sinv_queue; assumption.
  - destruct (reach_Inv _ _ _ R) as [st [Hs [HR [HE _]]]]. rewrite XW in HR, Hs.
    destruct (send_step edge pre k1 k2 h1 h2 (t_x s) blocks (t_in s) _ HR HE Hs A XN XD K1 K2)
      as (x' & air' & bl' & e1 & e2 & S1 & S2 & S3 & S4 & (l & S5) & S6 & S7).
    rewrite SE in S1. injection S1 as <- <-.
    destruct (xinv_send _ _ _ _ _ _ _ _ _ _ _ _ _ _ _ X OV S2 S3 S4 S5 S6 S7) as (o' & X' & _). exists o', last, bl'. split; [exact X'|exists l; exact S5].
  - assert (OB : obs_step (DSetWs n) o = Some (mk_obs (x_w x) (o_A o) (o_S o) (o_log o))).
    { cbn [obs_step]. rewrite XW. unfold d_window in DW. destruct (dl_set_ws (x_w (t_x s)) n); [|discriminate]. injection DW as <-. reflexivity. }
    exists (mk_obs (x_w x) (o_A o) (o_S o) (o_log o)), last, blocks. split; [|exact NIL].
    constructor; cbn [t_x t_in t_air t_have t_got t_rep t_over o_w o_S]; try assumption; try reflexivity.
    + refine (L_window _ _ _ n _ XL _ OB). cbn [p_o]. rewrite XW. exact G.
    + unfold d_window in DW. destruct (dl_set_ws (x_w (t_x s)) n); [|discriminate]. injection DW as <-. destruct XD as [D1 D2]. constructor; [exact D1|exact D2].
    + congruence.
  - destruct (placed _ _ _ _ _ _ _ _ _ _ X MW IN V L) as (I1 & I2 & I3). fold i in I1, I2, I3.
    exists o, last, blocks. split; [|exact NIL]. constructor; cbn [t_x t_in t_air t_have t_got t_rep t_over]; try assumption.
    + exact (L_receive _ _ _ i XL I1).
    + intros j J. unfold upd in *. destruct (j =? i) eqn:E; [apply Z.eqb_eq in E; subst j; exact I2|apply XG, J].
    + intros OV. destruct (XO OV) as [O1 O2]. split; [exact O1|]. intros j J. unfold upd. destruct (j =? i); [reflexivity|apply O2, J].
  - exists o, last, blocks. split; [|exact NIL]. constructor; cbn [t_x t_in t_air t_have t_got t_rep t_over]; try assumption.
    exact (L_answer _ _ _ a XL TR).
  - exists o, last, blocks. split; [|exact NIL]. constructor; cbn [t_x t_in t_air t_have t_got t_rep t_over]; try assumption.
    exact (L_lost _ _ _ u v w XL EU).
  - destruct (xinv_arrives _ _ _ _ _ _ _ _ _ _ _ X OV ER DR) as (o' & X' & _). exists o', h, blocks. split; [exact X'|exact NIL].
  - exists o, last, blocks. split; [|exact NIL]. constructor; cbn [t_x t_in t_air t_have t_got t_rep t_over]; try assumption.
    intros _. destruct V as (V0 & V1 & V2). specialize (V1 (q - 1) ltac:(lia)) as VL. rewrite (XG _ VL) in FB. apply HV in VL.
    destruct (di_seg _ _ _ _ XD) as [_ _ _ SO SF _].
    destruct (x_fin (t_x s)).
    + split; [reflexivity|]. destruct (SF eq_refl) as (_ & l & b & -> & FT & FF). rewrite app_length in XN. cbn [length] in XN.
      intros i I. apply V1. destruct (Z.eq_dec (q - 1) (Z.of_nat (length l))); [lia|]. exfalso. rewrite bth_pre in FB by lia.
      rewrite Forall_forall in FF. rewrite FF in FB; [discriminate|]. apply nth_In. lia.
    + exfalso. specialize (SO eq_refl). rewrite Forall_forall in SO. rewrite SO in FB; [discriminate|]. apply nth_In. lia.
Qed.

Lemma xinv_steps edge pre ws mw s s' : sizes edge ws mw -> xsteps edge pre mw s s' -> forall o last blocks, XInv edge ws mw s o last blocks ->
  exists o' last' blocks', XInv edge ws mw s' o' last' blocks'.
Proof.
  intros SZ. induction 1 as [s|s s1 s2 ST _ IH]; intros o last blocks X; [eauto|].
  destruct (xinv_step _ _ _ _ _ _ _ _ _ SZ X ST) as (o1 & l1 & b1 & X1 & _). exact (IH _ _ _ X1).
Qed.
Lemma xinv edge pre ws mw s : xreach edge pre ws mw s -> exists o last blocks, XInv edge ws mw s o last blocks.
Proof. intros [SZ ST]. eapply xinv_steps; [exact SZ|exact ST|]. apply xinv_new, SZ. Qed.

(** ** What the mobile puts together *)
Lemma vq_exists h n : (forall i, h i = true -> 0 <= i < n) -> exists q, is_vq h q.
Proof.
  intros B. destruct (Z_lt_le_dec n 0) as [N|N].
  { exists 0. split; [lia|]. split; [lia|]. destruct (h 0) eqn:E; [apply B in E; lia|reflexivity]. }
  assert (forall k, 0 <= k -> k <= n -> (forall i, 0 <= i < k -> h i = true) \/ exists q, is_vq h q) as X.
  { intros k K. pattern k. apply natlike_ind; [intros _; left; lia| |exact K]. intros j J IH L.
    destruct (IH ltac:(lia)) as [Y|Y]; [|right; exact Y]. destruct (h j) eqn:E.
    - left. intros i I. destruct (Z.eq_dec i j); [subst; exact E|apply Y; lia].
    - right. exists j. split; [exact J|]. split; [exact Y|exact E]. }
  destruct (X n N ltac:(lia)) as [Y|Y]; [|exact Y]. exists n. split; [exact N|]. split; [exact Y|]. destruct (h n) eqn:E; [apply B in E; lia|reflexivity].
Qed.

Lemma nth_map_seq {A} (f : nat -> A) n : forall k d i, (i < n)%nat -> nth i (map f (seq k n)) d = f (k + i)%nat.
Proof.
  induction n as [|n IH]; intros k d i I; [lia|]. destruct i as [|i]; cbn [seq map nth]; [f_equal; lia|]. rewrite IH by lia. f_equal. lia.
Qed.
Lemma row_is edge ws mw s o last blocks q : XInv edge ws mw s o last blocks -> is_vq (t_have s) q ->
  0 <= q <= o_S o /\ in_row s q = firstn (Z.to_nat q) blocks.
Proof.
  intros X V. destruct (loop_inv _ _ _ (xi_loop _ _ _ _ _ _ _ X)) as [R A C HV T LG P]. cbn [p_o p_have p_air p_last] in *.
  assert (Q : 0 <= q <= o_S o).
  { split; [apply V|]. destruct (vq_le (space edge) ws o (t_have s) q R A HV) as [Q1 Q2]; [|exact V|exact Q2]. intros k K. apply (chain_sub _ _ _ C), P, K. }
  split; [exact Q|]. pose proof (xi_len _ _ _ _ _ _ _ X) as LN.
  apply nth_ext with (d := nob) (d' := nob).
  - unfold in_row. rewrite map_length, seq_length, firstn_length. lia.
  - unfold in_row. rewrite map_length, seq_length. intros n N. rewrite nth_map_seq by lia. cbn [Nat.add].
    rewrite (xi_got _ _ _ _ _ _ _ X) by (apply V; lia). unfold bth. rewrite Nat2Z.id.
    rewrite <- (firstn_skipn (Z.to_nat q) blocks) at 1. apply app_nth1. rewrite firstn_length. lia.
Qed.

Lemma gets_some edge pre ws mw s : xreach edge pre ws mw s -> exists frames, gets edge s frames.
Proof.
  intros RC. destruct (xinv _ _ _ _ _ RC) as (o & last & blocks & X).
  destruct (loop_inv _ _ _ (xi_loop _ _ _ _ _ _ _ X)) as [R A C HV T LG P]. cbn [p_o p_have p_air p_last] in *.
  destruct (vq_exists _ _ HV) as [q V]. destruct (row_is _ _ _ _ _ _ _ _ X V) as [Q RW].
  destruct (si_rx _ _ _ _ _ (di_seg _ _ _ _ (xi_d _ _ _ _ _ _ _ X))) as (RR & lost & E & _).
  rewrite <- (firstn_skipn (Z.to_nat q) blocks), rx_app in E. destruct (rx_run edge (firstn (Z.to_nat q) blocks) ([], [])) as [[fr part]|] eqn:F; [|discriminate].
  exists fr, q, part. split; [exact V|]. rewrite RW. exact F.
Qed.

Lemma real_app a b : real (a ++ b) = real a ++ real b.
Proof. unfold real. rewrite filter_app, map_app. reflexivity. Qed.

Lemma frames_in_order edge pre ws mw s frames : xreach edge pre ws mw s -> gets edge s frames ->
  exists tags rest, tagged tags frames /\ t_in s = real tags ++ rest.
Proof.
  intros RC (q & part & V & G). destruct (xinv _ _ _ _ _ RC) as (o & last & blocks & X).
  destruct (row_is _ _ _ _ _ _ _ _ X V) as [Q RW]. rewrite RW in G.
  destruct (di_seg _ _ _ _ (xi_d _ _ _ _ _ _ _ X)) as [SA [SD _] _ _ _ (RR & lost & E & FD & _)].
  rewrite <- (firstn_skipn (Z.to_nat q) blocks), rx_app, G in E. apply run_grows in E. destruct E as [l E]. cbn [fst] in E.
  set (dn := s_done (x_s (t_x s))) in *.
  exists (firstn (length frames) dn), (real (skipn (length frames) dn) ++ under_way (x_s (t_x s)) ++ s_queue (x_s (t_x s))).
  split; [split|].
  - rewrite <- firstn_map, <- FD, E, <- app_assoc. apply firstn_app_exact.
  - rewrite <- (firstn_skipn (length frames) dn) in SD. apply Forall_app in SD. apply SD.
  - rewrite app_assoc, <- real_app, firstn_skipn. symmetry. exact SA.
Qed.

Lemma complete_all edge pre ws mw s o last blocks : xreach edge pre ws mw s -> XInv edge ws mw s o last blocks -> complete s ->
  x_fin (t_x s) = true /\ forall i, 0 <= i < o_S o -> t_have s i = true.
Proof.
  intros _ X [OV|[F EM]]; [apply (xi_over _ _ _ _ _ _ _ X OV)|]. split; [exact F|]. intros i I.
  pose proof (xi_loop _ _ _ _ _ _ _ X) as L. destruct (loop_inv _ _ _ L) as [R A C HV T LG P]. cbn [p_o p_have p_air p_last] in *.
  destruct (c01_window _ _ _ R) as (_ & _ & _ & EE & _). rewrite <- (xi_w _ _ _ _ _ _ _ X) in EM. apply EE in EM.
  apply (acked_had _ _ _ i L I). unfold status_after. cbn [p_o]. replace (i <? o_A o) with true by lia. reflexivity.
Qed.

Lemma complete_frames edge pre ws mw s frames : xreach edge pre ws mw s -> complete s -> gets edge s frames ->
  exists tags lost, tagged tags (frames ++ lost) /\ t_in s = real tags ++ left_over s /\ (lost = [] \/ edge = false /\ exists x, lost = [x]).
Proof.
  intros RC CP (q & part & V & G). destruct (xinv _ _ _ _ _ RC) as (o & last & blocks & X).
  destruct (complete_all _ _ _ _ _ _ _ _ RC X CP) as [F ALL].
  destruct (row_is _ _ _ _ _ _ _ _ X V) as [Q RW]. rewrite RW in G.
  assert (q = o_S o) as ->.
  { destruct (Z_lt_le_dec q (o_S o)); [|lia]. destruct V as (_ & _ & V). rewrite ALL in V by lia. discriminate. }
  rewrite (xi_len _ _ _ _ _ _ _ X), Nat2Z.id, firstn_all in G.
  destruct (di_seg _ _ _ _ (xi_d _ _ _ _ _ _ _ X)) as [SA [SD _] _ _ SF (RR & lost & E & FD & LO)].
  rewrite G in E. injection E as <-. cbn [fst] in FD. destruct (SF F) as [LF _].
  exists (s_done (x_s (t_x s))), lost. split; [split; [symmetry; exact FD|exact SD]|]. split.
  - rewrite <- SA. unfold all_of, under_way, left_over. rewrite LF. destruct (s_dummy (x_s (t_x s))); reflexivity.
  - destruct LO as [[-> _]|(E & _ & LO)]; [left; reflexivity|right; split; assumption].
Qed.
Lemma complete_egprs pre ws mw s frames : xreach true pre ws mw s -> complete s -> gets true s frames ->
  exists tags, tagged tags frames /\ t_in s = real tags ++ left_over s.
Proof.
  intros RC CP G. destruct (complete_frames _ _ _ _ _ _ RC CP G) as (tags & lost & T & E & [->|[X _]]); [|discriminate].
  rewrite app_nil_r in T. exists tags. split; assumption.
Qed.

Lemma send_total edge pre ws mw s k1 k2 h1 h2 : xreach edge pre ws mw s -> suits edge k1 -> suits2 edge k2 ->
  exists x air, d_send edge pre k1 k2 h1 h2 (t_x s) = Some (x, air) /\ air <> [].
Proof.
  intros RC K1 K2. destruct (xinv _ _ _ _ _ RC) as (o & last & blocks & X).
  destruct (loop_inv _ _ _ (xi_loop _ _ _ _ _ _ _ X)) as [R A C HV T LG P]. cbn [p_o p_have p_air p_last] in *.
  destruct (reach_Inv _ _ _ R) as [st [Hs [HR [HE _]]]]. rewrite (xi_w _ _ _ _ _ _ _ X) in HR, Hs.
  destruct (send_step edge pre k1 k2 h1 h2 (t_x s) blocks (t_in s) _ HR HE Hs A (xi_len _ _ _ _ _ _ _ X) (xi_d _ _ _ _ _ _ _ X) K1 K2)
    as (x' & air' & bl' & e1 & e2 & S1 & _).
  destruct (take_step edge pre k1 (-1) (t_x s) blocks (t_in s) _ HR HE Hs A (xi_len _ _ _ _ _ _ _ X) (xi_d _ _ _ _ _ _ _ X) K1)
    as (x1 & b1 & bl1 & a1 & TT & _ & _ & _ & _ & _ & _ & _ & _ & _ & _ & J).
  exists x', air'. split; [exact S1|]. unfold d_send in S1. rewrite TT in S1.
  destruct J as [[_ J]|(j & -> & _)]; [lia|]. rewrite mod_nonneg_ltb in S1 by apply (sns_pos _ (space_ok edge)).
  destruct k2 as [k2|]; [|injection S1 as _ <-; discriminate].
  destruct (d_take edge pre k2 _ x1) as [[x2 b2]|]; [|discriminate]. destruct (b2 <? 0); injection S1 as _ <-; discriminate.
Qed.
Lemma report_total edge pre ws mw s h a r : xreach edge pre ws mw s -> t_rep s = (h, a) :: r ->
  exists x, d_report (bits_of_answer a (x_w (t_x s))) (t_x s) = Some x.
Proof.
  intros RC E. destruct (xinv _ _ _ _ _ RC) as (o & last & blocks & X).
  destruct (answer_taken _ _ _ h a r (xi_loop _ _ _ _ _ _ _ X) E) as (o' & O & _). cbn [p_o] in O.
  cbn [obs_step] in O. rewrite (xi_w _ _ _ _ _ _ _ X) in O. unfold d_report. destruct (tbf_rcvd_dl_ack _ _ _ _) as [[[w l1] l2]|]; [|discriminate].
  eexists. reflexivity.
Qed.
