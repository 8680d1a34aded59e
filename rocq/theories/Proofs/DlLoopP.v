(** The PCU takes as acknowledged only what the mobile has. *)
From Coq Require Import ZArith List Bool Lia ZifyBool.
From Verif Require Import Base.Arith Model.RlcWindow Model.RlcWindowDl Model.TbfDlWindow
  Spec.SendWindow Proofs.DlWindowP Proofs.DlWindowH Proofs.DlWindowI Proofs.DlWindowProps.
From Verif Require Import Spec.DlWindowSpec Spec.DlLoopSpec.
Import ListNotations.
Local Open Scope Z_scope.

Definition sub (h h' : have) : Prop := forall i, h i = true -> h' i = true.
(** Snapshots grow. *)
Fixpoint chain (h : have) (l : list (have * answer)) (top : have) : Prop :=
  match l with [] => sub h top | (x, _) :: r => sub h x /\ chain x r top end.
Lemma sub_refl h : sub h h. Proof. intros i E. exact E. Qed.
Lemma sub_trans a b c : sub a b -> sub b c -> sub a c. Proof. intros X Y i E. apply Y, X, E. Qed.
Lemma chain_sub l : forall h top, chain h l top -> sub h top.
Proof. induction l as [|[x a] l IH]; intros h top C; [exact C|]. destruct C as [C1 C2]. eapply sub_trans; [exact C1|]. apply IH; exact C2. Qed.
Lemma chain_up l : forall h top top', chain h l top -> sub top top' -> chain h l top'.
Proof.
  induction l as [|[x a] l IH]; intros h top top' C U; [eapply sub_trans; eassumption|]. destruct C as [C1 C2]. split; [exact C1|]. eapply IH; eassumption.
Qed.
Lemma chain_down l h h' top : chain h l top -> sub h' h -> chain h' l top.
Proof. destruct l as [|[x a] l]; cbn [chain]; intros C U; [eapply sub_trans; eassumption|]. destruct C as [C1 C2]. split; [eapply sub_trans; eassumption|exact C2]. Qed.
Lemma chain_snoc l : forall h top a, chain h l top -> chain h (l ++ [(top, a)]) top.
Proof.
  induction l as [|[x b] l IH]; intros h top a C; cbn [chain app]; [split; [exact C|apply sub_refl]|]. destruct C as [C1 C2]. split; [exact C1|]. apply IH, C2.
Qed.
Lemma chain_drop x y z : forall h top, chain h (x ++ y :: z) top -> chain h (x ++ z) top.
Proof.
  induction x as [|[x a] l IH]; intros h top C; cbn [app chain] in *.
  - destruct y as [y b]. destruct C as [C1 C2]. eapply chain_down; eassumption.
  - destruct C as [C1 C2]. split; [exact C1|]. apply IH, C2.
Qed.

Record LInv (sns ws : Z) (s : loop) : Prop := {
  li_reach : dl_reach sns ws (p_o s);
  li_A : 0 <= o_A (p_o s);
  li_chain : chain (p_last s) (p_air s) (p_have s);
  li_have : forall i, p_have s i = true -> 0 <= i < o_S (p_o s);
  li_true : Forall (fun x => truthful sns (fst x) (snd x)) (p_air s);
  li_log : forall i, In (AckRep i) (o_log (p_o s)) -> p_last s i = true;
  li_pass : forall i, 0 <= i < o_A (p_o s) -> p_last s i = true }.

Lemma last_in i e log : last_about i log = Some e -> In e log.
Proof. unfold last_about. intros E. apply find_some in E. apply E. Qed.

(** An answer is understood as it is meant. *)
Lemma vr_le sns ws o h r : dl_reach sns ws o -> 0 <= o_A o -> (forall i, h i = true -> 0 <= i < o_S o) -> (forall i, 0 <= i < o_A o -> h i = true) -> is_vr h r ->
  o_A o <= r <= o_S o.
Proof.
  intros R A H P (R0 & R1 & R2). destruct (c01_window _ _ _ R) as [W _]. split.
  - destruct (Z.eq_dec (o_A o) 0); [lia|]. specialize (P (o_A o - 1) ltac:(lia)). apply R1 in P. lia.
  - destruct R2 as [->|R2]; [lia|]. apply H in R2. lia.
Qed.
Lemma vq_le sns ws o h q : dl_reach sns ws o -> 0 <= o_A o -> (forall i, h i = true -> 0 <= i < o_S o) -> (forall i, 0 <= i < o_A o -> h i = true) -> is_vq h q ->
  o_A o <= q <= o_S o.
Proof.
  intros R A H P (Q0 & Q1 & Q2). destruct (c01_window _ _ _ R) as [W _]. split.
  - destruct (Z_lt_le_dec q (o_A o)); [|lia]. rewrite P in Q2 by lia. discriminate.
  - destruct (Z.eq_dec q 0); [lia|]. specialize (Q1 (q - 1) ltac:(lia)). apply H in Q1. lia.
Qed.

Lemma vq_unique h q q' : is_vq h q -> is_vq h q' -> q' = q.
Proof.
  intros (Y0 & Y1 & Y2) (X0 & X1 & X2). destruct (Z.lt_trichotomy q' q) as [X|[X|X]]; [|exact X|].
  - rewrite Y1 in X2 by lia. discriminate. - rewrite X1 in Y2 by lia. discriminate.
Qed.
Lemma vr_unique h r r' : is_vr h r -> is_vr h r' -> r' = r.
Proof.
  intros (X0 & X1 & X2) (Y0 & Y1 & Y2). destruct X2 as [->|X2], Y2 as [->|Y2]; try lia.
  - apply X1 in Y2. lia. - apply Y1 in X2. lia. - apply Y1 in X2. apply X1 in Y2. lia.
Qed.
Lemma understood sns ws o h a : dl_reach sns ws o -> 0 <= o_A o -> (forall i, h i = true -> 0 <= i < o_S o) -> (forall i, 0 <= i < o_A o -> h i = true) ->
  truthful sns h a ->
  exists o', obs_step (DReport false (bits_of_answer a (o_w o))) o = Some o' /\ o_S o' = o_S o /\
    forall i, outstanding o i ->
      (covers h a i -> status_after o' i = if h i then DlAcked else DlNacked) /\ (~ covers h a i -> status_after o' i = blk o i).
Proof.
  intros R A H P T. destruct (c01_window _ _ _ R) as [W _].
  destruct (reach_Inv _ _ _ R) as [st [Hs [HR _]]].
  assert (WS : dw_ws (o_w o) * 2 <= sns) by (pose proof (po_ws2 _ _ (r_par _ _ HR)); lia).
  assert (SP : 0 < sns) by (pose proof (sns_pos _ (po_sns _ _ (r_par _ _ HR))); lia).
  destruct (c04_report _ _ _ (bits_of_answer a (o_w o)) R) as (w1 & o1 & _ & E1 & _ & ES & _).
  destruct a as [ssn rbb|ssn crbb urbb].
  - destruct T as [-> (r & V & -> & T)]. destruct (vr_le _ _ _ _ _ R A H P V) as [V1 V2].
    destruct (decode_gprs_acknack false (r mod 128) rbb (o_w o)) as [bits first] eqn:D.
    destruct (c04_gprs _ _ _ _ _ _ R D) as (o' & E & _ & S).
    cbn [bits_of_answer] in *. rewrite D in *. cbn [fst] in *.
    exists o'. split; [exact E|]. split; [rewrite E in E1; injection E1 as <-; exact ES|].
    assert (M : (r mod 128 - o_A o) mod 128 = r - o_A o) by (rewrite Zminus_mod_idemp_l; apply Z.mod_small; lia).
    intros i I. unfold outstanding in I. rewrite S, M by exact I. replace (r - o_A o <=? 64) with true by lia. cbn [andb].
    replace (o_A o + (r - o_A o)) with r by lia. split; intros C.
    + destruct C as (r' & V' & C). pose proof (vr_unique _ _ _ V V').
      subst r'. replace (i <? r) with true by lia. unfold gprs_bitmap_says. rewrite Zminus_mod_idemp_l, (Z.mod_small (r - i)) by lia.
      rewrite T by lia. replace (r - (r - i)) with i by lia. reflexivity.
    + destruct (i <? r) eqn:IR; [|reflexivity]. exfalso. apply C. exists r. split; [exact V|lia].
  - destruct T as (q & V & -> & T). destruct (vq_le _ _ _ _ _ R A H P V) as [V1 V2].
    destruct (decode_egprs_acknack false true ((q + 1) mod sns) crbb urbb (o_w o)) as [bits first] eqn:D.
    assert (M : ((q + 1) mod sns - 1 - o_A o) mod sns = q - o_A o).
    { replace ((q + 1) mod sns - 1 - o_A o) with ((q + 1) mod sns - (1 + o_A o)) by lia. rewrite Zminus_mod_idemp_l.
      replace (q + 1 - (1 + o_A o)) with (q - o_A o) by lia. apply Z.mod_small. lia. }
    destruct (c04_egprs _ _ _ _ _ _ _ _ R ltac:(rewrite M; lia) D) as (o' & E & _ & S).
    cbn [bits_of_answer] in *. rewrite D in *. cbn [fst] in *.
    exists o'. split; [exact E|]. split; [rewrite E in E1; injection E1 as <-; exact ES|].
    intros i I. unfold outstanding in I. rewrite S, M by exact I. replace (o_A o + (q - o_A o)) with q by lia.
    pose proof (fun q' => vq_unique h q q' V) as U.
    pose proof V as (Q0 & Q1 & Q2). unfold egprs_report_says. cbn [covers]. split; intros C.
    + destruct C as (q' & V' & C). rewrite (U q' V') in C. destruct (i <? q) eqn:IQ; [rewrite Q1 by lia; reflexivity|].
      destruct (bitmap_of crbb urbb) as [l|]; [|lia]. destruct (i =? q) eqn:IE.
      * replace i with q by lia. rewrite Q2. reflexivity.
      * assert (K : (Z.to_nat (i - q - 1) < length l)%nat) by lia. pose proof (T _ K) as TT.
        destruct (nth_error l (Z.to_nat (i - q - 1))) as [b|] eqn:N; [|apply nth_error_None in N; lia].
        rewrite (nth_nth_error _ _ _ N) in TT. replace (q + 1 + Z.of_nat (Z.to_nat (i - q - 1))) with i in TT by lia. rewrite <- TT.
        destruct b; reflexivity.
    + destruct (i <? q) eqn:IQ.
      { exfalso. apply C. exists q. split; [exact V|]. destruct (bitmap_of crbb urbb); lia. }
      destruct (bitmap_of crbb urbb) as [l|]; [|reflexivity]. destruct (i =? q) eqn:IE.
      * exfalso. apply C. exists q. split; [exact V|lia].
      * destruct (nth_error l (Z.to_nat (i - q - 1))) as [b|] eqn:N; [|reflexivity].
        exfalso. apply C. exists q. split; [exact V|].
        assert ((Z.to_nat (i - q - 1) < length l)%nat) by (apply nth_error_Some; congruence). lia.
Qed.
Lemma covers_dec sns h a i : truthful sns h a -> covers h a i \/ ~ covers h a i.
Proof.
  intros T. destruct a as [ssn rbb|ssn crbb urbb]; cbn [covers].
  - destruct T as [_ (r & V & _)]. destruct (Z_lt_ge_dec i r); [left; exists r; auto|]. right. intros (r' & V' & L).
    pose proof (vr_unique _ _ _ V V'). lia.
  - destruct T as (q & V & _). destruct (bitmap_of crbb urbb) as [l|].
    + destruct (Z_le_gt_dec i (q + Z.of_nat (length l))); [left; exists q; auto|]. right. intros (q' & V' & L).
      pose proof (vq_unique _ _ _ V V'). lia.
    + destruct (Z_lt_ge_dec i q); [left; exists q; auto|]. right. intros (q' & V' & L).
      pose proof (vq_unique _ _ _ V V'). lia.
Qed.

Lemma step_A op o o' : obs_step op o = Some o' -> 0 < dw_sns (o_w o) -> 0 <= o_A o -> 0 <= o_A o'.
Proof.
  intros E P A. destruct op as [e1 e2 s1 s2|final bits|n]; cbn [obs_step] in E.
  - destruct (tbf_create_dl_acked_block _ _ _ _ _) as [[w' sent]|]; [|discriminate]. injection E as <-. exact A.
  - destruct (tbf_rcvd_dl_ack _ _ _ _) as [[[w' l] r]|]; [|discriminate]. destruct final; injection E as <-; cbn [o_A]; [lia|].
    pose proof (Z.mod_pos_bound (dw_va w' - dw_va (o_w o)) _ P). lia.
  - destruct (dl_set_ws _ _) as [w'|]; [|discriminate]. injection E as <-. exact A.
Qed.

Lemma report_in A n bits i log : In (AckRep i) (report_events A n bits ++ log) ->
  In (AckRep i) log \/ (A <= i < A + n /\ nth_error bits (Z.to_nat (i - A)) = Some true).
Proof.
  intros I. apply in_app_or in I. destruct I as [I|I]; [|now left]. right. unfold report_events in I. apply in_map_iff in I.
  destruct I as (k & E & K). rewrite <- in_rev in K. apply in_seq in K. destruct (nth k bits false) eqn:N; [|discriminate].
  injection E as <-. split; [lia|]. replace (Z.to_nat (A + Z.of_nat k - A)) with k by lia.
  destruct (nth_error bits k) as [b|] eqn:X; [|apply nth_error_None in X; lia]. rewrite (nth_nth_error _ _ _ X) in N. now subst.
Qed.

Lemma arrives_inv sns ws s h a r o' : LInv sns ws s -> p_air s = (h, a) :: r ->
  obs_step (DReport false (bits_of_answer a (o_w (p_o s)))) (p_o s) = Some o' ->
  LInv sns ws (mk_loop o' (p_have s) r h).
Proof.
  intros [R A C HV T L P] E O. rewrite E in C, T. cbn [chain] in C. destruct C as [C1 C2]. apply Forall_cons_iff in T. destruct T as [T1 T2].
  cbn [fst snd] in T1.
  assert (PH : forall i, 0 <= i < o_A (p_o s) -> h i = true) by (intros i I; apply C1, P, I).
  assert (HH : forall i, h i = true -> 0 <= i < o_S (p_o s)) by (intros i I; apply HV; exact (chain_sub _ _ _ C2 i I)).
  destruct (understood sns ws (p_o s) h a R A HH PH T1) as (o1 & O1 & SS & U). rewrite O in O1. injection O1 as <-.
  assert (SP : 0 < dw_sns (o_w (p_o s))).
  { destruct (reach_Inv _ _ _ R) as [st [Hs [HR _]]]. pose proof (sns_pos _ (po_sns _ _ (r_par _ _ HR))). lia. }
  assert (LG : forall i, In (AckRep i) (o_log o') -> h i = true).
  { intros i I. destruct (c04_report _ _ _ (bits_of_answer a (o_w (p_o s))) R) as (w1 & o1 & _ & E1 & _ & _ & ST). rewrite O in E1. injection E1 as <-.
    assert (EL : o_log o' = report_events (o_A (p_o s)) (o_S (p_o s) - o_A (p_o s)) (bits_of_answer a (o_w (p_o s))) ++ o_log (p_o s)).
    { clear - O. cbn [obs_step] in O. destruct (tbf_rcvd_dl_ack _ _ _ _) as [[[w' l] r0]|]; [|discriminate]. injection O as <-. reflexivity. }
    rewrite EL in I. apply report_in in I. destruct I as [I|[I N]]; [apply C1, L, I|].
    assert (OI : outstanding (p_o s) i) by (unfold outstanding; lia).
    specialize (ST i OI). rewrite N in ST. destruct (U i OI) as [U1 U2].
    destruct (covers_dec sns h a i T1) as [CV|CV].
    - rewrite (U1 CV) in ST. destruct (h i); [reflexivity|discriminate].
    - rewrite (U2 CV) in ST. apply C1, L. apply (last_in i). apply (c02_log_state _ _ _ _ R OI). exact ST. }
  constructor; cbn [p_o p_have p_air p_last].
  - eapply reach_step; [exact R| |exact O]. exact Logic.I.
  - eapply step_A; eassumption.
  - exact C2.
  - intros i I. rewrite SS. apply HV, I.
  - exact T2.
  - exact LG.
  - intros i I. destruct (Z_lt_le_dec i (o_A (p_o s))); [apply PH; lia|].
    apply LG. apply (last_in i). eapply (c02_passed sns ws (p_o s)); [exact R| |exact O| |lia]; [exact Logic.I|discriminate].
Qed.

Lemma loop_inv sns ws s : dl_loop sns ws s -> LInv sns ws s.
Proof.
  induction 1 as [D|s e1 e2 s1 s2 o' _ IH O|s n o' _ IH G O|s i _ IH I|s a _ IH T|s x y z _ IH E|s h a r o' _ IH E O].
  - constructor; cbn; try lia; try contradiction; try discriminate; [now apply reach_init|constructor].
  - destruct IH as [R A C HV T L P].
    assert (SP : 0 < dw_sns (o_w (p_o s))).
    { destruct (reach_Inv _ _ _ R) as [st [Hs [HR _]]]. pose proof (sns_pos _ (po_sns _ _ (r_par _ _ HR))). lia. }
    assert (F : o_A o' = o_A (p_o s) /\ o_S (p_o s) <= o_S o' /\ forall i, In (AckRep i) (o_log o') -> In (AckRep i) (o_log (p_o s))).
    { clear - O SP. cbn [obs_step] in O. destruct (tbf_create_dl_acked_block _ _ _ _ _) as [[w' sent]|]; [|discriminate]. injection O as <-.
      cbn [o_A o_S o_log]. split; [reflexivity|]. split; [pose proof (Z.mod_pos_bound (dw_vs w' - dw_vs (o_w (p_o s))) _ SP); lia|].
      intros i I. apply in_app_or in I. destruct I as [I|I]; [|exact I]. apply in_map_iff in I. destruct I as (b & E & _). discriminate. }
    destruct F as (F1 & F2 & F3). constructor; cbn [p_o p_have p_air p_last]; try assumption.
    + exact (reach_step sns ws _ (DBlock e1 e2 s1 s2) _ R Logic.I O).
    + now rewrite F1.
    + intros i I. apply HV in I. lia.
    + intros i I. apply L, F3, I.
    + rewrite F1. exact P.
  - destruct IH as [R A C HV T L P].
    assert (F : o_A o' = o_A (p_o s) /\ o_S (p_o s) = o_S o' /\ o_log o' = o_log (p_o s)).
    { clear - O. cbn [obs_step] in O. destruct (dl_set_ws _ _); [|discriminate]. injection O as <-. auto. }
    destruct F as (F1 & F2 & F3). constructor; cbn [p_o p_have p_air p_last]; rewrite ?F1, ?F3, <- ?F2; try assumption.
    eapply reach_step; [exact R|exact G|exact O].
  - destruct IH as [R A C HV T L P]. constructor; cbn [p_o p_have p_air p_last]; try assumption.
    + eapply chain_up; [exact C|]. intros j J. unfold upd. destruct (j =? i); [reflexivity|exact J].
    + intros j J. unfold upd in J. destruct (j =? i) eqn:E; [lia|apply HV, J].
  - destruct IH as [R A C HV T0 L P]. constructor; cbn [p_o p_have p_air p_last]; try assumption.
    + apply chain_snoc, C.
    + apply Forall_app. split; [exact T0|]. constructor; [exact T|constructor].
  - destruct IH as [R A C HV T L P]. rewrite E in C, T. constructor; cbn [p_o p_have p_air p_last]; try assumption.
    + eapply chain_drop, C.
    + apply Forall_app in T. destruct T as [T1 T2]. apply Forall_app. split; [exact T1|]. now inversion T2.
  - eapply arrives_inv; eassumption.
Qed.

(** ** The theorems *)
Lemma acked_had sns ws s i : dl_loop sns ws s -> 0 <= i < o_S (p_o s) -> status_after (p_o s) i = DlAcked -> p_last s i = true /\ p_have s i = true.
Proof.
  intros D I E. destruct (loop_inv _ _ _ D) as [R A C HV T L P].
  assert (X : p_last s i = true).
  { unfold status_after in E. destruct (i <? o_A (p_o s)) eqn:LT; [apply P; lia|]. apply L, (last_in i).
    apply (c02_log_state _ _ _ i R); [unfold outstanding; lia|exact E]. }
  split; [exact X|]. exact (chain_sub _ _ _ C i X).
Qed.

Lemma answer_taken sns ws s h a r : dl_loop sns ws s -> p_air s = (h, a) :: r ->
  exists o', obs_step (DReport false (bits_of_answer a (o_w (p_o s)))) (p_o s) = Some o' /\ o_S o' = o_S (p_o s) /\
    forall i, outstanding (p_o s) i ->
      (covers h a i -> status_after o' i = if h i then DlAcked else DlNacked) /\ (~ covers h a i -> status_after o' i = blk (p_o s) i).
Proof.
  intros D E. destruct (loop_inv _ _ _ D) as [R A C HV T L P]. rewrite E in C, T. cbn [chain] in C. destruct C as [C1 C2].
  apply Forall_cons_iff in T. destruct T as [T1 T2]. cbn [fst snd] in T1.
  apply understood with (ws := ws) (sns := sns); try assumption.
  - intros i I. apply HV. exact (chain_sub _ _ _ C2 i I).
  - intros i I. apply C1, P, I.
Qed.

Lemma all_done sns ws s h a r o' : dl_loop sns ws s -> p_air s = (h, a) :: r ->
  (forall i, 0 <= i < o_S (p_o s) -> h i = true) ->
  obs_step (DReport false (bits_of_answer a (o_w (p_o s)))) (p_o s) = Some o' -> o_A o' = o_S o'.
Proof.
  intros D E F O. destruct (answer_taken _ _ _ _ _ _ D E) as (o1 & O1 & SS & U). rewrite O in O1. injection O1 as <-.
  pose proof (loop_inv _ _ _ (L_arrives sns ws s h a r o' D E O)) as [R' A' C' _ _ L' _]. cbn [p_o p_last] in *.
  destruct (loop_inv _ _ _ D) as [R A C HV T L P]. rewrite E in C, T. cbn [chain] in C. destruct C as [C1 C2].
  apply Forall_cons_iff in T. destruct T as [T1 _]. cbn [fst snd] in T1.
  destruct (c01_window _ _ _ R') as [W' _]. destruct (c01_window _ _ _ R) as [W _].
  destruct (Z.eq_dec (o_A o') (o_S o')) as [EQ|NE]; [exact EQ|exfalso].
  assert (OUT : outstanding o' (o_A o')) by (unfold outstanding; lia).
  destruct (c02_edge _ _ _ R' OUT) as [_ NA].
  assert (HA : o_A (p_o s) <= o_A o').
  { clear - O R. destruct (reach_Inv _ _ _ R) as [st [Hs [HR _]]]. pose proof (sns_pos _ (po_sns _ _ (r_par _ _ HR))) as SP.
    cbn [obs_step] in O. destruct (tbf_rcvd_dl_ack _ _ _ _) as [[[w' l] r0]|]; [|discriminate]. injection O as <-. cbn [o_A].
    pose proof (Z.mod_pos_bound (dw_va w' - dw_va (o_w (p_o s))) (dw_sns (o_w (p_o s))) ltac:(lia)). lia. }
  assert (OI : outstanding (p_o s) (o_A o')) by (unfold outstanding; lia).
  destruct (U _ OI) as [U1 _].
  assert (CV : covers h a (o_A o')).
  { assert (HI : h (o_A o') = true) by (apply F; lia).
    destruct a as [ssn rbb|ssn crbb urbb]; cbn [covers].
    - destruct T1 as [_ (v & V & _)]. exists v. split; [exact V|]. apply V, HI.
    - destruct T1 as (q & V & _). exists q. split; [exact V|].
      assert (o_A o' < q). { destruct V as (Q0 & Q1 & Q2). destruct (Z_lt_le_dec q (o_S (p_o s))); [rewrite F in Q2 by lia; discriminate|]. lia. }
      destruct (bitmap_of crbb urbb); lia. }
  specialize (U1 CV). rewrite F in U1 by lia. unfold status_after in U1. rewrite Z.ltb_irrefl in U1. contradiction.
Qed.
