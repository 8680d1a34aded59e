(** Lemmas stating C01-C04 for the observed window. *)
From Coq Require Import ZArith List Bool Lia ZifyBool.
From Verif Require Import Base.Arith Model.RlcWindow Model.RlcWindowDl Model.TbfDlWindow
  Spec.SendWindow Proofs.DlWindowP Proofs.DlWindowH Proofs.DlWindowI.
From Verif Require Import Spec.DlWindowSpec.
Import ListNotations.
Local Open Scope Z_scope.

Lemma blk_st : forall sns o st i, Inv sns o st -> outstanding o i -> blk o i = conc (st i).
Proof.
  intros sns o st i [Hs [HR _]] Hi. unfold blk.
  rewrite vb_get_mod by apply HR. apply (r_st _ _ HR). exact Hi.
Qed.

Lemma c01_window : forall sns ws o, dl_reach sns ws o ->
  0 <= o_S o - o_A o <= dw_ws (o_w o) /\
  dl_distance (o_w o) = o_S o - o_A o /\
  (dl_stalled (o_w o) = true <-> o_S o - o_A o = dw_ws (o_w o)) /\
  (dl_empty (o_w o) = true <-> o_S o = o_A o) /\
  dw_vs (o_w o) = o_S o mod sns /\ dw_va (o_w o) = o_A o mod sns.
Proof.
  intros sns ws o H. destruct (reach_Inv _ _ _ H) as [st [Hs [HR _]]].
  subst sns. splits.
  - apply (r_rng _ _ HR).
  - apply (r_rng _ _ HR).
  - apply (distance_spec _ _ HR).
  - apply (stalled_spec _ _ HR).
  - apply (empty_spec _ _ HR).
  - apply (r_vs _ _ HR).
  - apply (r_va _ _ HR).
Qed.

(** C02 *)
Lemma c02_passed : forall sns ws o op o', dl_reach sns ws o -> ws_grows op (o_w o) ->
  obs_step op o = Some o' -> op <> DReport true (match op with DReport _ b => b | _ => [] end) ->
  forall i, o_A o <= i < o_A o' -> last_about i (o_log o') = Some (AckRep i).
Proof.
  intros sns ws o op o' H Hg Hst Hnf i Hi.
  destruct (reach_Inv _ _ _ H) as [st [Hs [HR [He HL]]]].
  destruct op as [e1 e2 s1 s2 | final bits | ws'].
  - simpl in Hst. destruct (tbf_create_dl_acked_block e1 e2 s1 s2 (o_w o)) as [[w' sent]|];
      [|discriminate]. inversion Hst; subst o'. simpl in Hi. lia.
  - destruct final; [congruence|].
    destruct (report_spec (o_w o) _ bits HR)
      as [w' [b [lost [recv [T1 [T2 [T3 [T4 [T5 [T6 [T7 [T8 T9]]]]]]]]]]]].
    simpl in Hst. rewrite T1 in Hst. inversion Hst; subst o'. simpl in Hi |- *. simpl in T4, T5.
    pose proof (r_rng _ _ HR) as Hrng. simpl in Hrng.
    pose proof (po_ws _ _ (r_par _ _ HR)) as Hws.
    pose proof (po_ws2 _ _ (r_par _ _ HR)) as Hws2.
    assert (HA : o_A o + (dw_va w' - dw_va (o_w o)) mod dw_sns (o_w o) = b).
    { rewrite (r_va _ _ T7), (r_va _ _ HR), T9. simpl.
      rewrite mod_sub_dist by lia. lia. }
    specialize (T5 i ltac:(lia)).
    unfold report_events. rewrite find_report. unfold after_report in T5. simpl in T5.
    destruct (nth_error bits (Z.to_nat (i - o_A o))) as [c|] eqn:En.
    + assert (Hlt : (Z.to_nat (i - o_A o) < length bits)%nat).
      { apply nth_error_Some. congruence. }
      destruct ((o_A o <=? i) && (i <? _)) eqn:E; [|lia].
      rewrite (nth_nth_error _ _ _ En). destruct c; congruence.
    + apply nth_error_None in En.
      destruct ((o_A o <=? i) && (i <? _)) eqn:E; [lia|].
      apply HL; simpl; auto. lia.
  - simpl in Hst. unfold dl_set_ws in Hst.
    destruct (set_ws_check ws'); [|discriminate]. inversion Hst; subst o'. simpl in Hi. lia.
Qed.

Lemma c02_edge : forall sns ws o, dl_reach sns ws o -> outstanding o (o_A o) ->
  last_about (o_A o) (o_log o) <> Some (AckRep (o_A o)) /\ blk o (o_A o) <> DlAcked.
Proof.
  intros sns ws o H Hout. destruct (reach_Inv _ _ _ H) as [st HI].
  pose proof HI as [Hs [HR [He HL]]].
  assert (Hna : st (o_A o) <> Acked). { apply He. simpl. unfold outstanding in Hout. lia. }
  split.
  - intro Hc. apply Hna. apply (HL (o_A o)); auto.
  - rewrite (blk_st _ _ _ _ HI Hout). destruct (st (o_A o)); simpl; congruence.
Qed.

Lemma c02_log_state : forall sns ws o i, dl_reach sns ws o -> outstanding o i ->
  (blk o i = DlAcked <-> last_about i (o_log o) = Some (AckRep i)) /\
  (last_about i (o_log o) = Some (NackRep i) -> blk o i = DlNacked).
Proof.
  intros sns ws o i H Hout. destruct (reach_Inv _ _ _ H) as [st HI].
  pose proof HI as [Hs [HR [He HL]]]. rewrite (blk_st _ _ _ _ HI Hout).
  destruct (HL i Hout) as [P1 P2]. simpl in P1, P2. split.
  - rewrite <- P1. destruct (st i); simpl; split; congruence.
  - intro Hc. now rewrite (P2 Hc).
Qed.

(** C03 *)
Lemma needs_conc : forall s, DlWindowSpec.needs_resend (conc s) <-> SendWindow.needs_resend s.
Proof.
  intros s. unfold DlWindowSpec.needs_resend, SendWindow.needs_resend.
  destruct s; simpl; split; intros [|]; try congruence; auto.
Qed.

Lemma c03_oldest : forall sns ws o, dl_reach sns ws o ->
  (exists i, dl_resend_needed (o_w o) = Some (i mod sns) /\ outstanding o i /\
     DlWindowSpec.needs_resend (blk o i) /\
     forall j, o_A o <= j < i -> ~ DlWindowSpec.needs_resend (blk o j)) \/
  (dl_resend_needed (o_w o) = Some (-1) /\
     forall j, outstanding o j -> ~ DlWindowSpec.needs_resend (blk o j)).
Proof.
  intros sns ws o H. destruct (reach_Inv _ _ _ H) as [st HI].
  pose proof HI as [Hs [HR [He HL]]]. subst sns.
  destruct (resend_needed_spec _ _ HR) as [[i [[O1 [O2 O3]] E]]|[Hn E]].
  - left. exists i. splits; auto.
    + rewrite (blk_st _ _ _ _ HI O1). now apply needs_conc.
    + intros j Hj. assert (Hout : outstanding o j) by (unfold outstanding; simpl in O1; lia).
      rewrite (blk_st _ _ _ _ HI Hout). rewrite needs_conc. apply O3. exact Hj.
  - right. split; auto. intros j Hj. rewrite (blk_st _ _ _ _ HI Hj). rewrite needs_conc.
    apply Hn. exact Hj.
Qed.

Lemma filter_length_S : forall (f : nat -> bool) k l,
  Z.of_nat (length (filter f (k :: l))) = (if f k then 1 else 0) + Z.of_nat (length (filter f l)).
Proof. intros. simpl. destruct (f k); simpl length; lia. Qed.

Lemma count_unacked_filter : forall a (g : Z -> bool) n k,
  (forall j, (k <= j < k + n)%nat ->
     g (sA a + Z.of_nat j) = match sst a (sA a + Z.of_nat j) with Unacked => true | _ => false end) ->
  count_unacked_from a (sA a + Z.of_nat k) n
  = Z.of_nat (length (filter (fun j => g (sA a + Z.of_nat j)) (seq k n))).
Proof.
  intros a g n. induction n as [|n IH]; intros k Hg; [reflexivity|].
  cbn [count_unacked_from seq]. rewrite filter_length_S. rewrite Hg by lia.
  replace (sA a + Z.of_nat k + 1) with (sA a + Z.of_nat (S k)) by lia.
  rewrite (IH (S k)) by (intros; apply Hg; lia).
  destruct (sst a (sA a + Z.of_nat k)); reflexivity.
Qed.

Lemma c03_mark : forall sns ws o, dl_reach sns ws o ->
  exists w', dl_mark_for_resend (o_w o)
     = Some (w', count_out o (fun s => dl_state_eqb s DlUnacked)) /\
   dw_va w' = dw_va (o_w o) /\ dw_vs w' = dw_vs (o_w o) /\
   forall i, outstanding o i ->
     vb_get w' (i mod sns) = match blk o i with DlUnacked => DlResend | s => s end.
Proof.
  intros sns ws o H. destruct (reach_Inv _ _ _ H) as [st HI].
  pose proof HI as [Hs [HR [He HL]]]. subst sns.
  destruct (mark_for_resend_spec _ _ HR) as [w' [a' [E1 [E2 [E3 [E4 [E5 [E6 E7]]]]]]]].
  simpl in E1, E3, E4, E7.
  exists w'. splits.
  - rewrite E1. f_equal. f_equal. unfold count_out.
    pose proof (count_unacked_filter (mk_swin (o_A o) (o_S o) st)
      (fun i => dl_state_eqb (blk o i) DlUnacked) (Z.to_nat (o_S o - o_A o)) 0%nat) as Hc.
    cbn [sA sS sst] in Hc. rewrite Z.add_0_r in Hc. apply Hc.
    intros j Hj. rewrite (blk_st _ _ _ _ HI).
    + destruct (st (o_A o + Z.of_nat j)); reflexivity.
    + unfold outstanding. lia.
  - rewrite (r_va _ _ E2), E3, E6. symmetry. apply HR.
  - rewrite (r_vs _ _ E2), E4, E6. symmetry. apply HR.
  - intros i Hi. rewrite <- E6. rewrite vb_get_mod by (rewrite E6; apply HR).
    rewrite (r_st _ _ E2) by (rewrite E3, E4; exact Hi).
    rewrite E7 by exact Hi. rewrite (blk_st _ _ _ _ HI Hi).
    destruct (st i); reflexivity.
Qed.

Lemma count_unacked_loop_spec : forall w a, Rdl w a ->
  forall fuel k cnt (g : Z -> bool),
  (forall i, sA a <= i < sS a -> g i = match sst a i with Acked => false | _ => true end) ->
  sA a + Z.of_nat k <= sS a -> sS a - (sA a + Z.of_nat k) < Z.of_nat fuel ->
  count_unacked_loop fuel w ((sA a + Z.of_nat k) mod dw_sns w) cnt
  = Some (cnt + Z.of_nat (length (filter (fun j => g (sA a + Z.of_nat j))
                    (seq k (Z.to_nat (sS a - (sA a + Z.of_nat k))))))).
Proof.
  intros w a HR fuel. induction fuel as [|f IH]; intros k cnt g Hg Hk Hf; [lia|].
  cbn [count_unacked_loop].
  destruct (Z.eq_dec (sA a + Z.of_nat k) (sS a)) as [He|He].
  - rewrite He. rewrite (bsn_eq_vs _ _ HR). rewrite Z.sub_diag. simpl. f_equal. lia.
  - assert (Hin : sA a <= sA a + Z.of_nat k < sS a) by lia.
    rewrite (bsn_neq_vs _ _ _ HR Hin). rewrite dmod_succ by apply HR.
    replace (sA a + Z.of_nat k + 1) with (sA a + Z.of_nat (S k)) by lia.
    rewrite (IH (S k) _ g) by (auto; lia).
    replace (Z.to_nat (sS a - (sA a + Z.of_nat k)))
      with (S (Z.to_nat (sS a - (sA a + Z.of_nat (S k))))) by lia.
    cbn [seq]. rewrite filter_length_S. rewrite Hg by lia. f_equal.
    destruct (vb_is w ((sA a + Z.of_nat k) mod dw_sns w) DlAcked) eqn:Ev.
    + apply (vb_is_spec w a _ Acked HR Hin) in Ev. rewrite Ev. lia.
    + destruct (sst a (sA a + Z.of_nat k)) eqn:Es; try lia.
      apply (vb_is_spec w a _ Acked HR Hin) in Es. simpl in Es. congruence.
Qed.

Lemma c03_count : forall sns ws o, dl_reach sns ws o ->
  dl_count_unacked (o_w o) = Some (count_out o (fun s => negb (dl_state_eqb s DlAcked))).
Proof.
  intros sns ws o H. destruct (reach_Inv _ _ _ H) as [st HI].
  pose proof HI as [Hs [HR [He HL]]].
  pose proof (r_rng _ _ HR) as Hrng. pose proof (dl_fuel_ge _ _ HR) as Hf. simpl in Hrng, Hf.
  unfold dl_count_unacked. rewrite (r_va _ _ HR). simpl sA.
  pose proof (count_unacked_loop_spec _ _ HR (dl_fuel (o_w o)) 0%nat 0
     (fun i => negb (dl_state_eqb (blk o i) DlAcked))) as Hc.
  cbn [sA sS sst] in Hc. rewrite Z.add_0_r in Hc. rewrite Hc.
  - reflexivity.
  - intros i Hi. rewrite (blk_st _ _ _ _ HI Hi). destruct (st i); reflexivity.
  - lia.
  - lia.
Qed.

(** C04 *)
Lemma count_lost_filter : forall l k (bits : list bool),
  (forall j, (j < length l)%nat -> nth (k + j) bits false = nth j l false) ->
  count_lost l = Z.of_nat (length (filter (fun j => negb (nth j bits false)) (seq k (length l)))).
Proof.
  induction l as [|b l IH]; intros k bits H; [reflexivity|].
  cbn [count_lost length seq]. rewrite filter_length_S.
  rewrite (IH (S k) bits).
  - specialize (H 0%nat ltac:(simpl; lia)). rewrite Nat.add_0_r in H. rewrite H. simpl.
    destruct b; reflexivity.
  - intros j Hj. specialize (H (S j) ltac:(simpl; lia)). simpl in H.
    rewrite <- H. f_equal. lia.
Qed.

Lemma count_acks_filter : forall a l k (bits : list bool) (g : Z -> bool),
  (forall j, (j < length l)%nat -> nth (k + j) bits false = nth j l false) ->
  (forall j, (k <= j < k + length l)%nat ->
    g (sA a + Z.of_nat j) = match sst a (sA a + Z.of_nat j) with Acked => false | _ => true end) ->
  count_new_acks a (sA a + Z.of_nat k) l
  = Z.of_nat (length (filter (fun j => nth j bits false && g (sA a + Z.of_nat j)) (seq k (length l)))).
Proof.
  induction l as [|b l IH]; intros k bits g H Hg; [reflexivity|].
  cbn [count_new_acks length seq]. rewrite filter_length_S.
  replace (sA a + Z.of_nat k + 1) with (sA a + Z.of_nat (S k)) by lia.
  rewrite (IH (S k) bits g).
  - rewrite Hg by (simpl; lia).
    specialize (H 0%nat ltac:(simpl; lia)). rewrite Nat.add_0_r in H. rewrite H. simpl.
    destruct b; simpl; destruct (sst a (sA a + Z.of_nat k)); reflexivity.
  - intros j Hj. specialize (H (S j) ltac:(simpl; lia)). simpl in H.
    rewrite <- H. f_equal. lia.
  - intros j Hj. apply Hg. simpl. lia.
Qed.

Lemma nth_firstn : forall n j (l : list bool), (j < n)%nat -> nth j (firstn n l) false = nth j l false.
Proof.
  induction n; intros j l Hj; [lia|]. destruct l; simpl; auto. destruct j; auto. apply IHn. lia.
Qed.

Lemma c04_report : forall sns ws o bits, dl_reach sns ws o ->
  exists w' o',
   tbf_rcvd_dl_ack false (dw_va (o_w o)) bits (o_w o)
     = Some (w', report_count o bits (fun b _ => negb b),
                 report_count o bits (fun b s => b && negb (dl_state_eqb s DlAcked))) /\
   obs_step (DReport false bits) o = Some o' /\ o_w o' = w' /\ o_S o' = o_S o /\
   forall i, outstanding o i ->
     status_after o' i =
       match nth_error bits (Z.to_nat (i - o_A o)) with
       | Some true => DlAcked | Some false => DlNacked | None => blk o i end.
Proof.
  intros sns ws o bits H. destruct (reach_Inv _ _ _ H) as [st HI].
  pose proof HI as [Hs [HR [He HL]]]. subst sns.
  set (a := mk_swin (o_A o) (o_S o) st) in *.
  pose proof (r_rng _ _ HR) as Hrng. simpl in Hrng.
  pose proof (po_ws _ _ (r_par _ _ HR)) as Hws.
  pose proof (po_ws2 _ _ (r_par _ _ HR)) as Hws2.
  destruct (report_spec (o_w o) a bits HR)
      as [w' [b [lost [recv [T1 [T2 [T3 [T4 [T5 [T6 [T7 [T8 T9]]]]]]]]]]]].
  assert (HA : o_A o + (dw_va w' - dw_va (o_w o)) mod dw_sns (o_w o) = b).
  { rewrite (r_va _ _ T7), (r_va _ _ HR), T9. simpl. simpl in T4.
    rewrite mod_sub_dist by lia. lia. }
  assert (Hlen : length (used_bits a bits)
                 = Z.to_nat (Z.min (o_S o - o_A o) (Z.of_nat (length bits)))).
  { unfold used_bits. rewrite firstn_length. simpl. lia. }
  assert (Hnth : forall j, (j < length (used_bits a bits))%nat ->
             nth (0 + j) bits false = nth j (used_bits a bits) false).
  { intros j Hj. unfold used_bits in *. rewrite firstn_length in Hj.
    rewrite nth_firstn by lia. reflexivity. }
  eexists _, _. splits.
  - rewrite T1. unfold report_count. rewrite <- Hlen. subst lost recv.
    f_equal. f_equal. f_equal.
    + now apply count_lost_filter.
    + pose proof (count_acks_filter a (used_bits a bits) 0%nat bits
        (fun i => negb (dl_state_eqb (blk o i) DlAcked)) Hnth) as Hc.
      cbn [sA sS sst a] in Hc. rewrite Z.add_0_r in Hc. apply Hc.
      intros j Hj. rewrite Hlen in Hj. rewrite (blk_st _ _ _ _ HI).
      * destruct (st (o_A o + Z.of_nat j)); reflexivity.
      * unfold outstanding. lia.
  - simpl. rewrite T1. reflexivity.
  - reflexivity.
  - reflexivity.
  - intros i Hi. unfold status_after. simpl o_A. rewrite HA.
    pose proof (blk_st _ _ _ _ HI Hi) as Hb.
    assert (Hrep : conc (after_report a bits i) = match nth_error bits (Z.to_nat (i - o_A o)) with
       | Some true => DlAcked | Some false => DlNacked | None => blk o i end).
    { unfold after_report. simpl sA. destruct (nth_error bits (Z.to_nat (i - o_A o))) as [[]|]; auto. }
    destruct (Z.ltb_spec i b).
    + rewrite <- Hrep. unfold outstanding in Hi. rewrite T5 by (simpl; lia). reflexivity.
    + rewrite <- Hrep. unfold blk. simpl o_w. rewrite vb_get_mod by (rewrite T9; apply HR).
      apply (r_st _ _ T7). simpl. unfold outstanding in Hi. lia.
Qed.

(** ** Decoding of the reports *)
Lemma bv_pushes_firstn : forall cap l b, Z.of_nat (length b) <= cap -> 
  bv_pushes cap b l = firstn (Z.to_nat cap) (b ++ l).
Proof.
  intros cap l. induction l as [|x l IH]; intros b Hb.
  - simpl. rewrite app_nil_r. rewrite firstn_all2 by lia. reflexivity.
  - change (bv_pushes cap b (x :: l)) with (bv_pushes cap (bv_push cap b x) l).
    unfold bv_push. destruct (Z.ltb_spec (Z.of_nat (length b)) cap).
    + rewrite IH by (rewrite app_length; simpl; lia). rewrite <- app_assoc. reflexivity.
    + rewrite IH by lia. rewrite !firstn_app.
      replace (Z.to_nat cap - length b)%nat with 0%nat by lia. reflexivity.
Qed.

Lemma nth_error_firstn : forall n m (l : list bool), (m < n)%nat ->
  nth_error (firstn n l) m = nth_error l m.
Proof.
  induction n; intros m l Hm; [lia|]. destruct l; simpl; [destruct m; auto|].
  destruct m; simpl; auto. apply IHn. lia.
Qed.

Lemma nth_error_map_seq : forall (f : nat -> bool) n k, (k < n)%nat ->
  nth_error (map f (seq 0 n)) k = Some (f k).
Proof.
  intros f n k H. rewrite nth_error_map. 
  assert (E : nth_error (seq 0 n) k = Some k).
  { rewrite (nth_error_nth' _ 0%nat) by (rewrite seq_length; lia).
    rewrite seq_nth by lia. reflexivity. }
  rewrite E. reflexivity.
Qed.

Lemma nth_error_repeat_true : forall n k,
  nth_error (repeat true n) k = if (k <? n)%nat then Some true else None.
Proof.
  intros n k. destruct (Nat.ltb_spec k n).
  - revert k H. induction n; intros k Hk; [lia|]. destruct k; simpl; auto. apply IHn. lia.
  - apply nth_error_None. rewrite repeat_length. lia.
Qed.

Lemma c04_gprs : forall ws o ssn rbb bits first, dl_reach 128 ws o ->
  decode_gprs_acknack false ssn rbb (o_w o) = (bits, first) ->
  exists o', obs_step (DReport false bits) o = Some o' /\ first = dw_va (o_w o) /\
    forall i, outstanding o i ->
      status_after o' i =
        if ((ssn - o_A o) mod 128 <=? 64) && (i <? o_A o + (ssn - o_A o) mod 128)
        then gprs_bitmap_says ssn rbb i else blk o i.
Proof.
  intros ws o ssn rbb bits first H Hd.
  destruct (c01_window _ _ _ H) as [Hr [_ [_ [_ [_ Hva]]]]].
  destruct (c04_report _ _ _ bits H) as [w' [o' [_ [E [_ [_ Hst]]]]]].
  exists o'. split; auto.
  assert (Hsns : dw_sns (o_w o) = 128).
  { destruct (reach_Inv _ _ _ H) as [st [Hs _]]. exact Hs. }
  assert (Hn : dmod (o_w o) (ssn - dw_va (o_w o)) = (ssn - o_A o) mod 128).
  { rewrite dmod_spec by (rewrite Hsns; left; auto). rewrite Hsns, Hva. apply mod_sub_r. lia. }
  unfold decode_gprs_acknack in Hd. rewrite Hn in Hd.
  pose proof (Z.mod_pos_bound (ssn - o_A o) 128 ltac:(lia)) as Hm.
  set (n := (ssn - o_A o) mod 128) in *.
  destruct (Z.ltb_spec 64 n) as [Hgt|Hle].
  - inversion Hd; subst. split; auto. intros i Hi. rewrite Hst by auto.
    replace (n <=? 64) with false by lia. cbn [andb].
    destruct (Z.to_nat (i - o_A o)); reflexivity.
  - apply pair_equal_spec in Hd. destruct Hd as [Hd1 Hd2]. subst bits first. split; auto. intros i Hi. rewrite Hst by auto.
    rewrite bv_pushes_firstn by (simpl; lia).
    replace (n <=? 64) with true by lia. cbn [andb].
    change (Z.to_nat 64) with 64%nat.
    unfold outstanding in Hi.
    rewrite firstn_all2 by (cbn [app]; rewrite map_length, seq_length; lia).
    cbn [app].
    destruct (Z.ltb_spec i (o_A o + n)) as [Hlt|Hge].
    + rewrite nth_error_map_seq by lia. unfold gprs_bitmap_says.
      assert (Hb : (ssn - i) mod 128 = n - (i - o_A o)).
      { subst n. replace (ssn - i) with ((ssn - o_A o) - (i - o_A o)) by lia.
        rewrite <- mod_sub_l by lia. apply Z.mod_small. lia. }
      rewrite Hb.
      replace (64 - n + Z.of_nat (Z.to_nat (i - o_A o))) with (64 - (n - (i - o_A o))) by lia.
      destruct (rbb (64 - (n - (i - o_A o)))); reflexivity.
    + assert (Hnone : nth_error (map (fun k => rbb (64 - n + Z.of_nat k)) (seq 0 (Z.to_nat n)))
               (Z.to_nat (i - o_A o)) = None).
      { apply nth_error_None. rewrite map_length, seq_length. lia. }
      rewrite Hnone. reflexivity.
Qed.

Lemma c04_egprs : forall sns ws o ssn crbb urbb bits first, dl_reach sns ws o ->
  (ssn - 1 - o_A o) mod sns <= o_S o - o_A o ->
  decode_egprs_acknack false true ssn crbb urbb (o_w o) = (bits, first) ->
  exists o', obs_step (DReport false bits) o = Some o' /\ first = dw_va (o_w o) /\
    forall i, outstanding o i ->
      status_after o' i
      = egprs_report_says true (o_A o + (ssn - 1 - o_A o) mod sns) (bitmap_of crbb urbb) (blk o) i.
Proof.
  intros sns ws o ssn crbb urbb bits first H Hq Hd.
  destruct (c01_window _ _ _ H) as [Hr [_ [_ [_ [_ Hva]]]]].
  destruct (c04_report _ _ _ bits H) as [w' [o' [_ [E [_ [_ Hst]]]]]].
  exists o'. split; auto.
  destruct (reach_Inv _ _ _ H) as [st [Hs [HR _]]].
  pose proof (sns_pos _ (po_sns _ _ (r_par _ _ HR))) as Hpos.
  pose proof (sns_le _ (po_sns _ _ (r_par _ _ HR))) as Hsle.
  pose proof (po_ws2 _ _ (r_par _ _ HR)) as Hws2.
  assert (Hn : dmod (o_w o) (ssn - 1 - dw_va (o_w o)) = (ssn - 1 - o_A o) mod sns).
  { rewrite dmod_spec by apply HR. rewrite Hs, Hva. apply mod_sub_r. lia. }
  unfold decode_egprs_acknack in Hd. rewrite Hn in Hd.
  pose proof (Z.mod_pos_bound (ssn - 1 - o_A o) sns ltac:(lia)) as Hm.
  set (d := (ssn - 1 - o_A o) mod sns) in *.
  set (ones := repeat true (Z.to_nat d)) in *.
  assert (Hlo : length ones = Z.to_nat d) by apply repeat_length.
  assert (Hd1024 : d <= 1024) by lia.
  rewrite (bv_pushes_firstn 1024 ones []) in Hd by (simpl; lia).
  cbn [app] in Hd. change (Z.to_nat 1024) with 1024%nat in Hd.
  rewrite (firstn_all2 ones) in Hd by lia.
  assert (Hpush : bv_push 1024 ones false = firstn 1024 (ones ++ [false])).
  { change (bv_push 1024 ones false) with (bv_pushes 1024 ones [false]).
    rewrite bv_pushes_firstn by lia. reflexivity. }
  assert (Hcat : forall x l, bv_pushes 1024 (firstn 1024 x) l = firstn 1024 (x ++ l)).
  { intros x l. rewrite bv_pushes_firstn by (rewrite firstn_length; lia).
    change (Z.to_nat 1024) with 1024%nat. rewrite !firstn_app, firstn_firstn, firstn_length.
    f_equal. destruct (Nat.le_gt_cases 1024 (length x)).
    - rewrite Nat.min_l by lia. replace (1024 - 1024)%nat with 0%nat by lia.
      replace (1024 - length x)%nat with 0%nat by lia. reflexivity.
    - rewrite (Nat.min_r 1024 (length x)) by lia. reflexivity. }
  assert (Hbits : first = dw_va (o_w o) /\
     bits = match bitmap_of crbb urbb with
            | None => ones | Some l => firstn 1024 (ones ++ false :: l) end).
  { destruct crbb as [[[] l]|]; simpl in Hd; simpl bitmap_of.
    - inversion Hd. split; auto. rewrite Hpush. rewrite !Hcat.
      rewrite <- !app_assoc. reflexivity.
    - inversion Hd. split; auto. rewrite Hpush. rewrite !Hcat.
      rewrite <- !app_assoc. reflexivity.
    - destruct urbb as [|u urbb]; simpl in Hd; inversion Hd; split; auto.
      rewrite Hpush. change (bv_push 1024 (firstn 1024 (ones ++ [false])) u) with
        (bv_pushes 1024 (firstn 1024 (ones ++ [false])) [u]). rewrite !Hcat.
      rewrite <- !app_assoc. reflexivity. }
  destruct Hbits as [Hfirst Hbits]. split; auto.
  intros i Hi. rewrite Hst by auto. rewrite Hbits.
  unfold outstanding in Hi. unfold egprs_report_says.
  destruct (bitmap_of crbb urbb) as [l|].
  - rewrite nth_error_firstn by lia.
    destruct (Z.ltb_spec i (o_A o + d)).
    + rewrite nth_error_app1 by lia. unfold ones. rewrite nth_error_repeat_true.
      destruct (Nat.ltb_spec (Z.to_nat (i - o_A o)) (Z.to_nat d)); [reflexivity|lia].
    + rewrite nth_error_app2 by lia. rewrite Hlo.
      destruct (Z.eqb_spec i (o_A o + d)).
      * replace (Z.to_nat (i - o_A o) - Z.to_nat d)%nat with 0%nat by lia. reflexivity.
      * replace (Z.to_nat (i - o_A o) - Z.to_nat d)%nat
          with (S (Z.to_nat (i - (o_A o + d) - 1))) by lia.
        reflexivity.
  - unfold ones. rewrite nth_error_repeat_true.
    destruct (Z.ltb_spec i (o_A o + d));
      destruct (Nat.ltb_spec (Z.to_nat (i - o_A o)) (Z.to_nat d)); try lia; reflexivity.
Qed.
