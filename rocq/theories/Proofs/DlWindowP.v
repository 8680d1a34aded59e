(** The downlink window refines the unbounded window of [Spec.SendWindow]. *)
From Coq Require Import ZArith List Bool Lia ZifyBool.
From Verif Require Import Base.Arith Model.RlcWindow Model.RlcWindowDl Model.TbfDlWindow
  Spec.SendWindow.
Import ListNotations.
Local Open Scope Z_scope.

Definition conc (s : status) : dl_bsn_state :=
  match s with
  | Unacked => DlUnacked | Nacked => DlNacked | Acked => DlAcked | Resend => DlResend
  end.

Record params_ok (sns ws : Z) : Prop := {
  po_sns : sns_ok sns;
  po_ws : 64 <= ws;
  po_ws2 : 2 * ws <= sns }.

Record Rdl (w : dl_window) (a : swin) : Prop := {
  r_par : params_ok (dw_sns w) (dw_ws w);
  r_va : dw_va w = sA a mod dw_sns w;
  r_vs : dw_vs w = sS a mod dw_sns w;
  r_rng : 0 <= sS a - sA a <= dw_ws w;
  r_st : forall i, sA a <= i < sS a -> dw_vb w (slot (dw_sns w) i) = conc (sst a i) }.

(** The lower edge is never an acknowledged block. *)
Definition edge_ok (a : swin) : Prop := sA a < sS a -> sst a (sA a) <> Acked.

Lemma dmod_spec : forall w x, sns_ok (dw_sns w) -> dmod w x = x mod dw_sns w.
Proof.
  intros w x H. unfold dmod, mod_sns. rewrite land_mask_mod by assumption.
  now apply mod16_mod_sns.
Qed.

Lemma vb_get_mod : forall w i, sns_ok (dw_sns w) ->
  vb_get w (i mod dw_sns w) = dw_vb w (slot (dw_sns w) i).
Proof. intros w i H. unfold vb_get, mod_sns_half. rewrite land_1023. reflexivity. Qed.

Lemma vb_mark_mod : forall w i s, sns_ok (dw_sns w) ->
  vb_mark w (i mod dw_sns w) s = with_vb w (upd (dw_vb w) (slot (dw_sns w) i) s).
Proof. intros w i s H. unfold vb_mark, mod_sns_half. rewrite land_1023. reflexivity. Qed.

Lemma params_half : forall sns ws, params_ok sns ws -> ws <= Z.min sns 1024.
Proof.
  intros sns ws [H1 H2 H3]. pose proof (sns_le _ H1). lia.
Qed.

(** Two different outstanding blocks use different array entries. *)
Lemma slot_out_inj : forall sns ws A i j,
  params_ok sns ws -> A <= i < A + ws -> A <= j < A + ws ->
  slot sns i = slot sns j -> i = j.
Proof.
  intros sns ws A i j Hp Hi Hj He.
  pose proof (params_half _ _ Hp).
  apply slot_inj with (n := sns); auto. apply Hp. lia.
Qed.

Lemma dl_state_eqb_spec : forall a b, dl_state_eqb a b = true <-> a = b.
Proof. intros [] []; simpl; split; intro; congruence. Qed.

Lemma conc_inj : forall s t, conc s = conc t -> s = t.
Proof. intros [] []; simpl; congruence. Qed.

Lemma vb_is_spec : forall w a i s,
  Rdl w a -> sA a <= i < sS a ->
  vb_is w (i mod dw_sns w) (conc s) = true <-> sst a i = s.
Proof.
  intros w a i s HR Hi. unfold vb_is.
  rewrite vb_get_mod by apply HR. rewrite (r_st _ _ HR) by assumption.
  rewrite dl_state_eqb_spec. split; intro H.
  - now apply conc_inj.
  - now subst.
Qed.

(** Setting the status of one outstanding block. *)
Definition sset (a : swin) (i : Z) (s : status) : swin :=
  mk_swin (sA a) (sS a) (upd (sst a) i s).

Lemma R_mark : forall w a i s,
  Rdl w a -> sA a <= i < sS a ->
  Rdl (vb_mark w (i mod dw_sns w) (conc s)) (sset a i s).
Proof.
  intros w a i s HR Hi. pose proof HR as [Hp Hva Hvs Hr Hst].
  rewrite vb_mark_mod by apply Hp.
  constructor; simpl; auto.
  intros j Hj. unfold upd at 1.
  destruct (Z.eqb_spec (slot (dw_sns w) j) (slot (dw_sns w) i)) as [He|He].
  - assert (j = i) by (eapply slot_out_inj with (A := sA a); eauto; lia).
    subst j. now rewrite upd_same.
  - assert (j <> i) by congruence.
    rewrite upd_diff by assumption. now apply Hst.
Qed.

Lemma bsn_neq_vs : forall w a i,
  Rdl w a -> sA a <= i < sS a -> (i mod dw_sns w =? dw_vs w) = false.
Proof.
  intros w a i [Hp Hva Hvs Hr Hst] Hi. rewrite Hvs.
  apply Z.eqb_neq. pose proof (sns_pos _ (po_sns _ _ Hp)).
  apply mod_neq_lt; auto. pose proof (po_ws2 _ _ Hp). lia.
Qed.

Lemma bsn_eq_vs : forall w a, Rdl w a -> (sS a mod dw_sns w =? dw_vs w) = true.
Proof. intros w a HR. rewrite (r_vs _ _ HR). apply Z.eqb_refl. Qed.

Lemma dmod_succ : forall w i, sns_ok (dw_sns w) ->
  dmod w (i mod dw_sns w + 1) = (i + 1) mod dw_sns w.
Proof.
  intros w i H. rewrite dmod_spec by assumption. apply mod_add_l. now apply sns_pos.
Qed.

Lemma dl_fuel_ge : forall w a, Rdl w a -> Z.of_nat (dl_fuel w) > sS a - sA a.
Proof.
  intros w a HR. unfold dl_fuel. pose proof (r_rng _ _ HR).
  pose proof (po_ws2 _ _ (r_par _ _ HR)). pose proof (po_ws _ _ (r_par _ _ HR)). lia.
Qed.

(** ** resend_needed *)
Lemma resend_loop_spec : forall w a, Rdl w a ->
  forall fuel i, sA a <= i <= sS a -> sS a - i < Z.of_nat fuel ->
  (exists j, i <= j < sS a /\ needs_resend (sst a j) /\
             (forall k, i <= k < j -> ~ needs_resend (sst a k)) /\
             resend_loop fuel w (i mod dw_sns w) = Some (j mod dw_sns w)) \/
  ((forall k, i <= k < sS a -> ~ needs_resend (sst a k)) /\
   resend_loop fuel w (i mod dw_sns w) = Some (-1)).
Proof.
  intros w a HR fuel. induction fuel as [|f IH]; intros i Hi Hf.
  - exfalso. lia.
  - destruct (Z.eq_dec i (sS a)) as [He|He].
    + right. split; [intros; lia|]. subst i.
      cbn [resend_loop]. rewrite (bsn_eq_vs _ _ HR). reflexivity.
    + assert (Hi' : sA a <= i < sS a) by lia.
      cbn [resend_loop]. rewrite (bsn_neq_vs _ _ _ HR Hi').
      destruct (vb_is w (i mod dw_sns w) DlNacked || vb_is w (i mod dw_sns w) DlResend) eqn:Ev.
      * left. exists i. splits; try lia; try reflexivity.
        apply orb_true_iff in Ev. unfold needs_resend. destruct Ev as [Ev|Ev].
        -- left. apply (vb_is_spec w a i Nacked HR Hi'). exact Ev.
        -- right. apply (vb_is_spec w a i Resend HR Hi'). exact Ev.
      * apply orb_false_iff in Ev. destruct Ev as [E1 E2].
        assert (Hn : ~ needs_resend (sst a i)).
        { intros [Hn|Hn].
          - apply (vb_is_spec w a i Nacked HR Hi') in Hn. simpl in Hn. congruence.
          - apply (vb_is_spec w a i Resend HR Hi') in Hn. simpl in Hn. congruence. }
        rewrite dmod_succ by apply HR.
        destruct (IH (i + 1) ltac:(lia) ltac:(lia)) as [[j [Hj [Hn2 [Hb Hr]]]]|[Hb Hr]].
        -- left. exists j. splits; try lia; auto.
           intros k Hk. destruct (Z.eq_dec k i); [subst; auto|]. apply Hb. lia.
        -- right. split; auto.
           intros k Hk. destruct (Z.eq_dec k i); [subst; auto|]. apply Hb. lia.
Qed.

Lemma resend_needed_spec : forall w a, Rdl w a ->
  (exists j, oldest_resend a j /\ dl_resend_needed w = Some (j mod dw_sns w)) \/
  (none_to_resend a /\ dl_resend_needed w = Some (-1)).
Proof.
  intros w a HR. unfold dl_resend_needed. rewrite (r_va _ _ HR).
  pose proof (dl_fuel_ge _ _ HR). pose proof (r_rng _ _ HR).
  destruct (resend_loop_spec w a HR (dl_fuel w) (sA a) ltac:(lia) ltac:(lia))
    as [[j [H1 [H2 [H3 H4]]]]|[H1 H2]].
  - left. exists j. split; auto. split; [lia|]. split; auto.
  - right. split; auto.
Qed.

(** ** mark_for_resend *)
Definition mark1 (s : status) : status := match s with Unacked => Resend | s => s end.

Fixpoint count_unacked_from (a : swin) (i : Z) (n : nat) : Z :=
  match n with
  | O => 0
  | S m => (match sst a i with Unacked => 1 | _ => 0 end) + count_unacked_from a (i + 1) m
  end.

Lemma count_ext : forall a b n i,
  (forall k, i <= k < i + Z.of_nat n -> sst a k = sst b k) ->
  count_unacked_from a i n = count_unacked_from b i n.
Proof.
  intros a b n. induction n as [|n IH]; intros i H; simpl; auto.
  rewrite (H i) by lia. f_equal. apply IH. intros. apply H. lia.
Qed.

Lemma mark_loop_spec : forall fuel w a i cnt, Rdl w a ->
  sA a <= i <= sS a -> sS a - i < Z.of_nat fuel ->
  exists w' a',
    mark_resend_loop fuel w (i mod dw_sns w) cnt
      = Some (w', cnt + count_unacked_from a i (Z.to_nat (sS a - i))) /\
    Rdl w' a' /\ sA a' = sA a /\ sS a' = sS a /\ dw_ws w' = dw_ws w /\ dw_sns w' = dw_sns w /\
    (forall j, i <= j < sS a -> sst a' j = mark1 (sst a j)) /\
    (forall j, j < i -> sst a' j = sst a j).
Proof.
  intros fuel. induction fuel as [|f IH]; intros w a i cnt HR Hi Hf.
  - exfalso; lia.
  - destruct (Z.eq_dec i (sS a)) as [He|He].
    + subst i. cbn [mark_resend_loop]. rewrite (bsn_eq_vs _ _ HR).
      rewrite Z.sub_diag. simpl. rewrite Z.add_0_r.
      exists w, a. splits; auto; try (intros; lia).
    + assert (Hi' : sA a <= i < sS a) by lia.
      cbn [mark_resend_loop]. rewrite (bsn_neq_vs _ _ _ HR Hi').
      rewrite dmod_succ by apply HR.
      replace (Z.to_nat (sS a - i)) with (S (Z.to_nat (sS a - (i + 1)))) by lia.
      cbn [count_unacked_from].
      destruct (vb_is w (i mod dw_sns w) DlUnacked) eqn:Ev.
      * apply (vb_is_spec w a i Unacked HR Hi') in Ev.
        pose proof (R_mark w a i Resend HR Hi') as HR1. simpl conc in HR1.
        destruct (IH _ (sset a i Resend) (i + 1) (cnt + 1) HR1 ltac:(simpl; lia) ltac:(simpl; lia))
          as [w' [a' [E1 [E2 [E3 [E4 [E5 [E6 [E7 E8]]]]]]]]].
        exists w', a'. simpl in E1, E3, E4, E5, E6, E7, E8.
        assert (Hs : dw_sns (vb_mark w (i mod dw_sns w) DlResend) = dw_sns w) by reflexivity.
        rewrite E1. splits; auto; try lia.
        -- rewrite Ev. f_equal. f_equal.
           rewrite (count_ext (sset a i Resend) a); [lia|].
           intros k Hk. simpl. apply upd_diff. lia.
        -- intros j Hj. destruct (Z.eq_dec j i).
           ++ subst j. rewrite E8 by lia. rewrite upd_same. now rewrite Ev.
           ++ rewrite E7 by lia. now rewrite upd_diff by lia.
        -- intros j Hj. rewrite E8 by lia. now rewrite upd_diff by lia.
      * assert (Hn : sst a i <> Unacked).
        { intro Hn. apply (vb_is_spec w a i Unacked HR Hi') in Hn. simpl in Hn. congruence. }
        destruct (IH w a (i + 1) cnt HR ltac:(lia) ltac:(lia))
          as [w' [a' [E1 [E2 [E3 [E4 [E5 [E6 [E7 E8]]]]]]]]].
        exists w', a'. rewrite E1. splits; auto; try lia.
        -- f_equal. f_equal. destruct (sst a i); try congruence; lia.
        -- intros j Hj. destruct (Z.eq_dec j i).
           ++ subst j. rewrite E8 by lia. destruct (sst a i); simpl; congruence.
           ++ apply E7. lia.
        -- intros j Hj. apply E8. lia.
Qed.

Lemma mark_for_resend_spec : forall w a, Rdl w a ->
  exists w' a',
    dl_mark_for_resend w
      = Some (w', count_unacked_from a (sA a) (Z.to_nat (sS a - sA a))) /\
    Rdl w' a' /\ sA a' = sA a /\ sS a' = sS a /\ dw_ws w' = dw_ws w /\ dw_sns w' = dw_sns w /\
    (forall j, sA a <= j < sS a -> sst a' j = mark1 (sst a j)).
Proof.
  intros w a HR. unfold dl_mark_for_resend. rewrite (r_va _ _ HR).
  pose proof (dl_fuel_ge _ _ HR). pose proof (r_rng _ _ HR).
  destruct (mark_loop_spec (dl_fuel w) w a (sA a) 0 HR ltac:(lia) ltac:(lia))
    as [w' [a' [E1 [E2 [E3 [E4 [E5 [E6 [E7 E8]]]]]]]]].
  exists w', a'. rewrite Z.add_0_l in E1. repeat (split; [solve [auto]|]). auto.
Qed.

Lemma count_nonneg : forall a n i, 0 <= count_unacked_from a i n.
Proof.
  intros a n; induction n as [|n IH]; intro i; simpl; [lia|].
  specialize (IH (i + 1)). destruct (sst a i); lia.
Qed.

Lemma count_pos : forall a n i j, i <= j < i + Z.of_nat n -> sst a j = Unacked ->
  0 < count_unacked_from a i n.
Proof.
  intros a n; induction n as [|n IH]; intros i j Hj Hu; simpl; [lia|].
  pose proof (count_nonneg a n (i + 1)).
  destruct (Z.eq_dec j i).
  - subst. rewrite Hu. lia.
  - specialize (IH (i + 1) j ltac:(lia) Hu). destruct (sst a i); lia.
Qed.

(** ** update (from V(A)) *)
Fixpoint apply_bits (a : swin) (i : Z) (l : list bool) : swin :=
  match l with
  | [] => a
  | b :: r => apply_bits (sset a i (if b then Acked else Nacked)) (i + 1) r
  end.

Fixpoint count_lost (l : list bool) : Z :=
  match l with [] => 0 | b :: r => (if b then 0 else 1) + count_lost r end.
Fixpoint count_new_acks (a : swin) (i : Z) (l : list bool) : Z :=
  match l with
  | [] => 0
  | b :: r => (if b then match sst a i with Acked => 0 | _ => 1 end else 0)
              + count_new_acks a (i + 1) r
  end.

Lemma apply_bits_edges : forall l a i, sA (apply_bits a i l) = sA a /\ sS (apply_bits a i l) = sS a.
Proof. induction l as [|b l IH]; intros; simpl; auto. destruct (IH (sset a i (if b then Acked else Nacked)) (i+1)); simpl in *; auto. Qed.

Lemma apply_bits_st : forall l a i j,
  sst (apply_bits a i l) j =
  if (i <=? j) && (j <? i + Z.of_nat (length l)) then
    match nth_error l (Z.to_nat (j - i)) with
    | Some true => Acked | Some false => Nacked | None => sst a j end
  else sst a j.
Proof.
  induction l as [|b l IH]; intros a i j.
  - simpl. destruct (Z.leb_spec i j); destruct (Z.ltb_spec j (i + 0)); simpl; auto; lia.
  - cbn [apply_bits]. rewrite IH. cbn [length].
    destruct (Z.eq_dec j i).
    + subst j.
      destruct ((i + 1 <=? i) && (i <? i + 1 + Z.of_nat (length l))) eqn:F1; [lia|].
      destruct ((i <=? i) && (i <? i + Z.of_nat (S (length l)))) eqn:F2; [|lia].
      rewrite Z.sub_diag. simpl. rewrite upd_same. destruct b; reflexivity.
    + replace ((i + 1 <=? j) && (j <? i + 1 + Z.of_nat (length l)))
        with ((i <=? j) && (j <? i + Z.of_nat (S (length l)))) by lia.
      destruct ((i <=? j) && (j <? i + Z.of_nat (S (length l)))) eqn:E.
      * replace (Z.to_nat (j - i)) with (S (Z.to_nat (j - (i + 1)))) by lia.
        cbn [nth_error]. destruct (nth_error l (Z.to_nat (j - (i + 1)))) as [[]|]; auto.
        simpl. apply upd_diff. auto.
      * simpl. apply upd_diff. auto.
Qed.

Lemma count_new_acks_ext : forall l a b i,
  (forall k, i <= k -> sst a k = sst b k) -> count_new_acks a i l = count_new_acks b i l.
Proof.
  induction l as [|x l IH]; intros a b i H; simpl; auto.
  rewrite (H i) by lia. f_equal. apply IH. intros; apply H; lia.
Qed.

Lemma update_loop_spec : forall l w a k lost recv, Rdl w a -> 0 <= k ->
  sA a + k + Z.of_nat (length l) <= sS a ->
  exists w',
    update_loop w (sA a mod dw_sns w) k l lost recv
      = (w', lost + count_lost l, recv + count_new_acks a (sA a + k) l) /\
    Rdl w' (apply_bits a (sA a + k) l) /\ dw_ws w' = dw_ws w /\ dw_sns w' = dw_sns w.
Proof.
  induction l as [|b l IH]; intros w a k lost recv HR Hk Hl.
  - exists w. simpl. rewrite !Z.add_0_r. auto.
  - cbn [length] in Hl.
    assert (Hb : dmod w (sA a mod dw_sns w + k) = (sA a + k) mod dw_sns w).
    { rewrite dmod_spec by apply HR. apply mod_add_l. apply sns_pos, HR. }
    assert (Hv : dmod w (dw_va w - 1) = (sA a - 1) mod dw_sns w).
    { rewrite dmod_spec by apply HR. rewrite (r_va _ _ HR). apply mod_sub_l. apply sns_pos, HR. }
    assert (Hne : ((sA a + k) mod dw_sns w =? (sA a - 1) mod dw_sns w) = false).
    { apply Z.eqb_neq. intro He. symmetry in He. revert He. apply mod_neq_lt.
      - apply sns_pos, HR.
      - pose proof (r_rng _ _ HR). pose proof (po_ws2 _ _ (r_par _ _ HR)).
        pose proof (po_ws _ _ (r_par _ _ HR)). lia. }
    cbn [update_loop count_lost count_new_acks apply_bits].
    rewrite Hb, Hv, Hne.
    assert (Hin : sA a <= sA a + k < sS a) by lia.
    assert (Hgo : forall s, exists w1, w1 = vb_mark w ((sA a + k) mod dw_sns w) (conc s) /\
              Rdl w1 (sset a (sA a + k) s) /\ dw_sns w1 = dw_sns w /\ dw_ws w1 = dw_ws w).
    { intros s. eexists. split; [reflexivity|]. split; [now apply R_mark|]. split; reflexivity. }
    assert (Hext : forall s, count_new_acks (sset a (sA a + k) s) (sA a + (k + 1)) l
                   = count_new_acks a (sA a + (k + 1)) l).
    { intros s. apply count_new_acks_ext. intros j Hj. simpl. apply upd_diff. lia. }
    destruct b.
    + destruct (Hgo Acked) as [w1 [Ew1 [HR1 [Hs1 Hw1]]]]. simpl conc in Ew1.
      rewrite <- Ew1.
      specialize (IH w1 (sset a (sA a + k) Acked) (k + 1) lost
        (if vb_is w ((sA a + k) mod dw_sns w) DlAcked then recv else recv + 1) HR1 ltac:(lia)
        ltac:(simpl; lia)).
      simpl sA in IH. rewrite Hs1 in IH. destruct IH as [w' [E [HR' [E1 E2]]]].
      exists w'. rewrite E. rewrite Hext.
      replace (sA a + (k + 1)) with (sA a + k + 1) in * by lia.
      splits; try (apply HR'); try congruence.
      f_equal.
      destruct (vb_is w ((sA a + k) mod dw_sns w) DlAcked) eqn:Ev.
      * apply (vb_is_spec w a _ Acked HR Hin) in Ev. rewrite Ev. lia.
      * destruct (sst a (sA a + k)) eqn:Es; try lia.
        apply (vb_is_spec w a _ Acked HR Hin) in Es. simpl in Es. congruence.
    + destruct (Hgo Nacked) as [w1 [Ew1 [HR1 [Hs1 Hw1]]]]. simpl conc in Ew1.
      rewrite <- Ew1.
      specialize (IH w1 (sset a (sA a + k) Nacked) (k + 1) (lost + 1) recv HR1 ltac:(lia)
        ltac:(simpl; lia)).
      simpl sA in IH. rewrite Hs1 in IH. destruct IH as [w' [E [HR' [E1 E2]]]].
      exists w'. rewrite E. rewrite Hext.
      replace (sA a + (k + 1)) with (sA a + k + 1) in * by lia.
      splits; try (apply HR'); try congruence.
      f_equal. f_equal. lia.
Qed.

Lemma distance_spec : forall w a, Rdl w a -> dl_distance w = sS a - sA a.
Proof.
  intros w a HR. unfold dl_distance. rewrite land_mask_mod by apply HR.
  rewrite (r_va _ _ HR), (r_vs _ _ HR).
  apply mod_sub_dist. apply sns_pos, HR.
  pose proof (r_rng _ _ HR). pose proof (po_ws2 _ _ (r_par _ _ HR)).
  pose proof (po_ws _ _ (r_par _ _ HR)). lia.
Qed.

Definition used_bits (a : swin) (bits : list bool) : list bool :=
  firstn (Z.to_nat (Z.min (Z.of_nat (length bits)) (sS a - sA a))) bits.

Lemma update_spec : forall w a bits, Rdl w a ->
  exists w',
    dl_update w (dw_va w) bits
      = (w', count_lost (used_bits a bits), count_new_acks a (sA a) (used_bits a bits)) /\
    Rdl w' (apply_bits a (sA a) (used_bits a bits)) /\ dw_ws w' = dw_ws w /\ dw_sns w' = dw_sns w.
Proof.
  intros w a bits HR. unfold dl_update. rewrite (distance_spec _ _ HR).
  fold (used_bits a bits). rewrite (r_va _ _ HR).
  pose proof (r_rng _ _ HR).
  destruct (update_loop_spec (used_bits a bits) w a 0 0 0 HR ltac:(lia)) as [w' [E [HR' [E1 E2]]]].
  - unfold used_bits. rewrite firstn_length. lia.
  - rewrite Z.add_0_r in *. exists w'. rewrite E. auto.
Qed.

Lemma apply_used_after : forall a bits i, 0 <= sS a - sA a -> sA a <= i < sS a ->
  sst (apply_bits a (sA a) (used_bits a bits)) i = after_report a bits i.
Proof.
  intros a bits i H Hi. rewrite apply_bits_st. unfold after_report, used_bits.
  rewrite firstn_length.
  assert (Hn : forall n m (l : list bool), (m < n)%nat -> nth_error (firstn n l) m = nth_error l m).
  { clear. induction n; intros m l Hm; [lia|]. destruct l; simpl; [destruct m; auto|].
    destruct m; simpl; auto. apply IHn. lia. }
  destruct ((sA a <=? i) && (i <? sA a + _)) eqn:E.
  - rewrite Hn by lia. reflexivity.
  - assert (nth_error bits (Z.to_nat (i - sA a)) = None) as ->; auto.
    apply nth_error_None. lia.
Qed.

(** ** move_window *)
Lemma move_loop_spec : forall fuel w a i moved, Rdl w a ->
  sA a <= i <= sS a -> sS a - i < Z.of_nat fuel ->
  (forall j, sA a <= j < i -> sst a j = Acked) ->
  exists w' b,
    i <= b <= sS a /\
    move_loop fuel w (i mod dw_sns w) moved = Some (w', moved + (b - i)) /\
    (forall j, i <= j < b -> sst a j = Acked) /\
    (b < sS a -> sst a b <> Acked) /\
    dw_ws w' = dw_ws w /\ dw_sns w' = dw_sns w /\ dw_va w' = dw_va w /\ dw_vs w' = dw_vs w /\
    (forall j, b <= j < sS a -> dw_vb w' (slot (dw_sns w) j) = conc (sst a j)).
Proof.
  (* The loop marks blocks it passes as invalid, so its intermediate states are
     related to the window without those blocks. *)
  intros fuel w a i moved HR.
  assert (G : forall fuel v i moved,
    dw_ws v = dw_ws w -> dw_sns v = dw_sns w -> dw_va v = dw_va w -> dw_vs v = dw_vs w ->
    (forall j, i <= j < sS a -> dw_vb v (slot (dw_sns w) j) = conc (sst a j)) ->
    sA a <= i <= sS a -> sS a - i < Z.of_nat fuel ->
    exists w' b,
      i <= b <= sS a /\
      move_loop fuel v (i mod dw_sns w) moved = Some (w', moved + (b - i)) /\
      (forall j, i <= j < b -> sst a j = Acked) /\
      (b < sS a -> sst a b <> Acked) /\
      dw_ws w' = dw_ws w /\ dw_sns w' = dw_sns w /\ dw_va w' = dw_va w /\ dw_vs w' = dw_vs w /\
      (forall j, b <= j < sS a -> dw_vb w' (slot (dw_sns w) j) = conc (sst a j))).
  { clear fuel i moved. induction fuel as [|f IH]; intros v i moved H1 H2 H3 H4 Hst Hi Hf.
    - exfalso; lia.
    - destruct (Z.eq_dec i (sS a)) as [He|He].
      + subst i. cbn [move_loop]. rewrite H4. rewrite (bsn_eq_vs _ _ HR).
        exists v, (sS a). splits; auto; try lia.
        f_equal. f_equal. lia.
      + assert (Hi' : sA a <= i < sS a) by lia.
        cbn [move_loop]. rewrite H4. rewrite (bsn_neq_vs _ _ _ HR Hi').
        unfold vb_is. rewrite <- H2. rewrite vb_get_mod by (rewrite H2; apply HR).
        rewrite H2. rewrite Hst by lia.
        destruct (dl_state_eqb (conc (sst a i)) DlAcked) eqn:E.
        * assert (Hack : sst a i = Acked).
          { apply conc_inj. apply dl_state_eqb_spec in E. exact E. }
          assert (Hd : dmod v (i mod dw_sns w + 1) = (i + 1) mod dw_sns w).
          { rewrite <- H2. apply dmod_succ. rewrite H2. apply HR. }
          rewrite Hd.
          destruct (IH (vb_mark v (i mod dw_sns w) DlInvalid) (i + 1) (moved + 1))
            as [w' [b [B1 [B2 [B3 [B4 [B5 [B6 [B7 [B8 B9]]]]]]]]]]; auto; try lia.
          -- intros j Hj.
             assert (Hm : vb_mark v (i mod dw_sns w) DlInvalid
                     = with_vb v (upd (dw_vb v) (slot (dw_sns w) i) DlInvalid)).
             { rewrite <- H2. apply vb_mark_mod. rewrite H2. apply HR. }
             rewrite Hm. simpl. rewrite upd_diff.
             ++ apply Hst. lia.
             ++ intro Hs. assert (j = i).
                { eapply slot_out_inj with (A := sA a); eauto. apply HR.
                  pose proof (r_rng _ _ HR); lia. pose proof (r_rng _ _ HR); lia. }
                lia.
          -- exists w', b. splits; auto; try lia.
             ++ rewrite B2. f_equal. f_equal. lia.
             ++ intros j Hj. destruct (Z.eq_dec j i); [subst; auto|]. apply B3. lia.
        * exists v, i. splits; auto; try lia.
          -- f_equal. f_equal. lia.
          -- intros _ Hc. rewrite Hc in E. simpl in E. congruence. }
  intros Hi Hf _. apply G; auto. intros j Hj. apply (r_st _ _ HR). lia.
Qed.

Lemma move_raise_spec : forall w a, Rdl w a ->
  exists w' moved b,
    dl_move_window w = Some (w', moved) /\ moved = b - sA a /\
    sA a <= b <= sS a /\
    (forall j, sA a <= j < b -> sst a j = Acked) /\
    (b < sS a -> sst a b <> Acked) /\
    Rdl (dl_raise w' moved) (mk_swin b (sS a) (sst a)) /\
    dw_ws w' = dw_ws w /\ dw_sns w' = dw_sns w.
Proof.
  intros w a HR. unfold dl_move_window. rewrite (r_va _ _ HR).
  pose proof (dl_fuel_ge _ _ HR). pose proof (r_rng _ _ HR).
  destruct (move_loop_spec (dl_fuel w) w a (sA a) 0 HR ltac:(lia) ltac:(lia) ltac:(intros; lia))
    as [w' [b [B1 [B2 [B3 [B4 [B5 [B6 [B7 [B8 B9]]]]]]]]]].
  rewrite Z.add_0_l in B2.
  exists w', (b - sA a), b. split; [exact B2|]. splits; auto; try lia.
  constructor; simpl.
  - rewrite B5, B6. apply HR.
  - rewrite B6, B7, (r_va _ _ HR). rewrite land_mask_mod by apply HR.
    rewrite mod_add_l by apply sns_pos, HR. f_equal. lia.
  - rewrite B8, B6. apply HR.
  - rewrite B5. lia.
  - intros j Hj. rewrite B6. auto.
Qed.
