(** Invariant of the uplink window under arbitrary arrivals. *)
From Coq Require Import ZArith List Bool Lia ZifyBool.
From Verif Require Import Base.Arith Model.RlcWindow Model.RlcWindowUl Model.TbfUlWindow
  Spec.UlWindowSpec Proofs.UlWindowP.
Import ListNotations.
Local Open Scope Z_scope.

Definition arr (log : list uev) (i : Z) : Prop := exists c far, In (Arr i c far) log.

Definition M (n : Z) : Z := Z.min n 1024.

Record J (n ws0 : Z) (t : ul_tbf) (Q R : Z) (log : list uev) : Prop := {
  j_sns : uw_sns (ut_w t) = n;
  j_ok : sns_ok n;
  j_wsa : 64 <= ws0 <= uw_ws (ut_w t);
  j_wsb : 2 * uw_ws (ut_w t) <= n;
  j_vq : uw_vq (ut_w t) = Q mod n;
  j_vr : uw_vr (ut_w t) = R mod n;
  j_rng : 0 <= Q <= R /\ R <= Q + uw_ws (ut_w t);
  j_log : forall i, arr log i -> 0 <= i < Q + uw_ws (ut_w t);
  j_del : forall i, 0 <= i < Q -> arr log i;
  j_snd : forall i, Q <= i < R -> st (ut_w t) i = UlReceived ->
            exists far, In (Arr i (block_get t (i mod n)) far) log;
  j_last : uw_ws (ut_w t) < 1024 ->
            (0 < Q -> exists far, In (Arr (Q - 1) (block_get t ((Q - 1) mod n)) far) log) /\
            (Q = 0 -> uc_len (block_get t ((-1) mod n)) = 0);
  j_half : ul_half n (uw_ws (ut_w t)) ->
            forall i, R - uw_ws (ut_w t) <= i < R - uw_ws (ut_w t) + M n ->
            st (ut_w t) i = UlReceived -> arr log i;
  j_cmp : ul_half n (uw_ws (ut_w t)) -> no_far log ->
            (forall i, arr log i -> i < R) /\
            (forall i, i < R -> Q <= i \/ R - ws0 <= i -> arr log i ->
               st (ut_w t) i = UlReceived) }.

Lemma J_init : forall n ws, ul_params n ws -> J n ws (ul_tbf_init n ws) 0 0 [].
Proof.
  intros n ws (H1 & H2 & H3). constructor; cbn; auto; try lia.
  - intros i (c & far & []).
  - intros _ i _ H. discriminate.
  - intros _ _. split; intros i.
    + intros (c & far & []).
    + intros _ _ (c & far & []).
Qed.

Lemma M_ge : forall n ws, sns_ok n -> 2 * ws <= n -> ws <= M n.
Proof. intros n ws H H2. unfold M. pose proof (sns_le n H). lia. Qed.

Lemma slot_neq : forall n i j, sns_ok n -> i <> j -> Z.abs (i - j) < M n -> slot n i <> slot n j.
Proof. intros n i j H Hne Hd He. apply Hne. apply slot_inj with n; auto. Qed.

Lemma slot_M : forall n i, sns_ok n -> slot n (i + M n) = slot n i.
Proof.
  intros n i H. rewrite !slot_min by auto. fold (M n).
  pose proof (sns_le n H). replace (i + M n) with (i + 1 * M n) by lia.
  apply Z_mod_plus_full.
Qed.

Lemma st_M : forall w i, sns_ok (uw_sns w) -> st w (i + M (uw_sns w)) = st w i.
Proof. intros w i H. unfold st. now rewrite slot_M. Qed.

Lemma block_get_put : forall t n i c j, sns_ok n ->
  block_get (block_put t (i mod n) c) (j mod n)
  = if slot n j =? slot n i then c else block_get t (j mod n).
Proof.
  intros t n i c j H. unfold block_get, block_put, mod_sns_half, upd. cbn [ut_blocks].
  rewrite !land_1023. reflexivity.
Qed.

Lemma number_mod : forall n Q bsn, 0 < n -> 0 <= bsn < n -> ul_number n Q bsn mod n = bsn.
Proof.
  intros n Q bsn Hn Hb. unfold ul_number. rewrite Zplus_mod_idemp_r.
  replace (Q + (bsn - Q)) with bsn by lia. now apply Z.mod_small.
Qed.

Lemma number_ge : forall n Q bsn, 0 < n -> Q <= ul_number n Q bsn < Q + n.
Proof. intros. unfold ul_number. pose proof (Z.mod_pos_bound (bsn - Q) n). lia. Qed.

Lemma in_window_number : forall n w Q bsn, uw_sns w = n -> sns_ok n -> uw_vq w = Q mod n ->
  ul_in_window w bsn = (ul_number n Q bsn <? Q + uw_ws w).
Proof.
  intros n w Q bsn Hs Hn Hq. unfold ul_in_window, ul_number. rewrite Hs.
  rewrite land_mask_mod by auto. rewrite Hq, mod_sub_r by now apply sns_pos. lia.
Qed.

Lemma arr_cons : forall i c far log j, arr (Arr i c far :: log) j <-> j = i \/ arr log j.
Proof.
  intros. split.
  - intros (c' & far' & [H|H]). inversion H; auto. right. now exists c', far'.
  - intros [->|(c' & far' & H)]. exists c, far; now left. exists c', far'; now right.
Qed.

Lemma no_far_cons : forall i c far log, no_far (Arr i c far :: log) <-> far = false /\ no_far log.
Proof.
  intros. unfold no_far. split.
  - intro H. split. eapply H; now left. intros i' c' far' Hin. apply (H i' c' far'); now right.
  - intros [Hf H] i' c' far' [He|Hin]. inversion He; subst; auto. now apply (H i' c' far').
Qed.

(** A duplicate: the same state with one more entry in the log. *)
Lemma J_dup : forall n ws0 t Q R log i c far, J n ws0 t Q R log ->
  Q <= i < Q + uw_ws (ut_w t) -> st (ut_w t) i = UlReceived ->
  J n ws0 t Q R (Arr i c far :: log).
Proof.
  intros n ws0 t Q R log i c far HJ Hi Hst. destruct HJ.
  constructor; auto.
  - intros k Hk. apply arr_cons in Hk. destruct Hk as [->|Hk]; [lia|auto].
  - intros k Hk. apply arr_cons. auto.
  - intros k Hk Hs. destruct (j_snd0 k Hk Hs) as [f Hf]. exists f. now right.
  - intros Hl. destruct (j_last0 Hl) as [A B]. split; auto.
    intro HQ. destruct (A HQ) as [f Hf]. exists f. now right.
  - intros Hh k Hk Hs. apply arr_cons. right. now apply j_half0.
  - intros Hh Hnf. apply no_far_cons in Hnf. destruct Hnf as [_ Hnf].
    destruct (j_cmp0 Hh Hnf) as [A B].
    assert (Hai : arr log i).
    { apply j_half0; auto. unfold ul_half in Hh. fold (M n) in Hh. lia. }
    split; intros k.
    + intro Hk. apply arr_cons in Hk. destruct Hk as [->|Hk]; auto.
    + intros H1 H2 Hk. apply arr_cons in Hk. destruct Hk as [->|Hk]; auto.
Qed.

(** Storing the content of a block that is not received. *)
Lemma J_put : forall n ws0 t Q R log i c, J n ws0 t Q R log ->
  Q <= i < Q + uw_ws (ut_w t) -> st (ut_w t) i <> UlReceived ->
  J n ws0 (block_put t (i mod n) c) Q R log.
Proof.
  intros n ws0 t Q R log i c HJ Hi Hst. pose proof HJ as HJ'. destruct HJ.
  assert (HM := M_ge n _ j_ok0 j_wsb0).
  constructor; auto.
  - intros k Hk Hs. change (ut_w (block_put t (i mod n) c)) with (ut_w t) in Hs.
    rewrite block_get_put by auto.
    destruct (slot n k =? slot n i) eqn:E; [|auto].
    exfalso. assert (k = i).
    { apply slot_inj with n; auto; fold (M n); lia. }
    subst k. auto.
  - intros Hl. change (ut_w (block_put t (i mod n) c)) with (ut_w t) in Hl.
    destruct (j_last0 Hl) as [A B].
    assert (HM' : uw_ws (ut_w t) < M n) by (unfold M; pose proof (sns_le n j_ok0); lia).
    rewrite !block_get_put by auto.
    split; intro HQ.
    + destruct (slot n (Q - 1) =? slot n i) eqn:E; [|auto].
      exfalso. assert (Q - 1 = i) by (apply slot_inj with n; auto; fold (M n); lia). lia.
    + destruct (slot n (-1) =? slot n i) eqn:E; [|auto].
      exfalso. assert (-1 = i) by (apply slot_inj with n; auto; fold (M n); lia). lia.
Qed.

Lemma J_missing : forall n ws0 t Q R log i, J n ws0 t Q R log ->
  Q <= i < Q + uw_ws (ut_w t) -> st (ut_w t) i <> UlReceived ->
  J n ws0 (with_w t (ul_invalidate_bsn (ut_w t) (i mod n))) Q R log.
Proof.
  intros n ws0 t Q R log i HJ Hi Hst. destruct HJ.
  assert (HM := M_ge n _ j_ok0 j_wsb0).
  assert (Ts : forall k, st (ul_invalidate_bsn (ut_w t) (i mod n)) k
             = if slot n k =? slot n i then UlMissing else st (ut_w t) k).
  { intro k. unfold ul_invalidate_bsn. rewrite st_mark by now rewrite j_sns0.
    rewrite j_sns0. reflexivity. }
  constructor; auto; unfold with_w; cbn [ut_w].
  - intros k Hk Hs. rewrite Ts in Hs. destruct (slot n k =? slot n i); [discriminate|].
    destruct (j_snd0 k Hk Hs) as [f Hf]. exists f. exact Hf.
  - intros Hh k Hk Hs. rewrite Ts in Hs. destruct (slot n k =? slot n i); [discriminate|].
    now apply j_half0.
  - intros Hh Hnf. destruct (j_cmp0 Hh Hnf) as [A B]. split; auto.
    intros k Hk1 Hk2 Ha. rewrite Ts.
    destruct (slot n k =? slot n i) eqn:E; [|auto].
    exfalso. assert (k = i).
    { apply slot_inj with n; auto; [fold (M n)|lia].
      assert (Hh' : 2 * uw_ws (ut_w t) <= M n) by exact Hh. lia. }
    subst k. apply Hst. apply B; auto.
Qed.

Lemma n_even : forall n, sns_ok n -> n = 2 * (n / 2).
Proof. intros n [H|[H|[H|[H|H]]]]; subst n; reflexivity. Qed.

(** Reception of a new block. *)
Lemma J_receive : forall n ws0 t Q R log i c far, J n ws0 t Q R log ->
  Q <= i < Q + uw_ws (ut_w t) -> st (ut_w t) i <> UlReceived ->
  block_get t (i mod n) = c ->
  far = ((i =? Q + uw_ws (ut_w t) - 1) && (R =? Q) && (2 * uw_ws (ut_w t) =? n)) ->
  exists R', J n ws0 (with_w t (ul_receive_bsn (ut_w t) (i mod n))) Q R'
                 (Arr i c far :: log) /\
             R <= R' <= Q + uw_ws (ut_w t) /\
             (far = false -> R' = Z.max R (i + 1)) /\ (far = true -> R' = R).
Proof.
  intros n ws0 t Q R log i c far HJ Hi Hst Hc Hfar.
  destruct HJ.
  assert (HM := M_ge n _ j_ok0 j_wsb0).
  assert (Hev := n_even n j_ok0).
  destruct (receive_spec (ut_w t) Q R i) as
    (w' & R' & Hw' & P1 & P2 & P3 & P4 & P5 & P6 & P7 & P8 & P9 & P10);
    try (rewrite j_sns0); auto; try lia.
  rewrite j_sns0 in *. set (ws := uw_ws (ut_w t)) in *.
  exists R'.
  assert (HR' : R <= R' <= Q + ws /\ (far = false -> R' = Z.max R (i + 1)) /\
                (far = true -> R' = R)).
  { rewrite P4. unfold new_R.
    destruct (i + 1 - R <? 0) eqn:E0; [splits; lia|].
    destruct (i + 1 - R <? n / 2) eqn:E1; splits; try lia. }
  destruct HR' as (HR' & HRf & HRf').
  split; [|splits; auto; lia].
  rewrite Hw'.
  assert (Hcase : R' = R \/ (R' = i + 1 /\ R <= i)).
  { rewrite P4. unfold new_R. destruct (i + 1 - R <? 0) eqn:E0; [lia|].
    destruct (i + 1 - R <? n / 2) eqn:E1; lia. }
  constructor; unfold with_w; cbn [ut_w]; rewrite ?P1, ?P2; fold ws; auto; try lia.
  - intros k Hk. apply arr_cons in Hk. destruct Hk as [->|Hk]; [lia|]. apply j_log0; auto.
  - intros k Hk. apply arr_cons. auto.
  - (* j_snd *)
    intros k Hk Hs.
    change (block_get (mk_ult w' (ut_blocks t)) (k mod n)) with (block_get t (k mod n)).
    destruct (Z.eq_dec k i) as [->|Hne].
    + exists far. left. rewrite Hc. reflexivity.
    + apply P6 in Hs as Hs'. destruct Hs' as [Hs'|Hs'].
      * destruct (Z_lt_ge_dec k R) as [Hlt|Hge].
        -- destruct (j_snd0 k ltac:(lia) Hs') as [f Hf]. exists f. now right.
        -- exfalso. destruct Hcase as [Hc'|[Hc' Hge']]; [lia|].
           apply (P9 k); auto. lia.
      * exfalso. apply Hne. apply slot_inj with n; auto. fold (M n). lia.
  - (* j_last *)
    intros Hl. destruct (j_last0 Hl) as [A B]. split.
    + intro HQ. destruct (A HQ) as [f Hf]. exists f. now right.
    + exact B.
  - (* j_half *)
    intros Hh k Hk Hs. pose proof Hh as Hh'. unfold ul_half in Hh'. fold (M n) in Hh'.
    apply arr_cons. destruct (Z.eq_dec k i) as [->|Hne]; [now left|]. right.
    destruct (Z_lt_ge_dec k (R - ws + M n)) as [Hlt|Hge].
    + apply P6 in Hs as Hs'. destruct Hs' as [Hs'|Hs'].
      * apply j_half0; auto. lia.
      * exfalso. apply Hne. apply slot_inj with n; auto. fold (M n). lia.
    + exfalso. apply (P10 (k - M n + ws)); [lia|].
      replace (k - M n + ws - ws) with (k - M n) by lia.
      rewrite <- st_M by now rewrite P1. rewrite P1. now replace (k - M n + M n) with k by lia.
  - (* j_cmp *)
    intros Hh Hnf. apply no_far_cons in Hnf. destruct Hnf as [Hf Hnf].
    destruct (j_cmp0 Hh Hnf) as [A B]. specialize (HRf Hf).
    unfold ul_half in Hh. fold (M n) in Hh.
    split; intros k.
    + intro Hk. apply arr_cons in Hk. destruct Hk as [->|Hk]; [lia|]. apply A in Hk. lia.
    + intros Hk1 Hk2 Hk. apply arr_cons in Hk. destruct (Z.eq_dec k i) as [->|Hne].
      * apply P8; intros t' Ht'; apply slot_neq; auto; lia.
      * destruct Hk as [Hk|Hk]; [lia|]. assert (HkR := A k Hk).
        rewrite P7; [apply B; auto; lia| | |]; try (intros t' Ht'); apply slot_neq; auto; lia.
Qed.

(** One data block. *)
Lemma J_one : forall n ws0 t Q R log b t1 ret, J n ws0 t Q R log ->
  0 <= ub_bsn b < n -> ul_rcv_one t b = (t1, ret) ->
  exists R', R' = R + (uw_vr (ut_w t1) - uw_vr (ut_w t)) mod n /\
    uw_ws (ut_w t1) = uw_ws (ut_w t) /\
    J n ws0 t1 Q R' (uobs_one Q R n (uw_ws (ut_w t)) b log).
Proof.
  intros n ws0 t Q R log b t1 ret HJ Hb He.
  pose proof HJ as HJ0. destruct HJ0.
  assert (Hn0 := sns_pos n j_ok0).
  assert (Hself : forall x, R = R + (x - x) mod n).
  { intro x. rewrite Z.sub_diag, Z.mod_0_l by lia. lia. }
  unfold ul_rcv_one in He.
  rewrite (in_window_number n (ut_w t) Q (ub_bsn b)) in He by auto.
  unfold uobs_one.
  set (i := ul_number n Q (ub_bsn b)) in *.
  assert (Hi := number_ge n Q (ub_bsn b) Hn0). fold i in Hi.
  assert (Him : i mod n = ub_bsn b) by (apply number_mod; auto).
  destruct (i <? Q + uw_ws (ut_w t)) eqn:Ein; cbn [negb] in He.
  2:{ apply pair_equal_spec in He. destruct He as [<- <-]. exists R. splits; auto. }
  assert (Hvr : vn_is_received (ut_w t) (ub_bsn b) = ul_is_rcvd (st (ut_w t) i)).
  { unfold vn_is_received. rewrite <- Him, <- j_sns0. rewrite vn_get_st; [reflexivity|].
    now rewrite j_sns0. }
  rewrite Hvr in He. clear Hvr.
  assert (Hir : Q <= i < Q + uw_ws (ut_w t)) by lia.
  cbn [andb].
  destruct (ul_is_rcvd (st (ut_w t) i)) eqn:Er.
  { apply pair_equal_spec in He. destruct He as [<- <-]. exists R. splits; auto.
    destruct (negb (ub_incomplete b) && ub_tlli_ok b); [|auto].
    apply J_dup; auto. destruct (st (ut_w t) i); auto; discriminate. }
  assert (Hnr : st (ut_w t) i <> UlReceived) by (intro H; rewrite H in Er; discriminate).
  rewrite <- Him in He.
  assert (HJ1 := J_put n ws0 t Q R log i (ub_content b) HJ Hir Hnr).
  destruct (ub_incomplete b); cbn [negb andb].
  { apply pair_equal_spec in He. destruct He as [<- <-]. exists R. splits; auto. }
  destruct (ub_tlli_ok b).
  - apply pair_equal_spec in He. destruct He as [<- <-].
    destruct (J_receive n ws0 _ Q R log i (ub_content b)
      ((i =? Q + uw_ws (ut_w t) - 1) && (R =? Q) && (2 * uw_ws (ut_w t) =? n)) HJ1)
      as (R' & HJ2 & HR' & _); auto.
    { rewrite block_get_put by auto. now rewrite Z.eqb_refl. }
    exists R'. splits; auto.
    + rewrite (j_vr _ _ _ _ _ _ HJ2), j_vr0.
      rewrite mod_sub_dist; [lia|lia|].
      change (ut_w (block_put t (i mod n) (ub_content b))) with (ut_w t) in HR'. lia.
    + change (uw_ws (ul_receive_bsn (ut_w t) (i mod n)) = uw_ws (ut_w t)).
      destruct (receive_spec (ut_w t) Q R i) as (w' & R2 & Hw' & P1 & P2 & _);
        try rewrite j_sns0; auto; try lia.
      rewrite j_sns0 in Hw'. rewrite Hw'. exact P2.
  - apply pair_equal_spec in He. destruct He as [<- <-]. exists R. splits; auto.
    apply (J_missing n ws0 _ Q R log i HJ1); auto.
Qed.

Lemma J_loop : forall n ws0 l t Q R log t1 ret, J n ws0 t Q R log ->
  Forall (fun b => 0 <= ub_bsn b < n) l -> ul_rcv_loop t l = (t1, ret) ->
  uw_ws (ut_w t1) = uw_ws (ut_w t) /\
  let '(log', R') := uobs_loop t Q R l log in J n ws0 t1 Q R' log'.
Proof.
  intros n ws0. induction l as [|b l IH]; intros t Q R log t1 ret HJ Hf He.
  - cbn in *. apply pair_equal_spec in He. destruct He as [<- <-]. auto.
  - inversion Hf; subst. cbn [ul_rcv_loop uobs_loop] in *.
    destruct (ul_rcv_one t b) as [t2 r2] eqn:E2.
    destruct (J_one n ws0 t Q R log b t2 r2 HJ H1 E2) as (R' & HR' & Hws & HJ').
    rewrite (j_sns _ _ _ _ _ _ HJ). rewrite <- HR'.
    destruct r2.
    + apply pair_equal_spec in He. destruct He as [<- <-]. auto.
    + destruct (IH t2 Q R' _ t1 ret HJ' H2 He) as [A B].
      split; [congruence|]. exact B.
Qed.

Lemma uw_eta : forall w, mk_ulw (uw_vn w) (uw_vr w) (uw_vq w) (uw_sns w) (uw_ws w) = w.
Proof. now intros []. Qed.

(** Raising V(Q). *)
Lemma raise_vq_spec : forall n ws0 log k w bl Q R cnt,
  J n ws0 (mk_ult w bl) Q R log -> R - Q < Z.of_nat k -> 0 <= cnt -> cnt + (R - Q) < 65536 ->
  exists w' d, ul_raise_v_q_loop k w cnt = Some (w', cnt + d) /\
    0 <= d <= R - Q /\
    w' = mk_ulw (uw_vn w) (uw_vr w) ((Q + d) mod n) (uw_sns w) (uw_ws w) /\
    (forall i, Q <= i < Q + d -> st w i = UlReceived) /\
    (Q + d = R \/ st w (Q + d) <> UlReceived).
Proof.
  intros n ws0 log. induction k as [|k IH]; intros w bl Q R cnt HJ Hk Hc Hc2.
  - pose proof (j_rng _ _ _ _ _ _ HJ). lia.
  - pose proof HJ as HJ0. destruct HJ0. cbn [ut_w] in *.
    assert (Hn0 := sns_pos n j_ok0). assert (HM := M_ge n _ j_ok0 j_wsb0).
    assert (Hle := sns_le n j_ok0).
    cbn [ul_raise_v_q_loop]. rewrite j_vq0, j_vr0.
    destruct (Q mod n =? R mod n) eqn:E.
    + exists w, 0. splits; try lia.
      * now rewrite Z.add_0_r.
      * rewrite Z.add_0_r, <- j_vq0, <- ?j_vr0. symmetry. apply uw_eta.
      * left. assert (Q = R); [|lia].
        apply mod_inj_range with n; lia.
    + assert (HQR : Q < R) by (destruct (Z.eq_dec Q R) as [->|]; lia).
      assert (Hv : vn_is_received w (Q mod n) = ul_is_rcvd (st w Q)).
      { unfold vn_is_received. rewrite <- j_sns0. rewrite vn_get_st; [reflexivity|].
        now rewrite j_sns0. }
      rewrite Hv. destruct (ul_is_rcvd (st w Q)) eqn:Er.
      * assert (HsQ : st w Q = UlReceived) by (destruct (st w Q); auto; discriminate).
        set (w1 := ul_raise_v_q_by w 1).
        assert (Ew1 : w1 = mk_ulw (uw_vn w) (uw_vr w) ((Q + 1) mod n) (uw_sns w) (uw_ws w)).
        { unfold w1, ul_raise_v_q_by. f_equal. rewrite umod_mod by now rewrite j_sns0.
          rewrite j_sns0, j_vq0. now apply mod_add_l. }
        assert (HJ1 : J n ws0 (mk_ult w1 bl) (Q + 1) R log).
        { rewrite Ew1. destruct (j_snd0 Q ltac:(lia) HsQ) as [fQ HfQ].
          constructor; cbn [ut_w uw_sns uw_ws uw_vq uw_vr]; auto; try lia.
          - intros i Hi. apply j_log0 in Hi. lia.
          - intros i Hi. destruct (Z.eq_dec i Q) as [->|]; [eexists; eexists; eauto|].
            apply j_del0. lia.
          - intros i Hi Hs. apply j_snd0; auto. lia.
          - intros Hl. split; [|lia]. intros _. exists fQ.
            replace (Q + 1 - 1) with Q by lia. exact HfQ.
          - intros Hh Hnf. destruct (j_cmp0 Hh Hnf) as [A B]. split; auto.
            intros i H1 H2 H3. apply B; auto. lia. }
        rewrite Z.mod_small by lia.
        destruct (IH w1 bl (Q + 1) R (cnt + 1) HJ1 ltac:(lia) ltac:(lia) ltac:(lia))
          as (w' & d & A1 & A2 & A3 & A4 & A5).
        exists w', (d + 1). splits; try lia.
        -- rewrite A1. do 2 f_equal. lia.
        -- rewrite A3, Ew1. cbn [uw_vn uw_vr uw_sns uw_ws].
           replace (Q + 1 + d) with (Q + (d + 1)) by lia. rewrite ?j_vr0. reflexivity.
        -- intros i Hi. destruct (Z.eq_dec i Q) as [->|]; auto.
           assert (Hx : st w1 i = UlReceived) by (apply A4; lia). rewrite Ew1 in Hx. exact Hx.
        -- destruct A5 as [A5|A5]; [left; lia|right].
           rewrite Ew1 in A5. replace (Q + (d + 1)) with (Q + 1 + d) by lia. exact A5.
      * exists w, 0. splits; try lia.
        -- now rewrite Z.add_0_r.
        -- rewrite Z.add_0_r, <- j_vq0, <- ?j_vr0. symmetry. apply uw_eta.
        -- right. rewrite Z.add_0_r. intro H; rewrite H in Er; discriminate.
Qed.

(** Moving V(Q) over received blocks keeps the invariant. *)
Lemma J_moveQ : forall n ws0 t Q R log d, J n ws0 t Q R log -> 0 <= d <= R - Q ->
  (forall i, Q <= i < Q + d -> st (ut_w t) i = UlReceived) ->
  let w := ut_w t in
  J n ws0 (with_w t (mk_ulw (uw_vn w) (uw_vr w) ((Q + d) mod n) (uw_sns w) (uw_ws w)))
    (Q + d) R log.
Proof.
  intros n ws0 t Q R log d HJ Hd Hrec w. pose proof HJ as HJ0. destruct HJ0.
  unfold w, with_w in *.
  constructor; cbn [ut_w uw_sns uw_ws uw_vq uw_vr]; auto; try lia.
  - intros i Hi. apply j_log0 in Hi. lia.
  - intros i Hi. destruct (Z_lt_ge_dec i Q) as [|Hge]; [apply j_del0; lia|].
    destruct (j_snd0 i ltac:(lia) (Hrec i ltac:(lia))) as [f Hf]. eexists; eexists; eauto.
  - intros i Hi Hs. apply j_snd0; auto. lia.
  - intros Hl. destruct (j_last0 Hl) as [A B].
    destruct (Z.eq_dec d 0) as [->|Hne].
    + rewrite Z.add_0_r. split; auto.
    + split; [|lia]. intros _. apply j_snd0; [lia|]. apply Hrec. lia.
  - intros Hh Hnf. destruct (j_cmp0 Hh Hnf) as [A B]. split; auto.
    intros i H1 H2 H3. apply B; auto. lia.
Qed.

(** Growing the window. *)
Lemma J_grow : forall n ws0 t Q R log ws', J n ws0 t Q R log ->
  uw_ws (ut_w t) <= ws' -> 2 * ws' <= n ->
  let w := ut_w t in
  J n ws0 (with_w t (mk_ulw (uw_vn w) (uw_vr w) (uw_vq w) (uw_sns w) ws')) Q R log.
Proof.
  intros n ws0 t Q R log ws' HJ Hg H2 w. pose proof HJ as HJ0. destruct HJ0.
  unfold w, with_w in *.
  constructor; cbn [ut_w uw_sns uw_ws uw_vq uw_vr]; auto; try lia.
  - intros i Hi. apply j_log0 in Hi. lia.
  - intros Hl. apply j_last0. lia.
  - intros Hh i Hi Hs. change (st _ i) with (st (ut_w t) i) in Hs.
    unfold ul_half in Hh. fold (M n) in Hh.
    assert (Hh0 : ul_half n (uw_ws (ut_w t))) by (unfold ul_half; fold (M n); lia).
    destruct (Z_lt_ge_dec i (R - uw_ws (ut_w t))) as [Hlt|Hge].
    + exfalso. assert (Ha : arr log (i + M n)).
      { apply j_half0; [auto|lia|]. rewrite <- j_sns0. rewrite st_M; auto. now rewrite j_sns0. }
      apply j_log0 in Ha. lia.
    + apply j_half0; auto. lia.
  - intros Hh Hnf. apply j_cmp0; auto. unfold ul_half in *. lia.
Qed.

(** The whole state of the observer. *)
Record UInv (n ws0 : Z) (o : uobs) : Prop := {
  ui_J : J n ws0 (u_t o) (u_Q o) (u_R o) (u_log o);
  ui_len : Z.of_nat (length (u_out o)) = u_Q o;
  ui_out : forall k c, nth_error (u_out o) k = Some c ->
             exists far, In (Arr (Z.of_nat k) c far) (u_log o);
  ui_fin : u_fin o = true -> uw_ws (ut_w (u_t o)) < 1024 ->
             u_Q o = u_R o /\ exists c far,
               In (Arr (u_R o - 1) c far) (u_log o) /\ uc_cv c = 0 }.

Lemma loop_log_incl : forall l t Q R log, incl log (fst (uobs_loop t Q R l log)).
Proof.
  induction l as [|b l IH]; intros t Q R log x Hx; cbn [uobs_loop]; [exact Hx|].
  assert (H1 : In x (uobs_one Q R (uw_sns (ut_w t)) (uw_ws (ut_w t)) b log)).
  { unfold uobs_one. match goal with |- context [if ?c then _ else _] => destruct c end;
      [now right|auto]. }
  destruct (ul_rcv_one t b) as [t1 [|]]; [exact H1|]. apply IH. exact H1.
Qed.

Lemma nth_error_map_seq : forall A (f : nat -> A) m k x,
  nth_error (map f (seq 0 m)) k = Some x -> (k < m)%nat /\ x = f k.
Proof.
  intros A f m k x H.
  assert (Hk : (k < m)%nat).
  { assert (nth_error (map f (seq 0 m)) k <> None) by (rewrite H; discriminate).
    apply nth_error_Some in H0. now rewrite map_length, seq_length in H0. }
  split; auto.
  rewrite nth_error_map in H.
  assert (E : nth_error (seq 0 m) k = Some k).
  { rewrite (nth_error_nth' _ 0%nat) by now rewrite seq_length. now rewrite seq_nth. }
  rewrite E in H. cbn in H. congruence.
Qed.

Lemma step_UInv : forall n ws0 o op, UInv n ws0 o -> ul_op_ok n op o ->
  exists o', uobs_step op o = Some o' /\ UInv n ws0 o'.
Proof.
  intros n ws0 o op HI Hok. destruct HI as [HJ Hlen Hout Hfin].
  destruct op as [rel flow l|ws'].
  - cbn [uobs_step ul_op_ok] in *. unfold ul_rcv.
    destruct rel.
    { eexists. split; [reflexivity|]. constructor; auto. cbn. discriminate. }
    destruct (ul_rcv_loop (u_t o) l) as [t1 ret] eqn:El.
    pose proof (loop_log_incl l (u_t o) (u_Q o) (u_R o) (u_log o)) as Hincl.
    destruct (J_loop n ws0 l (u_t o) (u_Q o) (u_R o) (u_log o) t1 ret HJ Hok El) as [Hws HJ1].
    destruct (uobs_loop (u_t o) (u_Q o) (u_R o) l (u_log o)) as [log' R'] eqn:Eo.
    cbn [fst] in Hincl.
    destruct ret.
    { eexists. split; [reflexivity|]. constructor; cbn [u_t u_Q u_R u_log u_out u_fin].
      - rewrite Z.add_0_r. exact HJ1.
      - rewrite app_nil_r, Z.add_0_r. exact Hlen.
      - intros k c Hk. rewrite app_nil_r in Hk. destruct (Hout k c Hk) as [f Hf].
        exists f. now apply Hincl.
      - discriminate. }
    assert (HJ1' : J n ws0 (mk_ult (ut_w t1) (ut_blocks t1)) (u_Q o) R' log')
      by (destruct t1; exact HJ1).
    pose proof HJ1 as HJd. destruct HJd.
    assert (Hn0 := sns_pos n j_ok0). assert (Hle := sns_le n j_ok0).
    destruct (raise_vq_spec n ws0 log' (Z.to_nat (uw_sns (ut_w t1))) (ut_w t1) (ut_blocks t1)
                (u_Q o) R' 0 HJ1') as (w' & d & A1 & A2 & A3 & A4 & A5);
      try (rewrite ?j_sns0; lia).
    unfold ul_raise_v_q. rewrite A1.
    set (out := map _ (seq 0 (Z.to_nat (0 + d)))).
    assert (Hlo : Z.of_nat (length out) = d)
      by (unfold out; rewrite map_length, seq_length; lia).
    eexists. split; [reflexivity|].
    assert (HJ2 := J_moveQ n ws0 t1 (u_Q o) R' log' d HJ1 A2 A4). cbv zeta in HJ2.
    rewrite <- A3 in HJ2.
    constructor; cbn [u_t u_Q u_R u_log u_out u_fin].
    + rewrite Hlo. exact HJ2.
    + rewrite app_length. lia.
    + intros k c Hk. destruct (lt_dec k (length (u_out o))) as [Hlt|Hge].
      * rewrite nth_error_app1 in Hk by auto. destruct (Hout k c Hk) as [f Hf].
        exists f. now apply Hincl.
      * rewrite nth_error_app2 in Hk by lia. unfold out in Hk.
        apply nth_error_map_seq in Hk. destruct Hk as [Hk1 Hk2].
        assert (Hkz : u_Q o <= Z.of_nat k < u_Q o + d) by lia.
        destruct (j_snd0 (Z.of_nat k) ltac:(lia) (A4 _ Hkz)) as [f Hf].
        exists f. rewrite Hk2.
        replace (block_get (with_w t1 w') (umod w' (uw_vq (ut_w t1) + Z.of_nat (k - length (u_out o)))))
          with (block_get t1 (Z.of_nat k mod n)); [exact Hf|].
        unfold block_get, with_w. cbn [ut_blocks]. do 2 f_equal.
        rewrite umod_mod by (rewrite A3; cbn; now rewrite j_sns0).
        rewrite A3. cbn [uw_sns]. rewrite j_sns0, j_vq0, mod_add_l by lia. f_equal. lia.
    + intros Hf Hl. cbn [with_w ut_w] in Hf, Hl.
      apply andb_true_iff in Hf. destruct Hf as [Hf Hcv].
      apply andb_true_iff in Hf. destruct Hf as [Hf Hlen0].
      apply andb_true_iff in Hf. destruct Hf as [_ Hqr].
      assert (Hqr' : u_Q o + d = R').
      { rewrite A3 in Hqr. cbn [uw_vq uw_vr] in Hqr. rewrite j_vr0 in Hqr.
        apply mod_inj_range with n; lia. }
      rewrite Hlo. split; [exact Hqr'|].
      assert (Hv : umod w' (uw_vr w' - 1) = (R' - 1) mod n).
      { rewrite umod_mod by (rewrite A3; cbn; now rewrite j_sns0).
        rewrite A3. cbn [uw_sns uw_vr]. rewrite j_sns0, j_vr0. now apply mod_sub_l. }
      rewrite Hv in *.
      destruct (j_last _ _ _ _ _ _ HJ2 Hl) as [B1 B2].
      destruct (Z.eq_dec (u_Q o + d) 0) as [E0|Hne].
      { exfalso. specialize (B2 E0). replace (R' - 1) with (-1) in Hlen0 by lia. lia. }
      destruct (B1 ltac:(lia)) as [f Hin]. rewrite Hqr' in Hin.
      eexists. exists f. split; [exact Hin|]. lia.
  - cbn [uobs_step ul_op_ok] in *. unfold ul_set_ws.
    pose proof HJ as HJd. destruct HJd. unfold uws in Hok.
    assert (E : set_ws_check ws' = true).
    { unfold set_ws_check, RLC_GPRS_SNS, RLC_MAX_SNS.
      pose proof (sns_le n j_ok0). change (128 / 2) with 64. change (2048 / 2) with 1024. lia. }
    rewrite E. eexists. split; [reflexivity|].
    constructor; cbn [u_t u_Q u_R u_log u_out u_fin]; auto; [|discriminate].
    apply J_grow; auto; lia.
Qed.

Lemma init_UInv : forall n ws, ul_params n ws -> UInv n ws (uobs_init n ws).
Proof.
  intros n ws H. constructor; cbn.
  - now apply J_init.
  - reflexivity.
  - intros [|k] c Hk; discriminate.
  - discriminate.
Qed.

Lemma reach_UInv : forall n ws o, ul_reach n ws o -> UInv n ws o.
Proof.
  intros n ws o H. induction H as [H|o op o' Hr IH Hok He].
  - now apply init_UInv.
  - destruct (step_UInv n ws o op IH Hok) as (o2 & E2 & I2). congruence.
Qed.
