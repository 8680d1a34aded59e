(** The uplink window refines a receiver with unbounded block numbers. *)
From Coq Require Import ZArith List Bool Lia ZifyBool.
From Verif Require Import Base.Arith Model.RlcWindow Model.RlcWindowUl Model.TbfUlWindow
  Spec.UlWindowSpec.
Import ListNotations.
Local Open Scope Z_scope.

Definition st (w : ul_window) (i : Z) : ul_bsn_state := uw_vn w (slot (uw_sns w) i).

Definition same_par (w w' : ul_window) : Prop :=
  uw_sns w' = uw_sns w /\ uw_ws w' = uw_ws w.

Lemma mod_sns_mod : forall sns x, sns_ok sns -> mod_sns sns x = x mod sns.
Proof.
  intros sns x H. unfold mod_sns. rewrite land_mask_mod by assumption.
  now apply mod16_mod_sns.
Qed.

Lemma umod_mod : forall w x, sns_ok (uw_sns w) -> umod w x = x mod uw_sns w.
Proof. intros w x H. now apply mod_sns_mod. Qed.

Lemma vn_get_st : forall w i, sns_ok (uw_sns w) -> vn_get w (i mod uw_sns w) = st w i.
Proof. intros w i H. unfold vn_get, st, mod_sns_half, slot. now rewrite land_1023. Qed.

Lemma st_mark : forall w bsn s i, sns_ok (uw_sns w) ->
  st (vn_mark w bsn s) i = if slot (uw_sns w) i =? bsn mod 1024 then s else st w i.
Proof.
  intros w bsn s i H. unfold st, vn_mark, mod_sns_half. cbn [uw_vn uw_sns].
  rewrite land_1023. reflexivity.
Qed.

Lemma slot_of_mod : forall n i, (i mod n) mod 1024 = slot n i.
Proof. reflexivity. Qed.

(** The raise loop. *)
Section Loop.
  Variable n ws : Z.
  Hypothesis Hn : sns_ok n.

  Definition stepw (w : ul_window) (k : nat) : ul_window :=
    let v_r := uw_vr w in
    let w1 := vn_mark w (umod w (v_r - uw_ws w)) UlInvalid in
    let w2 := match k with O => w1 | S _ => vn_mark w1 v_r UlMissing end in
    ul_raise_v_r_to w2 1.

  Lemma loop_S : forall k w, ul_raise_v_r_loop (S k) w = ul_raise_v_r_loop k (stepw w k).
  Proof. reflexivity. Qed.

  Lemma stepw_par : forall w k R, uw_sns w = n -> uw_ws w = ws -> uw_vr w = R mod n ->
    uw_sns (stepw w k) = n /\ uw_ws (stepw w k) = ws /\ uw_vq (stepw w k) = uw_vq w /\
    uw_vr (stepw w k) = (R + 1) mod n.
  Proof.
    intros w k R Hs Hw Hr. unfold stepw, ul_raise_v_r_to, vn_mark.
    destruct k; cbn [uw_sns uw_ws uw_vq uw_vr]; splits; auto;
      rewrite umod_mod; cbn [uw_sns uw_vr]; rewrite ?Hs; auto; rewrite Hr;
      apply mod_add_l; now apply sns_pos.
  Qed.

  Lemma stepw_st : forall w k R i, uw_sns w = n -> uw_ws w = ws -> uw_vr w = R mod n ->
    st (stepw w k) i =
      if (slot n i =? slot n R) && negb (Nat.eqb k 0) then UlMissing
      else if slot n i =? slot n (R - ws) then UlInvalid else st w i.
  Proof.
    intros w k R i Hs Hw Hr. unfold stepw.
    assert (Hu : umod w (uw_vr w - uw_ws w) = (R - ws) mod n).
    { rewrite umod_mod by now rewrite Hs. rewrite Hs, Hr, Hw. apply mod_sub_l.
      now apply sns_pos. }
    rewrite Hu.
    assert (E1 : forall j, st (vn_mark w ((R - ws) mod n) UlInvalid) j =
              if slot n j =? slot n (R - ws) then UlInvalid else st w j).
    { intro j. rewrite st_mark by now rewrite Hs. rewrite Hs, slot_of_mod. reflexivity. }
    destruct k.
    - rewrite andb_false_r. rewrite <- E1. reflexivity.
    - cbn [Nat.eqb negb]. rewrite andb_true_r.
      transitivity (st (vn_mark (vn_mark w ((R - ws) mod n) UlInvalid) (uw_vr w) UlMissing) i);
        [reflexivity|].
      rewrite st_mark by (cbn [uw_sns vn_mark]; now rewrite Hs).
      rewrite E1. change (uw_sns (vn_mark w ((R - ws) mod n) UlInvalid)) with (uw_sns w).
      rewrite Hs, Hr, slot_of_mod. reflexivity.
  Qed.

  Lemma loop_par : forall k w R, uw_sns w = n -> uw_ws w = ws -> uw_vr w = R mod n ->
    let w' := ul_raise_v_r_loop k w in
    uw_sns w' = n /\ uw_ws w' = ws /\ uw_vq w' = uw_vq w /\
    uw_vr w' = (R + Z.of_nat k) mod n.
  Proof.
    induction k as [|k IH]; intros w R Hs Hw Hr.
    - cbn. splits; auto. rewrite Z.add_0_r. auto.
    - rewrite loop_S. destruct (stepw_par w k R Hs Hw Hr) as (A & B & C & D).
      destruct (IH _ _ A B D) as (A' & B' & C' & D').
      cbv zeta. splits; auto. congruence. rewrite D'. f_equal. lia.
  Qed.

  (** Nothing becomes received. *)
  Lemma loop_nr : forall k w R i, uw_sns w = n -> uw_ws w = ws -> uw_vr w = R mod n ->
    st (ul_raise_v_r_loop k w) i = UlReceived -> st w i = UlReceived.
  Proof.
    induction k as [|k IH]; intros w R i Hs Hw Hr H; [exact H|].
    rewrite loop_S in H. destruct (stepw_par w k R Hs Hw Hr) as (A & B & C & D).
    apply (IH _ _ _ A B D) in H. rewrite (stepw_st w k R i Hs Hw Hr) in H.
    destruct ((slot n i =? slot n R) && negb (Nat.eqb k 0)); [discriminate|].
    destruct (slot n i =? slot n (R - ws)); [discriminate|auto].
  Qed.

  Lemma loop_keep : forall k w R i, uw_sns w = n -> uw_ws w = ws -> uw_vr w = R mod n ->
    (forall t, 0 <= t < Z.of_nat k -> slot n i <> slot n (R + t - ws)) ->
    (forall t, 0 <= t < Z.of_nat k - 1 -> slot n i <> slot n (R + t)) ->
    st (ul_raise_v_r_loop k w) i = st w i.
  Proof.
    induction k as [|k IH]; intros w R i Hs Hw Hr H1 H2; [reflexivity|].
    rewrite loop_S. destruct (stepw_par w k R Hs Hw Hr) as (A & B & C & D).
    rewrite (IH _ (R + 1)); auto.
    - rewrite (stepw_st w k R i Hs Hw Hr).
      assert (E1 : slot n i =? slot n (R - ws) = false).
      { pose proof (H1 0 ltac:(lia)). rewrite Z.add_0_r in H. lia. }
      rewrite E1. destruct k; [now rewrite andb_false_r|].
      assert (E2 : slot n i =? slot n R = false).
      { pose proof (H2 0 ltac:(lia)). rewrite Z.add_0_r in H. lia. }
      now rewrite E2.
    - intros t Ht. replace (R + 1 + t - ws) with (R + (t + 1) - ws) by lia. apply H1. lia.
    - intros t Ht. replace (R + 1 + t) with (R + (t + 1)) by lia. apply H2. lia.
  Qed.

  Lemma loop_miss : forall k w R t, uw_sns w = n -> uw_ws w = ws -> uw_vr w = R mod n ->
    0 <= t < Z.of_nat k - 1 -> st (ul_raise_v_r_loop k w) (R + t) <> UlReceived.
  Proof.
    induction k as [|k IH]; intros w R t Hs Hw Hr Ht; [lia|].
    rewrite loop_S. destruct (stepw_par w k R Hs Hw Hr) as (A & B & C & D).
    destruct (Z.eq_dec t 0) as [->|Hne].
    - intro H. apply (loop_nr k _ (R + 1)) in H; auto.
      rewrite (stepw_st w k R _ Hs Hw Hr) in H. rewrite Z.add_0_r, Z.eqb_refl in H.
      destruct k; [lia|]. discriminate.
    - replace (R + t) with (R + 1 + (t - 1)) by lia. apply IH; auto. lia.
  Qed.

  Lemma loop_inval : forall k w R t, uw_sns w = n -> uw_ws w = ws -> uw_vr w = R mod n ->
    0 <= t < Z.of_nat k -> st (ul_raise_v_r_loop k w) (R + t - ws) <> UlReceived.
  Proof.
    induction k as [|k IH]; intros w R t Hs Hw Hr Ht; [lia|].
    rewrite loop_S. destruct (stepw_par w k R Hs Hw Hr) as (A & B & C & D).
    destruct (Z.eq_dec t 0) as [->|Hne].
    - intro H. apply (loop_nr k _ (R + 1)) in H; auto.
      rewrite (stepw_st w k R _ Hs Hw Hr) in H. rewrite Z.add_0_r, Z.eqb_refl in H.
      destruct ((slot n (R - ws) =? slot n R) && negb (Nat.eqb k 0)); discriminate.
    - replace (R + t - ws) with (R + 1 + (t - 1) - ws) by lia. apply IH; auto. lia.
  Qed.
End Loop.

(** Reception of block [i] (not yet received) in a window at [Q], [R]. *)
Definition new_R (n ws Q R i : Z) : Z :=
  if i + 1 - R <? 0 then R
  else if i + 1 - R <? n / 2 then i + 1 else R.

Lemma receive_spec : forall w Q R i,
  sns_ok (uw_sns w) -> 64 <= uw_ws w -> 2 * uw_ws w <= uw_sns w ->
  uw_vq w = Q mod uw_sns w -> uw_vr w = R mod uw_sns w ->
  Q <= R <= Q + uw_ws w -> Q <= i < Q + uw_ws w ->
  exists w' R', ul_receive_bsn w (i mod uw_sns w) = w' /\
    uw_sns w' = uw_sns w /\ uw_ws w' = uw_ws w /\ uw_vq w' = uw_vq w /\
    R' = new_R (uw_sns w) (uw_ws w) Q R i /\
    uw_vr w' = R' mod uw_sns w /\
    (forall j, st w' j = UlReceived -> st w j = UlReceived \/ slot (uw_sns w) j = slot (uw_sns w) i) /\
    (forall j, (forall t, R <= t < R' -> slot (uw_sns w) j <> slot (uw_sns w) (t - uw_ws w)) ->
               (forall t, R <= t < R' - 1 -> slot (uw_sns w) j <> slot (uw_sns w) t) ->
               slot (uw_sns w) j <> slot (uw_sns w) i -> st w' j = st w j) /\
    ((forall t, R <= t < R' -> slot (uw_sns w) i <> slot (uw_sns w) (t - uw_ws w)) ->
     (forall t, R <= t < R' - 1 -> slot (uw_sns w) i <> slot (uw_sns w) t) ->
     st w' i = UlReceived) /\
    (forall t, R <= t < R' - 1 -> st w' t <> UlReceived) /\
    (forall t, R <= t < R' -> st w' (t - uw_ws w) <> UlReceived).
Proof.
  intros w Q R i Hn Hw1 Hw2 Hq Hr HR Hi.
  set (n := uw_sns w) in *. set (ws := uw_ws w) in *.
  assert (Hn0 : 0 < n) by now apply sns_pos.
  set (w1 := vn_mark w (i mod n) UlReceived).
  assert (S1 : uw_sns w1 = n) by reflexivity.
  assert (W1 : uw_ws w1 = ws) by reflexivity.
  assert (R1 : uw_vr w1 = R mod n) by (unfold w1; cbn; exact Hr).
  assert (T1 : forall j, st w1 j = if slot n j =? slot n i then UlReceived else st w j).
  { intro j. unfold w1. rewrite st_mark by auto. fold n. now rewrite slot_of_mod. }
  assert (Hoff : umod w1 (i mod n + 1 - uw_vr w1) = (i + 1 - R) mod n).
  { rewrite umod_mod by (rewrite S1; auto). rewrite S1, R1.
    rewrite Zminus_mod_idemp_r. replace (i mod n + 1 - R) with (i mod n + (1 - R)) by lia.
    rewrite mod_add_l by lia. f_equal. lia. }
  assert (Hsh : Z.shiftr n 1 = n / 2) by (rewrite Z.shiftr_div_pow2 by lia; reflexivity).
  assert (Hhalf : ws <= n / 2) by (apply Z.div_le_lower_bound; lia).
  exists (ul_raise_v_r w1 (i mod n)), (new_R n ws Q R i).
  split; [reflexivity|].
  unfold ul_raise_v_r. rewrite Hoff, S1, Hsh. unfold new_R.
  destruct (i + 1 - R <? 0) eqn:E0.
  - (* below V(R) *)
    assert (Em : (i + 1 - R) mod n = i + 1 - R + n).
    { symmetry. apply Zmod_unique with (-1); lia. }
    rewrite Em.
    destruct (i + 1 - R + n <? n / 2) eqn:E1.
    { pose proof (Z.mul_div_le n 2 ltac:(lia)). lia. }
    splits; auto; try (intros; lia).
    + intros j H. rewrite T1 in H. destruct (slot n j =? slot n i) eqn:E; [right; lia|left; auto].
    + intros j _ _ H. rewrite T1. destruct (slot n j =? slot n i) eqn:E; [lia|auto].
    + intros _ _. rewrite T1, Z.eqb_refl. reflexivity.
  - assert (Em : (i + 1 - R) mod n = i + 1 - R) by (apply Z.mod_small; lia).
    rewrite Em.
    destruct (i + 1 - R <? n / 2) eqn:E1.
    + set (k := Z.to_nat (i + 1 - R)).
      assert (Hk : Z.of_nat k = i + 1 - R) by (unfold k; lia).
      destruct (loop_par n ws Hn k w1 R S1 W1 R1) as (A & B & C & D).
      splits; auto.
      * rewrite D. f_equal. lia.
      * intros j H. apply (loop_nr n ws Hn k w1 R j S1 W1 R1) in H.
        rewrite T1 in H. destruct (slot n j =? slot n i) eqn:E; [right; lia|left; auto].
      * intros j H1 H2 H3. rewrite (loop_keep n ws Hn k w1 R j S1 W1 R1).
        -- rewrite T1. destruct (slot n j =? slot n i) eqn:E; [lia|auto].
        -- intros t Ht. apply H1. lia.
        -- intros t Ht. apply H2. lia.
      * intros H1 H2. rewrite (loop_keep n ws Hn k w1 R i S1 W1 R1).
        -- rewrite T1, Z.eqb_refl. reflexivity.
        -- intros t Ht. apply H1. lia.
        -- intros t Ht. apply H2. lia.
      * intros t Ht. replace t with (R + (t - R)) by lia.
        apply (loop_miss n ws Hn); auto. lia.
      * intros t Ht. replace (t - ws) with (R + (t - R) - ws) by lia.
        apply (loop_inval n ws Hn); auto. lia.
    + splits; auto; try (intros; lia).
      * intros j H. rewrite T1 in H. destruct (slot n j =? slot n i) eqn:E; [right; lia|left; auto].
      * intros j _ _ H. rewrite T1. destruct (slot n j =? slot n i) eqn:E; [lia|auto].
      * intros _ _. rewrite T1, Z.eqb_refl. reflexivity.
Qed.
