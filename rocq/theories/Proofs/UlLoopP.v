(** The uplink with the mobile at the other end (C72). *)
From Coq Require Import ZArith List Bool Lia ZifyBool.
From Verif Require Import Base.Arith Model.RlcWindow Model.RlcWindowUl Model.UlParse Model.TbfUlWindow Model.UlFrames
  Spec.UlWindowSpec Spec.UlFramesSpec Spec.UlLoopSpec Proofs.UlWindowP Proofs.UlWindowI Proofs.UlWindowProps Proofs.UlFramesP.
Import ListNotations.
Local Open Scope Z_scope.

Definition rec (t : ul_tbf) (k : Z) : Prop := st (ut_w t) k = UlReceived.

(** One block: V(R) stays or goes to one more than the block; what was received stays so. *)
Lemma one_keep n ws0 t Q R log b t1 ret : J n ws0 t Q R log -> 0 <= ub_bsn b < n -> ul_half n (uw_ws (ut_w t)) ->
  ul_rcv_one t b = (t1, ret) ->
  exists R', R' = R + (uw_vr (ut_w t1) - uw_vr (ut_w t)) mod n /\ uw_ws (ut_w t1) = uw_ws (ut_w t) /\
    J n ws0 t1 Q R' (uobs_one Q R n (uw_ws (ut_w t)) b log) /\ R <= R' /\
    (R' = R \/ (R' = ul_number n Q (ub_bsn b) + 1 /\ ul_number n Q (ub_bsn b) < Q + uw_ws (ut_w t))) /\
    (forall k, R' - uw_ws (ut_w t) <= k < R -> rec t k -> rec t1 k) /\ (ret = true -> ut_w t1 = ut_w t).
Proof.
  intros HJ Hb Hh He.
  destruct (J_one n ws0 t Q R log b t1 ret HJ Hb He) as (R' & HR' & Hws & HJ').
  exists R'. split; [exact HR'|]. split; [exact Hws|]. split; [exact HJ'|].
  pose proof (sns_pos n (j_ok _ _ _ _ _ _ HJ)) as Hn0.
  assert (HRR : R <= R') by (rewrite HR'; pose proof (Z.mod_pos_bound (uw_vr (ut_w t1) - uw_vr (ut_w t)) n); lia).
  split; [exact HRR|].
  pose proof HJ as HJ0. destruct HJ0.
  assert (HM : 2 * uw_ws (ut_w t) <= M n) by exact Hh.
  assert (Hself : ut_w t1 = ut_w t -> R' = R).
  { intro E. rewrite E, Z.sub_diag, Z.mod_0_l in HR' by lia. lia. }
  unfold ul_rcv_one in He.
  rewrite (in_window_number n (ut_w t) Q (ub_bsn b)) in He by auto.
  set (i := ul_number n Q (ub_bsn b)) in *.
  assert (Hi := number_ge n Q (ub_bsn b) Hn0). fold i in Hi.
  assert (Him : i mod n = ub_bsn b) by (apply number_mod; auto).
  destruct (i <? Q + uw_ws (ut_w t)) eqn:Ein; cbn [negb] in He.
  2:{ apply pair_equal_spec in He. destruct He as [<- <-]. split; [left; auto|]. split; [auto|]. reflexivity. }
  assert (Hvr : vn_is_received (ut_w t) (ub_bsn b) = ul_is_rcvd (st (ut_w t) i)).
  { unfold vn_is_received. rewrite <- Him, <- j_sns. rewrite vn_get_st; [reflexivity|]. now rewrite j_sns. }
  rewrite Hvr in He. clear Hvr.
  destruct (ul_is_rcvd (st (ut_w t) i)) eqn:Er.
  { apply pair_equal_spec in He. destruct He as [<- <-]. split; [left; auto|]. split; [auto|]. reflexivity. }
  assert (Hnr : st (ut_w t) i <> UlReceived) by (intro H; rewrite H in Er; discriminate).
  rewrite <- Him in He.
  destruct (ub_incomplete b).
  { apply pair_equal_spec in He. destruct He as [<- <-]. split; [left; auto|]. split; [auto|]. reflexivity. }
  destruct (ub_tlli_ok b); apply pair_equal_spec in He; destruct He as [<- <-].
  - cbn [with_w ut_w block_put] in *.
    destruct (receive_spec (ut_w t) Q R i) as (w' & R2 & Hw' & P1 & P2 & P3 & P4 & P5 & P6 & P7 & P8 & P9 & P10);
      try (rewrite j_sns); auto; try lia.
    rewrite j_sns in *. rewrite Hw' in *.
    assert (HR2 : R <= R2 <= Q + uw_ws (ut_w t) /\ (R2 = R \/ (R2 = i + 1))).
    { rewrite P4. unfold new_R. destruct (i + 1 - R <? 0) eqn:E0; [lia|]. destruct (i + 1 - R <? n / 2) eqn:E1; lia. }
    assert (R' = R2).
    { rewrite HR', P5, j_vr, mod_sub_dist; lia. }
    subst R2. split; [destruct HR2 as [_ [?|?]]; [left|right]; lia|]. split; [|discriminate].
    intros k Hk Hr. unfold rec in *. cbn [with_w ut_w block_put].
    rewrite P7; [exact Hr| | |].
    + intros t' Ht'. apply slot_neq; auto; lia.
    + intros t' Ht'. apply slot_neq; auto; lia.
    + destruct (Z.eq_dec k i) as [->|Hne]; [contradiction|]. apply slot_neq; auto; lia.
  - assert (R' = R).
    { rewrite HR'. unfold with_w, block_put, ul_invalidate_bsn, vn_mark. cbn [ut_w uw_vr]. rewrite Z.sub_diag, Z.mod_0_l; lia. }
    split; [now left|]. split; [|discriminate].
    intros k Hk Hr. unfold rec in *. cbn [with_w ut_w block_put]. unfold ul_invalidate_bsn. rewrite st_mark by now rewrite j_sns.
    rewrite j_sns, slot_of_mod. destruct (slot n k =? slot n i) eqn:E; [|exact Hr].
    exfalso. assert (k = i) by (apply slot_inj with n; auto; fold (M n); lia). subst k. contradiction.
Qed.

Lemma loop_keep_ul n ws0 B : forall l t Q R log t1 ret, J n ws0 t Q R log -> Forall (fun b => 0 <= ub_bsn b < n) l ->
  ul_half n (uw_ws (ut_w t)) -> ul_rcv_loop t l = (t1, ret) -> R <= B ->
  Forall (fun b => ul_number n Q (ub_bsn b) < Q + uw_ws (ut_w t) -> ul_number n Q (ub_bsn b) < B) l ->
  uw_ws (ut_w t1) = uw_ws (ut_w t) /\ let '(log', R') := uobs_loop t Q R l log in J n ws0 t1 Q R' log' /\ R <= R' <= B /\
    (forall k, R' - uw_ws (ut_w t) <= k < R -> rec t k -> rec t1 k).
Proof.
  induction l as [|b l IH]; intros t Q R log t1 ret HJ Hf Hh He HB HF.
  - cbn in *. apply pair_equal_spec in He. destruct He as [<- <-]. splits; auto; lia.
  - inversion Hf; subst. inversion HF; subst. cbn [ul_rcv_loop uobs_loop] in *.
    destruct (ul_rcv_one t b) as [t2 r2] eqn:E2.
    destruct (one_keep n ws0 t Q R log b t2 r2 HJ H1 Hh E2) as (R' & HR' & Hws & HJ' & HRR & Hc & Hk & _).
    rewrite (j_sns _ _ _ _ _ _ HJ). rewrite <- HR'.
    assert (R' <= B) by (destruct Hc as [->|[-> Hc]]; [lia|specialize (H3 Hc); lia]).
    destruct r2.
    + apply pair_equal_spec in He. destruct He as [<- <-]. splits; auto; lia.
    + assert (HIH := IH t2 Q R' (uobs_one Q R n (uw_ws (ut_w t)) b log) t1 ret HJ' H2).
      rewrite Hws in HIH. specialize (HIH Hh He H H4). destruct HIH as [A B'].
      split; [exact A|]. destruct (uobs_loop t2 Q R' l _) as [log' R2]. destruct B' as (B1 & B2 & B3).
      splits; auto; try lia. intros k Hk1 Hk2. apply B3; [lia|]. apply Hk; [lia|exact Hk2].
Qed.

Definition at_rest (o : uobs) : Prop := u_Q o = u_R o \/ ~ rec (u_t o) (u_Q o).
(** The blocks delivered last are still marked. *)
Definition marked ws0 (o : uobs) : Prop := forall k, 0 <= k -> u_R o - ws0 <= k < u_Q o -> rec (u_t o) k.
(** Later states know more. *)
Record later (o1 o2 : uobs) : Prop := {
  la_Q : u_Q o1 <= u_Q o2;
  la_R : u_R o1 <= u_R o2;
  la_ws : uws o1 <= uws o2;
  la_log : incl (u_log o1) (u_log o2);
  la_rec : forall k, u_Q o2 <= k < u_R o1 -> rec (u_t o1) k -> rec (u_t o2) k }.

Lemma later_refl o : later o o.
Proof. constructor; auto; try lia. apply incl_refl. Qed.
Lemma later_trans a b c : later a b -> later b c -> later a c.
Proof.
  intros H1 H2. destruct H1, H2. constructor; try lia.
  - eapply incl_tran; eauto.
  - intros k Hk Hr. apply la_rec1; [lia|]. apply la_rec0; [lia|exact Hr].
Qed.

Lemma ret_single t b t1 : ul_rcv_loop t [b] = (t1, true) -> ul_rcv_one t b = (t1, true).
Proof. cbn [ul_rcv_loop]. destruct (ul_rcv_one t b) as [t2 [|]]; intro E; inversion E; reflexivity. Qed.
Lemma no_ret : forall l t t1 ret, Forall (fun b => ub_incomplete b = false) l -> ul_rcv_loop t l = (t1, ret) -> ret = false.
Proof.
  intros l t t1 ret Hinc. revert t t1 ret. induction Hinc as [|b l Hb _ IH]; intros t t1 ret El; cbn [ul_rcv_loop] in El.
  - now apply pair_equal_spec in El.
  - assert (E1 : snd (ul_rcv_one t b) = false).
    { unfold ul_rcv_one. rewrite Hb. destruct (negb _); [reflexivity|].
      destruct (vn_is_received _ _); [reflexivity|]. now destruct (ub_tlli_ok b). }
    destruct (ul_rcv_one t b) as [t2 r2]. cbn in E1. subst r2. eauto.
Qed.

(** A radio block. *)
Lemma rcv_keep n ws0 B rel flow l o o' : UInv n ws0 o -> ul_op_ok n (URcv rel flow l) o -> ul_half n (uws o) ->
  uobs_step (URcv rel flow l) o = Some o' -> half_alone l -> at_rest o -> marked ws0 o -> u_R o <= B ->
  Forall (fun b => ul_number n (u_Q o) (ub_bsn b) < u_Q o + uws o -> ul_number n (u_Q o) (ub_bsn b) < B) l ->
  later o o' /\ uws o' = uws o /\ at_rest o' /\ marked ws0 o' /\ u_R o' <= B.
Proof.
  intros HI Hok Hh He Ha Hrest Hm HB HF.
  assert (HJ := ui_J _ _ _ HI).
  cbn [uobs_step] in He. unfold ul_rcv in He.
  destruct rel.
  { injection He as <-. splits; auto. destruct (later_refl o). constructor; assumption. }
  destruct (ul_rcv_loop (u_t o) l) as [t1 ret] eqn:El.
  assert (HL := loop_keep_ul n ws0 B l (u_t o) (u_Q o) (u_R o) (u_log o) t1 ret HJ Hok Hh El HB HF).
  pose proof (loop_log_incl l (u_t o) (u_Q o) (u_R o) (u_log o)) as Hincl.
  destruct HL as [Hws HL].
  destruct (uobs_loop (u_t o) (u_Q o) (u_R o) l (u_log o)) as [log' R'] eqn:Eo. cbn [fst] in Hincl.
  destruct HL as (HJ1 & HR & Hk).
  assert (Hjr := j_rng _ _ _ _ _ _ HJ). assert (Hjr1 := j_rng _ _ _ _ _ _ HJ1). rewrite Hws in Hjr1.
  assert (Hwsa := j_wsa _ _ _ _ _ _ HJ).
  destruct ret.
  { destruct Ha as [[b ->]|Ha]; [|apply (no_ret l _ _ _ Ha) in El; discriminate].
    apply ret_single in El. inversion Hok; subst.
    destruct (one_keep n ws0 _ _ _ _ b t1 true HJ H1 Hh El) as (R2 & HR2 & _ & _ & _ & _ & _ & Hw).
    specialize (Hw eq_refl).
    assert (R' = u_R o).
    { cbn [uobs_loop] in Eo. rewrite El in Eo. injection Eo as _ <-. rewrite Hw, Z.sub_diag. rewrite (j_sns _ _ _ _ _ _ HJ).
      rewrite Z.mod_0_l by (pose proof (sns_pos n (j_ok _ _ _ _ _ _ HJ)); lia). lia. }
    subst R'. injection He as <-. unfold at_rest, marked, uws, rec in *. cbn [u_Q u_R u_t u_log length] in *.
    rewrite Z.add_0_r, Hw. splits; auto.
    constructor; unfold uws, rec; cbn [u_Q u_R u_t u_log]; rewrite ?Hw, ?Z.add_0_r; auto; lia. }
  assert (HJ1' : J n ws0 (mk_ult (ut_w t1) (ut_blocks t1)) (u_Q o) R' log') by (destruct t1; exact HJ1).
  pose proof HJ1 as HJd. destruct HJd.
  assert (Hn0 := sns_pos n j_ok). assert (Hle := sns_le n j_ok).
  destruct (raise_vq_spec n ws0 log' (Z.to_nat (uw_sns (ut_w t1))) (ut_w t1) (ut_blocks t1) (u_Q o) R' 0 HJ1')
    as (w' & d & A1 & A2 & A3 & A4 & A5); try (rewrite ?j_sns; lia).
  unfold ul_raise_v_q in He. rewrite A1 in He. injection He as <-.
  unfold at_rest, marked, uws, rec in *. cbn [u_Q u_R u_t u_log with_w ut_w] in *. rewrite map_length, seq_length in *.
  change (0 + d) with d in *. rewrite Z2Nat.id in * by lia.
  assert (Hst : forall k, st w' k = st (ut_w t1) k) by (intro k; rewrite A3; reflexivity).
  splits.
  - constructor; unfold uws, rec; cbn [u_Q u_R u_t u_log with_w ut_w]; auto; try lia.
    + rewrite A3. cbn [uw_ws]. lia.
    + intros k Hk1 Hk2. rewrite Hst. apply Hk; [lia|exact Hk2].
  - rewrite A3. exact Hws.
  - rewrite Hst. destruct A5 as [A5|A5]; [left|right]; auto.
  - intros k Hk0 Hk1. rewrite Hst. destruct (Z_lt_ge_dec k (u_Q o)).
    + apply Hk; [lia|]. apply Hm; lia.
    + apply A4. lia.
  - lia.
Qed.

Lemma ws_keep n ws0 w o o' : UInv n ws0 o -> ul_op_ok n (USetWs w) o -> uobs_step (USetWs w) o = Some o' ->
  at_rest o -> marked ws0 o -> later o o' /\ uws o' = w /\ at_rest o' /\ marked ws0 o' /\ u_R o' = u_R o /\ u_Q o' = u_Q o.
Proof.
  intros HI [Hok _] He Hrest Hm. cbn [uobs_step] in He. unfold ul_set_ws in He.
  destruct (set_ws_check w); [|discriminate]. injection He as <-.
  splits; auto. constructor; unfold uws, rec in *; cbn [u_Q u_R u_t u_log with_w ut_w uw_ws]; auto; try lia. apply incl_refl.
Qed.

Section Loop.
Context (edge : bool) (sns ws n : Z) (blk : Z -> mblock) (F : list (list Z)) (M : mobile edge n blk F) (P0 : loop_params edge sns ws).

Record good (o : uobs) : Prop := {
  g_reach : ul_reach sns ws o;
  g_par : loop_params edge sns (uws o);
  g_rest : at_rest o;
  g_mark : marked ws o;
  g_Q : 0 <= u_Q o <= n;
  g_arr : forall i, arrived o i -> 0 <= i < n }.

Lemma par_half w : loop_params edge sns w -> ul_half sns w /\ ul_params sns w.
Proof. unfold loop_params, ul_half, ul_params, sns_ok. clear. destruct edge; intros [-> H]; lia. Qed.

Definition made (o : uobs) (r : report) : Prop := exists rest, 0 <= rest < 256 /\ r = pcu_report edge (ut_w (u_t o)) rest.

Lemma good_rng o : good o -> 0 <= u_Q o <= u_R o /\ u_R o <= u_Q o + uws o.
Proof. intros G. destruct (c05_window _ _ _ (g_reach _ G)) as (_ & A & B & _). auto. Qed.

Lemma says_sound a W o r i : good o -> made o r -> loop_params edge sns W -> a <= u_Q o -> u_R o <= a + W -> a <= i < a + W ->
  says a r i = Some true -> i < u_Q o \/ (u_Q o <= i < u_R o /\ rec (u_t o) i).
Proof.
  intros G (rest & Hr & ->) HW Ha HR Hi. destruct (good_rng o G) as (G1 & G2). pose proof (g_reach _ G) as RC. pose proof (g_par _ G) as PA.
  destruct (par_half _ PA) as [Hh _].
  unfold pcu_report, loop_params in *. destruct edge.
  - destruct HW as [-> HW]. destruct PA as [_ PA].
    destruct (ul_report_egprs_unc (ut_w (u_t o)) rest) as [[ssn eow] bits] eqn:E. 
    destruct (c07_egprs ws o rest ssn eow bits RC ltac:(lia) Hr E) as (-> & _ & L & _ & K).
    cbn [says]. 
    assert (Eq : a + ((u_Q o + 1) mod 2048 - 1 - a) mod 2048 = u_Q o).
    { replace ((u_Q o + 1) mod 2048 - 1 - a) with ((u_Q o + 1) mod 2048 - (1 + a)) by lia. rewrite Zminus_mod_idemp_l, Z.mod_small; lia. }
    rewrite Eq. destruct (i <? u_Q o) eqn:E1; [left; lia|]. destruct (i =? u_Q o) eqn:E2; [discriminate|].
    destruct (i <=? u_Q o + Z.of_nat (length bits)) eqn:E3; [|discriminate]. intros S. apply (f_equal (fun x => match x with Some b => b | None => false end)) in S; cbv beta iota in S. right.
    apply K in S; [|lia]. replace (u_Q o + Z.of_nat (length bits) - Z.of_nat (Z.to_nat (Z.of_nat (length bits) - (i - u_Q o)))) with i in S by lia.
    assert (Hnf : no_far (u_log o)) by (apply (reach_no_far _ _ _ RC); lia).
    destruct (c06_state _ _ _ _ RC Hh Hnf S) as [S1 S2]. split; [lia|]. apply S2. lia.
  - destruct HW as [-> ->]. destruct PA as [_ PA].
    destruct (ul_report_gprs (ut_w (u_t o))) as [ssn bits] eqn:E.
    destruct (c07_gprs ws o ssn bits RC E) as (-> & L & _).
    assert (K : forall k, (k < 64)%nat -> nth k bits false = ul_is_rcvd (st (ut_w (u_t o)) (u_R o - 64 + Z.of_nat k))).
    { intros k Hk. unfold ul_report_gprs in E. apply pair_equal_spec in E. destruct E as [_ <-]. rewrite map_seq_nth by exact Hk.
      rewrite (rbb_nth _ _ _ k RC) by lia. rewrite PA. reflexivity. }
    cbn [says]. rewrite Zminus_mod_idemp_l.
    destruct (Z_lt_ge_dec i (u_R o)) as [Hlt|Hge].
    + rewrite Z.mod_small by lia. replace ((1 <=? u_R o - i) && (u_R o - i <=? 64)) with true by lia. intros S. apply (f_equal (fun x => match x with Some b => b | None => false end)) in S; cbv beta iota in S.
      rewrite K in S by lia. apply rcvd_true in S. replace (u_R o - 64 + Z.of_nat (Z.to_nat (64 - (u_R o - i)))) with i in S by lia.
      destruct (Z_lt_ge_dec i (u_Q o)); [left; lia|right]. split; [lia|exact S].
    + assert (Em : (u_R o - i) mod 128 = 0 \/ 64 < (u_R o - i) mod 128).
      { destruct (Z.eq_dec i (u_R o)) as [->|]; [left; rewrite Z.sub_diag; reflexivity|right].
        replace ((u_R o - i) mod 128) with (u_R o - i + 128) by (apply Zmod_unique with (-1); lia). lia. }
      replace ((1 <=? (u_R o - i) mod 128) && ((u_R o - i) mod 128 <=? 64)) with false by lia. discriminate.
Qed.

Lemma says_all a W o r i : good o -> made o r -> loop_params edge sns W -> 0 <= a -> u_R o <= a + W -> a <= i < u_Q o ->
  says a r i = Some true.
Proof.
  intros G (rest & Hr & ->) HW Ha HR Hi. destruct (good_rng o G) as (G1 & G2). pose proof (g_reach _ G) as RC. pose proof (g_par _ G) as PA.
  unfold pcu_report, loop_params in *. pose proof (g_mark _ G) as MK. destruct edge.
  - destruct HW as [-> HW]. destruct PA as [_ PA].
    destruct (ul_report_egprs_unc (ut_w (u_t o)) rest) as [[ssn eow] bits] eqn:E. 
    destruct (c07_egprs ws o rest ssn eow bits RC ltac:(lia) Hr E) as (-> & _ & L & _ & K).
    cbn [says]. 
    assert (Eq : a + ((u_Q o + 1) mod 2048 - 1 - a) mod 2048 = u_Q o).
    { replace ((u_Q o + 1) mod 2048 - 1 - a) with ((u_Q o + 1) mod 2048 - (1 + a)) by lia. rewrite Zminus_mod_idemp_l, Z.mod_small; lia. }
    rewrite Eq. replace (i <? u_Q o) with true by lia. reflexivity.
  - destruct HW as [-> ->]. destruct PA as [_ PA]. destruct P0 as [_ W0].
    destruct (ul_report_gprs (ut_w (u_t o))) as [ssn bits] eqn:E.
    destruct (c07_gprs ws o ssn bits RC E) as (-> & L & _).
    assert (K : forall k, (k < 64)%nat -> nth k bits false = ul_is_rcvd (st (ut_w (u_t o)) (u_R o - 64 + Z.of_nat k))).
    { intros k Hk. unfold ul_report_gprs in E. apply pair_equal_spec in E. destruct E as [_ <-]. rewrite map_seq_nth by exact Hk.
      rewrite (rbb_nth _ _ _ k RC) by lia. rewrite PA. reflexivity. }
    cbn [says]. rewrite Zminus_mod_idemp_l, Z.mod_small by lia. replace ((1 <=? u_R o - i) && (u_R o - i <=? 64)) with true by lia.
    rewrite K by lia. replace (u_R o - 64 + Z.of_nat (Z.to_nat (64 - (u_R o - i)))) with i by lia.
    f_equal. apply rcvd_true. apply MK; lia.
Qed.

Fixpoint chain (x : uobs) (l : list (uobs * report)) (o : uobs) : Prop :=
  match l with
  | [] => later x o
  | (y, r) :: l => later x y /\ good y /\ made y r /\ chain y l o
  end.
Lemma chain_later l o : forall x, chain x l o -> later x o.
Proof. induction l as [|[y r] l IH]; intros x C; cbn [chain] in C; [exact C|]. destruct C as (A & _ & _ & C). exact (later_trans _ _ _ A (IH _ C)). Qed.
Lemma chain_end l o o' : later o o' -> forall x, chain x l o -> chain x l o'.
Proof. intros H. induction l as [|[y r] l IH]; intros x C; cbn [chain] in *; [exact (later_trans _ _ _ C H)|]. destruct C as (A & B & D & C). auto. Qed.
Lemma chain_before l o x x' : later x' x -> chain x l o -> chain x' l o.
Proof. destruct l as [|[y r] l]; cbn [chain]; intros H C; [exact (later_trans _ _ _ H C)|]. destruct C as (A & C). split; [exact (later_trans _ _ _ H A)|exact C]. Qed.
Lemma chain_add l o r : good o -> made o r -> forall x, chain x l o -> chain x (l ++ [(o, r)]) o.
Proof.
  intros G MD. induction l as [|[y q] l IH]; intros x C; cbn [chain app] in *; [|destruct C as (A & B & D & C); auto].
  splits; auto. apply later_refl.
Qed.
Lemma chain_lost o y z : forall l x, chain x (l ++ y :: z) o -> chain x (l ++ z) o.
Proof.
  induction l as [|[v q] l IH]; intros x C; cbn [chain app] in *; [|destruct C as (A & B & D & C); auto].
  destruct y as [v r]. destruct C as (A & _ & _ & C). exact (chain_before _ _ _ _ A C).
Qed.

Record LInv (s : uloop) : Prop := {
  li_T : transfer edge sns ws n blk (l_o s) (l_m s) (l_out s);
  li_good : good (l_o s);
  li_last : good (l_last s);
  li_chain : chain (l_last s) (l_air s) (l_o s);
  li_va : is_va (l_known s) (u_Q (l_last s));
  li_known : forall i, l_known s i = true -> 0 <= i /\
    (i < u_Q (l_last s) \/ (u_Q (l_last s) <= i < u_R (l_last s) /\ rec (u_t (l_last s)) i));
  li_R : u_R (l_o s) <= u_Q (l_last s) + uws (l_o s) }.

Lemma va_unique h a b : is_va h a -> is_va h b -> a = b.
Proof.
  intros (A1 & A2 & A3) (B1 & B2 & B3). destruct (Z.lt_trichotomy a b) as [L | [-> | L]]; [|reflexivity|].
  - rewrite (B2 a) in A3 by lia. discriminate.
  - rewrite (A2 b) in B3 by lia. discriminate.
Qed.

Lemma start_inv : LInv (lstart sns ws).
Proof.
  destruct (par_half _ P0) as [Hh Hp].
  assert (G : good (uobs_init sns ws)).
  { constructor; cbn; auto; [now constructor|left; reflexivity| |pose proof (mo_n _ _ _ _ M); lia|].
    - intros k K1 K2. cbn in K2. lia.
    - intros i (c & far & []). }
  constructor; cbn [lstart l_o l_m l_out l_known l_air l_last]; auto.
  - now constructor.
  - cbn. apply later_refl.
  - cbn. unfold is_va, unknown. splits; auto; lia.
  - intros i. unfold unknown. discriminate.
  - cbn. destruct Hp as (_ & H & _). unfold uws, ul_tbf_init, ul_init. cbn. lia.
Qed.

(** What the mobile sends is acceptable to the PCU. *)
Lemma sends_from s l : LInv s -> Forall (sends edge sns (u_Q (l_last s)) (uws (l_o s)) n blk) l ->
  Forall (from_mobile edge sns (uws (l_o s)) (u_Q (l_o s)) n blk) l.
Proof.
  intros I. apply Forall_impl. intros b (i & H1 & H2 & H3 & H4). exists i. splits; auto; try lia.
  - pose proof (good_rng _ (li_good _ I)). pose proof (li_R _ I). lia.
  - pose proof (la_Q _ _ (chain_later _ _ _ (li_chain _ I))). lia.
Qed.

Lemma good_of o m out : transfer edge sns ws n blk o m out -> loop_params edge sns (uws o) -> at_rest o -> marked ws o -> good o.
Proof.
  intros T PA AR MK. destruct (transfer_inv edge sns ws n blk o m out T) as [A _].
  constructor; auto.
  - exact (reach_of _ _ _ _ (A _ (fill_agrees edge n blk c0))).
  - exact (q_range edge sns ws n blk F M o A).
  - intros i (c & far & H). exact (proj1 (arrivals edge sns ws n blk o A _ _ _ H)).
Qed.

Lemma step_inv s s' : LInv s -> lstep edge sns n blk s s' -> LInv s'.
Proof.
  intros I S. pose proof I as I0. destruct I0.
  assert (HL := chain_later _ _ _ li_chain0).
  assert (HU := reach_UInv _ _ _ (g_reach _ li_good0)).
  pose proof (g_par _ li_good0) as PA. destruct (par_half _ PA) as [Hh Hp].
  destruct S as [a rel flow l t' m' new fin o' VA HA SD RC US|w o' OK PW US|rest Hr|x y z E|a o r rest VA E];
    unfold with_pcu, with_air.
  - apply (va_unique _ _ _ li_va0) in VA. subst a.
    pose proof (sends_from s l I SD) as FM.
    assert (T' : transfer edge sns ws n blk o' m' (l_out s ++ new)) by (eapply T_rcv; eauto).
    assert (Hsns : 0 < sns) by (apply sns_pos; apply Hp).
    assert (K : later (l_o s) o' /\ uws o' = uws (l_o s) /\ at_rest o' /\ marked ws o' /\ u_R o' <= u_Q (l_last s) + uws (l_o s)).
    { eapply rcv_keep; eauto using g_rest, g_mark.
      - cbn. eapply Forall_impl; [|exact FM]. intros b (i & _ & _ & -> & _). apply Z.mod_pos_bound. exact Hsns.
      - apply Forall_forall. intros b B. rewrite Forall_forall in SD. destruct (SD b B) as (i & H1 & H2 & H3 & _).
        rewrite Forall_forall in FM. pose proof (FM b B) as (i2 & _). rewrite H3.
        assert (HW : u_Q (l_o s) - uws (l_o s) <= i < u_Q (l_o s) + uws (l_o s)).
        { pose proof (la_Q _ _ HL). pose proof (good_rng _ li_good0). lia. }
        destruct (number_sent sns (uws (l_o s)) (u_Q (l_o s)) i Hsns) as [->|N]; [apply Hp|exact HW| |]; lia. }
    destruct K as (K1 & K2 & K3 & K4 & K5).
    constructor; cbn [l_o l_m l_out l_known l_air l_last]; auto.
    + apply (good_of o' m' _ T'); auto. rewrite K2. exact PA.
    + exact (chain_end _ _ _ K1 _ li_chain0).
    + rewrite K2. exact K5.
  - destruct (ws_keep _ _ _ _ _ HU OK US (g_rest _ li_good0) (g_mark _ li_good0)) as (K1 & K2 & K3 & K4 & K5 & K6).
    assert (T' : transfer edge sns ws n blk o' (l_m s) (l_out s)) by (eapply T_ws; eauto).
    constructor; cbn [l_o l_m l_out l_known l_air l_last]; rewrite ?app_nil_r; auto.
    + apply (good_of o' _ _ T'); auto. rewrite K2. exact PW.
    + exact (chain_end _ _ _ K1 _ li_chain0).
    + pose proof (la_ws _ _ K1). lia.
  - constructor; cbn [l_o l_m l_out l_known l_air l_last]; auto. apply chain_add; auto. exists rest. auto.
  - constructor; cbn [l_o l_m l_out l_known l_air l_last]; auto. rewrite E in li_chain0. eapply chain_lost; eauto.
  - apply (va_unique _ _ _ li_va0) in VA. subst a.
    rewrite E in li_chain0. cbn [chain] in li_chain0. destruct li_chain0 as (LT & GO & MD & CH).
    pose proof (chain_later _ _ _ CH) as HO. pose proof (la_R _ _ HO) as R1. pose proof (la_Q _ _ LT) as Q1.
    pose proof (good_rng _ GO) as RO. pose proof (good_rng _ li_last0) as RL.
    set (h' := hears (u_Q (l_last s)) (uws (l_o s)) n r (l_known s)).
    assert (KN : forall i, h' i = true -> 0 <= i /\ (i < u_Q o \/ (u_Q o <= i < u_R o /\ rec (u_t o) i))).
    { intros i. unfold h', hears. rewrite orb_true_iff. intros [H|H].
      - apply li_known0 in H. destruct H as [H0 [H|[H1 H2]]]; split; auto; [left; lia|].
        destruct (Z_lt_ge_dec i (u_Q o)) as [|G]; [left; lia|right]. pose proof (la_R _ _ LT). split; [lia|].
        apply (la_rec _ _ LT); [lia|exact H2].
      - rewrite !andb_true_iff in H. destruct H as [[[H1 H2] H3] H4].
        split; [lia|]. apply (says_sound (u_Q (l_last s)) (uws (l_o s)) o r i GO MD PA); try lia.
        destruct (says (u_Q (l_last s)) r i) as [[|]|]; try discriminate. reflexivity. }
    constructor; cbn [l_o l_m l_out l_known l_air l_last]; auto; [|lia].
    unfold is_va. splits; [lia| |].
    + intros i Hi. unfold h', hears. destruct (Z_lt_ge_dec i (u_Q (l_last s))) as [Hlt|Hge].
      * destruct li_va0 as (_ & V & _). rewrite V by lia. reflexivity.
      * rewrite (says_all (u_Q (l_last s)) (uws (l_o s)) o r i GO MD PA) by lia.
        pose proof (g_Q _ GO). replace ((u_Q (l_last s) <=? i) && (i <? u_Q (l_last s) + uws (l_o s)) && (i <? n)) with true by lia.
        apply orb_true_r.
    + destruct (h' (u_Q o)) eqn:HQ; [|reflexivity]. exfalso. apply KN in HQ. destruct HQ as [_ [HQ|[HQ1 HQ2]]]; [lia|].
      destruct (g_rest _ GO) as [G|G]; [lia|contradiction].
Qed.

Lemma steps_inv s s' : LInv s -> lsteps edge sns n blk s s' -> LInv s'.
Proof. intros I S. induction S as [|s1 s2 S IH T]; [exact I|]. exact (step_inv _ _ IH T). Qed.
Lemma loop_inv s : ul_loop edge sns n blk ws s -> LInv s.
Proof. intros [_ S]. exact (steps_inv _ _ start_inv S). Qed.

Lemma known_arrived s i : ul_loop edge sns n blk ws s -> l_known s i = true -> 0 <= i < n /\ arrived (l_o s) i.
Proof.
  intros L K. pose proof (loop_inv s L) as I. destruct I. apply li_known0 in K.
  pose proof (ui_J _ _ _ (reach_UInv _ _ _ (g_reach _ li_last0))) as HJ.
  assert (A : arrived (l_last s) i).
  { destruct K as [K0 [K|[K1 K2]]]; [apply (j_del _ _ _ _ _ _ HJ); lia|].
    destruct (j_snd _ _ _ _ _ _ HJ i K1 K2) as [far X]. eexists; eexists; exact X. }
  split; [exact (g_arr _ li_last0 i A)|]. destruct A as (c & far & A). exists c, far. exact (la_log _ _ (chain_later _ _ _ li_chain0) _ A).
Qed.
Lemma va_is s a : ul_loop edge sns n blk ws s -> is_va (l_known s) a <-> a = u_Q (l_last s).
Proof.
  intros L. pose proof (li_va _ (loop_inv s L)) as V. split; [intros VA; exact (va_unique _ _ _ VA V)|intros ->; exact V].
Qed.
Lemma va_behind s a : ul_loop edge sns n blk ws s -> is_va (l_known s) a -> 0 <= a <= u_Q (l_o s) /\ u_R (l_o s) <= a + uws (l_o s).
Proof.
  intros L VA. apply (va_is s a L) in VA. subst a. pose proof (loop_inv s L) as I. destruct I. 
  pose proof (la_Q _ _ (chain_later _ _ _ li_chain0)). pose proof (g_Q _ li_last0). lia.
Qed.
Lemma loop_transfer s : ul_loop edge sns n blk ws s -> transfer edge sns ws n blk (l_o s) (l_m s) (l_out s).
Proof. intros L. exact (li_T _ (loop_inv s L)). Qed.
Lemma loop_total s a rel flow l : ul_loop edge sns n blk ws s -> is_va (l_known s) a -> half_alone l ->
  Forall (sends edge sns a (uws (l_o s)) n blk) l ->
  exists m' new o', uobs_step (URcv rel flow l) (l_o s) = Some o' /\ lstep edge sns n blk s (with_pcu s o' m' new).
Proof.
  intros L VA HA SD. pose proof (loop_inv s L) as I. pose proof SD as SD1. apply (va_is s a L) in VA as VE. subst a.
  destruct (frames_total edge sns ws n blk F M _ _ _ rel flow l (li_T _ I) (sends_from s l I SD)) as (t' & m' & new & fin & o' & RC & US).
  exists m', new, o'. split; [exact US|]. eapply L_send; eauto.
Qed.

Lemma more s s' : ul_loop edge sns n blk ws s -> lstep edge sns n blk s s' -> ul_loop edge sns n blk ws s'.
Proof. intros [P S] T. split; [exact P|]. exact (L_more _ _ _ _ _ _ _ S T). Qed.
Lemma steps_trans s1 s2 s3 : lsteps edge sns n blk s1 s2 -> lsteps edge sns n blk s2 s3 -> lsteps edge sns n blk s1 s3.
Proof. intros A B. induction B as [|x y B IH T]; [exact A|]. exact (L_more _ _ _ _ _ _ _ IH T). Qed.
Lemma more_steps s s' : ul_loop edge sns n blk ws s -> lsteps edge sns n blk s s' -> ul_loop edge sns n blk ws s'.
Proof. intros [P S] T. split; [exact P|]. exact (steps_trans _ _ _ S T). Qed.

(** All reports lost, then one is heard. *)
Lemma lose_all : forall air s, l_air s = air -> lsteps edge sns n blk s (with_air s []).
Proof.
  induction air as [|y z IH]; intros s E.
  - destruct s as [o m out h air last]. cbn in *. subst air. apply L_refl.
  - apply steps_trans with (with_air s z).
    + eapply L_more; [apply L_refl|]. exact (L_lost edge sns n blk s [] y z E).
    + exact (IH (with_air s z) eq_refl).
Qed.
Lemma catch_up s : ul_loop edge sns n blk ws s -> exists s', lsteps edge sns n blk s s' /\ l_o s' = l_o s /\ l_out s' = l_out s /\
  is_va (l_known s') (u_Q (l_o s)).
Proof.
  intros L. pose proof (lose_all _ s eq_refl) as S0. set (s0 := with_air s []) in *.
  pose proof (L_report edge sns n blk s0 0 ltac:(lia)) as S1. set (s1 := with_air s0 _) in S1.
  pose proof (more _ _ (more_steps _ _ L S0) S1) as L1.
  pose proof (proj2 (va_is s1 _ L1) eq_refl) as V1.
  pose proof (L_hears edge sns n blk s1 _ (l_o s) _ [] V1 eq_refl) as S2.
  eexists. split; [eapply L_more; [eapply L_more; [exact S0|exact S1]|exact S2]|].
  split; [reflexivity|]. split; [reflexivity|].
  apply (proj2 (va_is _ _ (more _ _ L1 S2))). reflexivity.
Qed.

Definition next_block (s : uloop) : ul_blk := mk_ulb (u_Q (l_o s) mod sns) (content edge (blk (u_Q (l_o s)))) false true.
(** The next block is delivered if it arrives. *)
Lemma deliver s flow o' : ul_loop edge sns n blk ws s -> no_far (u_log (l_o s)) -> 
  uobs_step (URcv false flow [next_block s]) (l_o s) = Some o' -> u_Q (l_o s) < n -> 
  later (l_o s) o' -> uws o' = uws (l_o s) -> u_Q (l_o s) < u_Q o' /\ no_far (u_log o').
Proof.
  intros L NF US QN LA WS. pose proof (loop_inv s L) as I. pose proof (li_good _ I) as G. set (o := l_o s) in *.
  destruct (par_half _ (g_par _ G)) as [Hh Hp].
  assert (Hsns : 0 < sns) by (apply sns_pos; apply Hp).
  assert (OK : ul_op_ok sns (URcv false flow [next_block s]) o).
  { cbn. repeat constructor; cbn; apply Z.mod_pos_bound; exact Hsns. }
  assert (LOG : exists c, u_log o' = Arr (u_Q o) c false :: u_log o).
  { cbn [uobs_step] in US. destruct (ul_rcv false flow (u_t o) [next_block s]) as [[[t' out] fin]|]; [|discriminate].
    cbn [uobs_loop] in US. destruct (ul_rcv_one (u_t o) (next_block s)) as [t1 ret].
    destruct ret; injection US as <-; cbn [u_log].
    all: pose proof (ui_J _ _ _ (reach_UInv _ _ _ (g_reach _ G))) as HJ; rewrite (j_sns _ _ _ _ _ _ HJ); unfold uobs_one, next_block;
      cbn [ub_bsn ub_incomplete ub_tlli_ok ub_content]; fold o;
      (assert (EN : ul_number sns (u_Q o) (u_Q o mod sns) = u_Q o) by (unfold ul_number; rewrite Zminus_mod_idemp_l, Z.sub_diag, Z.mod_0_l; lia));
      rewrite EN; change (uw_ws (ut_w (u_t o))) with (uws o); destruct Hp as (_ & Hp1 & _);
      replace ((u_Q o <? u_Q o + uws o) && negb false && true) with true by lia;
      replace (u_Q o =? u_Q o + uws o - 1) with false by lia; cbn [andb]; eauto. }
  destruct LOG as [c LOG].
  assert (NF' : no_far (u_log o')) by (rewrite LOG; apply no_far_cons; auto).
  split; [|exact NF'].
  pose proof (c06_prompt sns ws o flow [next_block s] o' (g_reach _ G) OK) as PR.
  specialize (PR ltac:(repeat constructor) US ltac:(rewrite WS; exact Hh) NF').
  pose proof (la_Q _ _ LA) as QQ. destruct (Z.eq_dec (u_Q o) (u_Q o')) as [E|]; [|lia].
  exfalso. apply PR. rewrite <- E. exists c, false. rewrite LOG. now left.
Qed.

Lemma live : forall k s, ul_loop edge sns n blk ws s -> no_far (u_log (l_o s)) -> n - u_Q (l_o s) <= Z.of_nat k ->
  exists s', lsteps edge sns n blk s s' /\ u_Q (l_o s') = n /\ l_out s' = F /\ is_va (l_known s') n.
Proof.
  induction k as [|k IH]; intros s L NF K; destruct (catch_up s L) as (s1 & S1 & E1 & E2 & V1);
    pose proof (more_steps _ _ L S1) as L1; pose proof (g_Q _ (li_good _ (loop_inv s L))) as QR.
  - assert (QN : u_Q (l_o s) = n) by lia. exists s1. split; [exact S1|]. rewrite E1. split; [exact QN|]. split; [|rewrite <- QN; exact V1].
    apply (frames_all edge sns ws n blk F M _ _ _ (loop_transfer s1 L1)). rewrite E1. exact QN.
  - destruct (Z.eq_dec (u_Q (l_o s)) n) as [QN|QN].
    { exists s1. split; [exact S1|]. rewrite E1. split; [exact QN|]. split; [|rewrite <- QN; exact V1].
      apply (frames_all edge sns ws n blk F M _ _ _ (loop_transfer s1 L1)). rewrite E1. exact QN. }
    rewrite <- E1 in V1. pose proof (par_half _ (g_par _ (li_good _ (loop_inv s1 L1)))) as (_ & _ & W1 & _).
    assert (SD : Forall (sends edge sns (u_Q (l_o s1)) (uws (l_o s1)) n blk) [next_block s1]).
    { constructor; [|constructor]. exists (u_Q (l_o s1)). rewrite E1 in *. splits; try lia; unfold next_block; cbn; rewrite E1; auto. }
    destruct (loop_total s1 _ false true _ L1 V1 (or_introl (ex_intro _ _ eq_refl)) SD) as (m' & new & o' & US & ST).
    pose proof (more _ _ L1 ST) as L2. 
    assert (KP : later (l_o s1) o' /\ uws o' = uws (l_o s1)).
    { pose proof (loop_inv s1 L1) as I1. pose proof (li_good _ I1) as G1. destruct (par_half _ (g_par _ G1)) as [Hh Hp].
      assert (Hsns : 0 < sns) by (apply sns_pos; apply Hp).
      destruct (rcv_keep sns ws (u_R (l_o s1) + uws (l_o s1) + 1) false true [next_block s1] (l_o s1) o') as (A & B & _); auto.
      - exact (reach_UInv _ _ _ (g_reach _ G1)).
      - cbn. repeat constructor; cbn; apply Z.mod_pos_bound; exact Hsns.
      - left. eauto.
      - exact (g_rest _ G1).
      - exact (g_mark _ G1).
      - pose proof (good_rng _ G1). lia.
      - repeat constructor. cbn. intros H. pose proof (good_rng _ G1). lia. }
    destruct KP as [K1 K2].
    destruct (deliver s1 true o' L1) as [D1 D2]; auto; [rewrite E1; exact NF|rewrite E1; lia|].
    destruct (IH _ L2) as (s' & A & B); [exact D2|cbn [with_pcu l_o]; rewrite E1 in D1; lia|].
    exists s'. split; [|exact B]. apply steps_trans with s1; [exact S1|]. eapply steps_trans; [|exact A]. eapply L_more; [apply L_refl|exact ST].
Qed.

Lemma live_always s : ul_loop edge sns n blk ws s -> no_far (u_log (l_o s)) ->
  exists s', lsteps edge sns n blk s s' /\ u_Q (l_o s') = n /\ l_out s' = F /\ is_va (l_known s') n.
Proof. intros L NF. apply (live (Z.to_nat (n - u_Q (l_o s))) s L NF). lia. Qed.
Lemma egprs_no_far s : edge = true -> ul_loop edge sns n blk ws s -> no_far (u_log (l_o s)).
Proof.
  intros E L. pose proof (li_good _ (loop_inv s L)) as G. apply (reach_no_far _ _ _ (g_reach _ G)).
  pose proof (g_par _ G) as PA. unfold loop_params in PA. rewrite E in PA. lia.
Qed.

(** A block that was received too early, and is the last one. *)
Definition stuck (o : uobs) : Prop := u_Q o = n - 1 /\ u_R o = n - 1 /\ rec (u_t o) (n - 1).
Lemma stuck_step s s' : LInv s -> stuck (l_o s) -> lstep edge sns n blk s s' -> stuck (l_o s').
Proof.
  intros I (K1 & K2 & K3) S. pose proof (li_good _ I) as G. pose proof (ui_J _ _ _ (reach_UInv _ _ _ (g_reach _ G))) as HJ.
  destruct (par_half _ (g_par _ G)) as [Hh Hp]. assert (Hsns : 0 < sns) by (apply sns_pos; apply Hp).
  destruct S as [a rel flow l t' m' new fin o' VA HA SD RC US|w o' OK PW US|rest Hr|x y z E|a o r rest VA E];
    cbn [with_pcu with_air l_o]; try (split; [exact K1|]; split; [exact K2|exact K3]).
  - apply (va_unique _ _ _ (li_va _ I)) in VA. subst a. pose proof (sends_from s l I SD) as FM. clear RC SD HA.
    set (o := l_o s) in *.
    assert (LP : ul_rcv_loop (u_t o) l = (u_t o, false) /\ snd (uobs_loop (u_t o) (u_Q o) (u_R o) l (u_log o)) = u_R o).
    { generalize (u_log o) as lg. clear US. induction FM as [|b l B _ IH]; intros lg; [split; reflexivity|].
      cbn [ul_rcv_loop uobs_loop].
      assert (E1 : ul_rcv_one (u_t o) b = (u_t o, false)).
      { destruct B as (i & B1 & B2 & B3 & _). unfold ul_rcv_one.
        rewrite (in_window_number sns (ut_w (u_t o)) (u_Q o)); [|exact (j_sns _ _ _ _ _ _ HJ)|exact (j_ok _ _ _ _ _ _ HJ)|exact (j_vq _ _ _ _ _ _ HJ)].
        change (uw_ws (ut_w (u_t o))) with (uws o). rewrite B3.
        destruct (number_sent sns (uws o) (u_Q o) i Hsns) as [N|N]; [apply Hp|exact B2| |].
        - rewrite N. pose proof (number_ge sns (u_Q o) (i mod sns) Hsns) as NG. rewrite N in NG.
          assert (i = n - 1) by lia. subst i.
          replace (n - 1 <? u_Q o + uws o) with true by lia. cbn [negb].
          rewrite (vn_st (ut_w (u_t o)) _ (n - 1)); [|rewrite (j_sns _ _ _ _ _ _ HJ); exact (j_ok _ _ _ _ _ _ HJ)|rewrite (j_sns _ _ _ _ _ _ HJ); reflexivity].
          unfold rec in K3. rewrite K3. reflexivity.
        - replace (ul_number sns (u_Q o) (i mod sns) <? u_Q o + uws o) with false by lia. reflexivity. }
      rewrite E1. rewrite Z.sub_diag, Z.mod_0_l by (rewrite (j_sns _ _ _ _ _ _ HJ); lia). rewrite Z.add_0_r. apply IH. }
    destruct LP as [LP1 LP2]. cbn [uobs_step] in US. unfold ul_rcv in US. destruct rel; [injection US as <-; exact (conj K1 (conj K2 K3))|].
    rewrite LP1 in US. unfold ul_raise_v_q in US.
    assert (RV : ul_raise_v_q_loop (Z.to_nat (uw_sns (ut_w (u_t o)))) (ut_w (u_t o)) 0 = Some (ut_w (u_t o), 0)).
    { rewrite (j_sns _ _ _ _ _ _ HJ). destruct (Z.to_nat sns) as [|k] eqn:EK; [lia|]. cbn [ul_raise_v_q_loop].
      rewrite (j_vq _ _ _ _ _ _ HJ), (j_vr _ _ _ _ _ _ HJ), K1, K2, Z.eqb_refl. reflexivity. }
    rewrite RV in US. destruct (uobs_loop (u_t o) (u_Q o) (u_R o) l (u_log o)) as [lg R'] eqn:EO. cbn [snd] in LP2. injection US as <-.
    unfold stuck, rec. cbn [u_Q u_R u_t with_w ut_w]. cbn. splits; [lia|lia|exact K3].
  - cbn [uobs_step] in US. unfold ul_set_ws in US. destruct (set_ws_check w); [|discriminate]. injection US as <-. exact (conj K1 (conj K2 K3)).
Qed.
Lemma stuck_steps s s' : LInv s -> stuck (l_o s) -> lsteps edge sns n blk s s' -> stuck (l_o s').
Proof.
  intros I K S. induction S as [|s1 s2 S IH T]; [exact K|]. exact (stuck_step _ _ (steps_inv _ _ I S) IH T).
Qed.
Lemma stuck_forever s s' : ul_loop edge sns n blk ws s -> stuck (l_o s) -> lsteps edge sns n blk s s' ->
  u_Q (l_o s') = n - 1 /\ (forall a, is_va (l_known s') a -> a < n) /\ l_out s' = fst (frames_in blk (n - 1)).
Proof.
  intros L K S. pose proof (stuck_steps _ _ (loop_inv s L) K S) as (Q & _). pose proof (more_steps _ _ L S) as L'.
  split; [exact Q|]. split.
  - intros a VA. apply (va_behind _ _ L') in VA. lia.
  - destruct (frames_exact edge sns ws n blk F M _ _ _ (loop_transfer s' L')) as [_ E]. rewrite Q in E. rewrite <- E. reflexivity.
Qed.
End Loop.
