(** Frame number arithmetic. *)
From Coq Require Import ZArith List Bool Lia Znumtheory.
From Verif Require Import Model.FrameNo Model.UlController Spec.FrameSpec.
Import ListNotations.
Local Open Scope Z_scope.

Lemma H_val : HYP = 2715648. Proof. reflexivity. Qed.

Lemma mod_H_52 x : (x mod HYP) mod 52 = x mod 52.
Proof. symmetry; apply Zmod_div_mod; [reflexivity|reflexivity|]. exists 52224. reflexivity. Qed.
Lemma mod_H_13 x : (x mod HYP) mod 13 = x mod 13.
Proof. symmetry; apply Zmod_div_mod; [reflexivity|reflexivity|]. exists 208896. reflexivity. Qed.
Lemma mod_H_rfn x : (x mod HYP) mod RFN_MODULUS = x mod RFN_MODULUS.
Proof. symmetry; apply Zmod_div_mod; [reflexivity|reflexivity|]. exists 64. reflexivity. Qed.
Lemma mod_52_13 x : (x mod 52) mod 13 = x mod 13.
Proof. symmetry; apply Zmod_div_mod; [reflexivity|reflexivity|]. exists 4. reflexivity. Qed.

Lemma u32_small x : 0 <= x < 2 ^ 32 -> u32 x = x.
Proof. intros; unfold u32; apply Z.mod_small; lia. Qed.

Lemma in_hyper_mod x : in_hyper (x mod HYP).
Proof. unfold in_hyper. apply Z.mod_pos_bound. reflexivity. Qed.

Lemma next_fn_spec fn o : in_hyper fn -> 0 <= o <= 1000 -> next_fn fn o = (fn + o) mod HYP.
Proof. unfold in_hyper, next_fn; intros. rewrite u32_small; [reflexivity|]. rewrite H_val in *. lia. Qed.

(** Reasoning by the twelve residues. *)
Lemma block_cases fn : block_start fn ->
  exists q r, fn = 52 * q + r /\ fn mod 52 = r /\ In r block_starts.
Proof.
  intros B. exists (fn / 52), (fn mod 52). split; [|split; [reflexivity|exact B]].
  apply Z.div_mod; lia.
Qed.

(** Gap from one block start to the next, by residue. *)
Definition gap (r : Z) : Z := if (r =? 8) || (r =? 21) || (r =? 34) || (r =? 47) then 5 else 4.

Lemma next_block_gap fn : in_hyper fn -> block_start fn ->
  fn_next_block fn = (fn + gap (fn mod 52)) mod HYP.
Proof.
  intros Hf B. destruct (block_cases fn B) as (q & r & E & R & I).
  unfold fn_next_block, fn2bn. rewrite R. unfold in_hyper in Hf. rewrite H_val in Hf.
  unfold block_starts in I. cbn [In] in I.
  repeat (destruct I as [<- | I]); try contradiction;
    match goal with |- u32 (fn - ?r + ?k) mod HYP = (fn + ?g) mod HYP =>
      let k' := eval vm_compute in k in let g' := eval vm_compute in g in
      replace k with k' by reflexivity; replace g with g' by reflexivity end;
    rewrite u32_small by lia; f_equal; lia.
Qed.

Lemma gap_bound r : 4 <= gap r <= 5.
Proof. unfold gap. destruct (_ || _); lia. Qed.

Lemma ahead_add a k : 0 <= k < HYP -> ahead a ((a + k) mod HYP) = k.
Proof.
  intros. unfold ahead. rewrite Zminus_mod_idemp_l. replace (a + k - a) with k by lia.
  apply Z.mod_small; lia.
Qed.
Lemma ahead_range a b : 0 <= ahead a b < HYP.
Proof. apply Z.mod_pos_bound. reflexivity. Qed.
Lemma ahead_back a b : in_hyper b -> (a + ahead a b) mod HYP = b.
Proof.
  intros Hb. unfold ahead. rewrite Zplus_mod_idemp_r. replace (a + (b - a)) with b by lia.
  apply Z.mod_small; exact Hb.
Qed.
Lemma ahead_inj a x y : in_hyper x -> in_hyper y -> ahead a x = ahead a y -> x = y.
Proof. intros Hx Hy E. rewrite <- (ahead_back a x Hx), <- (ahead_back a y Hy), E. reflexivity. Qed.
Lemma ahead_shift a b x : ahead a b <= ahead a x -> ahead b x = ahead a x - ahead a b.
Proof.
  intros L. pose proof (ahead_range a b). pose proof (ahead_range a x).
  unfold ahead in *. symmetry. rewrite <- (Z.mod_small ((x - a) mod HYP - (b - a) mod HYP) HYP) by lia.
  rewrite Zminus_mod_idemp_r, Zminus_mod_idemp_l. f_equal. lia.
Qed.

Lemma block_start_mod x : block_start (x mod HYP) <-> block_start x.
Proof. unfold block_start. rewrite mod_H_52. tauto. Qed.

(** Residue arithmetic decided on 0..51. *)
Definition bsb (r : Z) : bool := existsb (fun x => x =? r) block_starts.
Lemma bsb_iff r : bsb r = true <-> In r block_starts.
Proof.
  unfold bsb. rewrite existsb_exists. split.
  - intros (x & I & E). apply Z.eqb_eq in E. subst; auto.
  - intros I. exists r. split; [auto|apply Z.eqb_refl].
Qed.

Definition zrange (n : nat) : list Z := map Z.of_nat (seq 0 n).
Lemma zrange_in n x : 0 <= x < Z.of_nat n -> In x (zrange n).
Proof. intros. apply in_map_iff. exists (Z.to_nat x). split; [lia|]. apply in_seq. lia. Qed.
Lemma zrange_forall n (P : Z -> bool) :
  forallb P (zrange n) = true -> forall x, 0 <= x < Z.of_nat n -> P x = true.
Proof. intros F x R. rewrite forallb_forall in F. apply F, zrange_in, R. Qed.

Lemma mod52_range x : 0 <= x mod 52 < 52. Proof. apply Z.mod_pos_bound; lia. Qed.

Lemma add_mod52 x k : (x + k) mod 52 = (x mod 52 + k) mod 52.
Proof. rewrite Zplus_mod_idemp_l. reflexivity. Qed.

Lemma gap_next_chk : forallb (fun r => implb (bsb r) (bsb ((r + gap r) mod 52))) (zrange 52) = true.
Proof. vm_compute; reflexivity. Qed.
Lemma gap_between_chk :
  forallb (fun r => implb (bsb r) (forallb (fun k => implb ((0 <? k) && (k <? gap r)) (negb (bsb ((r + k) mod 52)))) (zrange 6)))
    (zrange 52) = true.
Proof. vm_compute; reflexivity. Qed.
Lemma gap_idle_chk :
  forallb (fun r => implb (bsb r && (gap r =? 5)) (existsb (fun x => x =? (r + 4) mod 52) [12; 25; 38; 51]))
    (zrange 52) = true.
Proof. vm_compute; reflexivity. Qed.

Lemma next_block_ok fn : in_hyper fn -> block_start fn ->
  in_hyper (fn_next_block fn) /\ block_start (fn_next_block fn) /\
  4 <= ahead fn (fn_next_block fn) <= 5 /\
  (forall k, 0 < k < ahead fn (fn_next_block fn) -> ~ block_start ((fn + k) mod HYP)) /\
  (ahead fn (fn_next_block fn) = 5 -> In ((fn + 4) mod 52) [12; 25; 38; 51]).
Proof.
  intros Hf B. rewrite (next_block_gap fn Hf B).
  pose proof (gap_bound (fn mod 52)) as G.
  rewrite ahead_add by (rewrite H_val; lia).
  pose proof (mod52_range fn) as R.
  pose proof (proj2 (bsb_iff _) B) as Bb.
  split; [apply in_hyper_mod|]. split; [|split; [exact G|split]].
  - apply block_start_mod. unfold block_start. apply bsb_iff.
    pose proof (zrange_forall 52 _ gap_next_chk (fn mod 52) R) as C. cbv beta in C. rewrite Bb in C. cbn [implb] in C.
    rewrite add_mod52. exact C.
  - intros k K. rewrite block_start_mod. unfold block_start. rewrite <- bsb_iff.
    pose proof (zrange_forall 52 _ gap_between_chk (fn mod 52) R) as C. cbv beta in C. rewrite Bb in C. cbn [implb] in C.
    pose proof (zrange_forall 6 _ C k ltac:(lia)) as D. cbv beta in D.
    assert (X : (0 <? k) && (k <? gap (fn mod 52)) = true)
      by (rewrite andb_true_iff, !Z.ltb_lt; lia).
    rewrite X in D. cbn [implb] in D. rewrite add_mod52. apply negb_true_iff in D. congruence.
  - intros E. pose proof (zrange_forall 52 _ gap_idle_chk (fn mod 52) R) as C. cbv beta in C. rewrite Bb, E in C.
    rewrite Z.eqb_refl in C. cbn [implb andb] in C.
    apply existsb_exists in C as (x & I & X). apply Z.eqb_eq in X. rewrite add_mod52. subst; exact I.
Qed.

Lemma rts_next_ok fn : in_hyper fn -> block_start fn -> rts_next_fn fn (fn2bn fn) = fn_next_block fn.
Proof.
  intros Hf B. rewrite (next_block_gap fn Hf B).
  destruct (block_cases fn B) as (q & r & E & R & I).
  unfold rts_next_fn, fn2bn. rewrite R. unfold in_hyper in Hf. rewrite H_val in Hf.
  unfold block_starts in I. cbn [In] in I.
  repeat (destruct I as [<- | I]); try contradiction;
    match goal with |- (if ?c then _ else _) mod HYP = (fn + ?g) mod HYP =>
      let c' := eval vm_compute in c in let g' := eval vm_compute in g in
      replace c with c' by reflexivity; replace g with g' by reflexivity end;
    rewrite ?(u32_small (fn + 4)) by lia; rewrite ?u32_small by lia; f_equal; lia.
Qed.

Lemma fn2bn_ok fn : block_start fn ->
  0 <= fn2bn fn <= 11 /\ nth_error block_starts (Z.to_nat (fn2bn fn)) = Some (fn mod 52).
Proof.
  intros B. unfold block_start in B. unfold fn2bn. revert B. generalize (fn mod 52). intros r I.
  unfold block_starts in I. cbn [In] in I.
  repeat (destruct I as [<- | I]); try contradiction; (split; [vm_compute; split; discriminate|vm_compute; reflexivity]).
Qed.

Lemma valid_chk :
  forallb (fun r => Bool.eqb (let f := r mod 13 in (f =? 0) || (f =? 4) || (f =? 8)) (bsb r)) (zrange 52) = true.
Proof. vm_compute; reflexivity. Qed.
Lemma fn_valid_iff fn : fn_valid fn = true <-> block_start fn.
Proof.
  unfold fn_valid, block_start. rewrite <- bsb_iff.
  pose proof (zrange_forall 52 _ valid_chk (fn mod 52) (mod52_range fn)) as C. cbv beta in C. cbv beta zeta in C.
  rewrite mod_52_13 in C. apply Bool.eqb_prop in C. cbv zeta. rewrite C. tauto.
Qed.

Lemma steps_add a b fn : steps (a + b) fn = steps b (steps a fn).
Proof. revert fn; induction a; intros; cbn [Nat.add steps]; auto. Qed.
Lemma steps_inv n fn : in_hyper fn -> block_start fn -> in_hyper (steps n fn) /\ block_start (steps n fn).
Proof.
  revert fn; induction n; intros fn Hf B; cbn [steps]; auto.
  destruct (next_block_ok fn Hf B) as (A & C & _). auto.
Qed.
Fixpoint rsteps (n : nat) (r : Z) : Z := match n with O => 0 | S k => gap r + rsteps k ((r + gap r) mod 52) end.
Lemma steps_gap n fn : in_hyper fn -> block_start fn -> steps n fn = (fn + rsteps n (fn mod 52)) mod HYP.
Proof.
  revert fn; induction n; intros fn Hf B; cbn [steps rsteps].
  - rewrite Z.add_0_r. symmetry. apply Z.mod_small. exact Hf.
  - destruct (next_block_ok fn Hf B) as (A & C & _). rewrite IHn by auto.
    rewrite (next_block_gap fn Hf B). rewrite mod_H_52, add_mod52, Zplus_mod_idemp_l. f_equal. lia.
Qed.
Lemma rsteps12_chk : forallb (fun r => implb (bsb r) (rsteps 12 r =? 52)) (zrange 52) = true.
Proof. vm_compute; reflexivity. Qed.
Lemma steps12 fn : in_hyper fn -> block_start fn -> steps 12 fn = (fn + 52) mod HYP.
Proof.
  intros Hf B. rewrite steps_gap by auto.
  pose proof (zrange_forall 52 _ rsteps12_chk (fn mod 52) (mod52_range fn)) as C. cbv beta in C.
  rewrite (proj2 (bsb_iff _) B) in C. cbn [implb] in C. apply Z.eqb_eq in C. rewrite C. reflexivity.
Qed.
Lemma steps_multiframes k fn : in_hyper fn -> block_start fn ->
  steps (k * 12) fn = (fn + 52 * Z.of_nat k) mod HYP.
Proof.
  revert fn; induction k; intros fn Hf B.
  - cbn [Nat.mul steps]. rewrite Z.add_0_r. symmetry. apply Z.mod_small. exact Hf.
  - cbn [Nat.mul]. rewrite steps_add, IHk by (apply steps_inv; auto).
    rewrite steps12 by auto. rewrite Zplus_mod_idemp_l. f_equal. lia.
Qed.
Lemma steps_hyper fn : in_hyper fn -> block_start fn -> steps (Z.to_nat 52224 * 12) fn = fn.
Proof.
  intros Hf B. rewrite steps_multiframes by auto. rewrite Z2Nat.id by lia.
  replace (fn + 52 * 52224) with (fn + 1 * HYP) by (rewrite H_val; lia).
  rewrite Z_mod_plus_full. apply Z.mod_small; exact Hf.
Qed.

(** ** Relative frame numbers *)
Lemma FN_SUB_spec a b : in_hyper a -> 0 <= b <= HYP -> FN_SUB a b = (a - b) mod HYP.
Proof.
  unfold in_hyper, FN_SUB; intros. rewrite u32_small by (rewrite H_val in *; lia).
  replace (a + HYP - b) with (a - b + 1 * HYP) by lia. apply Z_mod_plus_full.
Qed.
Lemma FN_DIFF_small a b : 0 <= a < RFN_MODULUS -> 0 <= b < RFN_MODULUS -> FN_DIFF a b = Z.abs (a - b).
Proof.
  intros A B. unfold RFN_MODULUS in *. unfold FN_DIFF.
  rewrite !FN_SUB_spec by (unfold in_hyper; rewrite H_val; lia).
  assert (X : forall d, 0 <= d < 42432 -> d mod HYP = d) by (intros; apply Z.mod_small; rewrite H_val; lia).
  assert (Y : forall d, 0 < d < 42432 -> (- d) mod HYP = HYP - d).
  { intros d D. replace (- d) with ((HYP - d) + (-1) * HYP) by lia. rewrite Z_mod_plus_full.
    apply Z.mod_small; rewrite H_val; lia. }
  destruct (Z.compare_spec a b) as [E|L|G].
  - subst. rewrite Z.sub_diag. reflexivity.
  - rewrite (X (b - a)) by lia. replace (a - b) with (- (b - a)) at 1 by lia.
    rewrite Y by lia. rewrite H_val. lia.
  - rewrite (X (a - b)) by lia. replace (b - a) with (- (a - b)) by lia. rewrite Y by lia.
    rewrite H_val. lia.
Qed.

(** What the function computes. *)
Lemma rfn_to_fn_val cur rfn : in_hyper cur -> 0 <= rfn < RFN_MODULUS ->
  bts_rfn_to_fn cur rfn =
  Some ((cur - cur mod RFN_MODULUS + rfn
         - (if RFN_THRESHOLD <? Z.abs (rfn - cur mod RFN_MODULUS) then RFN_MODULUS else 0)) mod HYP).
Proof.
  intros Hc R. unfold bts_rfn_to_fn.
  assert (L : (rfn <? RFN_MODULUS) = true) by (apply Z.ltb_lt; lia). rewrite L. cbn [negb].
  assert (U : (cur =? FN_UNSET) = false)
    by (apply Z.eqb_neq; unfold in_hyper in Hc; rewrite H_val in Hc; unfold FN_UNSET; lia).
  rewrite U. cbv zeta. unfold fn2rfn.
  assert (M : 0 <= cur mod RFN_MODULUS < RFN_MODULUS) by (apply Z.mod_pos_bound; reflexivity).
  rewrite FN_DIFF_small by auto.
  set (c := cur mod RFN_MODULUS) in *.
  assert (MH : RFN_MODULUS <= HYP) by (unfold RFN_MODULUS; rewrite H_val; lia).
  rewrite (FN_SUB_spec cur c) by (auto; lia).
  assert (SUM : forall a, 0 <= a < HYP -> FN_SUM a rfn = (a + rfn) mod HYP).
  { intros a A. unfold FN_SUM. rewrite u32_small; [reflexivity|]. unfold RFN_MODULUS in *. rewrite H_val in *. lia. }
  pose proof (in_hyper_mod (cur - c)) as I1.
  destruct (RFN_THRESHOLD <? Z.abs (rfn - c)).
  - destruct ((cur - c) mod HYP <? RFN_MODULUS) eqn:E.
    + assert (RM : in_hyper RFN_MODULUS) by (split; [discriminate|reflexivity]).
      rewrite (FN_SUB_spec RFN_MODULUS) by (auto; unfold in_hyper in I1; lia).
      unfold FN_SUB at 1. pose proof (in_hyper_mod (RFN_MODULUS - (cur - c) mod HYP)) as I2.
      unfold in_hyper in I2. rewrite u32_small by (rewrite H_val in *; lia).
      rewrite SUM by (apply Z.mod_pos_bound; reflexivity).
      f_equal. rewrite Zplus_mod_idemp_l.
      transitivity ((2 * HYP + rfn - (RFN_MODULUS - (cur - c) mod HYP) mod HYP) mod HYP); [f_equal; lia|].
      rewrite Zminus_mod_idemp_r.
      transitivity ((2 * HYP + rfn - RFN_MODULUS + (cur - c) mod HYP) mod HYP); [f_equal; lia|].
      rewrite Zplus_mod_idemp_r.
      transitivity ((cur - c + rfn - RFN_MODULUS + 2 * HYP) mod HYP); [f_equal; lia|]. apply Z_mod_plus_full.
    + rewrite FN_SUB_spec by (auto; lia). rewrite SUM by (apply Z.mod_pos_bound; reflexivity).
      f_equal. rewrite Zplus_mod_idemp_l.
      transitivity ((rfn - RFN_MODULUS + (cur - c) mod HYP) mod HYP); [f_equal; lia|].
      rewrite Zplus_mod_idemp_r. f_equal. lia.
  - rewrite SUM by exact I1. f_equal. rewrite Zplus_mod_idemp_l. f_equal. lia.
Qed.

Lemma rfn_congruent cur rfn : in_hyper cur -> 0 <= rfn < RFN_MODULUS ->
  exists f, bts_rfn_to_fn cur rfn = Some f /\ in_hyper f /\ f mod RFN_MODULUS = rfn.
Proof.
  intros Hc R. rewrite rfn_to_fn_val by auto. eexists; split; [reflexivity|].
  split; [apply in_hyper_mod|]. rewrite mod_H_rfn.
  pose proof (Z.div_mod cur RFN_MODULUS ltac:(discriminate)) as D.
  destruct (RFN_THRESHOLD <? _).
  - replace (cur - cur mod RFN_MODULUS + rfn - RFN_MODULUS)
      with (rfn + (cur / RFN_MODULUS - 1) * RFN_MODULUS) by lia.
    rewrite Z_mod_plus_full. apply Z.mod_small; lia.
  - replace (cur - cur mod RFN_MODULUS + rfn - 0)
      with (rfn + (cur / RFN_MODULUS) * RFN_MODULUS) by lia.
    rewrite Z_mod_plus_full. apply Z.mod_small; lia.
Qed.

Lemma rfn_past cur a : in_hyper cur -> 0 <= a < RFN_THRESHOLD ->
  bts_rfn_to_fn cur (fn2rfn ((cur - a) mod HYP)) = Some ((cur - a) mod HYP).
Proof.
  intros Hc A. unfold fn2rfn. rewrite mod_H_rfn.
  rewrite rfn_to_fn_val by (auto; apply Z.mod_pos_bound; reflexivity).
  f_equal. f_equal.
  pose proof (Z.div_mod cur RFN_MODULUS ltac:(discriminate)) as D.
  pose proof (Z.mod_pos_bound cur RFN_MODULUS ltac:(reflexivity)) as M.
  set (c := cur mod RFN_MODULUS) in *.
  change RFN_THRESHOLD with 21216 in *. unfold RFN_MODULUS in *.
  assert (X : (cur - a) mod 42432 = if a <=? c then c - a else c - a + 42432).
  { destruct (a <=? c) eqn:E.
    - symmetry; apply (Z.mod_unique_pos _ _ (cur / 42432)); lia.
    - symmetry; apply (Z.mod_unique_pos _ _ (cur / 42432 - 1)); lia. }
  rewrite X. destruct (a <=? c) eqn:E;
    match goal with |- context [21216 <? ?e] => destruct (21216 <? e) eqn:F end; lia.
Qed.

Lemma rfn_ahead_same cur d : in_hyper cur -> 0 <= d <= RFN_THRESHOLD ->
  cur mod RFN_MODULUS + d < RFN_MODULUS ->
  bts_rfn_to_fn cur (fn2rfn ((cur + d) mod HYP)) = Some ((cur + d) mod HYP).
Proof.
  intros Hc A S. unfold fn2rfn. rewrite mod_H_rfn.
  rewrite rfn_to_fn_val by (auto; apply Z.mod_pos_bound; reflexivity).
  f_equal. f_equal.
  pose proof (Z.div_mod cur RFN_MODULUS ltac:(discriminate)) as D.
  pose proof (Z.mod_pos_bound cur RFN_MODULUS ltac:(reflexivity)) as M.
  set (c := cur mod RFN_MODULUS) in *.
  change RFN_THRESHOLD with 21216 in *. unfold RFN_MODULUS in *.
  assert (X : (cur + d) mod 42432 = c + d)
    by (symmetry; apply (Z.mod_unique_pos _ _ (cur / 42432)); lia).
  rewrite X.
    match goal with |- context [21216 <? ?e] => destruct (21216 <? e) eqn:F end; lia.
Qed.

(** ** The block clock *)
Lemma delta_spec fn to : in_hyper fn -> in_hyper to ->
  delta_fn fn to = if ahead to fn <? HYP / 2 then ahead to fn else ahead to fn - HYP.
Proof.
  unfold in_hyper. intros F T. unfold delta_fn.
  replace (fn + HYP * 3 / 2 - to) with ((fn - to) + HYP / 2 + 1 * HYP)
    by (change (HYP * 3 / 2) with 4073472; change (HYP / 2) with 1357824; rewrite H_val; lia).
  rewrite Z.rem_mod_nonneg by (change (HYP / 2) with 1357824; rewrite H_val in *; lia).
  unfold ahead.
  rewrite Z_mod_plus_full.
  pose proof (ahead_range to fn) as R. unfold ahead in R.
  rewrite <- Zplus_mod_idemp_l. set (x := (fn - to) mod HYP) in *.
  clearbody x. rewrite H_val in *. change (2715648 / 2) with 1357824 in *.
  destruct (x <? 1357824) eqn:E.
  - rewrite Z.mod_small; lia.
  - rewrite <- (Z.mod_unique_pos (x + 1357824) 2715648 1 (x + 1357824 - 2715648)); lia.
Qed.

Lemma s32_small x : in_hyper x -> s32 x = x.
Proof. unfold in_hyper, s32. rewrite H_val. intros. rewrite Z.mod_small; lia. Qed.

Lemma set_block_spec c fn : clk_ok c -> in_hyper fn ->
  exists c', set_block_fn c fn = Some c' /\ clk_ok c' /\
    (if (0 <=? ck_blk c) && negb ((0 <? ahead (ck_blk c) fn) && (ahead (ck_blk c) fn <? HYP / 2))
     then c' = c
     else ck_blk c' = fn /\
          (ck_fn c = FN_UNSET -> ck_fn c' = fn) /\
          (ck_fn c = 0 -> ck_fn c' = 0) /\
          (ck_fn c <> FN_UNSET -> ck_fn c <> 0 ->
           ck_fn c' = if ahead fn (ck_fn c) <=? 500 then ck_fn c else fn)).
Proof.
  intros [K B] F. unfold set_block_fn.
  assert (E : (0 <=? ck_blk c) && (delta_fn fn (ck_blk c) <=? 0) =
              (0 <=? ck_blk c) && negb ((0 <? ahead (ck_blk c) fn) && (ahead (ck_blk c) fn <? HYP / 2))).
  { destruct B as [B|B].
    - f_equal. rewrite delta_spec by auto. pose proof (ahead_range (ck_blk c) fn).
      change (HYP / 2) with 1357824 in *. rewrite H_val in *.
      destruct (ahead (ck_blk c) fn <? 1357824) eqn:E1; destruct (0 <? ahead (ck_blk c) fn) eqn:E2; cbn [andb negb]; lia.
    - rewrite B. reflexivity. }
  rewrite E. clear E.
  destruct ((0 <=? ck_blk c) && _) eqn:E.
  { exists c. split; [reflexivity|]. split; [split; auto|reflexivity]. }
  set (delay := if negb (ck_fn c =? 0) then delta_fn fn (s32 (ck_fn c)) else 0).
  assert (FL : (fn <? HYP) = true) by (apply Z.ltb_lt; apply F).
  destruct K as [K|K].
  - assert (NU : (ck_fn c =? FN_UNSET) = false)
      by (apply Z.eqb_neq; unfold in_hyper in K; rewrite H_val in K; unfold FN_UNSET; lia).
    rewrite NU, orb_false_r.
    assert (DZ : ck_fn c <> 0 -> ((delay <? -500) || (0 <? delay)) = negb (ahead fn (ck_fn c) <=? 500)).
    { intros NZ. unfold delay. apply Z.eqb_neq in NZ. rewrite NZ. cbn [negb].
      rewrite s32_small by auto. rewrite delta_spec by auto.
      pose proof (ahead_range (ck_fn c) fn). pose proof (ahead_range fn (ck_fn c)).
      assert (S : ahead fn (ck_fn c) = if ahead (ck_fn c) fn =? 0 then 0 else HYP - ahead (ck_fn c) fn).
      { unfold ahead in *. destruct ((fn - ck_fn c) mod HYP =? 0) eqn:Z0.
        - apply Z.eqb_eq in Z0. replace (ck_fn c - fn) with (- (fn - ck_fn c)) by lia.
          apply Z_mod_zero_opp_full; auto.
        - apply Z.eqb_neq in Z0. replace (ck_fn c - fn) with (- (fn - ck_fn c)) by lia.
          apply Z_mod_nz_opp_full; auto. }
      rewrite S. change (HYP / 2) with 1357824. rewrite H_val in *.
      destruct (ahead (ck_fn c) fn =? 0) eqn:E1; destruct (ahead (ck_fn c) fn <? 1357824) eqn:E2; lia. }
    destruct ((delay <? -500) || (0 <? delay)) eqn:D.
    + unfold set_current_fn. rewrite FL. cbn [negb].
      eexists; split; [reflexivity|]. split; [split; cbn [ck_fn ck_blk]; auto|]. cbn [ck_fn ck_blk].
      split; [reflexivity|]. split; [reflexivity|]. split.
      * intros Z0. exfalso. unfold delay in D. rewrite Z0 in D. discriminate D.
      * intros _ NZ. specialize (DZ NZ). destruct (ahead fn (ck_fn c) <=? 500); [discriminate DZ|reflexivity].
    + eexists; split; [reflexivity|]. split; [split; cbn [ck_fn ck_blk]; auto|]. cbn [ck_fn ck_blk].
      split; [reflexivity|]. apply Z.eqb_neq in NU. split; [congruence|]. split; [auto|].
      intros _ NZ. specialize (DZ NZ). destruct (ahead fn (ck_fn c) <=? 500); [reflexivity|discriminate DZ].
  - rewrite K. rewrite Z.eqb_refl, orb_true_r. unfold set_current_fn. rewrite FL. cbn [negb].
    eexists; split; [reflexivity|]. split; [split; cbn [ck_fn ck_blk]; auto|]. cbn [ck_fn ck_blk].
    split; [reflexivity|]. split; [reflexivity|]. split; [discriminate|congruence].
Qed.
