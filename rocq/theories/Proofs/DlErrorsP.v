(** The counts are those of the blocks the report is about, if the number behind them has 8 bits. *)
From Coq Require Import ZArith List Bool Lia ZifyBool.
From Verif Require Import Base.Arith Model.CodingScheme Model.RlcWindow Model.RlcWindowDl Model.TbfDlWindow Model.DlErrors
  Spec.SendWindow Proofs.DlWindowP Proofs.DlWindowH Proofs.DlWindowI Proofs.DlWindowProps.
From Verif Require Import Spec.DlWindowSpec Spec.DlErrorsSpec.
Import ListNotations.
Local Open Scope Z_scope.

Lemma land_half x : Z.land x mod_sns_half = x mod 1024.
Proof. unfold mod_sns_half. change 1023 with (Z.ones 10). rewrite Z.land_ones by lia. reflexivity. Qed.

(** The loop without its test. *)
Definition ana_fold (sns : Z) (o : obs) (t : dl_store) (cur : scheme) (l : list (bool * Z)) (a : ana) : ana :=
  fold_left (fun a b => ana_block (o_w o) t cur (fst b) (snd b mod sns) a) l a.

Lemma count_app {A} (f : A -> bool) l l' : count f (l ++ l') = count f l + count f l'.
Proof. unfold count. rewrite filter_app, app_length. lia. Qed.
Lemma total_app {A} (f : A -> bool) v l l' : total f v (l ++ l') = total f v l + total f v l'.
Proof. unfold total. rewrite filter_app, map_app, fold_right_app. induction (map v (filter f l)) as [|x r IH]; cbn [fold_right]; lia. Qed.
Lemma count_rev {A} (f : A -> bool) l : count f (rev l) = count f l.
Proof. induction l as [|x l IH]; [reflexivity|]. cbn [rev]. rewrite count_app, IH. change (x :: l) with ([x] ++ l). rewrite count_app. lia. Qed.
Lemma total_rev {A} (f : A -> bool) v l : total f v (rev l) = total f v l.
Proof. induction l as [|x l IH]; [reflexivity|]. cbn [rev]. rewrite total_app, IH. change (x :: l) with ([x] ++ l). rewrite total_app. lia. Qed.

Definition new_rec (o : obs) (b : bool * Z) : bool := fst b && negb (dl_state_eqb (blk o (snd b)) DlAcked).
Definition add (a b : ana) : ana :=
  mk_ana (n_received a + n_received b) (n_lost a + n_lost b) (n_rpackets a + n_rpackets b) (n_rbytes a + n_rbytes b)
    (n_lpackets a + n_lpackets b) (n_lbytes a + n_lbytes b).
Definition counts (sns : Z) (o : obs) (t : dl_store) (cur : scheme) (l : list (bool * Z)) : ana :=
  mk_ana (count (fun b => of_scheme sns t cur b && new_rec o b) l) (count (fun b => of_scheme sns t cur b && negb (fst b)) l)
    (count (new_rec o) l) (total (new_rec o) (fun b => size sns t (snd b)) l)
    (count (new_lost o) l) (total (new_lost o) (fun b => size sns t (snd b)) l).

Lemma block_counts sns o t cur b a : dw_sns (o_w o) = sns ->
  ana_block (o_w o) t cur (fst b) (snd b mod sns) a = add a (counts sns o t cur [b]).
Proof.
  intros SN. destruct b as [r i]. unfold ana_block, counts, count, total, new_rec, new_lost, of_scheme, sent_with, size, stored, vb_is, blk, add.
  cbn [fst snd filter map fold_right]. rewrite !land_half, SN. destruct a as [x1 x2 x3 x4 x5 x6].
  destruct (dl_state_eqb (vb_get (o_w o) (i mod sns)) DlAcked), (dl_state_eqb (vb_get (o_w o) (i mod sns)) DlNacked),
    (snum (e_cs t ((i mod sns) mod 1024)) =? snum cur), r; cbn [negb andb filter map fold_right length n_received n_lost n_rpackets n_rbytes n_lpackets n_lbytes Nat.add]; cbn;
    f_equal; lia.
Qed.
Lemma add_assoc a b c : add (add a b) c = add a (add b c).
Proof. unfold add. cbn [n_received n_lost n_rpackets n_rbytes n_lpackets n_lbytes]. f_equal; lia. Qed.
Lemma counts_cons sns o t cur b l : counts sns o t cur (b :: l) = add (counts sns o t cur [b]) (counts sns o t cur l).
Proof.
  change (b :: l) with ([b] ++ l). unfold counts at 1. rewrite !count_app, !total_app. reflexivity.
Qed.
Lemma fold_counts sns o t cur l : dw_sns (o_w o) = sns -> forall a, ana_fold sns o t cur l a = add a (counts sns o t cur l).
Proof.
  intros SN. induction l as [|b l IH]; intros a; unfold ana_fold; cbn [fold_left].
  - unfold add, counts, count, total. cbn. destruct a. cbn. f_equal; lia.
  - fold (ana_fold sns o t cur l (ana_block (o_w o) t cur (fst b) (snd b mod sns) a)). rewrite IH, block_counts by exact SN.
    rewrite add_assoc, <- counts_cons. reflexivity.
Qed.

Lemma loop_fold sns o t cur rbb ssn num : dw_sns (o_w o) = sns -> sns_ok sns -> dw_va (o_w o) = o_A o mod sns -> ssn = (o_A o + Z.of_nat num) mod sns ->
  Z.of_nat num < sns -> forall k, (k <= num)%nat -> forall a,
  ana_loop (o_w o) t cur rbb ssn num k a = ana_fold sns o t cur (rev (map (fun j => (nth j rbb false, o_A o + Z.of_nat j)) (seq 0 k))) a.
Proof.
  intros SN OK VA SS NS. induction k as [|k IH]; intros K a; [reflexivity|].
  rewrite seq_S, map_app, rev_app_distr. cbn [rev app map ana_loop Nat.add]. unfold ana_fold. cbn [fold_left fst snd].
  fold (ana_fold sns o t cur (rev (map (fun j => (nth j rbb false, o_A o + Z.of_nat j)) (seq 0 k)))
          (ana_block (o_w o) t cur (nth k rbb false) ((o_A o + Z.of_nat k) mod sns) a)).
  pose proof (sns_pos _ OK) as SP.
  assert (B : dmod (o_w o) ((ssn - 1 - Z.of_nat (num - S k)) mod 65536) = (o_A o + Z.of_nat k) mod sns).
  { rewrite dmod_spec by (rewrite SN; exact OK). rewrite SN, mod16_mod_sns, SS by exact OK.
    replace ((o_A o + Z.of_nat num) mod sns - 1 - Z.of_nat (num - S k)) with ((o_A o + Z.of_nat num) mod sns - (1 + Z.of_nat (num - S k))) by lia.
    rewrite Zminus_mod_idemp_l. f_equal. lia. }
  rewrite B. rewrite dmod_spec by (rewrite SN; exact OK). rewrite SN, VA.
  replace ((o_A o + Z.of_nat k) mod sns =? (o_A o mod sns - 1) mod sns) with false.
  - apply IH. lia.
  - symmetry. apply Z.eqb_neq. rewrite Zminus_mod_idemp_l. intros E.
    assert (X : ((o_A o + Z.of_nat k) - (o_A o - 1)) mod sns = 0) by (rewrite Zminus_mod, E, Z.sub_diag; reflexivity).
    replace (o_A o + Z.of_nat k - (o_A o - 1)) with (Z.of_nat k + 1) in X by lia. rewrite Z.mod_small in X by lia. lia.
Qed.

Lemma filter_same {A} (f g : A -> bool) l : (forall x, In x l -> f x = g x) -> filter f l = filter g l.
Proof. exact (filter_ext_in f g l). Qed.
Lemma reported_out o bits b : In b (reported o bits) -> outstanding o (snd b).
Proof.
  unfold reported. intros I. apply in_map_iff in I. destruct I as (k & <- & I). apply in_seq in I. unfold outstanding. cbn [snd]. lia.
Qed.
Lemma new_same sns ws o b : dl_reach sns ws o -> outstanding o (snd b) -> new_rec o b = new_received o b.
Proof.
  intros R O. unfold new_rec, new_received, known_received. f_equal. f_equal.
  destruct (c02_log_state _ _ _ _ R O) as [C _].
  destruct (last_about (snd b) (o_log o)) as [e|] eqn:L.
  - destruct e as [i|i|i].
    + destruct (blk o (snd b)) eqn:B; try reflexivity. apply proj1 in C. discriminate (C eq_refl).
    + unfold last_about in L. pose proof (find_some _ _ L) as [_ E]. cbn [about] in E. apply Z.eqb_eq in E. subst i.
      rewrite (proj2 C eq_refl). reflexivity.
    + destruct (blk o (snd b)) eqn:B; try reflexivity. apply proj1 in C. discriminate (C eq_refl).
  - destruct (blk o (snd b)) eqn:B; try reflexivity. apply proj1 in C. discriminate (C eq_refl).
Qed.

Lemma errors_counted sns ws o t cur bits : dl_reach sns ws o ->
  (o_A o + Z.min (Z.of_nat (length bits)) (o_S o - o_A o)) mod sns < 256 ->
  report_errors (o_w o) t cur bits (dw_va (o_w o)) = counted sns o t cur bits.
Proof.
  intros R L. destruct (c01_window _ _ _ R) as (W & D & _ & _ & _ & VA).
  destruct (reach_Inv _ _ _ R) as [st HI]. pose proof HI as [Hs [HR _]].
  assert (OK : sns_ok (dw_sns (o_w o))) by apply HR.
  assert (WS : 2 * dw_ws (o_w o) <= dw_sns (o_w o)) by apply HR.
  pose proof (sns_pos _ OK) as SP. rewrite Hs in OK, WS, SP.
  unfold report_errors, analyse_errors. rewrite dmod_spec, D, VA, Hs by (rewrite Hs; exact OK).
  set (n := Z.min (Z.of_nat (length bits)) (o_S o - o_A o)) in *. rewrite Zplus_mod_idemp_l.
  pose proof (Z.mod_pos_bound (o_A o + n) sns SP). rewrite (Z.mod_small (_ mod sns) 256) by lia.
  rewrite (loop_fold sns) by (try exact Hs; try exact OK; try exact VA; try (rewrite Z2Nat.id by lia; reflexivity); lia).
  rewrite fold_counts by exact Hs. replace (map _ (seq 0 (Z.to_nat n))) with (reported o bits) by reflexivity.
  unfold counts. rewrite !count_rev, !total_rev. unfold add, ana0, counted. cbn [n_received n_lost n_rpackets n_rbytes n_lpackets n_lbytes].
  unfold count, total.
  rewrite (filter_same (new_rec o) (new_received o) (reported o bits)) by (intros b I; eapply new_same; [exact R|]; apply (reported_out _ _ _ I)).
  rewrite (filter_same (fun b => of_scheme sns t cur b && new_rec o b) (fun b => of_scheme sns t cur b && new_received o b) (reported o bits))
    by (intros b I; f_equal; eapply new_same; [exact R|]; apply (reported_out _ _ _ I)).
  reflexivity.
Qed.

Lemma errors_gprs ws o t cur bits : dl_reach 128 ws o ->
  report_errors (o_w o) t cur bits (dw_va (o_w o)) = counted 128 o t cur bits.
Proof. intros R. eapply errors_counted; [exact R|]. pose proof (Z.mod_pos_bound (o_A o + Z.min (Z.of_nat (length bits)) (o_S o - o_A o)) 128). lia. Qed.

Lemma rate_spec sns o t cur bits : let a := counted sns o t cur bits in
  (n_lost a + n_received a <= 1 -> ana_rate a = -1) /\
  (n_lost a + n_received a > 1 -> 0 <= ana_rate a <= 100 /\ ana_rate a * (n_lost a + n_received a) <= 100 * n_lost a < (ana_rate a + 1) * (n_lost a + n_received a)).
Proof.
  intros a. unfold ana_rate.
  assert (0 <= n_lost a /\ 0 <= n_received a) as [L R] by (unfold a, counted, count; cbn [n_lost n_received]; lia).
  split; intros H; [replace (_ <=? 1) with true by lia; reflexivity|]. replace (_ <=? 1) with false by lia.
  pose proof (Z.mul_div_le (n_lost a * 100) (n_lost a + n_received a) ltac:(lia)).
  pose proof (Z.mul_succ_div_gt (n_lost a * 100) (n_lost a + n_received a) ltac:(lia)).
  assert (n_lost a * 100 / (n_lost a + n_received a) <= 100) by (apply Z.div_le_upper_bound; lia).
  assert (0 <= n_lost a * 100 / (n_lost a + n_received a)) by (apply Z.div_pos; lia). lia.
Qed.
