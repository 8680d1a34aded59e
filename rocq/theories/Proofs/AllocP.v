(** Lemmas about the allocation. *)
From Coq Require Import ZArith List Bool Lia.
From Verif Require Import Base.Arith Model.Mslot Model.Alloc Model.Cell Spec.AllocSpec Spec.MslotSpec.
Import ListNotations.
Local Open Scope Z_scope.

Lemma in_slots8 : forall ts, In ts slots8 <-> 0 <= ts < 8.
Proof. intro ts. unfold slots8. cbn [In]. lia. Qed.
Lemma bit1 : forall ts k, 0 <= ts -> 0 <= k -> Z.testbit (Z.shiftl 1 ts) k = (k =? ts).
Proof.
  intros ts k Ht Hk. rewrite Z.shiftl_spec by lia.
  destruct (k =? ts) eqn:E.
  - apply Z.eqb_eq in E. subst. rewrite Z.sub_diag. reflexivity.
  - apply Z.eqb_neq in E. destruct (Z.ltb_spec k ts).
    + apply Z.testbit_neg_r. lia.
    + change 1 with (2 ^ 0). rewrite Z.pow2_bits_eqb by lia. apply Z.eqb_neq. lia.
Qed.
Lemma m8_intro : forall x, 0 <= x -> (forall k, 8 <= k -> Z.testbit x k = false) -> x < 256.
Proof.
  intros x Hx H. assert (x = x mod 2 ^ 8) as ->.
  { apply Z.bits_inj'. intros k Hk. rewrite Z.testbit_mod_pow2 by lia.
    destruct (Z.ltb_spec k 8); [ reflexivity | rewrite H by lia; reflexivity ]. }
  change 256 with (2 ^ 8). apply Z.mod_pos_bound. lia.
Qed.
Lemma m8_bits : forall x k, 0 <= x < 256 -> 8 <= k -> Z.testbit x k = false.
Proof.
  intros x k Hx Hk. rewrite <- (Z.mod_small x (2 ^ 8)) by (change (2 ^ 8) with 256; lia).
  rewrite Z.testbit_mod_pow2 by lia. destruct (Z.ltb_spec k 8); [ lia | reflexivity ].
Qed.
Lemma m8_nonzero : forall x, 0 <= x < 256 -> x <> 0 -> exists ts, on x ts.
Proof.
  intros x Hx N. destruct (existsb (fun ts => Z.testbit x ts) slots8) eqn:E.
  - apply existsb_exists in E. destruct E as [ts [I B]]. exists ts. split; [ now apply in_slots8 | exact B ].
  - exfalso. apply N. apply Z.bits_inj'. intros k Hk. rewrite Z.bits_0.
    destruct (Z.ltb_spec k 8); [ | now apply m8_bits ].
    destruct (Z.testbit x k) eqn:B; [ | reflexivity ].
    assert (existsb (fun ts => Z.testbit x ts) slots8 = true); [ | congruence ].
    apply existsb_exists. exists k. split; [ apply in_slots8; lia | exact B ].
Qed.
Lemma on_nonzero : forall x ts, on x ts -> x <> 0.
Proof. intros x ts [H B] ->. rewrite Z.bits_0 in B. discriminate. Qed.
Lemma on_pos : forall x ts, 0 <= x -> on x ts -> 0 < x.
Proof. intros x ts H O. apply on_nonzero in O. lia. Qed.
Lemma shift1_m8 : forall ts, 0 <= ts < 8 -> 0 < Z.shiftl 1 ts < 256.
Proof.
  intros ts H. rewrite Z.shiftl_1_l. split; [ apply Z.pow_pos_nonneg; lia | ].
  change 256 with (2 ^ 8). apply Z.pow_lt_mono_r; lia.
Qed.
Lemma on_shift1 : forall ts k, 0 <= ts < 8 -> on (Z.shiftl 1 ts) k <-> k = ts.
Proof.
  intros ts k H. unfold on. split.
  - intros [R B]. rewrite bit1 in B by lia. lia.
  - intros ->. split; [ exact H | ]. rewrite bit1 by lia. lia.
Qed.
Lemma on_land : forall a b k, on (Z.land a b) k <-> on a k /\ on b k.
Proof. intros a b k. unfold on. rewrite Z.land_spec, andb_true_iff. intuition. Qed.
Lemma land_m8 : forall a b, 0 <= a < 256 -> 0 <= b -> 0 <= Z.land a b < 256.
Proof.
  intros a b Ha Hb. split; [ apply Z.land_nonneg; lia | ].
  apply m8_intro; [ apply Z.land_nonneg; lia | ]. intros k Hk. rewrite Z.land_spec, (m8_bits a k) by lia. reflexivity.
Qed.
Lemma land_m8_r : forall a b, 0 <= b < 256 -> 0 <= Z.land a b < 256.
Proof.
  intros a b Hb. split; [ apply Z.land_nonneg; lia | ].
  apply m8_intro; [ apply Z.land_nonneg; lia | ]. intros k Hk. rewrite Z.land_spec, (m8_bits b k) by lia. apply andb_false_r.
Qed.
Lemma lor_m8 : forall a b, 0 <= a < 256 -> 0 <= b < 256 -> 0 <= Z.lor a b < 256.
Proof.
  intros a b Ha Hb. split; [ apply Z.lor_nonneg; lia | ].
  apply m8_intro; [ apply Z.lor_nonneg; lia | ]. intros k Hk. rewrite Z.lor_spec, !m8_bits by lia. reflexivity.
Qed.
Lemma not8_m8 : forall x, 0 <= not8 x < 256.
Proof. intro x. unfold not8. rewrite Z.land_comm. apply land_m8_r. lia. Qed.
Lemma not8_bit : forall x k, 0 <= k < 8 -> Z.testbit (not8 x) k = negb (Z.testbit x k).
Proof.
  intros x k H. unfold not8. rewrite Z.land_spec, Z.lnot_spec by lia.
  change 0xff with (Z.ones 8). rewrite Z.ones_spec_low by lia. reflexivity.
Qed.

(** Invariants of a left fold. *)
Lemma fold_inv : forall A B (P : A -> Prop) (f : A -> B -> A) (l : list B) a,
  P a -> (forall a x, In x l -> P a -> P (f a x)) -> P (fold_left f l a).
Proof.
  intros A B P f l. induction l as [|x l IH]; intros a Pa H; cbn [fold_left]; [ exact Pa | ].
  apply IH; [ apply H; [ left; reflexivity | exact Pa ] | ].
  intros a' y I Pa'. apply H; [ right; exact I | exact Pa' ].
Qed.

(** ** TFIs and USFs *)
Lemma first_clear_ok : forall n i x k, 0 <= i -> first_clear n i x = Some k ->
  i <= k < i + Z.of_nat n /\ Z.testbit x k = false.
Proof.
  induction n as [|n IH]; intros i x k Hi H; cbn [first_clear] in H; [ discriminate | ].
  destruct (Z.testbit x i) eqn:B.
  - apply IH in H; [ | lia ]. rewrite Nat2Z.inj_succ. intuition lia.
  - inversion H; subst. rewrite Nat2Z.inj_succ. split; [ lia | exact B ].
Qed.
Lemma find_free_usf_ok : forall p u, find_free_usf (pd_usf p) = Some u -> usf_free p u.
Proof.
  intros p u. unfold find_free_usf. destruct (pd_usf p =? 127); [ discriminate | ].
  intro H. apply first_clear_ok in H; [ | lia ]. change (Z.of_nat 7) with 7 in H. exact H.
Qed.
Lemma find_free_tfi_ok : forall p d k, find_free_tfi (pd_tfi p d) = Some k -> tfi_free p d k.
Proof.
  intros p d k. unfold find_free_tfi. destruct (pd_tfi p d =? NO_FREE_TFI); [ discriminate | ].
  intro H. apply first_clear_ok in H; [ | lia ]. change (Z.of_nat 32) with 32 in H. exact H.
Qed.
Lemma first_clear_none : forall n i x, 0 <= i -> first_clear n i x = None ->
  forall k, i <= k < i + Z.of_nat n -> Z.testbit x k = true.
Proof.
  induction n as [|n IH]; intros i x Hi H k Hk; cbn [first_clear] in H; [ lia | ].
  destruct (Z.testbit x i) eqn:B; [ | discriminate ].
  rewrite Nat2Z.inj_succ in Hk. destruct (Z.eq_dec k i) as [-> |]; [ exact B | ].
  apply (IH (i + 1) x); [ lia | exact H | lia ].
Qed.

(** ** Timeslots *)
Lemma find_possible_ok : forall t mx mask, 0 <= find_possible_pdchs t mx mask < 256 /\
  forall ts, on (find_possible_pdchs t mx mask) ts -> pd_enabled (t ts) = true /\ Z.testbit mask ts = true.
Proof.
  intros t mx mask. unfold find_possible_pdchs.
  match goal with |- context [fold_left ?f slots8 ?a] =>
    assert (0 <= fst (fold_left f slots8 a) < 256 /\
      forall ts, on (fst (fold_left f slots8 a)) ts -> pd_enabled (t ts) = true /\ Z.testbit mask ts = true) end;
    [ | exact H ].
  apply (fold_inv _ _ (fun acc => 0 <= fst acc < 256 /\ forall ts, on (fst acc) ts -> pd_enabled (t ts) = true /\ Z.testbit mask ts = true)).
  - cbn [fst]. split; [ lia | ]. intros ts O. apply on_nonzero in O. congruence.
  - intros [set tsc] ts I [R H]. apply in_slots8 in I. cbn [fst] in R, H.
    destruct (pd_enabled (t ts)) eqn:E; cbn [negb]; [ | cbn [fst]; auto ].
    destruct (Z.testbit mask ts) eqn:M; cbn [negb]; [ | cbn [fst]; auto ].
    assert (NEW : 0 <= Z.lor set (Z.shiftl 1 ts) < 256 /\
      forall k, on (Z.lor set (Z.shiftl 1 ts)) k -> pd_enabled (t k) = true /\ Z.testbit mask k = true).
    { split; [ apply lor_m8; [ exact R | pose proof (shift1_m8 ts I); lia ] | ].
      intros k [K B]. rewrite Z.lor_spec in B. apply orb_true_iff in B. destruct B as [B|B].
      - apply H. split; assumption.
      - assert (k = ts) as -> by (apply on_shift1; [ exact I | split; assumption ]). auto. }
    destruct (1 <? mx); [ | exact NEW ].
    destruct tsc as [c|]; [ | exact NEW ].
    destruct (c =? pd_tsc (t ts)); [ exact NEW | cbn [fst]; auto ].
Qed.

Lemma find_least_busy_ok : forall t d mask fn need ts tfi usf,
  find_least_busy t d mask fn need = Some (ts, tfi, usf) ->
  on mask ts /\ (need = true -> tfi_free (t ts) d tfi) /\ (d = UL -> usf_free (t ts) usf).
Proof.
  intros t d mask fn need ts tfi usf. unfold find_least_busy.
  match goal with |- context [fold_left ?f slots8 ?a] =>
    assert (P : match fold_left f slots8 a with
      | Some (_, (ts, tfi, usf)) => on mask ts /\ (need = true -> tfi_free (t ts) d tfi) /\ (d = UL -> usf_free (t ts) usf)
      | None => True end) end.
  { apply (fold_inv _ _ (fun acc => match acc with
      | Some (_, (ts, tfi, usf)) => on mask ts /\ (need = true -> tfi_free (t ts) d tfi) /\ (d = UL -> usf_free (t ts) usf)
      | None => True end)); [ exact I | ].
    intros acc x Ix Pa. apply in_slots8 in Ix. destruct (Z.testbit mask x) eqn:M; cbn [negb]; [ | exact Pa ].
    cbv zeta. match goal with |- context [if ?c then _ else acc] => destruct c end; [ | exact Pa ].
    destruct (if need then find_free_tfi (pd_tfi (t x) d) else Some (-1)) as [k|] eqn:E1; [ | exact Pa ].
    destruct (if is_ul d then find_free_usf (pd_usf (t x)) else Some (-1)) as [u|] eqn:E2; [ | exact Pa ].
    splits; [ split; assumption | | ].
    - intros ->. now apply find_free_tfi_ok.
    - intros ->. cbn [is_ul] in E2. now apply find_free_usf_ok. }
  intro H. match type of H with option_map snd ?X = _ => destruct X as [[m [[a b] c]]|] end; [ | discriminate ].
  cbn [option_map snd] in H. inversion H; subst. exact P.
Qed.

Lemma ffs_ok : forall x, 0 < ffs x -> on x (ffs x - 1).
Proof.
  intros x. unfold ffs. destruct (find _ _) as [i|] eqn:E; [ | lia ].
  intros _. apply find_some in E. destruct E as [I B]. apply in_seq in I.
  replace (Z.of_nat i + 1 - 1) with (Z.of_nat i) by lia. split; [ lia | exact B ].
Qed.
Lemma ffs_m8 : forall x, 0 <= ffs x <= 8.
Proof.
  intro x. unfold ffs. destruct (find _ _) as [i|] eqn:E; [ | lia ].
  apply find_some in E. destruct E as [I _]. apply in_seq in I. lia.
Qed.

Lemma allocate_usf_ok : forall t sel dl u usf, allocate_usf t sel dl = Some (u, usf) -> 0 <= sel -> 0 <= dl < 256 ->
  0 < u < 256 /\ (forall ts, on u ts -> on sel ts /\ on dl ts /\ usf_free (t ts) (usf ts)).
Proof.
  intros t sel dl u usf H Hs Hd. unfold allocate_usf in H.
  match type of H with context [fold_left ?f slots8 ?a] => set (F := f) in H; set (a0 := a) in H end.
  assert (G : forall l done acc, NoDup (done ++ l) ->
    (0 <= fst acc < 256 /\ forall ts, on (fst acc) ts -> on sel ts /\ on dl ts /\ (In ts done -> usf_free (t ts) (snd acc ts))) ->
    (forall x, In x l -> 0 <= x < 8) ->
    let r := fold_left F l acc in
    0 <= fst r < 256 /\ forall ts, on (fst r) ts -> on sel ts /\ on dl ts /\ (In ts (done ++ l) -> usf_free (t ts) (snd r ts))).
  { induction l as [|x l IH]; intros done acc ND P R8; cbn [fold_left].
    - rewrite app_nil_r. exact P.
    - replace (done ++ x :: l) with ((done ++ [x]) ++ l) in ND |- * by (rewrite <- app_assoc; reflexivity).
      apply IH; [ exact ND | | intros y Iy; apply R8; right; exact Iy ].
      destruct acc as [ul us]. cbn [fst snd] in P. destruct P as [PR P].
      assert (Hx : 0 <= x < 8) by (apply R8; left; reflexivity).
      assert (NI : ~ In x done).
      { apply NoDup_remove_1 in ND || idtac. rewrite <- app_assoc in ND. apply NoDup_remove_2 in ND. intro I. apply ND. apply in_or_app. left. exact I. }
      unfold F. destruct (Z.testbit ul x) eqn:B; cbn [negb].
      + destruct (find_free_usf (pd_usf (t x))) as [v|] eqn:E; cbn [fst snd].
        * split; [ exact PR | ]. intros ts O. destruct (P ts O) as [O1 [O2 O3]]. splits; [ exact O1 | exact O2 | ].
          intro I. destruct (Z.eq_dec ts x) as [-> |N].
          -- rewrite upd_same. now apply find_free_usf_ok.
          -- rewrite upd_diff by exact N. apply O3. apply in_app_or in I. destruct I as [I|[I|[]]]; [ exact I | congruence ].
        * split; [ apply land_m8; [ exact PR | apply not8_m8 ] | ].
          intros ts O. apply on_land in O. destruct O as [O [T N]].
          destruct (P ts O) as [O1 [O2 O3]]. splits; [ exact O1 | exact O2 | ].
          intro I. apply O3. apply in_app_or in I. destruct I as [I|[I|[]]]; [ exact I | subst ts ].
          rewrite not8_bit, bit1, Z.eqb_refl in N by lia. discriminate.
      + cbn [fst snd]. split; [ exact PR | ]. intros ts O. destruct (P ts O) as [O1 [O2 O3]]. splits; [ exact O1 | exact O2 | ].
        intro I. apply O3. apply in_app_or in I. destruct I as [I|[I|[]]]; [ exact I | subst ts ].
        destruct O as [_ O]. congruence. }
  specialize (G slots8 [] a0). cbn [app] in G.
  destruct G as [GR G].
  - unfold slots8. repeat constructor; cbn [In]; lia.
  - unfold a0. cbn [fst snd]. split; [ apply land_m8_r; exact Hd | ].
    intros ts O. apply on_land in O. destruct O. splits; auto. intros [].
  - intros x I. now apply in_slots8.
  - destruct (fold_left F slots8 a0) as [ul us]. cbn [fst snd] in GR, G.
    destruct (ul =? 0) eqn:Z0; [ discriminate | ]. inversion H; subst u usf.
    split; [ lia | ]. intros ts O. destruct (G ts O) as [O1 [O2 O3]]. splits; auto. apply O3. apply in_slots8. exact (proj1 O).
Qed.

(** ** TFI search *)
Lemma free_mask_bit : forall t d k, 0 <= k < 32 ->
  Z.testbit (free_mask t d) k = forallb (fun ts => negb (pd_enabled (t ts)) || negb (Z.testbit (pd_tfi (t ts) d) k)) slots8.
Proof.
  intros t d k Hk. unfold free_mask.
  assert (G : forall l m, Z.testbit (fold_left (fun m ts => if pd_enabled (t ts) then Z.land m (Z.lnot (pd_tfi (t ts) d)) else m) l m) k =
    Z.testbit m k && forallb (fun ts => negb (pd_enabled (t ts)) || negb (Z.testbit (pd_tfi (t ts) d) k)) l).
  { induction l as [|x l IH]; intro m; cbn [fold_left forallb]; [ now rewrite andb_true_r | ].
    rewrite IH. destruct (pd_enabled (t x)); cbn [negb orb].
    - rewrite Z.land_spec, Z.lnot_spec by lia. now rewrite andb_assoc.
    - reflexivity. }
  rewrite G. change NO_FREE_TFI with (Z.ones 32). rewrite Z.ones_spec_low by lia. reflexivity.
Qed.
Lemma free_mask_range : forall t d, 0 <= free_mask t d /\ forall k, 32 <= k -> Z.testbit (free_mask t d) k = false.
Proof.
  intros t d. unfold free_mask.
  apply (fold_inv _ _ (fun m => 0 <= m /\ forall k, 32 <= k -> Z.testbit m k = false)).
  - split; [ unfold NO_FREE_TFI; lia | ]. intros k Hk. change NO_FREE_TFI with (Z.ones 32). apply Z.ones_spec_high. lia.
  - intros m ts _ [H0 H]. destruct (pd_enabled (t ts)); [ | auto ].
    split; [ apply Z.land_nonneg; left; exact H0 | ]. intros k Hk. rewrite Z.land_spec, H by lia. reflexivity.
Qed.
Lemma trx_freeb_ok : forall t d k, 0 <= k < 32 -> trx_freeb t d k = true <-> trx_free t d k.
Proof.
  intros t d k Hk. unfold trx_freeb, trx_free. rewrite andb_true_iff, existsb_exists, forallb_forall. split.
  - intros [[ts [I E]] F]. splits; try lia.
    + exists ts. split; [ now apply in_slots8 | exact E ].
    + intros x Hx E'. specialize (F x (proj2 (in_slots8 x) Hx)). rewrite E' in F. cbn [negb orb] in F. now apply negb_true_iff.
  - intros [[ts [I E]] [_ F]]. split; [ exists ts; split; [ now apply in_slots8 | exact E ] | ].
    intros x Ix. apply in_slots8 in Ix. destruct (pd_enabled (t x)) eqn:E'; [ | reflexivity ].
    rewrite (F x Ix E'). reflexivity.
Qed.
Lemma count_free_ok : forall t d, fst (count_free_tfi t d) = Z.of_nat (free_count t d) /\
  (0 < fst (count_free_tfi t d) -> trx_free t d (snd (count_free_tfi t d)) /\
     forall k, trx_free t d k -> snd (count_free_tfi t d) <= k).
Proof.
  intros t d. unfold count_free_tfi, free_count.
  destruct (existsb (fun ts => pd_enabled (t ts)) slots8) eqn:EX; cbn [negb orb].
  - assert (FE : filter (fun i => Z.testbit (free_mask t d) (Z.of_nat i)) (seq 0 32) =
                 filter (fun i => trx_freeb t d (Z.of_nat i)) (seq 0 32)).
    { apply filter_ext_in. intros i I. apply in_seq in I. unfold trx_freeb. rewrite EX. cbn [andb].
      apply free_mask_bit. lia. }
    destruct (free_mask t d =? 0) eqn:Z0.
    + apply Z.eqb_eq in Z0. cbn [fst snd]. split; [ | lia ].
      rewrite <- FE, Z0. clear. reflexivity.
    + rewrite FE. cbn [fst snd]. split; [ reflexivity | ].
      intro Pos.
      assert (SORT : forall n s, match filter (fun i => trx_freeb t d (Z.of_nat i)) (seq s n) with
        | [] => True
        | i :: _ => trx_freeb t d (Z.of_nat i) = true /\ (s <= i < s + n)%nat /\
            forall k, (s <= k < s + n)%nat -> trx_freeb t d (Z.of_nat k) = true -> (i <= k)%nat end).
      { clear. induction n as [|n IH]; intro s; cbn [seq filter]; [ exact I | ].
        destruct (trx_freeb t d (Z.of_nat s)) eqn:E.
        - splits; [ exact E | lia | lia | ]. intros; lia.
        - specialize (IH (S s)). destruct (filter _ (seq (S s) n)) as [|i l]; [ exact I | ].
          destruct IH as [A [B C]]. splits; [ exact A | lia | lia | ].
          intros k Hk Ek. destruct (Nat.eq_dec k s) as [-> |]; [ congruence | ]. apply C; [ lia | exact Ek ]. }
      specialize (SORT 32%nat 0%nat).
      destruct (filter (fun i => trx_freeb t d (Z.of_nat i)) (seq 0 32)) as [|i l]; [ cbn [length] in Pos; lia | ].
      destruct SORT as [A [B C]]. split; [ apply trx_freeb_ok; [ lia | exact A ] | ].
      intros k Fk. pose proof Fk as [_ [Rk _]].
      assert ((i <= Z.to_nat k)%nat); [ | lia ].
      apply C; [ lia | ]. rewrite Z2Nat.id by lia. now apply trx_freeb_ok.
  - cbn [fst snd]. split; [ | lia ].
    assert (FE : forall l : list nat, filter (fun i => trx_freeb t d (Z.of_nat i)) l = []).
    { intro l. induction l as [|i l IH]; cbn [filter]; [ reflexivity | ]. unfold trx_freeb at 1. rewrite EX. exact IH. }
    rewrite FE. reflexivity.
Qed.

Definition tff_step (b : bts) (d : dir) (acc : Z * Z * Z) (n : Z) : Z * Z * Z :=
  let '(best, cnt, tfi) := acc in
  let '(c, f) := count_free_tfi (b n) d in
  if cnt <? c then (n, c, f) else acc.
Definition tff_inv (b : bts) (d : dir) (done : list Z) (acc : Z * Z * Z) : Prop :=
  let '(best, cnt, tfi) := acc in
  0 <= cnt /\ (forall n, In n done -> Z.of_nat (free_count (b n) d) <= cnt) /\
  (0 < cnt -> In best done /\ cnt = Z.of_nat (free_count (b best) d) /\ trx_free (b best) d tfi /\ forall k, trx_free (b best) d k -> tfi <= k).
Lemma tff_fold : forall b d l done acc, tff_inv b d done acc -> tff_inv b d (done ++ l) (fold_left (tff_step b d) l acc).
Proof.
  intros b d. induction l as [|x l IH]; intros done acc P; cbn [fold_left].
  - rewrite app_nil_r. exact P.
  - replace (done ++ x :: l) with ((done ++ [x]) ++ l) by (rewrite <- app_assoc; reflexivity).
    apply IH. clear IH.
    destruct acc as [[best cnt] tfi]. destruct P as [P0 [P1 P2]].
    unfold tff_step. pose proof (count_free_ok (b x) d) as [C1 C2].
    destruct (count_free_tfi (b x) d) as [c f]. cbn [fst snd] in C1, C2. unfold tff_inv.
    destruct (Z.ltb_spec cnt c) as [L|L].
    + splits; [ lia | | ].
      * intros n I. apply in_app_or in I. destruct I as [I|[<-|[]]]; [ specialize (P1 n I); lia | lia ].
      * intros _. destruct (C2 ltac:(lia)) as [C3 C4].
        splits; [ apply in_or_app; right; left; reflexivity | exact C1 | exact C3 | exact C4 ].
    + splits; [ lia | | ].
      * intros n I. apply in_app_or in I. destruct I as [I|[<-|[]]]; [ apply P1; exact I | lia ].
      * intro Pos. destruct (P2 Pos) as [Q1 [Q2 [Q3 Q4]]].
        splits; [ apply in_or_app; left; exact Q1 | exact Q2 | exact Q3 | exact Q4 ].
Qed.
Definition tff_range (use_trx : Z) : list Z := if (0 <=? use_trx) && (use_trx <? 8) then [use_trx] else slots8.
Lemma tff_range_ok : forall use_trx n, In n (tff_range use_trx) <-> allowed use_trx n.
Proof.
  intros use_trx n. unfold tff_range, allowed. destruct ((0 <=? use_trx) && (use_trx <? 8)) eqn:E.
  - cbn [In]. lia.
  - rewrite in_slots8. lia.
Qed.
Lemma tfi_find_free_unfold : forall b d use_trx, tfi_find_free b d use_trx =
  let '(best, cnt, tfi) := fold_left (tff_step b d) (tff_range use_trx) (255, 0, 0) in
  if (best =? 255) || (cnt =? 0) then None else Some (tfi, best).
Proof. reflexivity. Qed.

Lemma free_count_pos : forall t d k, trx_free t d k -> (0 < free_count t d)%nat.
Proof.
  intros t d k F. assert (Hk : 0 <= k < 32) by exact (proj1 (proj2 F)).
  assert (I : In (Z.to_nat k) (filter (fun i => trx_freeb t d (Z.of_nat i)) (seq 0 32))).
  { apply filter_In. split; [ apply in_seq; lia | ]. rewrite Z2Nat.id by lia. now apply trx_freeb_ok. }
  unfold free_count. destruct (filter _ _); [ contradiction | cbn [length]; lia ].
Qed.

Lemma tfi_find_free_full : forall b d use_trx,
  match tfi_find_free b d use_trx with
  | Some (k, n) => allowed use_trx n /\ trx_free (b n) d k /\ (forall k', trx_free (b n) d k' -> k <= k') /\
      forall n', allowed use_trx n' -> (free_count (b n') d <= free_count (b n) d)%nat
  | None => forall n k, allowed use_trx n -> ~ trx_free (b n) d k
  end.
Proof.
  intros b d use_trx. rewrite tfi_find_free_unfold.
  assert (G : tff_inv b d (tff_range use_trx) (fold_left (tff_step b d) (tff_range use_trx) (255, 0, 0))).
  { apply (tff_fold b d (tff_range use_trx) []). unfold tff_inv. splits; [ lia | intros n [] | lia ]. }
  destruct (fold_left (tff_step b d) (tff_range use_trx) (255, 0, 0)) as [[best cnt] tfi].
  destruct G as [G0 [G1 G2]].
  destruct ((best =? 255) || (cnt =? 0)) eqn:E.
  - intros n k A F'. destruct (Z.eq_dec cnt 0) as [C0|C0].
    + specialize (G1 n (proj2 (tff_range_ok _ n) A)). apply free_count_pos in F'. lia.
    + destruct (G2 ltac:(lia)) as [I _]. apply tff_range_ok in I. unfold allowed in I.
      apply orb_true_iff in E. destruct E; lia.
  - apply orb_false_iff in E. destruct E as [E1 E2].
    destruct (G2 ltac:(lia)) as [I [Q1 [Q2 Q3]]].
    splits; [ now apply tff_range_ok | exact Q2 | exact Q3 | ].
    intros n' A. specialize (G1 n' (proj2 (tff_range_ok _ n') A)). lia.
Qed.
