(** TBFs on timeslots: what attaching, detaching and reserving do. *)
From Coq Require Import ZArith List Bool Lia.
From Verif Require Import Base.Arith Model.Mslot Model.Alloc Model.Cell Spec.AllocSpec Proofs.AllocP Proofs.AllocQ.
Import ListNotations.
Local Open Scope Z_scope.

Lemma dir_eqb_eq : forall a b, dir_eqb a b = true <-> a = b.
Proof. intros [|] [|]; cbn; intuition congruence. Qed.
Lemma dir_eqb_refl : forall a, dir_eqb a a = true.
Proof. intros [|]; reflexivity. Qed.
Lemma dset_same : forall A (f : dmap A) d v, dset f d v d = v.
Proof. intros A f [|] v; reflexivity. Qed.
Lemma dset_diff : forall A (f : dmap A) d d' v, d' <> d -> dset f d v d' = f d'.
Proof. intros A f [|] [|] v H; congruence || reflexivity. Qed.
Lemma dset_eq : forall A (f : dmap A) d d' v, dset f d v d' = if dir_eqb d d' then v else f d'.
Proof. intros A f [|] [|] v; reflexivity. Qed.
Lemma upd_eq : forall A (f : Z -> A) k v x, upd f k v x = if x =? k then v else f x.
Proof. intros A f k v x. destruct (Z.eqb_spec x k) as [-> |N]; [ apply upd_same | now apply upd_diff ]. Qed.

(** ** Doing something on a set of timeslots *)
Lemma on_slots_spec : forall f n mask l b, NoDup l -> (forall x, In x l -> 0 <= x < 8) ->
  let r := fold_left (fun (acc : option bts) ts =>
    match acc with
    | None => None
    | Some b => if Z.testbit mask ts then match f ts (b n ts) with None => None | Some p => Some (upd b n (upd (b n) ts p)) end else Some b
    end) l (Some b) in
  (forall b', r = Some b' ->
    (forall ts, In ts l -> Z.testbit mask ts = true -> f ts (b n ts) = Some (b' n ts)) /\
    (forall n' ts, n' <> n \/ ~ In ts l \/ Z.testbit mask ts = false -> b' n' ts = b n' ts)) /\
  ((forall ts, In ts l -> Z.testbit mask ts = true -> f ts (b n ts) <> None) -> r <> None).
Proof.
  intros f n mask. induction l as [|x l IH]; intros b ND R8; cbv zeta; cbn [fold_left].
  - split; [ | discriminate ]. intros b' H. inversion H; subst. split; [ intros ts [] | reflexivity ].
  - inversion ND as [|? ? NI ND']; subst.
    destruct (Z.testbit mask x) eqn:B.
    + destruct (f x (b n x)) as [p|] eqn:F.
      * assert (R8' : forall y, In y l -> 0 <= y < 8) by (intros y Iy; apply R8; right; exact Iy).
        specialize (IH (upd b n (upd (b n) x p)) ND' R8').
        cbv zeta in IH. destruct IH as [IH1 IH2]. split.
        -- intros b' H. destruct (IH1 b' H) as [G1 G2]. split.
           ++ intros ts I Bt. destruct I as [<-|I].
              ** rewrite (G2 n x (or_intror (or_introl NI))). rewrite !upd_same. exact F.
              ** specialize (G1 ts I Bt). rewrite upd_same, upd_diff in G1 by (intros ->; contradiction). exact G1.
           ++ intros n' ts C. destruct (Z.eq_dec n' n) as [-> |N].
              ** rewrite G2 by (destruct C as [C|[C|C]]; [ congruence | right; left; intro I; apply C; right; exact I | auto ]).
                 rewrite upd_same. apply upd_diff. intros ->. destruct C as [C|[C|C]]; [ congruence | apply C; left; reflexivity | congruence ].
              ** rewrite G2 by (left; exact N). now rewrite upd_diff.
        -- intro H. apply IH2. intros ts I Bt. rewrite upd_same, upd_diff by (intros ->; contradiction).
           apply H; [ right; exact I | exact Bt ].
      * assert (NN : fold_left (fun (acc : option bts) ts =>
          match acc with
          | None => None
          | Some b => if Z.testbit mask ts then match f ts (b n ts) with None => None | Some p => Some (upd b n (upd (b n) ts p)) end else Some b
          end) l None = None) by (clear; induction l; cbn [fold_left]; auto).
        rewrite NN. split; [ discriminate | ]. intros H _. apply (H x (or_introl eq_refl) B). exact F.
    + specialize (IH b ND' (fun y Iy => R8 y (or_intror Iy))). cbv zeta in IH. destruct IH as [IH1 IH2]. split.
      * intros b' H. destruct (IH1 b' H) as [G1 G2]. split.
        -- intros ts [<-|I] Bt; [ congruence | auto ].
        -- intros n' ts C. apply G2. destruct C as [C|[C|C]]; auto. right; left; intro I; apply C; right; exact I.
      * intro H. apply IH2. intros ts I. apply H. right. exact I.
Qed.
Lemma nodup8 : NoDup slots8.
Proof. unfold slots8. repeat constructor; cbn [In]; lia. Qed.
Lemma on_slots_some : forall f b n mask, (forall ts, on mask ts -> f ts (b n ts) <> None) ->
  exists b', on_slots f b n mask = Some b' /\
    forall n' ts, 0 <= ts < 8 -> Some (b' n' ts) = if (n' =? n) && Z.testbit mask ts then f ts (b n' ts) else Some (b n' ts).
Proof.
  intros f b n mask H.
  destruct (on_slots_spec f n mask slots8 b nodup8 (fun x => proj1 (in_slots8 x))) as [S1 S2].
  fold (on_slots f b n mask) in S1, S2.
  destruct (on_slots f b n mask) as [b'|].
  - exists b'. split; [ reflexivity | ]. destruct (S1 b' eq_refl) as [G1 G2].
    intros n' ts R. destruct ((n' =? n) && Z.testbit mask ts) eqn:E.
    + apply andb_true_iff in E. destruct E as [E1 E2]. apply Z.eqb_eq in E1. subst n'. symmetry. apply G1; [ now apply in_slots8 | exact E2 ].
    + f_equal. apply G2. apply andb_false_iff in E. destruct E as [E|E]; [ left; lia | auto ].
  - exfalso. apply S2; [ | reflexivity ]. intros ts I B. apply H. split; [ now apply in_slots8 | exact B ].
Qed.

(** ** What a timeslot knows *)
Definition is_tfi (d : dir) (k : Z) (t : tbf) : bool := dir_eqb (t_dir t) d && (t_tfi t =? k).
Definition is_usf (ts u : Z) (t : tbf) : bool := is_ul (t_dir t) && (t_usf t ts =? u).
Definition is_kind (d : dir) (e : bool) (t : tbf) : bool := dir_eqb (t_dir t) d && Bool.eqb (t_egprs t) e.
Record mirror (ts : Z) (p : pdch) (L : list tbf) : Prop := mk_mirror {
  mi_tbf : forall d k, pd_tbf p d k = option_map t_id (find (is_tfi d k) L);
  mi_tfi : forall d k, 0 <= k < 32 -> Z.testbit (pd_tfi p d) k = existsb (is_tfi d k) L;
  mi_usf : forall u, 0 <= u < 8 -> Z.testbit (pd_usf p) u = existsb (is_usf ts u) L;
  mi_gprs : forall d, pd_gprs p d = Z.of_nat (length (filter (is_kind d false) L));
  mi_egprs : forall d, pd_egprs p d = Z.of_nat (length (filter (is_kind d true) L)) }.
Record distinct (ts : Z) (L : list tbf) : Prop := mk_distinct {
  di_range : forall t, In t L -> 0 <= t_tfi t < 32 /\ (t_dir t = UL -> 0 <= t_usf t ts < 7);
  di_tfi : forall d, NoDup (map t_tfi (filter (fun t => dir_eqb (t_dir t) d) L));
  di_usf : NoDup (map (fun t => t_usf t ts) (filter (fun t => is_ul (t_dir t)) L)) }.

Lemma nodup_range : forall (l : list Z) n, NoDup l -> (forall x, In x l -> 0 <= x < Z.of_nat n) -> (length l <= n)%nat.
Proof.
  intros l n ND R. rewrite <- (seq_length n 0), <- (map_length Z.of_nat).
  apply NoDup_incl_length; [ exact ND | ]. intros x I. apply in_map_iff. exists (Z.to_nat x).
  specialize (R x I). split; [ lia | apply in_seq; lia ].
Qed.
Lemma distinct_count : forall ts L d e, distinct ts L -> (length (filter (is_kind d e) L) <= 32)%nat.
Proof.
  intros ts L d e D. transitivity (length (filter (fun t => dir_eqb (t_dir t) d) L)).
  - apply filter_le. intros t _ H. unfold is_kind in H. apply andb_true_iff in H. tauto.
  - rewrite <- (map_length t_tfi). apply nodup_range; [ apply (di_tfi _ _ D) | ].
    intros x I. apply in_map_iff in I. destruct I as [t [<- I]]. apply filter_In in I.
    change (Z.of_nat 32) with 32. exact (proj1 (di_range _ _ D t (proj1 I))).
Qed.
Lemma mirror_counters : forall ts p L d, mirror ts p L -> distinct ts L -> 0 <= pd_gprs p d < 256 /\ 0 <= pd_egprs p d < 256.
Proof.
  intros ts p L d M D. rewrite (mi_gprs _ _ _ M), (mi_egprs _ _ _ M).
  pose proof (distinct_count ts L d false D). pose proof (distinct_count ts L d true D). lia.
Qed.

Lemma existsb_false : forall A (f : A -> bool) l, existsb f l = false -> forall x, In x l -> f x = false.
Proof.
  intros A f l H x I. destruct (f x) eqn:E; [ | reflexivity ].
  assert (existsb f l = true) by (apply existsb_exists; exists x; auto). congruence.
Qed.

Lemma attach_ok : forall ts t p L, mirror ts p L -> distinct ts L -> tfi_free p (t_dir t) (t_tfi t) ->
  (t_dir t = UL -> usf_free p (t_usf t ts)) ->
  mirror ts (attach ts t p) (t :: L) /\ distinct ts (t :: L).
Proof.
  intros ts t p L M D [TR TF] UF.
  assert (NT : forall x, In x L -> t_dir x = t_dir t -> t_tfi x <> t_tfi t).
  { intros x I E1 E2. rewrite (mi_tfi _ _ _ M) in TF by exact TR.
    pose proof (existsb_false _ _ _ TF x I) as F. unfold is_tfi in F. rewrite E1, E2, dir_eqb_refl, Z.eqb_refl in F. discriminate. }
  assert (NU : t_dir t = UL -> forall x, In x L -> t_dir x = UL -> t_usf x ts <> t_usf t ts).
  { intros E0 x I E1 E2. destruct (UF E0) as [UR UF']. rewrite (mi_usf _ _ _ M) in UF' by lia.
    pose proof (existsb_false _ _ _ UF' x I) as F. unfold is_usf in F. rewrite E1, E2, Z.eqb_refl in F. discriminate. }
  assert (D' : distinct ts (t :: L)).
  { split.
    - intros x [<-|I]; [ | exact (di_range _ _ D x I) ]. split; [ exact TR | ]. intro E. exact (proj1 (UF E)).
    - intro d. cbn [filter]. destruct (dir_eqb (t_dir t) d) eqn:E; [ | apply (di_tfi _ _ D) ].
      apply dir_eqb_eq in E. subst d. cbn [map]. constructor; [ | apply (di_tfi _ _ D) ].
      intro I. apply in_map_iff in I. destruct I as [x [E I]]. apply filter_In in I. destruct I as [I E2].
      apply dir_eqb_eq in E2. exact (NT x I E2 E).
    - cbn [filter]. destruct (is_ul (t_dir t)) eqn:E; [ | apply (di_usf _ _ D) ].
      assert (EU : t_dir t = UL) by (destruct (t_dir t); [ discriminate | reflexivity ]).
      cbn [map]. constructor; [ | apply (di_usf _ _ D) ].
      intro I. apply in_map_iff in I. destruct I as [x [E' I]]. apply filter_In in I. destruct I as [I E2].
      refine (NU EU x I _ E'). destruct (t_dir x); [ discriminate | reflexivity ]. }
  split; [ | exact D' ].
  split.
  - intros d k. unfold attach, num_update. cbn [pd_tbf]. rewrite dset_eq. cbn [find]. unfold is_tfi at 1.
    destruct (dir_eqb (t_dir t) d) eqn:E; cbn [andb]; [ | apply (mi_tbf _ _ _ M) ].
    rewrite upd_eq. apply dir_eqb_eq in E. subst d. rewrite Z.eqb_sym.
    destruct (t_tfi t =? k); [ reflexivity | apply (mi_tbf _ _ _ M) ].
  - intros d k Hk. unfold attach, num_update. cbn [pd_tfi]. rewrite dset_eq. cbn [existsb]. unfold is_tfi at 1.
    destruct (dir_eqb (t_dir t) d) eqn:E; cbn [andb orb]; [ | now apply (mi_tfi _ _ _ M) ].
    apply dir_eqb_eq in E. subst d. rewrite Z.testbit_mod_pow2, Z.lor_spec, bit1, (mi_tfi _ _ _ M) by lia.
    replace (k <? 32) with true by lia. cbn [andb]. rewrite orb_comm, Z.eqb_sym. reflexivity.
  - intros u Hu. unfold attach, num_update. cbn [pd_usf]. cbn [existsb]. unfold is_usf at 1.
    destruct (is_ul (t_dir t)) eqn:E; cbn [andb orb]; [ | now apply (mi_usf _ _ _ M) ].
    assert (EU : t_dir t = UL) by (destruct (t_dir t); [ discriminate | reflexivity ]). destruct (UF EU) as [UR _].
    change 256 with (2 ^ 8). rewrite Z.testbit_mod_pow2, Z.lor_spec, bit1, (mi_usf _ _ _ M) by lia.
    replace (u <? 8) with true by lia. cbn [andb]. rewrite orb_comm, Z.eqb_sym. reflexivity.
  - intro d. pose proof (distinct_count ts (t :: L) d false D') as C. unfold attach, num_update. cbn [pd_gprs].
    cbn [filter] in *. unfold is_kind at 1 in C. unfold is_kind at 1.
    destruct (t_egprs t); cbn [Bool.eqb]; rewrite ?andb_false_r, ?andb_true_r in *.
    + apply (mi_gprs _ _ _ M).
    + rewrite dset_eq. destruct (dir_eqb (t_dir t) d) eqn:E; [ | apply (mi_gprs _ _ _ M) ].
      apply dir_eqb_eq in E. subst d. rewrite (mi_gprs _ _ _ M). cbn [length] in *. rewrite Z.mod_small by lia. lia.
  - intro d. pose proof (distinct_count ts (t :: L) d true D') as C. unfold attach, num_update. cbn [pd_egprs].
    cbn [filter] in *. unfold is_kind at 1 in C. unfold is_kind at 1.
    destruct (t_egprs t); cbn [Bool.eqb]; rewrite ?andb_false_r, ?andb_true_r in *.
    + rewrite dset_eq. destruct (dir_eqb (t_dir t) d) eqn:E; [ | apply (mi_egprs _ _ _ M) ].
      apply dir_eqb_eq in E. subst d. rewrite (mi_egprs _ _ _ M). cbn [length] in *. rewrite Z.mod_small by lia. lia.
    + apply (mi_egprs _ _ _ M).
Qed.

(** Taking one TBF out of a list. *)
Definition without (t : tbf) (L : list tbf) : list tbf := filter (fun x => negb (t_id x =? t_id t)) L.
Lemma without_in : forall t L x, In x (without t L) <-> In x L /\ t_id x <> t_id t.
Proof. intros t L x. unfold without. rewrite filter_In, negb_true_iff. rewrite Z.eqb_neq. tauto. Qed.
Lemma without_count : forall f t L, NoDup (map t_id L) -> In t L ->
  length (filter f L) = (length (filter f (without t L)) + (if f t then 1 else 0))%nat.
Proof.
  intros f t L. induction L as [|x L IH]; intros ND I; [ contradiction | ].
  cbn [map] in ND. inversion ND as [|? ? NI ND']; subst. unfold without. cbn [filter]. fold (without t L).
  destruct I as [-> |I].
  - rewrite Z.eqb_refl. cbn [negb]. assert (without t L = L) as ->.
    { unfold without. clear - NI. induction L as [|y L IH]; cbn [filter]; [ reflexivity | ].
      cbn [map In] in NI. destruct (Z.eqb_spec (t_id y) (t_id t)) as [E|E]; [ tauto | ]. cbn [negb]. f_equal. apply IH. tauto. }
    destruct (f t); cbn [length]; lia.
  - assert (NE : t_id x <> t_id t) by (intro E; apply NI; rewrite E; now apply in_map).
    destruct (Z.eqb_spec (t_id x) (t_id t)); [ contradiction | ]. cbn [negb filter].
    destruct (f x); cbn [length]; rewrite (IH ND' I); lia.
Qed.
Lemma nodup_map_filter : forall A (g : A -> Z) f l, NoDup (map g l) -> NoDup (map g (filter f l)).
Proof.
  intros A g f l. induction l as [|x l IH]; intro ND; cbn [filter map] in *; [ constructor | ].
  inversion ND as [|? ? NI ND']; subst. destruct (f x); [ | auto ]. cbn [map]. constructor; [ | auto ].
  intro I. apply NI. apply in_map_iff in I. destruct I as [y [<- I]]. apply filter_In in I. apply in_map. tauto.
Qed.
Lemma filter_comm : forall A (f g : A -> bool) l, filter f (filter g l) = filter g (filter f l).
Proof.
  intros A f g l. induction l as [|x l IH]; cbn [filter]; [ reflexivity | ].
  destruct (f x) eqn:F, (g x) eqn:G; cbn [filter]; rewrite ?F, ?G, IH; reflexivity.
Qed.
Lemma nodup_map_inj : forall A (g : A -> Z) l x y, NoDup (map g l) -> In x l -> In y l -> g x = g y -> x = y.
Proof.
  intros A g l. induction l as [|z l IH]; intros x y ND I J E; [ contradiction | ].
  cbn [map] in ND. inversion ND as [|? ? NI ND']; subst.
  destruct I as [-> |I], J as [-> |J]; auto.
  - exfalso. apply NI. rewrite E. now apply in_map.
  - exfalso. apply NI. rewrite <- E. now apply in_map.
Qed.
Lemma distinct_without : forall ts t L, distinct ts L -> distinct ts (without t L).
Proof.
  intros ts t L D. split.
  - intros x I. apply without_in in I. apply (di_range _ _ D). tauto.
  - intro d. unfold without. rewrite filter_comm. apply nodup_map_filter. apply (di_tfi _ _ D).
  - unfold without. rewrite filter_comm. apply nodup_map_filter. apply (di_usf _ _ D).
Qed.
Lemma distinct_tfi_inj : forall ts L x y, distinct ts L -> In x L -> In y L -> t_dir x = t_dir y -> t_tfi x = t_tfi y -> x = y.
Proof.
  intros ts L x y D I J E1 E2. eapply nodup_map_inj; [ apply (di_tfi _ _ D (t_dir x)) | | | exact E2 ].
  - apply filter_In. split; [ exact I | apply dir_eqb_refl ].
  - apply filter_In. split; [ exact J | ]. rewrite <- E1. apply dir_eqb_refl.
Qed.
Lemma distinct_usf_inj : forall ts L x y, distinct ts L -> In x L -> In y L -> t_dir x = UL -> t_dir y = UL -> t_usf x ts = t_usf y ts -> x = y.
Proof.
  intros ts L x y D I J E1 E2 E3. eapply (nodup_map_inj _ (fun t => t_usf t ts)); [ apply (di_usf _ _ D) | | | exact E3 ].
  - apply filter_In. split; [ exact I | rewrite E1; reflexivity ].
  - apply filter_In. split; [ exact J | rewrite E2; reflexivity ].
Qed.
Lemma find_without : forall f t L, NoDup (map t_id L) -> In t L -> (forall x, In x L -> f x = true -> f t = true -> x = t) ->
  option_map t_id (find f (without t L)) = if f t then None else option_map t_id (find f L).
Proof.
  intros f t L ND I U. destruct (f t) eqn:Ft.
  - destruct (find f (without t L)) as [x|] eqn:E; [ | reflexivity ]. exfalso.
    apply find_some in E. destruct E as [Ix Fx]. apply without_in in Ix. destruct Ix as [Ix N]. apply N.
    rewrite (U x Ix Fx eq_refl). reflexivity.
  - f_equal. clear U. induction L as [|x L IH]; [ contradiction | ].
    unfold without. cbn [filter find]. fold (without t L). cbn [map] in ND. inversion ND as [|? ? NI ND']; subst.
    destruct (Z.eqb_spec (t_id x) (t_id t)) as [E|E]; cbn [negb].
    + assert (x = t) as ->. { destruct I as [-> |I]; [ reflexivity | ]. exfalso. apply NI. rewrite E. now apply in_map. }
      rewrite Ft. assert (without t L = L) as ->; [ | reflexivity ].
      unfold without. clear - NI. induction L as [|y L IH]; cbn [filter]; [ reflexivity | ].
      cbn [map In] in NI. destruct (Z.eqb_spec (t_id y) (t_id t)) as [E|E]; [ tauto | ]. cbn [negb]. f_equal. apply IH. tauto.
    + cbn [find]. destruct (f x); [ reflexivity | ]. apply IH; [ exact ND' | ]. destruct I as [-> |I]; [ congruence | exact I ].
Qed.
Lemma existsb_without : forall f t L, NoDup (map t_id L) -> In t L -> (forall x, In x L -> f x = true -> f t = true -> x = t) ->
  existsb f (without t L) = existsb f L && negb (f t).
Proof.
  intros f t L ND I U. apply eq_iff_eq_true. rewrite andb_true_iff, !existsb_exists, negb_true_iff. split.
  - intros [x [Ix Fx]]. apply without_in in Ix. destruct Ix as [Ix N]. split; [ exists x; auto | ].
    destruct (f t) eqn:Ft; [ | reflexivity ]. exfalso. apply N. rewrite (U x Ix Fx eq_refl). reflexivity.
  - intros [[x [Ix Fx]] Ft]. exists x. split; [ | exact Fx ]. apply without_in. split; [ exact Ix | ].
    intro E. rewrite (nodup_map_inj _ t_id L x t ND Ix I E) in Fx. congruence.
Qed.

Lemma detach_ok : forall ts t p L, mirror ts p L -> distinct ts L -> NoDup (map t_id L) -> In t L ->
  exists p', detach ts t p = Some p' /\ mirror ts p' (without t L) /\
    pd_enabled p' = pd_enabled p /\ pd_tsc p' = pd_tsc p /\ pd_res p' = pd_res p.
Proof.
  intros ts t p L M D ND I.
  destruct (di_range _ _ D t I) as [TR UR].
  pose proof (mi_gprs _ _ _ M (t_dir t)) as CG. pose proof (mi_egprs _ _ _ M (t_dir t)) as CE.
  pose proof (distinct_count ts L (t_dir t) false D) as BG. pose proof (distinct_count ts L (t_dir t) true D) as BE.
  pose proof (fun f => without_count f t L ND I) as WC.
  unfold detach.
  assert (NZ : (if t_egprs t then pd_egprs p else pd_gprs p) (t_dir t) =? 0 = false).
  { apply Z.eqb_neq. destruct (t_egprs t) eqn:E.
    - rewrite CE, WC. unfold is_kind at 2. rewrite dir_eqb_refl, E. cbn [andb Bool.eqb]. lia.
    - rewrite CG, WC. unfold is_kind at 2. rewrite dir_eqb_refl, E. cbn [andb Bool.eqb]. lia. }
  rewrite NZ. eexists. split; [ reflexivity | ]. split; [ | unfold num_update; cbn [pd_enabled pd_tsc pd_res]; auto ].
  assert (UT : forall d k x, In x L -> is_tfi d k x = true -> is_tfi d k t = true -> x = t).
  { intros d k x Ix H1 H2. unfold is_tfi in H1, H2. apply andb_true_iff in H1, H2. destruct H1 as [A1 A2], H2 as [B1 B2].
    apply dir_eqb_eq in A1, B1. eapply distinct_tfi_inj; [ exact D | exact Ix | exact I | congruence | lia ]. }
  assert (UU : forall u x, In x L -> is_usf ts u x = true -> is_usf ts u t = true -> x = t).
  { intros u x Ix H1 H2. unfold is_usf in H1, H2. apply andb_true_iff in H1, H2. destruct H1 as [A1 A2], H2 as [B1 B2].
    eapply distinct_usf_inj; [ exact D | exact Ix | exact I | | | lia ].
    - destruct (t_dir x); [ discriminate | reflexivity ].
    - destruct (t_dir t); [ discriminate | reflexivity ]. }
  split.
  - intros d k. unfold num_update. cbn [pd_tbf]. rewrite dset_eq, (find_without _ t L ND I (UT d k)). unfold is_tfi at 1.
    destruct (dir_eqb (t_dir t) d) eqn:E; cbn [andb]; [ | apply (mi_tbf _ _ _ M) ].
    apply dir_eqb_eq in E. subst d. rewrite upd_eq, Z.eqb_sym.
    destruct (t_tfi t =? k); [ reflexivity | apply (mi_tbf _ _ _ M) ].
  - intros d k Hk. unfold num_update. cbn [pd_tfi]. rewrite dset_eq, (existsb_without _ t L ND I (UT d k)). unfold is_tfi at 2.
    destruct (dir_eqb (t_dir t) d) eqn:E; cbn [andb negb]; [ | rewrite andb_true_r; now apply (mi_tfi _ _ _ M) ].
    apply dir_eqb_eq in E. subst d. rewrite Z.testbit_mod_pow2, Z.land_spec, Z.lnot_spec, bit1, (mi_tfi _ _ _ M) by lia.
    replace (k <? 32) with true by lia. cbn [andb]. rewrite (Z.eqb_sym k). reflexivity.
  - intros u Hu. unfold num_update. cbn [pd_usf]. rewrite (existsb_without _ t L ND I (UU u)). unfold is_usf at 2.
    destruct (is_ul (t_dir t)) eqn:E; cbn [andb negb]; [ | rewrite andb_true_r; now apply (mi_usf _ _ _ M) ].
    assert (EU : t_dir t = UL) by (destruct (t_dir t); [ discriminate | reflexivity ]). specialize (UR EU).
    change 256 with (2 ^ 8). rewrite Z.testbit_mod_pow2, Z.land_spec, Z.lnot_spec, bit1, (mi_usf _ _ _ M) by lia.
    replace (u <? 8) with true by lia. cbn [andb]. rewrite (Z.eqb_sym u). reflexivity.
  - intro d. unfold num_update. cbn [pd_gprs]. pose proof (WC (is_kind d false)) as W. unfold is_kind at 3 in W.
    destruct (t_egprs t); cbn [Bool.eqb] in W; rewrite ?andb_false_r, ?andb_true_r in W.
    + rewrite (mi_gprs _ _ _ M). lia.
    + rewrite dset_eq. destruct (dir_eqb (t_dir t) d) eqn:E.
      * apply dir_eqb_eq in E. subst d. rewrite CG in *. rewrite Z.mod_small by lia. lia.
      * rewrite (mi_gprs _ _ _ M). lia.
  - intro d. unfold num_update. cbn [pd_egprs]. pose proof (WC (is_kind d true)) as W. unfold is_kind at 3 in W.
    destruct (t_egprs t); cbn [Bool.eqb] in W; rewrite ?andb_false_r, ?andb_true_r in W.
    + rewrite dset_eq. destruct (dir_eqb (t_dir t) d) eqn:E.
      * apply dir_eqb_eq in E. subst d. rewrite CE in *. rewrite Z.mod_small by lia. lia.
      * rewrite (mi_egprs _ _ _ M). lia.
    + rewrite (mi_egprs _ _ _ M). lia.
Qed.

(** ** Reservations *)
Definition same_but_res (p p' : pdch) : Prop :=
  pd_enabled p' = pd_enabled p /\ pd_tsc p' = pd_tsc p /\ pd_gprs p' = pd_gprs p /\ pd_egprs p' = pd_egprs p /\
  pd_usf p' = pd_usf p /\ pd_tfi p' = pd_tfi p /\ pd_tbf p' = pd_tbf p.
Lemma sbr_refl : forall p, same_but_res p p.
Proof. intro p. unfold same_but_res. auto 10. Qed.
Lemma sbr_trans : forall p q r, same_but_res p q -> same_but_res q r -> same_but_res p r.
Proof. unfold same_but_res. intros p q r H1 H2. decompose [and] H1. decompose [and] H2. repeat split; congruence. Qed.
Lemma mirror_sbr : forall ts p p' L, same_but_res p p' -> mirror ts p L -> mirror ts p' L.
Proof.
  intros ts p p' L (_ & _ & E1 & E2 & E3 & E4 & E5) M. split; intros.
  - rewrite E5. apply (mi_tbf _ _ _ M).
  - rewrite E4. now apply (mi_tfi _ _ _ M).
  - rewrite E3. now apply (mi_usf _ _ _ M).
  - rewrite E1. apply (mi_gprs _ _ _ M).
  - rewrite E2. apply (mi_egprs _ _ _ M).
Qed.
Definition b2z (b : bool) : Z := if b then 1 else 0.
Definition hit (n mask : Z) (d : dir) (n' ts : Z) (d' : dir) : bool := (n' =? n) && Z.testbit mask ts && dir_eqb d d'.

Lemma unreserve_slots : forall b n mask d,
  (forall ts, on mask ts -> 0 < pd_res (b n ts) d) ->
  exists b', on_slots (fun _ => unreserve d) b n mask = Some b' /\
    forall n' ts, 0 <= ts < 8 -> same_but_res (b n' ts) (b' n' ts) /\
      forall d', pd_res (b' n' ts) d' = pd_res (b n' ts) d' - b2z (hit n mask d n' ts d').
Proof.
  intros b n mask d H. destruct (on_slots_some (fun _ => unreserve d) b n mask) as [b' [E S]].
  - intros ts O. unfold unreserve. specialize (H ts O). destruct (Z.eqb_spec (pd_res (b n ts) d) 0); [ lia | discriminate ].
  - exists b'. split; [ exact E | ]. intros n' ts R. specialize (S n' ts R). unfold hit.
    destruct ((n' =? n) && Z.testbit mask ts).
    + unfold unreserve in S. destruct (pd_res (b n' ts) d =? 0); [ discriminate | ]. inversion S as [S']. rewrite S'. clear S.
      split; [ unfold set_res, same_but_res; cbn; auto 10 | ].
      intro d'. unfold set_res. cbn [pd_res]. rewrite dset_eq. cbn [andb].
      destruct (dir_eqb d d') eqn:DD; cbn [b2z]; [ apply dir_eqb_eq in DD; subst; reflexivity | lia ].
    + inversion S as [S']. rewrite S'. split; [ apply sbr_refl | ]. intro d'. cbn [andb b2z]. lia.
Qed.
Lemma reserve_slots : forall b n mask d,
  (forall ts, on mask ts -> 0 <= pd_res (b n ts) d < 255) ->
  exists b', on_slots (fun _ p => Some (reserve d p)) b n mask = Some b' /\
    forall n' ts, 0 <= ts < 8 -> same_but_res (b n' ts) (b' n' ts) /\
      forall d', pd_res (b' n' ts) d' = pd_res (b n' ts) d' + b2z (hit n mask d n' ts d').
Proof.
  intros b n mask d H. destruct (on_slots_some (fun _ p => Some (reserve d p)) b n mask) as [b' [E S]].
  - discriminate.
  - exists b'. split; [ exact E | ]. intros n' ts R. specialize (S n' ts R). unfold hit.
    destruct ((n' =? n) && Z.testbit mask ts) eqn:HH.
    + inversion S as [S']. rewrite S'. clear S.
      split; [ unfold reserve, set_res, same_but_res; cbn; auto 10 | ].
      intro d'. unfold reserve, set_res. cbn [pd_res]. rewrite dset_eq. cbn [andb].
      apply andb_true_iff in HH. destruct HH as [H1 H2]. apply Z.eqb_eq in H1. subst n'.
      destruct (dir_eqb d d') eqn:DD; cbn [b2z]; [ apply dir_eqb_eq in DD; subst | lia ].
      apply Z.mod_small. specialize (H ts (conj R H2)). lia.
    + inversion S as [S']. rewrite S'. split; [ apply sbr_refl | ]. intro d'. cbn [andb b2z]. lia.
Qed.

Lemma res_count_ext : forall ids ms ms' n ts d, (forall m, In m ids -> reserves (ms' m) n ts d = reserves (ms m) n ts d) ->
  res_count ids ms' n ts d = res_count ids ms n ts d.
Proof. intros ids ms ms' n ts d H. unfold res_count. f_equal. f_equal. now apply filter_ext_in. Qed.
Lemma res_count_upd : forall ids ms m v n ts d, NoDup ids -> In m ids ->
  res_count ids (upd ms m v) n ts d = res_count ids ms n ts d - b2z (reserves (ms m) n ts d) + b2z (reserves v n ts d).
Proof.
  intros ids ms m v n ts d. unfold res_count. induction ids as [|x ids IH]; intros ND I; [ contradiction | ].
  inversion ND as [|? ? NI ND']; subst. cbn [filter]. destruct (Z.eq_dec x m) as [-> |N].
  - rewrite upd_same.
    assert (filter (fun m0 => reserves (upd ms m v m0) n ts d) ids = filter (fun m0 => reserves (ms m0) n ts d) ids) as ->.
    { apply filter_ext_in. intros y Iy. rewrite upd_diff; [ reflexivity | ]. intros ->. contradiction. }
    destruct (reserves v n ts d), (reserves (ms m) n ts d); cbn [length b2z]; lia.
  - rewrite upd_diff by exact N. destruct I as [I|I]; [ congruence | ]. specialize (IH ND' I).
    destruct (reserves (ms x) n ts d); cbn [length]; lia.
Qed.
Lemma res_count_pos : forall ids ms m n ts d, In m ids -> reserves (ms m) n ts d = true -> 0 < res_count ids ms n ts d.
Proof.
  intros ids ms m n ts d I R. unfold res_count.
  assert (J : In m (filter (fun x => reserves (ms x) n ts d) ids)) by (apply filter_In; auto).
  destruct (filter _ _); [ contradiction | cbn [length]; lia ].
Qed.
Lemma res_count_le : forall ids ms n ts d, 0 <= res_count ids ms n ts d <= Z.of_nat (length ids).
Proof.
  intros ids ms n ts d. unfold res_count. split; [ lia | ]. apply inj_le.
  induction ids as [|x ids IH]; cbn [filter length]; [ lia | ]. destruct (reserves _ _ _ _); cbn [length]; lia.
Qed.
Definition res_ok (ids : list Z) (b : bts) (ms : Z -> msv) : Prop :=
  forall n ts d, 0 <= ts < 8 -> pd_res (b n ts) d = res_count ids ms n ts d.

Definition new_v (v : msv) (trx : option Z) (ul dl : Z) : msv :=
  match trx with
  | None => mk_msv (v_class v) None 0 0 (v_common v)
  | Some n => mk_msv (v_class v) (Some n) ul dl (v_common v)
  end.
Lemma set_reserved_ok : forall ids c m trx ul dl, NoDup ids -> (length ids < 256)%nat -> In m ids ->
  res_ok ids (c_bts c) (c_ms c) -> (v_trx (c_ms c m) = None -> v_rul (c_ms c m) = 0 /\ v_rdl (c_ms c m) = 0) ->
  exists c', set_reserved c m trx ul dl = Some c' /\ c_tbfs c' = c_tbfs c /\ c_dis c' = c_dis c /\
    c_ms c' = upd (c_ms c) m (new_v (c_ms c m) trx ul dl) /\ res_ok ids (c_bts c') (c_ms c') /\
    forall n ts, 0 <= ts < 8 -> same_but_res (c_bts c n ts) (c_bts c' n ts).
Proof.
  intros ids c m trx ul dl ND LEN I RO NO. unfold set_reserved. cbv zeta. set (v := c_ms c m) in *.
  assert (S1 : exists b, (match v_trx v with
         | None => Some (c_bts c, v_rul v, v_rdl v)
         | Some n =>
           obind (on_slots (fun _ => unreserve DL) (c_bts c) n (v_rdl v)) (fun b1 =>
           obind (on_slots (fun _ => unreserve UL) b1 n (v_rul v)) (fun b2 => Some (b2, 0, 0)))
         end) = Some (b, 0, 0) /\ forall n ts, 0 <= ts < 8 -> same_but_res (c_bts c n ts) (b n ts) /\
     forall d, pd_res (b n ts) d = res_count ids (c_ms c) n ts d - b2z (reserves v n ts d)).
  { destruct (v_trx v) as [k|] eqn:K.
    - destruct (unreserve_slots (c_bts c) k (v_rdl v) DL) as [b1 [E1 U1]].
      { intros ts [R B]. rewrite RO by exact R. apply (res_count_pos ids _ m); [ exact I | ].
        fold v. unfold reserves. rewrite K, Z.eqb_refl. exact B. }
      destruct (unreserve_slots b1 k (v_rul v) UL) as [b2 [E2 U2]].
      { intros ts [R B]. destruct (U1 k ts R) as [_ U]. rewrite U. unfold hit. rewrite andb_false_r. cbn [b2z].
        rewrite RO by exact R. rewrite Z.sub_0_r. apply (res_count_pos ids _ m); [ exact I | ].
        fold v. unfold reserves. rewrite K, Z.eqb_refl. exact B. }
      exists b2. rewrite E1. cbn [obind]. rewrite E2. cbn [obind]. split; [ reflexivity | ].
      intros n ts R. destruct (U1 n ts R) as [P1 Q1], (U2 n ts R) as [P2 Q2]. split; [ eapply sbr_trans; eassumption | ].
      intro d. rewrite Q2, Q1, RO by exact R. unfold hit, reserves. rewrite K, (Z.eqb_sym n k).
      destruct d; cbn [dir_eqb is_ul Bool.eqb]; rewrite ?andb_false_r, ?andb_true_r; cbn [b2z]; lia.
    - destruct (NO eq_refl) as [N1 N2]. exists (c_bts c). rewrite N1, N2. split; [ reflexivity | ].
      intros n ts R. split; [ apply sbr_refl | ]. intro d. rewrite RO by exact R. unfold reserves. rewrite K. cbn [b2z]. lia. }
  destruct S1 as [b [E S1]]. rewrite E. cbn [obind]. clear E.
  assert (CNT : forall n ts d, 0 <= res_count ids (upd (c_ms c) m (new_v v trx ul dl)) n ts d < 256).
  { intros n ts d. pose proof (res_count_le ids (upd (c_ms c) m (new_v v trx ul dl)) n ts d). lia. }
  destruct trx as [k|]; unfold new_v in *; cbn [new_v] in *.
  - set (v' := mk_msv (v_class v) (Some k) ul dl (v_common v)) in *.
    destruct (reserve_slots b k dl DL) as [b1 [E1 U1]].
    { intros ts [R B]. destruct (S1 k ts R) as [_ S]. rewrite S. specialize (CNT k ts DL). rewrite res_count_upd in CNT by assumption.
      fold v in CNT. change (reserves v' k ts DL) with ((k =? k) && Z.testbit dl ts) in CNT. rewrite Z.eqb_refl, B in CNT. cbn [andb b2z] in CNT.
      assert (0 <= res_count ids (c_ms c) k ts DL - b2z (reserves v k ts DL)).
      { destruct (reserves v k ts DL) eqn:RV; cbn [b2z]; [ pose proof (res_count_pos ids (c_ms c) m k ts DL I RV); lia | pose proof (res_count_le ids (c_ms c) k ts DL); lia ]. }
      lia. }
    destruct (reserve_slots b1 k ul UL) as [b2 [E2 U2]].
    { intros ts [R B]. destruct (U1 k ts R) as [_ U]. rewrite U. unfold hit. rewrite andb_false_r. cbn [b2z]. rewrite Z.add_0_r.
      destruct (S1 k ts R) as [_ S]. rewrite S. specialize (CNT k ts UL). rewrite res_count_upd in CNT by assumption.
      fold v in CNT. change (reserves v' k ts UL) with ((k =? k) && Z.testbit ul ts) in CNT. rewrite Z.eqb_refl, B in CNT. cbn [andb b2z] in CNT.
      assert (0 <= res_count ids (c_ms c) k ts UL - b2z (reserves v k ts UL)).
      { destruct (reserves v k ts UL) eqn:RV; cbn [b2z]; [ pose proof (res_count_pos ids (c_ms c) m k ts UL I RV); lia | pose proof (res_count_le ids (c_ms c) k ts UL); lia ]. }
      lia. }
    rewrite E1. cbn [obind]. rewrite E2. cbn [obind].
    eexists. split; [ reflexivity | ]. cbn [c_tbfs c_dis c_ms c_bts]. splits; auto.
    + intros n ts d R. destruct (U2 n ts R) as [_ Q2], (U1 n ts R) as [_ Q1], (S1 n ts R) as [_ Q0].
      rewrite Q2, Q1, Q0, res_count_upd by assumption. fold v. change (reserves v' n ts d) with ((k =? n) && Z.testbit (match d with UL => ul | DL => dl end) ts).
      unfold hit. rewrite (Z.eqb_sym n k).
      destruct d; cbn [dir_eqb is_ul Bool.eqb]; rewrite ?andb_false_r, ?andb_true_r; cbn [b2z]; lia.
    + intros n ts R. destruct (U2 n ts R) as [P2 _], (U1 n ts R) as [P1 _], (S1 n ts R) as [P0 _].
      eapply sbr_trans; [ exact P0 | eapply sbr_trans; eassumption ].
  - eexists. split; [ reflexivity | ]. cbn [c_tbfs c_dis c_ms c_bts]. splits; auto.
    + intros n ts d R. destruct (S1 n ts R) as [_ Q0]. rewrite Q0, res_count_upd by assumption. fold v.
      match goal with |- context [b2z (reserves (mk_msv ?a None ?b ?c ?e) n ts d)] => change (reserves (mk_msv a None b c e) n ts d) with false end. cbn [b2z]. lia.
    + intros n ts R. exact (proj1 (S1 n ts R)).
Qed.
