(** The statistics of a cell are right after every history. *)
From Coq Require Import ZArith List Bool Lia.
From Verif Require Import Base.Arith Model.Mslot Model.Alloc Model.Cell Model.CellStat Spec.AllocSpec Spec.CellStatSpec
  Proofs.AllocP Proofs.AllocQ Proofs.CellP Proofs.CellI Proofs.CellStatP.
Import ListNotations.
Local Open Scope Z_scope.

Lemma mirror_small : forall ts p L, mirror ts p L -> distinct ts L -> small p.
Proof.
  intros ts p L M D d. rewrite (mi_gprs _ _ _ M), (mi_egprs _ _ _ M).
  pose proof (distinct_count ts L d false D). pose proof (distinct_count ts L d true D). lia.
Qed.
Lemma inv_small : forall ids c n ts, inv ids c -> 0 <= ts < 8 -> small (c_bts c n ts).
Proof. intros ids c n ts V R. exact (mirror_small ts _ _ (i_mirror _ _ V n ts R) (i_distinct _ _ V n ts R)). Qed.

(** ** Reservations do not count *)
Lemma on_slots_keep : forall (K : pdch -> pdch -> Prop) f b n mask b', (forall p, K p p) ->
  (forall ts p p', f ts p = Some p' -> K p p') -> on_slots f b n mask = Some b' -> forall n' ts, K (b n' ts) (b' n' ts).
Proof.
  intros K f b n mask b' KR F E n' ts.
  destruct (on_slots_spec f n mask slots8 b nodup8 (fun x => proj1 (in_slots8 x))) as [S _].
  destruct (S b' E) as [S1 S2].
  destruct (Z.eq_dec n' n) as [-> |N]; [ | rewrite S2 by (left; exact N); apply KR ].
  destruct (in_dec Z.eq_dec ts slots8) as [I|I]; [ | rewrite S2 by (right; left; exact I); apply KR ].
  destruct (Z.testbit mask ts) eqn:B; [ | rewrite S2 by (right; right; exact B); apply KR ].
  apply (F ts). apply S1; assumption.
Qed.
Lemma unreserve_sbr : forall d p p', unreserve d p = Some p' -> same_but_res p p'.
Proof.
  intros d p p' E. unfold unreserve in E. destruct (_ =? 0); [ discriminate | ]. injection E as <-.
  unfold same_but_res, set_res. cbn. auto 10.
Qed.
Lemma reserve_sbr : forall d p p', Some (reserve d p) = Some p' -> same_but_res p p'.
Proof. intros d p p' E. injection E as <-. unfold same_but_res, reserve, set_res. cbn. auto 10. Qed.
Definition all_sbr (b b' : bts) : Prop := forall n ts, same_but_res (b n ts) (b' n ts).
Lemma all_sbr_trans : forall a b c, all_sbr a b -> all_sbr b c -> all_sbr a c.
Proof. intros a b c X Y n ts. exact (sbr_trans _ _ _ (X n ts) (Y n ts)). Qed.
Lemma slots_unreserve : forall d b n mask b', on_slots (fun _ => unreserve d) b n mask = Some b' -> all_sbr b b'.
Proof.
  intros d b n mask b' E n' ts. revert E n' ts. apply on_slots_keep; [ exact sbr_refl | ]. intros _. apply unreserve_sbr.
Qed.
Lemma slots_reserve : forall d b n mask b', on_slots (fun _ p => Some (reserve d p)) b n mask = Some b' -> all_sbr b b'.
Proof.
  intros d b n mask b' E n' ts. revert E n' ts. apply on_slots_keep; [ exact sbr_refl | ]. intros _. apply reserve_sbr.
Qed.
Lemma set_reserved_sbr : forall c m trx ul dl c', set_reserved c m trx ul dl = Some c' ->
  all_sbr (c_bts c) (c_bts c') /\ c_tbfs c' = c_tbfs c.
Proof.
  intros c m trx ul dl c' E. unfold set_reserved in E.
  set (first := match v_trx (c_ms c m) with None => _ | Some _ => _ end) in E.
  assert (S : forall b rul rdl, first = Some (b, rul, rdl) -> all_sbr (c_bts c) b).
  { intros b rul rdl F. unfold first in F. destruct (v_trx (c_ms c m)) as [n|].
    - destruct (on_slots _ _ _ _) as [b1|] eqn:E1 in F; [ | discriminate ]. cbn [obind] in F.
      destruct (on_slots _ _ _ _) as [b2|] eqn:E2 in F; [ | discriminate ]. cbn [obind] in F. injection F as <- _ _.
      exact (all_sbr_trans _ _ _ (slots_unreserve _ _ _ _ _ E1) (slots_unreserve _ _ _ _ _ E2)).
    - injection F as <- _ _. intros n ts. apply sbr_refl. }
  destruct first as [[[b rul] rdl]|]; [ | discriminate ]. cbn [obind] in E. specialize (S b rul rdl eq_refl).
  destruct trx as [n|].
  - destruct (on_slots _ _ _ _) as [b1|] eqn:E1 in E; [ | discriminate ]. cbn [obind] in E.
    destruct (on_slots _ _ _ _) as [b2|] eqn:E2 in E; [ | discriminate ]. cbn [obind] in E. injection E as <-.
    cbn [c_bts c_tbfs]. split; [ | reflexivity ].
    exact (all_sbr_trans _ _ _ S (all_sbr_trans _ _ _ (slots_reserve _ _ _ _ _ E1) (slots_reserve _ _ _ _ _ E2))).
  - injection E as <-. cbn [c_bts c_tbfs]. auto.
Qed.
Lemma unreserve_all_sbr : forall l n ts c c', unreserve_all l n ts c = Some c' -> all_sbr (c_bts c) (c_bts c') /\ c_tbfs c' = c_tbfs c.
Proof.
  intro l. induction l as [|m l IH]; intros n ts c c' E; cbn [unreserve_all] in E.
  - injection E as <-. split; [ intros n' ts'; apply sbr_refl | reflexivity ].
  - cbv zeta in E. set (q := match v_trx (c_ms c m) with Some _ => _ | None => _ end) in E.
    assert (S : forall c1, q = Some c1 -> all_sbr (c_bts c) (c_bts c1) /\ c_tbfs c1 = c_tbfs c).
    { assert (ST : forall c1, Some c = Some c1 -> all_sbr (c_bts c) (c_bts c1) /\ c_tbfs c1 = c_tbfs c).
      { intros c1 X. injection X as <-. split; [ intros n' ts'; apply sbr_refl | reflexivity ]. }
      intros c1. unfold q. destruct (v_trx (c_ms c m)) as [k|]; [ | apply ST ]. destruct (k =? n); [ | apply ST ].
      match goal with |- context [if ?x then Some c else _] => destruct x end; [ apply ST | apply set_reserved_sbr ]. }
    destruct q as [c1|]; [ | discriminate ]. cbn [obind] in E. destruct (S c1 eq_refl) as [S1 S2].
    destruct (IH n ts c1 c' E) as [I1 I2]. split; [ exact (all_sbr_trans _ _ _ S1 I1) | congruence ].
Qed.
Lemma occs_sbr : forall b b' s, all_sbr b b' -> occs b s -> occs b' s.
Proof.
  intros b b' s SB [E0 E1 E2 E3]. split; [ rewrite E0 | rewrite E1 | rewrite E2 | rewrite E3 ]; symmetry; apply tally_ext;
    intros n ts _ _; destruct (SB n ts) as (Q1 & Q2 & Q3 & Q4 & _); unfold p_occ, p_occ_g, p_occ_e; rewrite ?Q1, ?Q3, ?Q4; reflexivity.
Qed.
Lemma small_sbr : forall p p', same_but_res p p' -> small p -> small p'.
Proof. intros p p' (_ & _ & Q3 & Q4 & _) S d. rewrite Q3, Q4. apply S. Qed.
Lemma occs_ext : forall b s s', s_avail s' = s_avail s -> s_occ s' = s_occ s -> s_occ_g s' = s_occ_g s -> s_occ_e s' = s_occ_e s ->
  occs b s -> occs b s'.
Proof. intros b s s' A B C D [E0 E1 E2 E3]. split; congruence. Qed.

(** ** Taking and leaving *)
Lemma take_stat_ok : forall a def ids c s id m d single use_trx egprs alloced r dis, inv ids c -> In m ids -> occs (c_bts c) s ->
  take a def c id m d single use_trx egprs = Some (r, dis) ->
  exists s', take_stat a def c s id m d single use_trx egprs alloced = Some (r, dis, s') /\
    match r with
    | None => s' = one_fail s
    | Some c' => occs (c_bts c') s' /\ rest (if alloced then one_new d s else s) s'
    end.
Proof.
  intros a def ids c s id m d single use_trx egprs alloced r dis V I O T. unfold take in T. unfold take_stat.
  pose proof (alloc_all_ok a def (c_bts c) (c_dis c) (mk_req (c_ms c m) d single use_trx)) as AO.
  destruct (alloc a def (c_bts c) (c_dis c) (mk_req (c_ms c m) d single use_trx)) as [[q|] dis']; cbn [fst] in *.
  2: { injection T as <- <-. eexists. split; reflexivity. }
  specialize (AO q (i_ms _ _ V m I) (inv_counters ids c V) eq_refl). cbn [q_dir] in AO. destruct AO as [G _].
  cbn [c_bts c_tbfs c_ms c_dis] in *.
  set (c0 := mk_cell (c_bts c) (c_tbfs c) (c_ms c) dis') in *.
  set (first := if _ && _ then Some c0 else _) in *.
  assert (S : forall c1, first = Some c1 -> all_sbr (c_bts c) (c_bts c1)).
  { intros c1 F. unfold first in F. destruct (_ && _) in F.
    - injection F as <-. intros n ts. apply sbr_refl.
    - destruct (set_reserved_sbr _ _ _ _ _ _ F) as [X _]. exact X. }
  destruct first as [c1|]; [ | discriminate ]. cbn [obind] in *. specialize (S c1 eq_refl).
  change (c_bts (set_common c1 m (Some (r_trx q, r_common q)))) with (c_bts c1) in *.
  destruct (is_ul d && _) in T |- *; [ discriminate | ].
  set (t := mk_tbf id m d (r_tfi q) (r_trx q) (r_mask q) (r_usf q) egprs) in *.
  set (s1 := if alloced then one_new d s else s).
  assert (O1 : occs (c_bts c1) s1).
  { apply (occs_sbr (c_bts c)); [ exact S | ]. unfold s1. destruct alloced; [ | exact O ].
    apply (occs_ext _ s); [ reflexivity | reflexivity | reflexivity | reflexivity | exact O ]. }
  pose proof (on_slots_stat_ok (fun ts p => Some (attach ts t p)) (num_stat true t) (c_bts c1) s1 (r_trx q) (r_mask q) (g_trx _ _ _ G)) as H.
  destruct (on_slots (fun ts p => Some (attach ts t p)) (c_bts c1) (r_trx q) (r_mask q)) as [b'|]; [ | discriminate ].
  cbn [obind] in T. injection T as <- <-.
  destruct H as (s' & E & O' & R').
  - intros ts p p' s0 SM F. injection F as <-. now apply counted_up.
  - intros ts R. apply (small_sbr (c_bts c (r_trx q) ts)); [ apply S | exact (inv_small ids c _ ts V R) ].
  - exact O1.
  - rewrite E. cbn [obind]. exists s'. split; [ reflexivity | ]. cbn [c_bts]. auto.
Qed.
Lemma unlink_stat_ok : forall ids c s t c', inv ids c -> In t (c_tbfs c) -> occs (c_bts c) s -> drop c t = Some c' ->
  exists s', unlink_stat c s t = Some (c', s') /\ occs (c_bts c') s' /\ rest s s'.
Proof.
  intros ids c s t c' V I O D. unfold drop in D. unfold unlink_stat.
  destruct (i_tbf _ _ V t I) as [T1 _].
  pose proof (on_slots_stat_ok (fun ts => detach ts t) (num_stat false t) (c_bts c) s (t_trx t) (t_slots t) T1) as H.
  destruct (on_slots (fun ts => detach ts t) (c_bts c) (t_trx t) (t_slots t)) as [b'|]; [ | discriminate ].
  cbn [obind] in D. injection D as <-. destruct H as (s' & E & O' & R').
  - intros ts p p' s0 SM F. now apply (counted_down ts).
  - intros ts R. exact (inv_small ids c _ ts V R).
  - exact O.
  - rewrite E. cbn [obind]. exists s'. cbn [c_bts]. auto.
Qed.

(** ** TBFs made and freed *)
Definition lives (c : cell) (k : Z) (s : stats) : Prop :=
  s_new s UL - s_freed s UL = tbfs_of c UL + k /\ s_new s DL - s_freed s DL = tbfs_of c DL.
Lemma tbfs_without : forall c c' t d, NoDup (map t_id (c_tbfs c)) -> In t (c_tbfs c) -> c_tbfs c' = without t (c_tbfs c) ->
  tbfs_of c d = tbfs_of c' d + b2z (dir_eqb (t_dir t) d).
Proof.
  intros c c' t d ND I E. unfold tbfs_of. rewrite E, (without_count _ t (c_tbfs c) ND I).
  destruct (dir_eqb (t_dir t) d); unfold b2z; lia.
Qed.
Lemma lives_same : forall c c' k s s', c_tbfs c' = c_tbfs c -> s_new s' = s_new s -> s_freed s' = s_freed s -> lives c k s -> lives c' k s'.
Proof. intros c c' k s s' E A B [L1 L2]. unfold lives, tbfs_of in *. rewrite A, B, E. auto. Qed.
Lemma lives_drop : forall ids c c' t k s s', inv ids c -> In t (c_tbfs c) -> c_tbfs c' = without t (c_tbfs c) ->
  rest (one_freed (t_dir t) s) s' -> lives c k s -> lives c' k s'.
Proof.
  intros ids c c' t k s s' V I E (A & B & _) [L1 L2]. unfold lives. rewrite A, B. cbn [s_new s_freed one_freed].
  rewrite !dset_eq. pose proof (tbfs_without c c' t UL (i_ids _ _ V) I E). pose proof (tbfs_without c c' t DL (i_ids _ _ V) I E).
  destruct (t_dir t); cbn [dir_eqb is_ul Bool.eqb b2z] in *; lia.
Qed.
Lemma lives_take : forall c c' t k s s', c_tbfs c' = t :: c_tbfs c -> rest (one_new (t_dir t) s) s' -> lives c k s -> lives c' k s'.
Proof.
  intros c c' t k s s' E (A & B & _) [L1 L2]. unfold lives in *. rewrite A, B. cbn [s_new s_freed one_new]. rewrite !dset_eq.
  unfold tbfs_of in *. rewrite E. cbn [filter]. destruct (t_dir t); cbn [dir_eqb is_ul Bool.eqb length]; lia.
Qed.

Lemma drop_all_stat_ok : forall ids l c s k c', inv ids c -> occs (c_bts c) s -> lives c k s -> drop_all l c = Some c' ->
  exists s', drop_all_stat l c s = Some (c', s') /\ occs (c_bts c') s' /\ lives c' k s'.
Proof.
  intros ids l. induction l as [|id l IH]; intros c s k c' V O L D; cbn [drop_all drop_all_stat] in *.
  - injection D as <-. exists s. auto.
  - destruct (find_tbf c id) as [t|] eqn:F; [ | now apply IH ].
    apply find_tbf_in in F. destruct F as [I E]. destruct (inv_drop ids c t V I) as (c1 & X1 & X2 & X3 & _).
    rewrite X1 in D. cbn [obind] in D. unfold drop_stat.
    destruct (unlink_stat_ok ids c (one_freed (t_dir t) s) t c1 V I) as (s1 & U1 & U2 & U3); [ | exact X1 | ].
    + apply (occs_ext _ s); [ reflexivity | reflexivity | reflexivity | reflexivity | exact O ].
    + rewrite U1. cbn [obind]. apply IH; auto. now apply (lives_drop ids c c1 t k s s1).
Qed.
Lemma free_refusing_ok : forall x l s l' s', free_refusing x l s = (l', s') ->
  s_avail s' = s_avail s /\ s_occ s' = s_occ s /\ s_occ_g s' = s_occ_g s /\ s_occ_e s' = s_occ_e s /\
  s_new s' = s_new s /\ s_freed s' DL = s_freed s DL /\ s_fail s' = s_fail s /\
  s_freed s' UL + Z.of_nat (length l') = s_freed s UL + Z.of_nat (length l).
Proof.
  intros x l. induction l as [|y l IH]; intros s l' s' E; cbn [free_refusing] in E.
  - injection E as <- <-. splits; reflexivity.
  - destruct (same_ts x y).
    + apply IH in E. cbn [one_freed s_avail s_occ s_occ_g s_occ_e s_new s_freed s_fail] in E. rewrite !dset_eq in E.
      cbn [dir_eqb is_ul Bool.eqb] in E. decompose [and] E. cbn [length]. splits; auto. lia.
    + destruct (free_refusing x l s) as [l1 s1] eqn:F. injection E as <- <-. apply IH in F. decompose [and] F. cbn [length].
      splits; auto. lia.
Qed.
Lemma remove_one_ok : forall x l l', remove_one x l = Some l' -> length l = S (length l').
Proof.
  intros x l. induction l as [|y l IH]; intros l' E; cbn [remove_one] in E; [ discriminate | ].
  destruct (same_ts x y); [ injection E as <-; reflexivity | ].
  destruct (remove_one x l) as [r|]; [ | discriminate ]. cbn [option_map] in E. injection E as <-. cbn [length]. f_equal. now apply IH.
Qed.

(** ** One step *)
Record whole_inv (ids : list Z) (x : scell) : Prop := mk_whole {
  w_inv : inv ids (sc_cell x);
  w_occs : occs (c_bts (sc_cell x)) (sc_stats x);
  w_lives : lives (sc_cell x) (Z.of_nat (length (sc_refusing x))) (sc_stats x) }.
Definition same_cell (def : Z) (ids : list Z) (o : sop) (c c' : cell) : Prop :=
  match o with Op o => cstep def ids o c = Some c' | Refused _ _ => c' = c end.

Lemma enabled_occs : forall c s n ts e tsc, 0 <= n < 8 -> 0 <= ts < 8 -> occs (c_bts c) s ->
  pd_enabled (c_bts c n ts) = negb e ->
  let p := c_bts c n ts in
  occs (c_bts (set_pdch c n ts (mk_pdch e tsc (pd_gprs p) (pd_egprs p) (pd_res p) (pd_usf p) (pd_tfi p) (pd_tbf p))))
    (add_avail (if e then 1 else -1) s).
Proof.
  intros c s n ts e tsc Rn Rt O E. cbv zeta. unfold set_pdch. cbn [c_bts].
  refine (proj1 (occs_counted (c_bts c) s n ts _ _ Rn Rt O _)). unfold counted.
  cbn [pd_enabled add_avail s_avail s_occ s_occ_g s_occ_e s_new s_freed s_fail]. rewrite E.
  unfold p_occ, p_occ_g, p_occ_e. cbn [pd_gprs pd_egprs]. splits; try reflexivity; try lia. destruct e; cbn [negb b2z]; lia.
Qed.

Lemma sstep_ok : forall def ids o x, NoDup ids -> (length ids < 256)%nat -> whole_inv ids x ->
  exists x', sstep def ids o x = Some x' /\ whole_inv ids x' /\ same_cell def ids o (sc_cell x) (sc_cell x').
Proof.
  intros def ids o [c l s] ND LEN [V O L]. cbn [sc_cell sc_refusing sc_stats] in *.
  assert (W : whole_inv ids (mk_scell c l s)) by (split; assumption).
  destruct o as [o|n ts].
  2: { cbn [sstep sc_cell sc_refusing sc_stats same_cell]. destruct (remove_one (n, ts) l) as [l'|] eqn:E.
    - eexists. split; [ reflexivity | ]. split; [ | reflexivity ]. split; cbn [sc_cell sc_refusing sc_stats]; [ exact V | | ].
      + apply (occs_ext _ s); [ reflexivity | reflexivity | reflexivity | reflexivity | exact O ].
      + apply remove_one_ok in E. destruct L as [L1 L2]. unfold lives. cbn [one_freed s_new s_freed]. rewrite !dset_eq.
        cbn [dir_eqb is_ul Bool.eqb]. lia.
    - eexists. split; [ reflexivity | ]. split; [ exact W | reflexivity ]. }
  destruct (inv_step def ids o c ND LEN V) as (c' & EC & V').
  assert (STAY : cstep def ids o c = Some c ->
    exists x', Some (mk_scell c l s) = Some x' /\ whole_inv ids x' /\ same_cell def ids (Op o) c (sc_cell x')).
  { intro E. eexists. split; [ reflexivity | ]. split; [ exact W | exact E ]. }
  assert (GO : forall l' s', occs (c_bts c') s' -> lives c' (Z.of_nat (length l')) s' ->
    exists x', Some (mk_scell c' l' s') = Some x' /\ whole_inv ids x' /\ same_cell def ids (Op o) c (sc_cell x')).
  { intros l' s' O' L'. eexists. split; [ reflexivity | ]. split; [ split; assumption | exact EC ]. }
  destruct o as [a id m d single use_trx egprs|m n ts|id|a id|m|m cl|n ts tsc|n ts];
    cbn [sstep sc_cell sc_refusing sc_stats]; cbn [cstep] in EC, STAY.
  - destruct (existsb (Z.eqb m) ids && negb (existsb (fun t => t_id t =? id) (c_tbfs c))) eqn:E; [ | apply STAY; reflexivity ].
    clear STAY. apply andb_true_iff in E. destruct E as [E1 E2]. apply mem_ok in E1. apply negb_true_iff in E2.
    destruct (inv_take a def ids c id m d single use_trx egprs ND LEN E1 V) as (r & dis & T & P).
    { intro I. apply in_map_iff in I. destruct I as [t [Et It]]. pose proof (existsb_false _ _ _ E2 t It) as F. cbn beta in F. lia. }
    destruct (take_stat_ok a def ids c s id m d single use_trx egprs true r dis V E1 O T) as (s' & ES & Q).
    rewrite ES. rewrite T in EC. destruct r as [c1|]; injection EC as <-.
    + destruct Q as [Q1 Q2]. apply GO; [ exact Q1 | ]. destruct P as [_ (q & _ & TB)].
      apply (lives_take c c1 _ _ s s' TB); [ exact Q2 | exact L ].
    + subst s'. apply GO; [ exact (occs_ext _ s (one_fail s) eq_refl eq_refl eq_refl eq_refl O) | ].
      apply (lives_same c _ _ s); [ reflexivity | reflexivity | reflexivity | exact L ].
  - destruct (existsb (Z.eqb m) ids && in8 n && in8 ts); [ | apply STAY; reflexivity ]. injection EC as <-.
    apply GO; [ exact (occs_ext _ s (one_new UL s) eq_refl eq_refl eq_refl eq_refl O) | ].
    destruct L as [L1 L2]. unfold lives in *. cbn [one_new s_new s_freed length]. rewrite !dset_eq. cbn [dir_eqb is_ul Bool.eqb].
    unfold tbfs_of in *. cbn [set_common c_tbfs]. lia.
  - destruct (find_tbf c id) as [t|] eqn:F; [ | apply STAY; reflexivity ]. apply find_tbf_in in F. destruct F as [I _].
    destruct (inv_drop ids c t V I) as (c1 & X1 & X2 & X3 & _). rewrite X1 in EC. injection EC as <-.
    unfold drop_stat. destruct (unlink_stat_ok ids c (one_freed (t_dir t) s) t c1 V I) as (s1 & U1 & U2 & U3); [ | exact X1 | ].
    + exact (occs_ext _ s (one_freed (t_dir t) s) eq_refl eq_refl eq_refl eq_refl O).
    + rewrite U1. cbn [obind]. apply GO; [ exact U2 | ]. exact (lives_drop ids c c1 t _ s s1 V I X3 U3 L).
  - destruct (find_tbf c id) as [t|] eqn:F; [ | apply STAY; reflexivity ]. apply find_tbf_in in F. destruct F as [I E].
    destruct (is_ul (t_dir t)) eqn:UD; [ apply STAY; reflexivity | ]. clear STAY.
    assert (DT : t_dir t = DL) by (destruct (t_dir t); [ reflexivity | discriminate ]).
    destruct (inv_drop ids c t V I) as (c1 & X1 & X2 & X3 & _). rewrite X1 in EC. cbn [obind] in EC.
    destruct (unlink_stat_ok ids c s t c1 V I O X1) as (s1 & U1 & U2 & U3). rewrite U1. cbn [obind].
    destruct (inv_take a def ids c1 id (t_ms t) DL false (-1) (t_egprs t) ND LEN (proj1 (proj2 (i_tbf _ _ V t I))) X2) as (r & dis & T & P).
    { rewrite X3. intro J. apply in_map_iff in J. destruct J as [x [Ex Ix]]. apply without_in in Ix. destruct Ix as [_ N]. congruence. }
    destruct (take_stat_ok a def ids c1 s1 id (t_ms t) DL false (-1) (t_egprs t) false r dis X2 (proj1 (proj2 (i_tbf _ _ V t I))) U2 T) as (s' & ES & Q).
    rewrite ES. rewrite T in EC. pose proof (tbfs_without c c1 t UL (i_ids _ _ V) I X3) as NU.
    pose proof (tbfs_without c c1 t DL (i_ids _ _ V) I X3) as NL. rewrite DT in NU, NL. cbn [dir_eqb is_ul Bool.eqb b2z] in NU, NL.
    destruct L as [L1 L2]. destruct U3 as (A1 & A2 & _).
    destruct r as [c2|]; injection EC as <-.
    + destruct Q as [Q1 (Q2 & Q3 & _)]. apply GO; [ exact Q1 | ]. destruct P as [_ (q & _ & TB)].
      unfold lives. rewrite Q2, Q3, A1, A2. unfold tbfs_of in *. rewrite TB. cbn [filter t_dir dir_eqb is_ul Bool.eqb length]. lia.
    + subst s'. apply GO; [ exact (occs_ext _ s1 (one_freed DL (one_fail s1)) eq_refl eq_refl eq_refl eq_refl U2) | ].
      unfold lives. cbn [one_freed one_fail s_new s_freed]. rewrite !dset_eq. cbn [dir_eqb is_ul Bool.eqb]. rewrite A1, A2.
      unfold tbfs_of in *. cbn [c_tbfs]. lia.
  - destruct (existsb (Z.eqb m) ids && negb (existsb (fun t => t_ms t =? m) (c_tbfs c))); [ | apply STAY; reflexivity ]. clear STAY.
    destruct (set_reserved c m None 0 0) as [c1|] eqn:E; [ | discriminate ]. cbn [obind] in *. injection EC as <-.
    destruct (set_reserved_sbr _ _ _ _ _ _ E) as [S1 S2].
    apply GO; [ cbn [set_common c_bts]; now apply (occs_sbr (c_bts c)) | ].
    apply (lives_same c _ _ s); [ exact S2 | reflexivity | reflexivity | exact L ].
  - injection EC as <-. apply GO; [ exact O | ]. apply (lives_same c _ _ s); [ reflexivity | reflexivity | reflexivity | exact L ].
  - destruct (in8 n && in8 ts && negb (pd_enabled (c_bts c n ts))) eqn:E; [ | apply STAY; reflexivity ]. clear STAY. injection EC as <-.
    apply andb_true_iff in E. destruct E as [E E3]. apply andb_true_iff in E. destruct E as [E1 E2]. apply in8_ok in E1, E2.
    apply negb_true_iff in E3. apply GO.
    + exact (enabled_occs c s n ts true tsc E1 E2 O E3).
    + apply (lives_same c _ _ s); [ reflexivity | reflexivity | reflexivity | exact L ].
  - destruct (in8 n && in8 ts && pd_enabled (c_bts c n ts)) eqn:E; [ | apply STAY; reflexivity ]. clear STAY.
    apply andb_true_iff in E. destruct E as [E E3]. apply andb_true_iff in E. destruct E as [E1 E2]. apply in8_ok in E1, E2.
    destruct (inv_drop_all ids (table_ids (c_bts c n ts)) c V) as (c1 & X1 & X2 & X3 & X4 & X5 & X6). rewrite X1 in EC. cbn [obind] in EC.
    destruct (drop_all_stat_ok ids _ c s _ c1 V O L X1) as (s1 & U1 & U2 & U3). rewrite U1. cbn [obind].
    destruct (free_refusing (n, ts) l s1) as [l' s2] eqn:FR. apply free_refusing_ok in FR.
    destruct FR as (F1 & F2 & F3 & F4 & F5 & F6 & _ & F7).
    destruct (unreserve_all ids n ts c1) as [c2|] eqn:U; [ | discriminate ]. cbn [obind] in *. injection EC as <-.
    destruct (unreserve_all_sbr _ _ _ _ _ U) as [S1 S2].
    apply GO.
    + apply (enabled_occs c2 s2 n ts false (pd_tsc (c_bts c2 n ts)) E1 E2).
      * apply (occs_sbr (c_bts c1)); [ exact S1 | ]. exact (occs_ext _ s1 s2 F1 F2 F3 F4 U2).
      * destruct (S1 n ts) as [Q _]. rewrite Q, (X6 n ts E2). exact E3.
    + destruct U3 as [L1 L2]. unfold lives, tbfs_of in *. cbn [add_avail s_new s_freed set_pdch c_tbfs]. rewrite S2, F5, F6. lia.
Qed.

Lemma whole_init : forall ids, whole_inv ids init_scell.
Proof.
  intro ids. split; cbn [init_scell sc_cell sc_stats sc_refusing].
  - apply inv_init.
  - split; vm_compute; reflexivity.
  - split; vm_compute; reflexivity.
Qed.
Lemma srun_ok : forall def ids os x, NoDup ids -> (length ids < 256)%nat -> whole_inv ids x ->
  exists x', srun def ids os x = Some x' /\ whole_inv ids x' /\ crun def ids (ops os) (sc_cell x) = Some (sc_cell x').
Proof.
  intros def ids os. induction os as [|o os IH]; intros x ND LEN W; cbn [srun]; [ exists x; auto | ].
  destruct (sstep_ok def ids o x ND LEN W) as (x1 & E & W1 & C). rewrite E. cbn [obind].
  destruct (IH x1 ND LEN W1) as (x' & E' & W' & C'). exists x'. split; [ exact E' | ]. split; [ exact W' | ].
  destruct o as [o|n ts]; cbn [ops flat_map app same_cell] in *.
  - cbn [crun]. rewrite C. cbn [obind]. exact C'.
  - rewrite <- C. exact C'.
Qed.
