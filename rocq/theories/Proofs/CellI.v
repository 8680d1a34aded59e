(** The invariant of a cell's histories. *)
From Coq Require Import ZArith List Bool Lia.
From Verif Require Import Base.Arith Model.Mslot Model.Alloc Model.Cell Spec.AllocSpec Proofs.AllocP Proofs.AllocQ Proofs.CellP.
Import ListNotations.
Local Open Scope Z_scope.

Definition here (l : list tbf) (n ts : Z) : list tbf := filter (usesb n ts) l.
Record inv (ids : list Z) (c : cell) : Prop := mk_inv {
  i_mirror : forall n ts, 0 <= ts < 8 -> mirror ts (c_bts c n ts) (here (c_tbfs c) n ts);
  i_distinct : forall n ts, 0 <= ts < 8 -> distinct ts (here (c_tbfs c) n ts);
  i_ids : NoDup (map t_id (c_tbfs c));
  i_tbf : forall t, In t (c_tbfs c) -> 0 <= t_trx t < 8 /\ In (t_ms t) ids /\
    forall ts, on (t_slots t) ts -> pd_enabled (c_bts c (t_trx t) ts) = true;
  i_res : res_ok ids (c_bts c) (c_ms c);
  i_ms : forall m, In m ids -> ms_ok (c_bts c) (c_ms c m) }.

Lemma inv_init : forall ids, inv ids init_cell.
Proof.
  intro ids. unfold init_cell. split; cbn [c_bts c_tbfs c_ms].
  - intros n ts R. unfold here. cbn [filter]. split; intros; cbn; rewrite ?Z.bits_0; reflexivity.
  - intros n ts R. unfold here. cbn [filter]. split; [ intros t [] | intro d; constructor | constructor ].
  - constructor.
  - intros t [].
  - intros n ts d R. cbn. unfold res_count, reserves. cbn [v_trx init_ms]. clear. induction ids; [ reflexivity | exact IHids ].
  - intros m _. split; reflexivity.
Qed.
Lemma inv_counters : forall ids c, inv ids c -> counters_ok (c_bts c).
Proof.
  intros ids c V n ts d R. eapply mirror_counters; [ exact (i_mirror _ _ V n ts R) | exact (i_distinct _ _ V n ts R) ].
Qed.

(** Changing only reservations and the mobiles' records. *)
Lemma inv_sbr : forall ids c c', inv ids c -> c_tbfs c' = c_tbfs c ->
  (forall n ts, 0 <= ts < 8 -> same_but_res (c_bts c n ts) (c_bts c' n ts)) ->
  res_ok ids (c_bts c') (c_ms c') -> (forall m, In m ids -> ms_ok (c_bts c') (c_ms c' m)) -> inv ids c'.
Proof.
  intros ids c c' V ET SB RO MO. split; rewrite ?ET; auto.
  - intros n ts R. eapply mirror_sbr; [ exact (SB n ts R) | exact (i_mirror _ _ V n ts R) ].
  - exact (i_distinct _ _ V).
  - exact (i_ids _ _ V).
  - intros t I. destruct (i_tbf _ _ V t I) as [T1 [T2 T3]]. splits; try lia; auto.
    intros ts O. destruct (SB (t_trx t) ts (proj1 O)) as [E _]. rewrite E. auto.
Qed.
Lemma ms_ok_sbr : forall b b' v, (forall n ts, 0 <= ts < 8 -> pd_enabled (b' n ts) = pd_enabled (b n ts)) -> ms_ok b v -> ms_ok b' v.
Proof.
  intros b b' v SB M. unfold ms_ok in *. destruct (v_trx v) as [n|]; [ | exact M ].
  destruct M as [M1 [M2 [M3 M4]]]. splits; try lia. intros ts O.
  assert (R : 0 <= ts < 8) by (destruct O as [O|O]; exact (proj1 O)). rewrite SB by exact R. auto.
Qed.
Lemma ms_ok_none : forall b v, ms_ok b v -> v_trx v = None -> v_rul v = 0 /\ v_rdl v = 0.
Proof. intros b v M E. unfold ms_ok in M. rewrite E in M. exact M. Qed.

(** Reserving: the new set must be enabled. *)
Lemma inv_set_reserved : forall ids c m trx ul dl, NoDup ids -> (length ids < 256)%nat -> In m ids -> inv ids c ->
  ms_ok (c_bts c) (new_v (c_ms c m) trx ul dl) ->
  exists c', set_reserved c m trx ul dl = Some c' /\ inv ids c' /\ c_tbfs c' = c_tbfs c /\ c_dis c' = c_dis c /\
    c_ms c' = upd (c_ms c) m (new_v (c_ms c m) trx ul dl) /\
    forall n ts, 0 <= ts < 8 -> same_but_res (c_bts c n ts) (c_bts c' n ts).
Proof.
  intros ids c m trx ul dl ND LEN I V MO.
  destruct (set_reserved_ok ids c m trx ul dl ND LEN I (i_res _ _ V)) as (c' & E & E1 & E2 & E3 & E4 & E5).
  { apply ms_ok_none with (b := c_bts c). exact (i_ms _ _ V m I). }
  exists c'. splits; auto. apply (inv_sbr ids c c'); auto.
  intros x Ix. rewrite E3. apply (ms_ok_sbr (c_bts c)).
  - intros n ts R. destruct (E5 n ts R) as [X _]. exact X.
  - rewrite upd_eq. destruct (x =? m); [ exact MO | exact (i_ms _ _ V x Ix) ].
Qed.

Lemma reserves_ext : forall v v' n ts d, v_trx v' = v_trx v -> v_rul v' = v_rul v -> v_rdl v' = v_rdl v ->
  reserves v' n ts d = reserves v n ts d.
Proof. intros v v' n ts d E1 E2 E3. unfold reserves. rewrite E1, E2, E3. reflexivity. Qed.
(** Changing other fields of a mobile's record. *)
Lemma inv_ms_field : forall ids c m v dis, inv ids c ->
  v_trx v = v_trx (c_ms c m) -> v_rul v = v_rul (c_ms c m) -> v_rdl v = v_rdl (c_ms c m) ->
  inv ids (mk_cell (c_bts c) (c_tbfs c) (upd (c_ms c) m v) dis).
Proof.
  intros ids c m v dis V E1 E2 E3. apply (inv_sbr ids c); auto; cbn [c_bts c_tbfs c_ms].
  - intros n ts R. apply sbr_refl.
  - intros n ts d R. rewrite (i_res _ _ V n ts d R). symmetry. apply res_count_ext.
    intros x _. rewrite upd_eq. destruct (Z.eqb_spec x m) as [-> |]; [ now apply reserves_ext | reflexivity ].
  - intros x Ix. rewrite upd_eq. destruct (Z.eqb_spec x m) as [-> |]; [ | exact (i_ms _ _ V x Ix) ].
    pose proof (i_ms _ _ V m Ix) as M. unfold ms_ok in *. rewrite E1, E2, E3. exact M.
Qed.
Lemma inv_dis : forall ids c dis, inv ids c -> inv ids (mk_cell (c_bts c) (c_tbfs c) (c_ms c) dis).
Proof. intros ids c dis V. apply (inv_sbr ids c); auto; cbn [c_bts c_tbfs c_ms]; [ intros; apply sbr_refl | exact (i_res _ _ V) | exact (i_ms _ _ V) ]. Qed.

(** ** Dropping a TBF *)
Lemma here_without : forall t l n ts, here (without t l) n ts = without t (here l n ts).
Proof. intros. unfold here, without. apply filter_comm. Qed.
Lemma without_id : forall t l, (forall x, In x l -> t_id x <> t_id t) -> without t l = l.
Proof.
  intros t l H. unfold without. induction l as [|x l IH]; cbn [filter]; [ reflexivity | ].
  destruct (Z.eqb_spec (t_id x) (t_id t)) as [E|E]; [ exfalso; exact (H x (or_introl eq_refl) E) | ].
  cbn [negb]. f_equal. apply IH. intros y I. apply H. right. exact I.
Qed.
Lemma inv_drop : forall ids c t, inv ids c -> In t (c_tbfs c) ->
  exists c', drop c t = Some c' /\ inv ids c' /\ c_tbfs c' = without t (c_tbfs c) /\ c_ms c' = c_ms c /\ c_dis c' = c_dis c /\
    forall n ts, 0 <= ts < 8 -> pd_enabled (c_bts c' n ts) = pd_enabled (c_bts c n ts).
Proof.
  intros ids c t V I. unfold drop.
  assert (HI : forall ts, on (t_slots t) ts -> In t (here (c_tbfs c) (t_trx t) ts)).
  { intros ts [R B]. apply filter_In. split; [ exact I | ]. unfold usesb. rewrite Z.eqb_refl, B. reflexivity. }
  assert (HN : forall n ts, NoDup (map t_id (here (c_tbfs c) n ts))).
  { intros n ts. apply nodup_map_filter. exact (i_ids _ _ V). }
  assert (DT : forall ts, on (t_slots t) ts -> exists p', detach ts t (c_bts c (t_trx t) ts) = Some p' /\
     mirror ts p' (without t (here (c_tbfs c) (t_trx t) ts)) /\
     pd_enabled p' = pd_enabled (c_bts c (t_trx t) ts) /\ pd_tsc p' = pd_tsc (c_bts c (t_trx t) ts) /\ pd_res p' = pd_res (c_bts c (t_trx t) ts)).
  { intros ts O. pose proof (proj1 O) as R. apply detach_ok; auto; [ exact (i_mirror _ _ V _ ts R) | exact (i_distinct _ _ V _ ts R) ]. }
  destruct (on_slots_some (fun ts => detach ts t) (c_bts c) (t_trx t) (t_slots t)) as [b' [E S]].
  { intros ts O. destruct (DT ts O) as [p' [X _]]. rewrite X. discriminate. }
  rewrite E. cbn [obind]. eexists. split; [ reflexivity | ]. cbn [c_tbfs c_ms c_dis c_bts].
  assert (P : forall n ts, 0 <= ts < 8 -> mirror ts (b' n ts) (here (without t (c_tbfs c)) n ts) /\
    pd_enabled (b' n ts) = pd_enabled (c_bts c n ts) /\ pd_res (b' n ts) = pd_res (c_bts c n ts)).
  { intros n ts R. specialize (S n ts R). rewrite here_without.
    destruct ((n =? t_trx t) && Z.testbit (t_slots t) ts) eqn:U.
    - apply andb_true_iff in U. destruct U as [U1 U2]. apply Z.eqb_eq in U1. subst n.
      destruct (DT ts (conj R U2)) as (p' & X1 & X2 & X3 & X4 & X5). rewrite X1 in S. inversion S as [S']. rewrite S'. auto.
    - inversion S as [S']. rewrite S'. splits; auto. rewrite without_id; [ exact (i_mirror _ _ V n ts R) | ].
      intros x Ix Ex. apply filter_In in Ix. destruct Ix as [Ix Ux].
      rewrite (nodup_map_inj _ t_id (c_tbfs c) x t (i_ids _ _ V) Ix I Ex) in Ux. unfold usesb in Ux. rewrite Z.eqb_sym in Ux. congruence. }
  splits; auto.
  - split; cbn [c_tbfs c_ms c_dis c_bts]; fold (without t (c_tbfs c)).
    + intros n ts R. exact (proj1 (P n ts R)).
    + intros n ts R. rewrite here_without. apply distinct_without. exact (i_distinct _ _ V n ts R).
    + apply nodup_map_filter. exact (i_ids _ _ V).
    + intros x Ix. apply without_in in Ix. destruct (i_tbf _ _ V x (proj1 Ix)) as [T1 [T2 T3]]. splits; try lia; auto.
      intros ts O. destruct (P (t_trx x) ts (proj1 O)) as [_ [X _]]. rewrite X. auto.
    + intros n ts d R. destruct (P n ts R) as [_ [_ X]]. rewrite X. exact (i_res _ _ V n ts d R).
    + intros m Im. apply (ms_ok_sbr (c_bts c)); [ | exact (i_ms _ _ V m Im) ]. intros n ts R. destruct (P n ts R) as [_ [X _]]. exact X.
  - intros n ts R. destruct (P n ts R) as [_ [X _]]. exact X.
Qed.
Lemma find_tbf_in : forall c id t, find_tbf c id = Some t -> In t (c_tbfs c) /\ t_id t = id.
Proof. intros c id t H. apply find_some in H. destruct H as [H E]. split; [ exact H | lia ]. Qed.
Lemma inv_drop_all : forall ids l c, inv ids c ->
  exists c', drop_all l c = Some c' /\ inv ids c' /\ c_ms c' = c_ms c /\ c_dis c' = c_dis c /\
    (forall t, In t (c_tbfs c') <-> In t (c_tbfs c) /\ ~ In (t_id t) l) /\
    forall n ts, 0 <= ts < 8 -> pd_enabled (c_bts c' n ts) = pd_enabled (c_bts c n ts).
Proof.
  intros ids l. induction l as [|id l IH]; intros c V; cbn [drop_all].
  - exists c. splits; auto. cbn [In]. tauto.
  - destruct (find_tbf c id) as [t|] eqn:F.
    + apply find_tbf_in in F. destruct F as [I E]. destruct (inv_drop ids c t V I) as (c1 & X1 & X2 & X3 & X4 & X5 & X6).
      rewrite X1. cbn [obind]. destruct (IH c1 X2) as (c' & Y1 & Y2 & Y3 & Y4 & Y5 & Y6).
      exists c'. splits; auto; try congruence.
      * intro x. rewrite Y5, X3, without_in, E. cbn [In]. intuition congruence.
      * intros n ts R. rewrite Y6, X6 by exact R. reflexivity.
    + destruct (IH c V) as (c' & Y1 & Y2 & Y3 & Y4 & Y5 & Y6). exists c'. splits; auto.
      intro x. rewrite Y5. cbn [In]. split; [ | tauto ]. intros [Ix Nx]. split; [ exact Ix | ].
      intros [Ex|Ex]; [ | contradiction ]. pose proof (find_none _ _ F x Ix) as G. cbn beta in G. lia.
Qed.

(** ** Taking resources *)
Lemma inv_take : forall a def ids c id m d single use_trx egprs, NoDup ids -> (length ids < 256)%nat -> In m ids -> inv ids c ->
  ~ In id (map t_id (c_tbfs c)) ->
  exists r dis, take a def c id m d single use_trx egprs = Some (r, dis) /\
    match r with
    | None => fst (alloc a def (c_bts c) (c_dis c) (mk_req (c_ms c m) d single use_trx)) = None
    | Some c' => inv ids c' /\ exists r, fst (alloc a def (c_bts c) (c_dis c) (mk_req (c_ms c m) d single use_trx)) = Some r /\
        c_tbfs c' = mk_tbf id m d (r_tfi r) (r_trx r) (r_mask r) (r_usf r) egprs :: c_tbfs c
    end.
Proof.
  intros a def ids c id m d single use_trx egprs ND LEN I V NI. unfold take.
  pose proof (alloc_all_ok a def (c_bts c) (c_dis c) (mk_req (c_ms c m) d single use_trx)) as AO.
  destruct (alloc a def (c_bts c) (c_dis c) (mk_req (c_ms c m) d single use_trx)) as [[r|] dis]; cbn [fst] in *.
  2: { do 2 eexists. split; [ reflexivity | reflexivity ]. }
  specialize (AO r (i_ms _ _ V m I) (inv_counters ids c V) eq_refl). cbn [q_dir] in AO. destruct AO as [G RS].
  cbn [c_bts c_tbfs c_ms c_dis].
  destruct RS as (R1 & R2 & R3 & R4 & R5).
  set (c0 := mk_cell (c_bts c) (c_tbfs c) (c_ms c) dis).
  assert (V0 : inv ids c0) by (apply inv_dis; exact V).
  assert (S1 : exists c1, (if (r_rul r =? v_rul (c_ms c m)) && (r_rdl r =? v_rdl (c_ms c m)) then Some c0
           else set_reserved c0 m (Some (r_trx r)) (r_rul r) (r_rdl r)) = Some c1 /\ inv ids c1 /\ c_tbfs c1 = c_tbfs c /\
        forall n ts, 0 <= ts < 8 -> same_but_res (c_bts c n ts) (c_bts c1 n ts)).
  { destruct ((r_rul r =? v_rul (c_ms c m)) && (r_rdl r =? v_rdl (c_ms c m))).
    - exists c0. splits; auto. intros n ts R. apply sbr_refl.
    - destruct (inv_set_reserved ids c0 m (Some (r_trx r)) (r_rul r) (r_rdl r) ND LEN I V0) as (c1 & X1 & X2 & X3 & X4 & X5 & X6).
      + unfold new_v, ms_ok. cbn [v_trx v_rul v_rdl]. pose proof (g_trx _ _ _ G). splits; try lia. exact R4.
      + exists c1. auto. }
  destruct S1 as (c1 & E1 & V1 & T1 & SB). rewrite E1. cbn [obind].
  set (c2 := set_common c1 m (Some (r_trx r, r_common r))).
  assert (V2 : inv ids c2) by (unfold c2, set_common; apply inv_ms_field; auto).
  assert (UN : is_ul d && existsb (fun ts => Z.testbit (r_mask r) ts && (r_usf r ts <? 0)) slots8 = false).
  { apply andb_false_iff. destruct d; [ left; reflexivity | right ].
    destruct (existsb _ slots8) eqn:E; [ | reflexivity ]. exfalso. apply existsb_exists in E. destruct E as [ts [It Bt]].
    apply in_slots8 in It. apply andb_true_iff in Bt. destruct Bt as [B1 B2].
    destruct (g_usf _ _ _ G eq_refl ts (conj It B1)) as [U _]. lia. }
  rewrite UN.
  set (t := mk_tbf id m d (r_tfi r) (r_trx r) (r_mask r) (r_usf r) egprs).
  destruct (on_slots_some (fun ts p => Some (attach ts t p)) (c_bts c2) (r_trx r) (r_mask r)) as [b' [E S]]; [ discriminate | ].
  rewrite E. cbn [obind]. do 2 eexists. split; [ reflexivity | ].
  assert (E2 : c_bts c2 = c_bts c1) by reflexivity. assert (T2 : c_tbfs c2 = c_tbfs c) by exact T1.
  assert (P : forall n ts, 0 <= ts < 8 -> mirror ts (b' n ts) (here (t :: c_tbfs c2) n ts) /\ distinct ts (here (t :: c_tbfs c2) n ts) /\
     pd_enabled (b' n ts) = pd_enabled (c_bts c2 n ts) /\ pd_res (b' n ts) = pd_res (c_bts c2 n ts)).
  { intros n ts R. specialize (S n ts R). unfold here. cbn [filter]. fold (here (c_tbfs c2) n ts).
    assert (UE : usesb n ts t = (n =? r_trx r) && Z.testbit (r_mask r) ts) by (unfold usesb, t; cbn [t_trx t_slots]; rewrite Z.eqb_sym; reflexivity).
    rewrite UE.
    destruct ((n =? r_trx r) && Z.testbit (r_mask r) ts) eqn:U.
    - apply andb_true_iff in U. destruct U as [U1 U2]. apply Z.eqb_eq in U1. subst n. inversion S as [S']. rewrite S'.
      destruct (SB (r_trx r) ts R) as (Q1 & Q2 & Q3 & Q4 & Q5 & Q6 & Q7).
      assert (O : on (r_mask r) ts) by (split; assumption).
      destruct (attach_ok ts t (c_bts c2 (r_trx r) ts) (here (c_tbfs c2) (r_trx r) ts)) as [A1 A2].
      + exact (i_mirror _ _ V2 _ ts R).
      + exact (i_distinct _ _ V2 _ ts R).
      + pose proof (g_tfi _ _ _ G ts O) as F. unfold tfi_free in *. rewrite E2, Q6. exact F.
      + cbn [t_dir t_usf t]. intro D. pose proof (g_usf _ _ _ G D ts O) as F. unfold usf_free in *. rewrite E2, Q5. exact F.
      + splits; auto.
    - inversion S as [S']. rewrite S'. splits; auto; [ exact (i_mirror _ _ V2 n ts R) | exact (i_distinct _ _ V2 n ts R) ]. }
  split.
  - split; cbn [c_tbfs c_ms c_dis c_bts].
    + intros n ts R. exact (proj1 (P n ts R)).
    + intros n ts R. exact (proj1 (proj2 (P n ts R))).
    + cbn [map t_id t]. constructor; [ rewrite T2; exact NI | exact (i_ids _ _ V2) ].
    + intros x [<-|Ix].
      * cbn [t_trx t_ms t_slots t]. pose proof (g_trx _ _ _ G). splits; try lia; auto.
        intros ts O. destruct (P (r_trx r) ts (proj1 O)) as [_ [_ [X _]]]. rewrite X, E2.
        destruct (SB (r_trx r) ts (proj1 O)) as [Q _]. rewrite Q. exact (g_enabled _ _ _ G ts O).
      * destruct (i_tbf _ _ V2 x Ix) as [X1 [X2 X3]]. splits; try lia; auto.
        intros ts O. destruct (P (t_trx x) ts (proj1 O)) as [_ [_ [X _]]]. rewrite X. auto.
    + intros n ts dd R. destruct (P n ts R) as [_ [_ [_ X]]]. rewrite X. exact (i_res _ _ V2 n ts dd R).
    + intros x Ix. apply (ms_ok_sbr (c_bts c2)); [ | exact (i_ms _ _ V2 x Ix) ]. intros n ts R. destruct (P n ts R) as [_ [_ [X _]]]. exact X.
  - exists r. cbn [c_tbfs]. rewrite T2. split; reflexivity.
Qed.

(** ** Switching a timeslot off *)
Lemma inv_unreserve_all : forall ids n ts, 0 <= ts < 8 -> NoDup ids -> (length ids < 256)%nat -> forall l, (forall m, In m l -> In m ids) -> forall c, inv ids c ->
  exists c', unreserve_all l n ts c = Some c' /\ inv ids c' /\ c_tbfs c' = c_tbfs c /\
    (forall n ts, 0 <= ts < 8 -> pd_enabled (c_bts c' n ts) = pd_enabled (c_bts c n ts)) /\
    (forall m, In m l \/ (forall d, reserves (c_ms c m) n ts d = false) -> forall d, reserves (c_ms c' m) n ts d = false).
Proof.
  intros ids n ts R ND LEN l. induction l as [|m l IH]; intros SUB c V; cbn [unreserve_all].
  - exists c. splits; auto. intros x [[]|H]. exact H.
  - assert (Im : In m ids) by (apply SUB; left; reflexivity).
    assert (SUB' : forall x, In x l -> In x ids) by (intros x Ix; apply SUB; right; exact Ix).
    assert (S1 : exists c1, (match v_trx (c_ms c m) with
           | Some k =>
             if k =? n then
               (if (Z.land (v_rdl (c_ms c m)) (not8 (Z.shiftl 1 ts)) =? v_rdl (c_ms c m)) && (Z.land (v_rul (c_ms c m)) (not8 (Z.shiftl 1 ts)) =? v_rul (c_ms c m)) then Some c
                else set_reserved c m (Some n) (Z.land (v_rul (c_ms c m)) (not8 (Z.shiftl 1 ts))) (Z.land (v_rdl (c_ms c m)) (not8 (Z.shiftl 1 ts))))
             else Some c
           | None => Some c
           end) = Some c1 /\ inv ids c1 /\ c_tbfs c1 = c_tbfs c /\
           (forall n ts, 0 <= ts < 8 -> pd_enabled (c_bts c1 n ts) = pd_enabled (c_bts c n ts)) /\
           (forall d, reserves (c_ms c1 m) n ts d = false) /\ (forall x, x <> m -> c_ms c1 x = c_ms c x)).
    { assert (NB : Z.testbit (not8 (Z.shiftl 1 ts)) ts = false).
      { rewrite not8_bit, bit1, Z.eqb_refl by lia. reflexivity. }
      pose proof (i_ms _ _ V m Im) as MO. unfold ms_ok in MO.
      destruct (v_trx (c_ms c m)) as [k|] eqn:K.
      - destruct (Z.eqb_spec k n) as [-> |N].
        + match goal with |- context [if ?x then Some c else _] => destruct x eqn:E end.
          * apply andb_true_iff in E. destruct E as [E1 E2]. apply Z.eqb_eq in E1, E2.
            exists c. splits; auto. intro d. unfold reserves. rewrite K, Z.eqb_refl. cbn [andb].
            destruct d; [ rewrite <- E1 | rewrite <- E2 ]; rewrite Z.land_spec, NB; apply andb_false_r.
          * destruct MO as [M1 [M2 [M3 M4]]]. pose proof (not8_m8 (Z.shiftl 1 ts)) as N8.
            destruct (inv_set_reserved ids c m (Some n) (Z.land (v_rul (c_ms c m)) (not8 (Z.shiftl 1 ts))) (Z.land (v_rdl (c_ms c m)) (not8 (Z.shiftl 1 ts))) ND LEN Im V)
              as (c1 & X1 & X2 & X3 & X4 & X5 & X6).
            -- unfold new_v, ms_ok. cbn [v_trx v_rul v_rdl]. splits; try lia; try (apply land_m8; lia).
               intros x O. apply M4. destruct O as [O|O]; apply on_land in O; tauto.
            -- exists c1. splits; auto.
               ++ intros n' ts' R'. destruct (X6 n' ts' R') as [Q _]. exact Q.
               ++ intro d. rewrite X5, upd_same. unfold new_v, reserves. cbn [v_trx v_rul v_rdl]. rewrite Z.eqb_refl. cbn [andb].
                  destruct d; rewrite Z.land_spec, NB; apply andb_false_r.
               ++ intros x Nx. rewrite X5. now apply upd_diff.
        + exists c. splits; auto. intro d. unfold reserves. rewrite K. destruct (Z.eqb_spec k n); [ contradiction | reflexivity ].
      - exists c. splits; auto. intro d. unfold reserves. rewrite K. reflexivity. }
    cbv zeta. destruct S1 as (c1 & E & V1 & T1 & EN & RV & OT). rewrite E. cbn [obind].
    destruct (IH SUB' c1 V1) as (c' & Y1 & Y2 & Y3 & Y4 & Y5). exists c'. splits; auto; try congruence.
    + intros n' ts' R'. rewrite Y4, EN by exact R'. reflexivity.
    + intros x H. apply Y5. destruct (Z.eq_dec x m) as [-> |N]; [ right; exact RV | ].
      destruct H as [[H|H]|H]; [ congruence | left; exact H | right; intro d; rewrite OT by exact N; apply H ].
Qed.

Lemma table_ids_in : forall ids c n ts t, inv ids c -> 0 <= ts < 8 -> In t (here (c_tbfs c) n ts) -> In (t_id t) (table_ids (c_bts c n ts)).
Proof.
  intros ids c n ts t V R I. pose proof (i_distinct _ _ V n ts R) as D. destruct (di_range _ _ D t I) as [TR _].
  unfold table_ids. apply in_flat_map. exists (Z.to_nat (t_tfi t)). split; [ apply in_seq; lia | ].
  rewrite Z2Nat.id by lia. apply in_or_app.
  assert (E : pd_tbf (c_bts c n ts) (t_dir t) (t_tfi t) = Some (t_id t)).
  { rewrite (mi_tbf _ _ _ (i_mirror _ _ V n ts R)). destruct (find (is_tfi (t_dir t) (t_tfi t)) (here (c_tbfs c) n ts)) as [x|] eqn:F.
    - apply find_some in F. destruct F as [Ix Fx]. unfold is_tfi in Fx. apply andb_true_iff in Fx. destruct Fx as [F1 F2].
      apply dir_eqb_eq in F1. rewrite (distinct_tfi_inj ts _ x t D Ix I F1); [ reflexivity | lia ].
    - exfalso. pose proof (find_none _ _ F t I) as G. unfold is_tfi in G. rewrite dir_eqb_refl, Z.eqb_refl in G. discriminate. }
  destruct (t_dir t); rewrite E; [ right | left ]; left; reflexivity.
Qed.

Lemma in8_ok : forall x, in8 x = true <-> 0 <= x < 8.
Proof. intro x. unfold in8. lia. Qed.
Lemma mem_ok : forall m ids, existsb (Z.eqb m) ids = true -> In m ids.
Proof. intros m ids H. apply existsb_exists in H. destruct H as [x [I E]]. apply Z.eqb_eq in E. congruence. Qed.

(** Changing the enabled flag of a timeslot. *)
Lemma inv_set_enabled : forall ids c n ts e tsc, inv ids c -> 0 <= ts < 8 ->
  (e = false -> (forall t, In t (c_tbfs c) -> usesb n ts t = false) /\ forall m, In m ids -> forall d, reserves (c_ms c m) n ts d = false) ->
  let p := c_bts c n ts in
  inv ids (set_pdch c n ts (mk_pdch e tsc (pd_gprs p) (pd_egprs p) (pd_res p) (pd_usf p) (pd_tfi p) (pd_tbf p))).
Proof.
  intros ids c n ts e tsc V R H. cbv zeta. unfold set_pdch.
  set (p' := mk_pdch _ _ _ _ _ _ _ _). set (b' := upd (c_bts c) n (upd (c_bts c n) ts p')).
  assert (SH : forall n' ts', b' n' ts' = c_bts c n' ts' \/ n' = n /\ ts' = ts /\ b' n' ts' = p').
  { intros n' ts'. unfold b'. rewrite upd_eq. destruct (Z.eqb_spec n' n) as [-> |]; [ | auto ].
    rewrite upd_eq. destruct (Z.eqb_spec ts' ts) as [-> |]; auto. }
  split; cbn [c_tbfs c_ms c_dis c_bts]; fold b'.
  - intros n' ts' R'. destruct (SH n' ts') as [-> |[-> [-> ->]]]; [ exact (i_mirror _ _ V n' ts' R') | ].
    pose proof (i_mirror _ _ V n ts R) as M. split; [ exact (mi_tbf _ _ _ M) | exact (mi_tfi _ _ _ M) | exact (mi_usf _ _ _ M) | exact (mi_gprs _ _ _ M) | exact (mi_egprs _ _ _ M) ].
  - exact (i_distinct _ _ V).
  - exact (i_ids _ _ V).
  - intros t I. destruct (i_tbf _ _ V t I) as [T1 [T2 T3]]. splits; try lia; auto.
    intros k O. destruct (SH (t_trx t) k) as [-> |[E1 [E2 ->]]]; [ auto | ]. unfold p'. cbn [pd_enabled].
    destruct e; [ reflexivity | ]. exfalso. destruct (H eq_refl) as [H1 _]. specialize (H1 t I). unfold usesb in H1.
    destruct O as [_ O]. rewrite E1, <- E2, Z.eqb_refl, O in H1. discriminate.
  - intros n' ts' d R'. destruct (SH n' ts') as [-> |[-> [-> ->]]]; [ exact (i_res _ _ V n' ts' d R') | exact (i_res _ _ V n ts d R) ].
  - intros m Im. pose proof (i_ms _ _ V m Im) as M. unfold ms_ok in *. destruct (v_trx (c_ms c m)) as [k|] eqn:K; [ | exact M ].
    destruct M as [M1 [M2 [M3 M4]]]. splits; try lia. intros x O.
    destruct (SH k x) as [-> |[E1 [E2 ->]]]; [ auto | ]. unfold p'. cbn [pd_enabled]. destruct e; [ reflexivity | ].
    exfalso. destruct (H eq_refl) as [_ H2]. subst k x.
    destruct O as [[_ O]|[_ O]]; [ specialize (H2 m Im UL) | specialize (H2 m Im DL) ]; unfold reserves in H2; rewrite K, Z.eqb_refl, O in H2; discriminate.
Qed.

Lemma inv_step : forall def ids o c, NoDup ids -> (length ids < 256)%nat -> inv ids c ->
  exists c', cstep def ids o c = Some c' /\ inv ids c'.
Proof.
  intros def ids o c ND LEN V.
  assert (STAY : exists c', Some c = Some c' /\ inv ids c') by (exists c; auto).
  destruct o as [a id m d single use_trx egprs|m n ts|id|a id|m|m cl|n ts tsc|n ts]; cbn [cstep].
  - destruct (existsb (Z.eqb m) ids && negb (existsb (fun t => t_id t =? id) (c_tbfs c))) eqn:E; [ | exact STAY ].
    apply andb_true_iff in E. destruct E as [E1 E2]. apply mem_ok in E1. apply negb_true_iff in E2.
    destruct (inv_take a def ids c id m d single use_trx egprs ND LEN E1 V) as (r & dis & T & P).
    { intro I. apply in_map_iff in I. destruct I as [t [Et It]]. pose proof (existsb_false _ _ _ E2 t It) as F. cbn beta in F. lia. }
    rewrite T. destruct r as [c'|].
    + exists c'. split; [ reflexivity | exact (proj1 P) ].
    + eexists. split; [ reflexivity | now apply inv_dis ].
  - destruct (existsb (Z.eqb m) ids && in8 n && in8 ts); [ | exact STAY ].
    eexists. split; [ reflexivity | ]. unfold set_common. apply inv_ms_field; auto.
  - destruct (find_tbf c id) as [t|] eqn:F; [ | exact STAY ]. apply find_tbf_in in F.
    destruct (inv_drop ids c t V (proj1 F)) as (c' & X1 & X2 & _). exists c'. auto.
  - destruct (find_tbf c id) as [t|] eqn:F; [ | exact STAY ]. apply find_tbf_in in F. destruct F as [I E].
    destruct (is_ul (t_dir t)); [ exact STAY | ].
    destruct (inv_drop ids c t V I) as (c1 & X1 & X2 & X3 & _). rewrite X1. cbn [obind].
    destruct (inv_take a def ids c1 id (t_ms t) DL false (-1) (t_egprs t) ND LEN (proj1 (proj2 (i_tbf _ _ V t I))) X2) as (r & dis & T & P).
    { rewrite X3. intro J. apply in_map_iff in J. destruct J as [x [Ex Ix]]. apply without_in in Ix. destruct Ix as [_ N]. congruence. }
    rewrite T. destruct r as [c'|].
    + exists c'. split; [ reflexivity | exact (proj1 P) ].
    + eexists. split; [ reflexivity | now apply inv_dis ].
  - destruct (existsb (Z.eqb m) ids && negb (existsb (fun t => t_ms t =? m) (c_tbfs c))) eqn:E; [ | exact STAY ].
    apply andb_true_iff in E. destruct E as [E1 _]. apply mem_ok in E1.
    destruct (inv_set_reserved ids c m None 0 0 ND LEN E1 V) as (c1 & X1 & X2 & _).
    { unfold new_v, ms_ok. cbn. auto. }
    rewrite X1. cbn [obind]. eexists. split; [ reflexivity | ]. unfold set_common. apply inv_ms_field; auto.
  - eexists. split; [ reflexivity | ]. apply inv_ms_field; auto.
  - destruct (in8 n && in8 ts && negb (pd_enabled (c_bts c n ts))) eqn:E; [ | exact STAY ].
    apply andb_true_iff in E. destruct E as [E _]. apply andb_true_iff in E. destruct E as [_ E]. apply in8_ok in E.
    eexists. split; [ reflexivity | ]. apply inv_set_enabled; auto. discriminate.
  - destruct (in8 n && in8 ts && pd_enabled (c_bts c n ts)) eqn:E; [ | exact STAY ].
    apply andb_true_iff in E. destruct E as [E _]. apply andb_true_iff in E. destruct E as [_ E]. apply in8_ok in E.
    destruct (inv_drop_all ids (table_ids (c_bts c n ts)) c V) as (c1 & X1 & X2 & X3 & X4 & X5 & X6). rewrite X1. cbn [obind].
    destruct (inv_unreserve_all ids n ts E ND LEN ids (fun m I => I) c1 X2) as (c2 & Y1 & Y2 & Y3 & Y4 & Y5). rewrite Y1. cbn [obind].
    eexists. split; [ reflexivity | ]. apply inv_set_enabled; auto. intros _. split.
    + intros t It. rewrite Y3 in It. apply X5 in It. destruct It as [It NIt].
      destruct (usesb n ts t) eqn:U; [ | reflexivity ]. exfalso. apply NIt. eapply table_ids_in; [ exact V | exact E | ]. apply filter_In. auto.
    + intros m Im d. apply Y5. left. exact Im.
Qed.
Lemma inv_run : forall def ids os c, NoDup ids -> (length ids < 256)%nat -> inv ids c ->
  exists c', crun def ids os c = Some c' /\ inv ids c'.
Proof.
  intros def ids os. induction os as [|o os IH]; intros c ND LEN V; cbn [crun]; [ exists c; auto | ].
  destruct (inv_step def ids o c ND LEN V) as (c1 & E & V1). rewrite E. cbn [obind]. now apply IH.
Qed.

(** ** What the invariant says *)
Lemma uses_here : forall c n ts t, In t (here (c_tbfs c) n ts) /\ 0 <= ts < 8 <-> In t (c_tbfs c) /\ uses t n ts.
Proof. intros c n ts t. unfold here, usesb, uses, on. rewrite filter_In, andb_true_iff, Z.eqb_eq. intuition. Qed.

Lemma inv_described : forall ids c n ts, inv ids c -> 0 <= ts < 8 -> described ids c n ts.
Proof.
  intros ids c n ts V R. pose proof (i_mirror _ _ V n ts R) as M. pose proof (i_distinct _ _ V n ts R) as D.
  assert (FF : forall (P : tbf -> bool) , filter (fun t => usesb n ts t && P t) (c_tbfs c) = filter P (here (c_tbfs c) n ts)).
  { intro P. clear. unfold here. induction (c_tbfs c) as [|x l IH]; cbn [filter]; [ reflexivity | ].
    destruct (usesb n ts x); cbn [andb filter]; [ | exact IH ]. destruct (P x); [ f_equal | ]; exact IH. }
  split.
  - intros d k id. rewrite (mi_tbf _ _ _ M). split.
    + destruct (find (is_tfi d k) (here (c_tbfs c) n ts)) as [t|] eqn:F; cbn [option_map]; [ | discriminate ].
      intro H. inversion H; subst id. apply find_some in F. destruct F as [I F]. apply andb_true_iff in F. destruct F as [F1 F2].
      apply dir_eqb_eq in F1. destruct (proj1 (uses_here c n ts t) (conj I R)) as [I1 I2]. exists t. splits; auto; try lia; exact I2.
    + intros (t & I & U & E1 & E2 & E3). destruct (proj2 (uses_here c n ts t) (conj I U)) as [J _].
      destruct (find (is_tfi d k) (here (c_tbfs c) n ts)) as [x|] eqn:F; cbn [option_map].
      * apply find_some in F. destruct F as [Ix F]. apply andb_true_iff in F. destruct F as [F1 F2]. apply dir_eqb_eq in F1.
        rewrite (distinct_tfi_inj ts _ x t D Ix J); [ congruence | congruence | lia ].
      * exfalso. pose proof (find_none _ _ F t J) as G. unfold is_tfi in G. rewrite E1, E2, dir_eqb_refl, Z.eqb_refl in G. discriminate.
  - intros d k Hk. rewrite (mi_tfi _ _ _ M) by exact Hk. rewrite existsb_exists. split.
    + intros [t [I F]]. apply andb_true_iff in F. destruct F as [F1 F2]. apply dir_eqb_eq in F1.
      destruct (proj1 (uses_here c n ts t) (conj I R)) as [I1 I2]. exists t. split; [ exact I1 | ]. split; [ exact I2 | ]. split; [ exact F1 | lia ].
    + intros (t & I & U & E1 & E2). destruct (proj2 (uses_here c n ts t) (conj I U)) as [J _].
      exists t. split; [ exact J | ]. unfold is_tfi. rewrite E1, E2, dir_eqb_refl, Z.eqb_refl. reflexivity.
  - intros u Hu. rewrite (mi_usf _ _ _ M) by exact Hu. rewrite existsb_exists. split.
    + intros [t [I F]]. apply andb_true_iff in F. destruct F as [F1 F2].
      destruct (proj1 (uses_here c n ts t) (conj I R)) as [I1 I2]. exists t. split; [ exact I1 | ]. split; [ exact I2 | ].
      split; [ destruct (t_dir t); [ discriminate | reflexivity ] | lia ].
    + intros (t & I & U & E1 & E2). destruct (proj2 (uses_here c n ts t) (conj I U)) as [J _].
      exists t. split; [ exact J | ]. unfold is_usf. rewrite E1, E2, Z.eqb_refl. reflexivity.
  - intro d. rewrite (mi_gprs _ _ _ M). unfold tbf_count. f_equal. f_equal. rewrite <- FF. apply filter_ext. intro t. unfold is_kind. now rewrite andb_assoc.
  - intro d. rewrite (mi_egprs _ _ _ M). unfold tbf_count. f_equal. f_equal. rewrite <- FF. apply filter_ext. intro t. unfold is_kind. now rewrite andb_assoc.
  - intro d. exact (i_res _ _ V n ts d R).
Qed.
Lemma inv_no_clash : forall ids c, inv ids c -> no_clash c.
Proof.
  intros ids c V t1 t2 n ts I1 I2 U1 U2 ED H. pose proof (proj1 (proj2 U1)) as R. pose proof (i_distinct _ _ V n ts R) as D.
  destruct (proj2 (uses_here c n ts t1) (conj I1 U1)) as [J1 _]. destruct (proj2 (uses_here c n ts t2) (conj I2 U2)) as [J2 _].
  destruct H as [H|[H1 H2]].
  - rewrite (distinct_tfi_inj ts _ t1 t2 D J1 J2 ED H). reflexivity.
  - rewrite (distinct_usf_inj ts _ t1 t2 D J1 J2); [ reflexivity | exact H1 | congruence | exact H2 ].
Qed.
Lemma inv_tbf_ok : forall ids c t, inv ids c -> In t (c_tbfs c) -> tbf_ok c t.
Proof.
  intros ids c t V I n ts U. pose proof U as [<- O]. pose proof (proj1 O) as R. destruct (i_tbf _ _ V t I) as [T1 [T2 T3]].
  destruct (proj2 (uses_here c _ ts t) (conj I U)) as [J _]. destruct (di_range _ _ (i_distinct _ _ V _ ts R) t J) as [D1 D2].
  splits; try lia; auto; intro E; exact (proj1 (D2 E)) || exact (proj2 (D2 E)) || (pose proof (D2 E); lia).
Qed.

Lemma cell_history : forall def ids os, NoDup ids -> (length ids < 256)%nat ->
  exists c, crun def ids os init_cell = Some c /\ no_clash c /\ (forall t, In t (c_tbfs c) -> tbf_ok c t) /\
    (forall m, In m ids -> ms_ok (c_bts c) (c_ms c m)) /\ counters_ok (c_bts c) /\
    forall n ts, 0 <= ts < 8 -> described ids c n ts.
Proof.
  intros def ids os ND LEN. destruct (inv_run def ids os init_cell ND LEN (inv_init ids)) as (c & E & V).
  exists c. splits; auto.
  - exact (inv_no_clash ids c V).
  - intros t I. exact (inv_tbf_ok ids c t V I).
  - exact (i_ms _ _ V).
  - exact (inv_counters ids c V).
  - intros n ts R. now apply inv_described.
Qed.

Lemma reached_inv : forall def ids os c, NoDup ids -> (length ids < 256)%nat -> crun def ids os init_cell = Some c -> inv ids c.
Proof.
  intros def ids os c ND LEN H. destruct (inv_run def ids os init_cell ND LEN (inv_init ids)) as (c' & E & V). congruence.
Qed.
Lemma new_step : forall def ids os c a id m d single use_trx egprs, NoDup ids -> (length ids < 256)%nat ->
  crun def ids os init_cell = Some c -> In m ids -> ~ In id (map t_id (c_tbfs c)) ->
  exists c', cstep def ids (New a id m d single use_trx egprs) c = Some c' /\
    match fst (alloc a def (c_bts c) (c_dis c) (mk_req (c_ms c m) d single use_trx)) with
    | None => c_bts c' = c_bts c /\ c_tbfs c' = c_tbfs c /\ c_ms c' = c_ms c
    | Some r => granted (c_bts c) d r /\
        c_tbfs c' = mk_tbf id m d (r_tfi r) (r_trx r) (r_mask r) (r_usf r) egprs :: c_tbfs c
    end.
Proof.
  intros def ids os c a id m d single use_trx egprs ND LEN H I NI. pose proof (reached_inv def ids os c ND LEN H) as V.
  cbn [cstep].
  assert (E : existsb (Z.eqb m) ids && negb (existsb (fun t => t_id t =? id) (c_tbfs c)) = true).
  { apply andb_true_iff. split; [ apply existsb_exists; exists m; split; [ exact I | apply Z.eqb_refl ] | ].
    apply negb_true_iff. destruct (existsb _ (c_tbfs c)) eqn:X; [ | reflexivity ]. exfalso. apply existsb_exists in X.
    destruct X as [t [It Et]]. apply NI. apply in_map_iff. exists t. split; [ lia | exact It ]. }
  rewrite E. destruct (inv_take a def ids c id m d single use_trx egprs ND LEN I V NI) as (r & dis & T & P).
  rewrite T. destruct r as [c'|].
  - destruct P as [V' [r [A P]]]. exists c'. split; [ reflexivity | ]. rewrite A. split; [ | exact P ].
    exact (proj1 (alloc_all_ok a def (c_bts c) (c_dis c) (mk_req (c_ms c m) d single use_trx) r (i_ms _ _ V m I) (inv_counters ids c V) A)).
  - rewrite P. eexists. split; [ reflexivity | ]. auto.
Qed.
Lemma free_step : forall def ids os c t, NoDup ids -> (length ids < 256)%nat ->
  crun def ids os init_cell = Some c -> In t (c_tbfs c) ->
  exists c', cstep def ids (Free (t_id t)) c = Some c' /\
    (forall x, In x (c_tbfs c') <-> In x (c_tbfs c) /\ t_id x <> t_id t) /\
    forall x n ts, In x (c_tbfs c') -> uses x n ts ->
      pd_tbf (c_bts c' n ts) (t_dir x) (t_tfi x) = Some (t_id x) /\ pd_tbf (c_bts c n ts) (t_dir x) (t_tfi x) = Some (t_id x).
Proof.
  intros def ids os c t ND LEN H I. pose proof (reached_inv def ids os c ND LEN H) as V. cbn [cstep].
  destruct (find_tbf c (t_id t)) as [y|] eqn:F.
  2: { exfalso. pose proof (find_none _ _ F t I) as G. cbn beta in G. rewrite Z.eqb_refl in G. discriminate. }
  apply find_tbf_in in F. destruct F as [Iy Ey].
  destruct (inv_drop ids c y V Iy) as (c' & X1 & X2 & X3 & _). exists c'. split; [ exact X1 | ].
  assert (MEM : forall x, In x (c_tbfs c') <-> In x (c_tbfs c) /\ t_id x <> t_id t) by (intro x; rewrite X3, without_in, Ey; reflexivity).
  split; [ exact MEM | ]. intros x n ts Ix U. split.
  - apply (e_table _ _ _ _ (inv_described ids c' n ts X2 (proj1 (proj2 U)))). exists x. auto.
  - apply (e_table _ _ _ _ (inv_described ids c n ts V (proj1 (proj2 U)))). exists x. apply MEM in Ix. tauto.
Qed.
