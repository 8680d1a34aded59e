(** The statistics of a cell: what attaching and detaching do to them. *)
From Coq Require Import ZArith List Bool Lia.
From Verif Require Import Base.Arith Model.Mslot Model.Alloc Model.Cell Model.CellStat Spec.AllocSpec Spec.CellStatSpec
  Proofs.AllocP Proofs.AllocQ Proofs.CellP Proofs.CellI.
Import ListNotations.
Local Open Scope Z_scope.

(** ** Sums over the timeslots *)
Fixpoint zsum (l : list Z) : Z := match l with [] => 0 | x :: r => x + zsum r end.
Definition tally (f : pdch -> bool) (b : bts) : Z := zsum (map (fun x => b2z (f (b (fst x) (snd x)))) all_ts).

Lemma count_zsum : forall A (P : A -> bool) l, Z.of_nat (length (filter P l)) = zsum (map (fun x => b2z (P x)) l).
Proof.
  intros A P l. induction l as [|x l IH]; cbn [filter map zsum]; [ reflexivity | ].
  rewrite <- IH. destruct (P x); unfold b2z; cbn [length]; lia.
Qed.
Lemma zsum_ext : forall A (f g : A -> Z) l, (forall x, In x l -> f x = g x) -> zsum (map f l) = zsum (map g l).
Proof.
  intros A f g l. induction l as [|x l IH]; intro H; cbn [map zsum]; [ reflexivity | ].
  rewrite (H x (or_introl eq_refl)), IH; [ reflexivity | ]. intros y I. apply H. right. exact I.
Qed.
Lemma zsum_change : forall A (f g : A -> Z) x l, NoDup l -> In x l -> (forall y, In y l -> y <> x -> g y = f y) ->
  zsum (map g l) = zsum (map f l) + g x - f x.
Proof.
  intros A f g x l. induction l as [|y l IH]; intros ND I H; [ destruct I | ].
  inversion ND as [|? ? NI ND']; subst. cbn [map zsum]. destruct I as [-> |I].
  - rewrite (zsum_ext _ g f l); [ lia | ]. intros z Iz. apply H; [ right; exact Iz | ]. intros ->. contradiction.
  - rewrite IH; auto.
    + rewrite (H y); [ lia | left; reflexivity | ]. intros ->. contradiction.
    + intros z Iz. apply H. right. exact Iz.
Qed.
Lemma in_all_ts : forall n ts, In (n, ts) all_ts <-> 0 <= n < 8 /\ 0 <= ts < 8.
Proof. intros n ts. unfold all_ts. rewrite in_prod_iff, !in_slots8. reflexivity. Qed.
Fixpoint nodupb (l : list (Z * Z)) : bool :=
  match l with [] => true | x :: r => negb (existsb (same_ts x) r) && nodupb r end.
Lemma same_ts_eq : forall x y, same_ts x y = true <-> x = y.
Proof.
  intros [a b] [c d]. unfold same_ts. cbn [fst snd]. rewrite andb_true_iff, !Z.eqb_eq. split; [ intros [-> ->]; reflexivity | ].
  intro E. injection E as -> ->. auto.
Qed.
Lemma nodupb_ok : forall l, nodupb l = true -> NoDup l.
Proof.
  intro l. induction l as [|x l IH]; cbn [nodupb]; intro H; [ constructor | ]. apply andb_true_iff in H. destruct H as [H1 H2].
  constructor; [ | auto ]. intro I. apply negb_true_iff in H1. pose proof (existsb_false _ _ _ H1 x I) as F.
  assert (same_ts x x = true) by (now apply same_ts_eq). congruence.
Qed.
Lemma nodup_ts : NoDup all_ts.
Proof. apply nodupb_ok. vm_compute. reflexivity. Qed.
Lemma tally_ext : forall f b b', (forall n ts, 0 <= n < 8 -> 0 <= ts < 8 -> f (b' n ts) = f (b n ts)) -> tally f b' = tally f b.
Proof.
  intros f b b' H. unfold tally. apply zsum_ext. intros [n ts] I. apply in_all_ts in I. cbn [fst snd]. rewrite H by tauto. reflexivity.
Qed.
Lemma tally_upd : forall f b n ts p, 0 <= n < 8 -> 0 <= ts < 8 ->
  tally f (upd b n (upd (b n) ts p)) = tally f b + b2z (f p) - b2z (f (b n ts)).
Proof.
  intros f b n ts p Rn Rt. unfold tally.
  rewrite (zsum_change _ (fun x => b2z (f (b (fst x) (snd x)))) _ (n, ts)); [ | exact nodup_ts | now apply in_all_ts | ].
  - cbn [fst snd]. rewrite !upd_same. reflexivity.
  - intros [n' ts'] _ N. cbn [fst snd]. rewrite upd_eq. destruct (Z.eqb_spec n' n) as [-> |]; [ | reflexivity ].
    rewrite upd_eq. destruct (Z.eqb_spec ts' ts) as [-> |]; [ congruence | reflexivity ].
Qed.

(** ** A timeslot's part *)
Definition p_occ (p : pdch) : bool := 0 <? pd_gprs p UL + pd_gprs p DL + (pd_egprs p UL + pd_egprs p DL).
Definition p_occ_g (p : pdch) : bool := 0 <? pd_gprs p UL + pd_gprs p DL.
Definition p_occ_e (p : pdch) : bool := 0 <? pd_egprs p UL + pd_egprs p DL.
Definition small (p : pdch) : Prop := forall d, 0 <= pd_gprs p d <= 32 /\ 0 <= pd_egprs p d <= 32.
Record occs (b : bts) (s : stats) : Prop := mk_occs {
  o_avail : s_avail s = tally pd_enabled b;
  o_occ : s_occ s = tally p_occ b; o_occ_g : s_occ_g s = tally p_occ_g b; o_occ_e : s_occ_e s = tally p_occ_e b }.
(** What [g] adds to the statistics is what going from [p] to [p'] changes. *)
Definition counted (p p' : pdch) (s s' : stats) : Prop :=
  s_avail s' = s_avail s + b2z (pd_enabled p') - b2z (pd_enabled p) /\
  s_occ s' = s_occ s + b2z (p_occ p') - b2z (p_occ p) /\
  s_occ_g s' = s_occ_g s + b2z (p_occ_g p') - b2z (p_occ_g p) /\
  s_occ_e s' = s_occ_e s + b2z (p_occ_e p') - b2z (p_occ_e p) /\
  s_new s' = s_new s /\ s_freed s' = s_freed s /\ s_fail s' = s_fail s.

Lemma counted_up : forall ts t p s, small p -> counted p (attach ts t p) s (num_stat true t p s).
Proof.
  intros ts t p s B. pose proof (B UL) as [BU1 BU2]. pose proof (B DL) as [BD1 BD2].
  unfold counted, num_stat, attach, num_update, p_occ, p_occ_g, p_occ_e.
  cbn [pd_enabled pd_gprs pd_egprs pd_tsc pd_res pd_usf pd_tfi pd_tbf].
  rewrite (Z.mod_small (pd_gprs p UL + pd_gprs p DL)), (Z.mod_small (pd_egprs p UL + pd_egprs p DL)) by lia.
  destruct (t_egprs t), (t_dir t); cbn [andb negb];
    unfold dset; cbn [is_ul];
    rewrite ?Z.mod_small by lia;
    repeat match goal with |- context [?a =? 0] => destruct (Z.eqb_spec a 0) end;
    cbn [s_avail s_occ s_occ_g s_occ_e s_new s_freed s_fail add_occ add_occ_g add_occ_e]; unfold b2z;
    repeat match goal with |- context [0 <? ?a] => destruct (Z.ltb_spec 0 a) end; splits; try reflexivity; try lia.
Qed.
Lemma counted_down : forall ts t p p' s, small p -> detach ts t p = Some p' -> counted p p' s (num_stat false t p s).
Proof.
  intros ts t p p' s B D. pose proof (B UL) as [BU1 BU2]. pose proof (B DL) as [BD1 BD2].
  unfold detach in D. destruct (_ =? 0) eqn:NZ in D; [ discriminate | ]. apply Z.eqb_neq in NZ. injection D as <-.
  unfold counted, num_stat, num_update, p_occ, p_occ_g, p_occ_e.
  cbn [pd_enabled pd_gprs pd_egprs pd_tsc pd_res pd_usf pd_tfi pd_tbf].
  rewrite (Z.mod_small (pd_gprs p UL + pd_gprs p DL)), (Z.mod_small (pd_egprs p UL + pd_egprs p DL)) by lia.
  destruct (t_egprs t), (t_dir t); cbn [andb negb];
    unfold dset; cbn [is_ul];
    rewrite ?Z.mod_small by lia;
    repeat match goal with |- context [?a =? 1] => destruct (Z.eqb_spec a 1) end;
    cbn [s_avail s_occ s_occ_g s_occ_e s_new s_freed s_fail add_occ add_occ_g add_occ_e]; unfold b2z;
    repeat match goal with |- context [0 <? ?a] => destruct (Z.ltb_spec 0 a) end; splits; try reflexivity; try lia.
Qed.

(** ** All timeslots of a TBF *)
Definition stat_fold (f : Z -> pdch -> option pdch) (g : pdch -> stats -> stats) (n mask : Z) :=
  fun (acc : option (bts * stats)) ts =>
    match acc with
    | None => None
    | Some (b, s) =>
      if Z.testbit mask ts then
        match f ts (b n ts) with
        | None => None
        | Some p => Some (upd b n (upd (b n) ts p), g (b n ts) s)
        end
      else Some (b, s)
    end.
Lemma stat_fold_none : forall f g n mask l, fold_left (stat_fold f g n mask) l None = None.
Proof. intros f g n mask l. induction l; cbn [fold_left]; auto. Qed.
Definition rest (s s' : stats) : Prop := s_new s' = s_new s /\ s_freed s' = s_freed s /\ s_fail s' = s_fail s.
Lemma occs_counted : forall b s n ts p s', 0 <= n < 8 -> 0 <= ts < 8 -> occs b s -> counted (b n ts) p s s' ->
  occs (upd b n (upd (b n) ts p)) s' /\ rest s s'.
Proof.
  intros b s n ts p s' Rn Rt [E0 E1 E2 E3] (C0 & C1 & C2 & C3 & C4 & C5 & C6). split; [ | unfold rest; auto ].
  split; rewrite tally_upd by assumption; congruence.
Qed.
Lemma stat_fold_ok : forall f g n mask, 0 <= n < 8 ->
  (forall ts p p' s, small p -> f ts p = Some p' -> counted p p' s (g p s)) ->
  forall l, NoDup l -> (forall ts, In ts l -> 0 <= ts < 8) ->
  forall b s, (forall ts, In ts l -> small (b n ts)) -> occs b s ->
  match fold_left (stat_fold f g n mask) l (Some (b, s)) with
  | Some (b', s') => occs b' s' /\ rest s s'
  | None => True
  end.
Proof.
  intros f g n mask Rn F l. induction l as [|x l IH]; intros ND R b s SM O; cbn [fold_left].
  - unfold rest. auto.
  - inversion ND as [|? ? NI ND']; subst.
    assert (R' : forall ts, In ts l -> 0 <= ts < 8) by (intros ts I; apply R; right; exact I).
    cbn [stat_fold]. destruct (Z.testbit mask x).
    + destruct (f x (b n x)) as [p|] eqn:E; [ | rewrite stat_fold_none; exact Logic.I ].
      destruct (occs_counted b s n x p (g (b n x) s) Rn (R x (or_introl eq_refl)) O) as [O1 [Q1 [Q2 Q3]]].
      { apply (F x); [ apply SM; left; reflexivity | exact E ]. }
      specialize (IH ND' R' (upd b n (upd (b n) x p)) (g (b n x) s)).
      destruct (fold_left _ _ _) as [[b' s']|]; [ | exact Logic.I ].
      destruct IH as [IH1 [IH2 [IH3 IH4]]]; [ | exact O1 | ].
      * intros ts I. rewrite upd_same, upd_diff by (intros ->; contradiction). apply SM. right. exact I.
      * split; [ exact IH1 | ]. unfold rest. splits; congruence.
    + apply IH; auto. intros ts I. apply SM. right. exact I.
Qed.
(** With the statistics taken away it is what the cell does. *)
Lemma stat_fold_fst : forall f g n mask l b s,
  option_map fst (fold_left (stat_fold f g n mask) l (Some (b, s))) =
  fold_left (fun (acc : option bts) ts =>
    match acc with
    | None => None
    | Some b => if Z.testbit mask ts then match f ts (b n ts) with None => None | Some p => Some (upd b n (upd (b n) ts p)) end else Some b
    end) l (Some b).
Proof.
  intros f g n mask l. induction l as [|x l IH]; intros b s; cbn [fold_left]; [ reflexivity | ].
  cbn [stat_fold]. destruct (Z.testbit mask x); [ | apply IH ].
  destruct (f x (b n x)) as [p|]; [ apply IH | ]. rewrite stat_fold_none. cbn [option_map]. clear.
  induction l; cbn [fold_left]; auto.
Qed.
Lemma on_slots_stat_fold : forall f g b s n mask,
  on_slots_stat f g b s n mask = fold_left (stat_fold f g n mask) slots8 (Some (b, s)).
Proof. reflexivity. Qed.
Lemma on_slots_stat_fst : forall f g b s n mask, option_map fst (on_slots_stat f g b s n mask) = on_slots f b n mask.
Proof. intros f g b s n mask. exact (stat_fold_fst f g n mask slots8 b s). Qed.
Lemma on_slots_stat_ok : forall f g b s n mask, 0 <= n < 8 ->
  (forall ts p p' s, small p -> f ts p = Some p' -> counted p p' s (g p s)) ->
  (forall ts, 0 <= ts < 8 -> small (b n ts)) -> occs b s ->
  match on_slots f b n mask with
  | Some b' => exists s', on_slots_stat f g b s n mask = Some (b', s') /\ occs b' s' /\ rest s s'
  | None => on_slots_stat f g b s n mask = None
  end.
Proof.
  intros f g b s n mask Rn F SM O. rewrite <- (on_slots_stat_fst f g b s n mask).
  pose proof (stat_fold_ok f g n mask Rn F slots8 nodup8 (fun ts => proj1 (in_slots8 ts)) b s
    (fun ts I => SM ts (proj1 (in_slots8 ts) I)) O) as H. rewrite <- on_slots_stat_fold in H.
  destruct (on_slots_stat f g b s n mask) as [[b' s']|]; cbn [option_map fst]; [ | reflexivity ].
  exists s'. auto.
Qed.
