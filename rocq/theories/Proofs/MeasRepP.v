(** Proofs about the figures of throughput, loss and received level. *)
From Coq Require Import ZArith List Bool Lia.
From Verif Require Import Model.MeasRep Spec.MeasRepSpec.
Import ListNotations.
Local Open Scope Z_scope.

(** ** Spans *)
Lemma spans_cover {A} (h : list (Z * A)) from seen :
  concat (map sp_what (fst (spans from seen h))) ++ snd (spans from seen h) = seen ++ map snd h.
Proof.
  revert from seen. induction h as [|[now x] r IH]; intros from seen; cbn [spans map].
  - cbn. rewrite app_nil_r. reflexivity.
  - cbn [snd]. destruct (now - from <? SECOND).
    + rewrite IH, <- app_assoc. reflexivity.
    + specialize (IH now []). destruct (spans now [] r) as [l rest]. cbn [fst snd map concat sp_what app] in *.
      rewrite <- app_assoc, IH, <- app_assoc. reflexivity.
Qed.
Lemma spans_gapless {A} (h : list (Z * A)) from seen : gapless from (fst (spans from seen h)).
Proof.
  revert from seen. induction h as [|[now x] r IH]; intros from seen; cbn [spans]; [exact Logic.I|].
  destruct (now - from <? SECOND) eqn:E; [apply IH|].
  specialize (IH now []). destruct (spans now [] r) as [l rest]. cbn [fst gapless sp_from sp_to sp_what] in *.
  apply Z.ltb_ge in E. split; [reflexivity|]. split; [exact E|]. split; [|exact IH].
  destruct seen; discriminate.
Qed.
Lemma spans_ok {A} from (h : list (Z * A)) :
  concat (map sp_what (spans_of from h)) ++ left_over from h = map snd h /\ gapless from (spans_of from h).
Proof. split; [apply (spans_cover h from [])|apply spans_gapless]. Qed.
Lemma spans_duration {A} (h : list (Z * A)) from seen : Forall (fun s => SECOND <= duration s) (fst (spans from seen h)).
Proof.
  pose proof (spans_gapless h from seen) as G. generalize dependent (fst (spans from seen h)). intro l. revert from.
  induction l as [|s r IH]; intros from G; constructor; [apply G|]. apply (IH (sp_to s)). apply G.
Qed.

Lemma sum_app a b : sum (a ++ b) = sum a + sum b.
Proof. unfold sum. induction a as [|x r IH]; cbn [app fold_right]; [lia|]. rewrite IH. lia. Qed.
Lemma sum_one x : sum [x] = x.
Proof. unfold sum. cbn [fold_right]. lia. Qed.
Lemma sec_ltb e : (tv_sec e <? 1) = (e <? SECOND).
Proof.
  unfold tv_sec, SECOND. destruct (e <? 1000000000) eqn:E.
  - apply Z.ltb_lt in E. apply Z.ltb_lt. apply Z.div_lt_upper_bound; lia.
  - apply Z.ltb_ge in E. apply Z.ltb_ge. apply Z.div_le_lower_bound; lia.
Qed.

(** ** Throughput *)
Definition thr_of (e o : Z) : Z := ((o mod 2 ^ 32 * 2 ^ 10) mod 2 ^ 32) / (tv_sec e * 2 ^ 10 + tv_nsec e / 2 ^ 20).
Lemma bw_spans h : forall m seen, bw_octets m = sum seen mod 2 ^ 32 ->
  snd (bw_run h m) = map (fun s => thr_of (duration s) (sum (sp_what s))) (fst (spans (bw_tv m) seen h))
  /\ bw_thr (fst (bw_run h m)) = last (snd (bw_run h m)) (bw_thr m).
Proof.
  induction h as [|[now x] r IH]; intros m seen E; cbn [bw_run spans]; [split; reflexivity|].
  unfold dl_bw. rewrite sec_ltb.
  assert (E1 : (bw_octets m + x) mod 2 ^ 32 = sum (seen ++ [x]) mod 2 ^ 32).
  { rewrite E, sum_app, sum_one. apply Zplus_mod_idemp_l. }
  rewrite E1. destruct (now - bw_tv m <? SECOND).
  - specialize (IH (mk_bwm (bw_tv m) (sum (seen ++ [x]) mod 2 ^ 32) (bw_thr m)) (seen ++ [x]) eq_refl).
    destruct (bw_run r _) as [m2 l]. cbn [fst snd note bw_tv bw_thr] in *. exact IH.
  - set (thr := _ / _). specialize (IH (mk_bwm now 0 thr) [] eq_refl).
    destruct (bw_run r _) as [m2 l]. cbn [bw_tv bw_thr] in IH. destruct (spans now [] r) as [ls rest].
    cbn [fst snd note map duration sp_from sp_to sp_what] in *. destruct IH as [A B].
    split; [rewrite A; reflexivity|]. rewrite B. destruct l as [|y l]; [reflexivity|]. cbn [last]. clear. revert y.
    induction l as [|z l IH]; intro y; [reflexivity|]. cbn [last] in *. apply (IH z).
Qed.
Lemma thr_bounds e o : SECOND <= e -> 0 <= o < 2 ^ 22 ->
  o * SECOND < (thr_of e o + 1) * e /\ 100 * (thr_of e o * e) <= 104 * (o * SECOND).
Proof.
  unfold SECOND. intros He Ho. unfold thr_of. change (2 ^ 22) with 4194304 in Ho.
  rewrite (Z.mod_small o) by (change (2 ^ 32) with 4294967296; lia).
  change (2 ^ 10) with 1024. rewrite Z.mod_small by (change (2 ^ 32) with 4294967296; lia).
  unfold tv_sec, tv_nsec. change (2 ^ 20) with 1048576.
  pose proof (Z.div_mod e 1000000000 ltac:(lia)) as E1. pose proof (Z.mod_pos_bound e 1000000000 ltac:(lia)) as E2.
  assert (E3 : 1 <= e / 1000000000) by (apply Z.div_le_lower_bound; lia).
  set (s := e / 1000000000) in *. set (n := e mod 1000000000) in *. clearbody s n.
  pose proof (Z.div_mod n 1048576 ltac:(lia)) as E4. pose proof (Z.mod_pos_bound n 1048576 ltac:(lia)) as E5.
  assert (E6 : 0 <= n / 1048576) by (apply Z.div_pos; lia).
  set (k := n / 1048576) in *. set (j := n mod 1048576) in *. clearbody k j.
  assert (D0 : 0 < s * 1024 + k) by lia.
  assert (D1 : (s * 1024 + k) * 1000000000 <= 1024 * e) by lia.
  assert (D2 : 102400 * e <= 104 * ((s * 1024 + k) * 1000000000)) by lia.
  set (d := s * 1024 + k) in *. clearbody d.
  pose proof (Z.div_mod (o * 1024) d ltac:(lia)) as V1. pose proof (Z.mod_pos_bound (o * 1024) d D0) as V2.
  assert (V3 : 0 <= o * 1024 / d) by (apply Z.div_pos; lia).
  set (v := o * 1024 / d) in *. set (w := (o * 1024) mod d) in *. clearbody v w.
  pose proof (Z.mul_le_mono_nonneg_l _ _ (v + 1) ltac:(lia) D1) as M1.
  pose proof (Z.mul_le_mono_nonneg_l _ _ v V3 D2) as M2. split; nia.
Qed.
Lemma Forall2_map_r {A B} (P : A -> B -> Prop) (f : A -> B) l : Forall (fun x => P x (f x)) l -> Forall2 P l (map f l).
Proof. induction 1; cbn [map]; constructor; assumption. Qed.
Lemma nonneg_sum l : Forall (fun x => 0 <= x) l -> 0 <= sum l.
Proof. unfold sum. induction 1; cbn [fold_right]; lia. Qed.
Lemma spans_Forall {A} (P : A -> Prop) (h : list (Z * A)) from :
  Forall (fun x => P (snd x)) h -> Forall (fun s => Forall P (sp_what s)) (spans_of from h).
Proof.
  intro F. destruct (spans_ok from h) as [E _].
  assert (G : Forall P (concat (map sp_what (spans_of from h)) ++ left_over from h)).
  { rewrite E. apply Forall_map. exact F. }
  apply Forall_app in G. destruct G as [G _]. clear E F. induction (spans_of from h) as [|s r IH]; constructor;
    cbn [map concat] in G; apply Forall_app in G; destruct G as [G1 G2]; [exact G1|exact (IH G2)].
Qed.

Lemma throughput_ok from h :
  Forall (fun x => 0 <= snd x) h -> Forall (fun s => sum (sp_what s) < 2 ^ 22) (spans_of from h) ->
  Forall2 octets_per_second (spans_of from h) (snd (bw_run h (bw_start from))).
Proof.
  intros Hp Hs. destruct (bw_spans h (bw_start from) [] eq_refl) as [E _]. cbn [bw_start bw_tv] in E.
  change (mk_bwm from 0 0) with (bw_start from) in E. rewrite E. fold (spans_of from h).
  apply Forall2_map_r. apply Forall_forall. intros s Hin. unfold octets_per_second.
  pose proof (spans_Forall (fun x => 0 <= x) h from Hp) as F. rewrite Forall_forall in F, Hs.
  pose proof (spans_duration h from []) as Du. fold (spans_of from h) in Du. rewrite Forall_forall in Du.
  apply thr_bounds; [exact (Du s Hin)|]. split; [apply nonneg_sum; exact (F s Hin)|exact (Hs s Hin)].
Qed.
Lemma shown_ok from h : bw_thr (fst (bw_run h (bw_start from))) = last (snd (bw_run h (bw_start from))) 0.
Proof. apply (bw_spans h (bw_start from) [] eq_refl). Qed.
Lemma kilobits_refuted : exists from h s v,
  spans_of from h = [s] /\ snd (bw_run h (bw_start from)) = [v] /\ duration s = SECOND /\ sum (sp_what s) = 1000
  /\ v = 1000 /\ ~ kilobits_per_second s v /\ kilobits_per_second s 8.
Proof.
  exists 0, [(500000000, 400); (1000000000, 600)]. eexists. eexists.
  split; [vm_compute; reflexivity|]. split; [vm_compute; reflexivity|].
  unfold kilobits_per_second. vm_compute. repeat split; try reflexivity; try (intros [_ X]; apply X; reflexivity); discriminate.
Qed.

(** ** Loss *)
Lemma recvs_app a b : recvs (a ++ b) = recvs a + recvs b.
Proof. unfold recvs. rewrite map_app. apply sum_app. Qed.
Lemma losts_app a b : losts (a ++ b) = losts a + losts b.
Proof. unfold losts. rewrite map_app. apply sum_app. Qed.
Definition loss_of (s : span (Z * Z)) : list Z :=
  let l := losts (sp_what s) mod 2 ^ 16 in
  let t := (l + recvs (sp_what s) mod 2 ^ 16) mod 2 ^ 16 in
  if t =? 0 then [] else [l * 100 / t].
Lemma loss_spans h : Forall small_report h ->
  forall m seen, lo_lost m = losts seen mod 2 ^ 16 -> lo_recv m = recvs seen mod 2 ^ 16 ->
  snd (loss_run h m) = flat_map loss_of (fst (spans (lo_tv m) seen (filter informative h))).
Proof.
  induction 1 as [|[now [rc lo]] r Hx _ IH]; intros m seen E1 E2; cbn [loss_run filter]; [reflexivity|].
  destruct Hx as [X1 [X2 X3]]. cbn [fst snd] in X1, X2, X3. unfold received_lost.
  change (informative (now, (rc, lo))) with (negb (rc + lo =? 0)). rewrite (Z.mod_small (rc + lo)) by lia. destruct (rc + lo =? 0) eqn:Ez; cbn [negb].
  - specialize (IH m seen E1 E2). destruct (loss_run r m) as [m2 l]. cbn [snd note] in *. exact IH.
  - cbn [spans]. rewrite sec_ltb.
    assert (F1 : (lo_lost m + lo) mod 2 ^ 16 = losts (seen ++ [(rc, lo)]) mod 2 ^ 16).
    { rewrite E1, losts_app. unfold losts at 3. cbn [map snd]. rewrite sum_one. apply Zplus_mod_idemp_l. }
    assert (F2 : (lo_recv m + rc) mod 2 ^ 16 = recvs (seen ++ [(rc, lo)]) mod 2 ^ 16).
    { rewrite E2, recvs_app. unfold recvs at 3. cbn [map fst]. rewrite sum_one. apply Zplus_mod_idemp_l. }
    rewrite F1, F2. destruct (now - lo_tv m <? SECOND).
    + specialize (IH (mk_lossm (lo_tv m) (losts (seen ++ [(rc, lo)]) mod 2 ^ 16) (recvs (seen ++ [(rc, lo)]) mod 2 ^ 16))
        (seen ++ [(rc, lo)]) eq_refl eq_refl).
      destruct (loss_run r _) as [m2 l]. cbn [snd note lo_tv] in *. exact IH.
    + specialize (IH (mk_lossm now 0 0) [] eq_refl eq_refl). destruct (loss_run r _) as [m2 l]. cbn [lo_tv] in IH.
      destruct (spans now [] (filter informative r)) as [ls rest]. cbn [fst snd flat_map] in *. rewrite <- IH.
      unfold lost_rep, loss_of. cbn [lo_lost lo_recv sp_what]. clear Ez. cbv zeta.
      match goal with |- context [?t =? 0] => destruct (t =? 0) end; reflexivity.
Qed.
Lemma small_sums l : Forall (fun x => 0 <= fst x /\ 0 <= snd x) l -> 0 <= recvs l /\ 0 <= losts l.
Proof. unfold recvs, losts, sum. induction 1; cbn [map fold_right]; lia. Qed.
Lemma positive_sums l : Forall (fun x => 0 <= fst x /\ 0 <= snd x /\ fst x + snd x <> 0) l -> l <> [] -> 0 < recvs l + losts l.
Proof.
  intros F Hn. destruct F as [|x l Hx F]; [congruence|]. destruct (small_sums l) as [A B].
  { eapply Forall_impl; [|exact F]. cbv beta. intros; lia. }
  unfold recvs, losts, sum in *. cbn [map fold_right]. lia.
Qed.
Lemma loss_percent s : SECOND <= duration s -> sp_what s <> [] ->
  Forall (fun x => 0 <= fst x /\ 0 <= snd x /\ fst x + snd x <> 0) (sp_what s) ->
  recvs (sp_what s) + losts (sp_what s) < 2 ^ 16 -> exists v, loss_of s = [v] /\ percent_lost s v.
Proof.
  intros _ Hn F Hs. pose proof (positive_sums _ F Hn) as P. destruct (small_sums (sp_what s)) as [A B].
  { eapply Forall_impl; [|exact F]. cbv beta. intros; lia. }
  unfold loss_of, percent_lost. rewrite !(Z.mod_small (losts _)), !(Z.mod_small (recvs _)) by lia.
  rewrite (Z.mod_small (losts _ + _)) by lia. set (a := recvs _) in *. set (b := losts _) in *. clearbody a b.
  destruct (b + a =? 0) eqn:E; [apply Z.eqb_eq in E; lia|]. eexists. split; [reflexivity|].
  pose proof (Z.div_mod (b * 100) (b + a) ltac:(lia)) as D. pose proof (Z.mod_pos_bound (b * 100) (b + a) ltac:(lia)) as D2.
  assert (0 <= b * 100 / (b + a)) by (apply Z.div_pos; lia).
  assert (b * 100 / (b + a) < 101) by (apply Z.div_lt_upper_bound; lia).
  set (v := b * 100 / (b + a)) in *. clearbody v. rewrite (Z.add_comm a b). split; [split|]; nia.
Qed.
Lemma gapless_nonempty {A} from (l : list (span A)) : gapless from l ->
  Forall (fun s => SECOND <= duration s /\ sp_what s <> []) l.
Proof. revert from. induction l as [|s r IH]; intros from G; constructor; [split; apply G|]. apply (IH (sp_to s)). apply G. Qed.
Lemma loss_ok from h : Forall small_report h ->
  Forall (fun s => recvs (sp_what s) + losts (sp_what s) < 2 ^ 16) (spans_of from (filter informative h)) ->
  Forall2 percent_lost (spans_of from (filter informative h)) (snd (loss_run h (loss_start from))).
Proof.
  intros Hs Ht. rewrite (loss_spans h Hs (loss_start from) [] eq_refl eq_refl). cbn [loss_start lo_tv].
  assert (F : Forall (fun s => Forall (fun x => 0 <= fst x /\ 0 <= snd x /\ fst x + snd x <> 0) (sp_what s))
                     (spans_of from (filter informative h))).
  { apply spans_Forall. apply Forall_forall. intros x Hin. apply filter_In in Hin. destruct Hin as [Hin Hi].
    rewrite Forall_forall in Hs. destruct (Hs x Hin) as [A [B _]]. unfold informative in Hi.
    apply negb_true_iff, Z.eqb_neq in Hi. tauto. }
  pose proof (gapless_nonempty _ _ (spans_gapless (filter informative h) from [])) as G. fold (spans_of from (filter informative h)) in G |- *.
  generalize dependent (spans_of from (filter informative h)). intro l. induction l as [|s r IH]; intros Ht F G; [constructor|].
  inversion Ht; inversion F; inversion G; subst. cbn [flat_map].
  destruct (loss_percent s) as [v [E P]]; try tauto. rewrite E. cbn [app]. constructor; [exact P|]. apply IH; assumption.
Qed.

(** ** Received level *)
Definition level_of (x : option Z) : Z := match x with Some y => y | None => 0 end.
Definition levels (l : list (option Z)) : Z := sum (map level_of l).
Lemma levels_app a b : levels (a ++ b) = levels a + levels b.
Proof. unfold levels. rewrite map_app. apply sum_app. Qed.
Lemma levels_bound l : Forall int8 l -> -128 * Z.of_nat (length l) <= levels l <= 128 * Z.of_nat (length l).
Proof.
  unfold levels, sum. induction 1 as [|x l Hx _ IH]; cbn [map fold_right length]; [lia|].
  rewrite Nat2Z.inj_succ. destruct x as [y|]; cbn [level_of] in *; cbn in Hx; lia.
Qed.
Lemma rssi_spans h : Forall (fun x => int8 (snd x)) h ->
  forall m seen, Forall int8 seen -> rs_sum m = levels seen -> rs_num m = Z.of_nat (length seen) ->
  (Z.of_nat (length seen) + Z.of_nat (length h) < 2 ^ 24) ->
  exists m2, rssi_run h m = Some (m2,
    map (fun s => Z.quot (levels (sp_what s)) (Z.of_nat (length (sp_what s)))) (fst (spans (rs_tv m) seen h))).
Proof.
  induction 1 as [|[now x] r Hx _ IH]; intros m seen Fs E1 E2 Hl; cbn [rssi_run spans].
  - exists m. reflexivity.
  - cbn [snd] in Hx. cbn [length] in Hl. rewrite Nat2Z.inj_succ in Hl. unfold rssi_block. fold (level_of x).
    assert (F1 : rs_sum m + level_of x = levels (seen ++ [x])).
    { rewrite E1, levels_app. unfold levels at 3. cbn [map]. rewrite sum_one. reflexivity. }
    assert (F2 : rs_num m + 1 = Z.of_nat (length (seen ++ [x]))).
    { rewrite E2, app_length. cbn [length]. lia. }
    assert (Fs1 : Forall int8 (seen ++ [x])) by (apply Forall_app; split; [exact Fs|apply Forall_cons; [exact Hx|constructor]]).
    rewrite F1, F2. pose proof (levels_bound _ Fs1) as B.
    assert (L : Z.of_nat (length (seen ++ [x])) = Z.of_nat (length seen) + 1) by lia.
    change (2 ^ 24) with 16777216 in *.
    replace (fits_int (levels (seen ++ [x])) && fits_int (Z.of_nat (length (seen ++ [x])))) with true.
    2:{ unfold fits_int. change (2 ^ 31) with 2147483648. symmetry.
        rewrite !andb_true_iff, !Z.leb_le, !Z.ltb_lt. lia. }
    cbn [negb]. rewrite sec_ltb. destruct (now - rs_tv m <? SECOND).
    + destruct (IH (mk_rssim (rs_tv m) (levels (seen ++ [x])) (Z.of_nat (length (seen ++ [x])))) (seen ++ [x]) Fs1 eq_refl eq_refl)
        as [m2 E]; [lia|]. rewrite E. cbn [note rs_tv]. exists m2. reflexivity.
    + destruct (IH (mk_rssim now 0 0) [] (Forall_nil _) eq_refl eq_refl) as [m2 E]; [cbn [length]; lia|]. rewrite E.
      replace (Z.of_nat (length (seen ++ [x])) =? 0) with false by (symmetry; apply Z.eqb_neq; lia).
      cbn [rs_tv]. destruct (spans now [] r) as [ls rest]. cbn [fst map note sp_what]. exists m2. reflexivity.
Qed.
Lemma all_known l : Forall (fun x => x <> None) l -> length (known l) = length l /\ levels l = sum (known l).
Proof.
  unfold levels, sum. induction 1 as [|x l Hx _ [I1 I2]]; [split; reflexivity|]. destruct x as [y|]; [|congruence].
  cbn [known length map fold_right level_of]. rewrite I1, I2. split; reflexivity.
Qed.
Lemma between a b l : Forall (fun x => a <= x <= b) l -> a * Z.of_nat (length l) <= sum l <= b * Z.of_nat (length l).
Proof. unfold sum. induction 1 as [|x l Hx _ IH]; cbn [fold_right length]; [lia|]. rewrite Nat2Z.inj_succ. lia. Qed.
Lemma quot_mean t n : 0 < n -> Z.abs (Z.quot t n * n - t) < n /\ forall a b, a * n <= t <= b * n -> a <= Z.quot t n <= b.
Proof.
  intro Hn. pose proof (Z.quot_rem' t n) as E.
  assert (R : Z.abs (Z.rem t n) < n) by (rewrite <- (Z.abs_eq n) at 2 by lia; apply Z.rem_bound_abs; lia).
  set (q := Z.quot t n) in *. set (r := Z.rem t n) in *.
  assert (Sg : (0 <= t -> 0 <= r) /\ (t <= 0 -> r <= 0)).
  { unfold r. split; intro Ht; [apply Z.rem_nonneg|apply Z.rem_nonpos]; lia. }
  clearbody q r. split; [nia|]. intros a b [Ha Hb]. destruct Sg as [S1 S2].
  destruct (Z.le_ge_cases 0 t) as [Ht|Ht]; [specialize (S1 Ht)|specialize (S2 Ht)]; split.
  - apply Z.lt_succ_r. nia.
  - nia.
  - nia.
  - apply Z.lt_succ_r. nia.
Qed.
Lemma rssi_ok from h : Forall (fun x => int8 (snd x)) h -> Z.of_nat (length h) < 2 ^ 24 ->
  exists m l, rssi_run h (rssi_start from) = Some (m, l)
    /\ Forall2 (fun s v => Forall (fun x => x <> None) (sp_what s) -> mean_level s v) (spans_of from h) l.
Proof.
  intros Hi Hl. destruct (rssi_spans h Hi (rssi_start from) [] (Forall_nil _) eq_refl eq_refl) as [m E]; [cbn [length]; lia|].
  exists m. eexists. split; [exact E|]. cbn [rssi_start rs_tv]. fold (spans_of from h). apply Forall2_map_r.
  pose proof (gapless_nonempty _ _ (spans_gapless h from [])) as G. fold (spans_of from h) in G.
  eapply Forall_impl; [|exact G]. intros s [_ Hn] Hk. destruct (all_known _ Hk) as [E1 E2]. unfold mean_level.
  rewrite E1, E2. assert (P : 0 < Z.of_nat (length (sp_what s))) by (destruct (sp_what s); [congruence|cbn [length]; lia]).
  destruct (quot_mean (sum (known (sp_what s))) _ P) as [A B]. split; [exact A|].
  intros a b F. apply B. pose proof (between _ _ _ F) as X. rewrite E1 in X. exact X.
Qed.
Lemma rssi_refuted : exists from h m s v,
  rssi_run h (rssi_start from) = Some (m, [v]) /\ spans_of from h = [s] /\ known (sp_what s) = [-90; -90] /\ v = -60
  /\ ~ mean_level s v.
Proof.
  exists 0, [(20000000, Some (-90)); (40000000, None); (1000000000, Some (-90))]. eexists. eexists. eexists.
  split; [vm_compute; reflexivity|]. split; [vm_compute; reflexivity|].
  split; [reflexivity|]. split; [reflexivity|]. unfold mean_level. cbn [sp_what known]. intros [_ B].
  specialize (B (-90) (-90) ltac:(repeat constructor; lia)). lia.
Qed.
