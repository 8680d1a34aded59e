(** Lemmas about GSMTAP. *)
From Coq Require Import ZArith Ascii String List Bool Lia.
From Verif Require Import Base.Arith Model.VtyConf Model.Gsmtap Spec.GsmtapSpec.
Import ListNotations.
Local Open Scope Z_scope.

Lemma cat_in n k : cat_of n = Some k -> In (k, n) categ_names.
Proof.
  unfold cat_of. destruct (find _ categ_names) as [[j m]|] eqn:F; [|discriminate]. cbn [option_map fst]. intros X. injection X as <-.
  apply find_some in F. cbn [snd] in F. destruct F as [I E]. apply String.eqb_eq in E. now subst m.
Qed.
Lemma names_ok : forallb (fun x => forallb (fun y => negb (fst x =? fst y) || String.eqb (snd x) (snd y)) categ_names &&
  (0 <=? fst x) && (fst x <? 32)) categ_names = true.
Proof. vm_compute. reflexivity. Qed.
Lemma cat_range n k : cat_of n = Some k -> 0 <= k < 32.
Proof.
  intros C. apply cat_in in C. pose proof (proj1 (forallb_forall _ _) names_ok _ C) as X. cbv beta in X.
  rewrite !andb_true_iff, Z.leb_le, Z.ltb_lt in X. cbn [fst] in X. lia.
Qed.
Lemma cat_same n m k : cat_of n = Some k -> cat_of m = Some k -> n = m.
Proof.
  intros A B. apply cat_in in A, B. pose proof (proj1 (forallb_forall _ _) names_ok _ A) as X. cbv beta in X.
  rewrite !andb_true_iff in X. destruct X as [[X _] _]. pose proof (proj1 (forallb_forall _ _) X _ B) as Y. cbv beta in Y. cbn [fst snd] in Y.
  rewrite Z.eqb_refl in Y. cbn [negb orb] in Y. now apply String.eqb_eq in Y.
Qed.
Lemma bit_on m k : 0 <= k -> (Z.land m (Z.shiftl 1 k) =? 0) = negb (Z.testbit m k).
Proof.
  intros K. rewrite Z.shiftl_1_l. destruct (Z.testbit m k) eqn:T; cbn [negb].
  - apply Z.eqb_neq. intros E. assert (X : Z.testbit (Z.land m (2 ^ k)) k = true) by now rewrite Z.land_spec, Z.pow2_bits_true, T by lia.
    rewrite E, Z.bits_0 in X. discriminate.
  - apply Z.eqb_eq. apply Z.bits_inj'. intros j J. rewrite Z.land_spec, Z.bits_0, Z.pow2_bits_eqb by lia.
    destruct (Z.eqb_spec k j) as [<-|_]; [now rewrite T|apply andb_false_r].
Qed.
Lemma step_bit n k m c : cat_of n = Some k -> Z.testbit (g_mask m c) k =
  match c with GAll => true | GNone => false | GOn x => String.eqb x n || Z.testbit m k | GOff x => negb (String.eqb x n) && Z.testbit m k end.
Proof.
  intros C. pose proof (cat_range _ _ C) as R. destruct c as [x|x| |]; cbn [g_mask].
  - destruct (String.eqb_spec x n) as [->|N]; cbn [orb].
    + rewrite C, Z.lor_spec, Z.shiftl_1_l, Z.pow2_bits_true by lia. apply orb_true_r.
    + destruct (cat_of x) as [j|] eqn:J; [|reflexivity]. pose proof (cat_range _ _ J).
      rewrite Z.lor_spec, Z.shiftl_1_l, Z.pow2_bits_eqb by lia. destruct (Z.eqb_spec j k) as [->|_]; [elim N; exact (cat_same _ _ _ J C)|apply orb_false_r].
  - destruct (String.eqb_spec x n) as [->|N]; cbn [negb andb].
    + rewrite C, Z.ldiff_spec, Z.shiftl_1_l, Z.pow2_bits_true by lia. apply andb_false_r.
    + destruct (cat_of x) as [j|] eqn:J; [|reflexivity]. pose proof (cat_range _ _ J).
      rewrite Z.ldiff_spec, Z.shiftl_1_l, Z.pow2_bits_eqb by lia. destruct (Z.eqb_spec j k) as [->|_]; [elim N; exact (cat_same _ _ _ J C)|apply andb_true_r].
  - change 0xffffffff with (Z.ones 32). apply Z.ones_spec_low. lia.
  - apply Z.bits_0.
Qed.
Lemma on_snoc l c n : switched_on (l ++ [c]) n <-> (c = GAll \/ c = GOn n) \/ (switched_on l n /\ c <> GNone /\ c <> GOff n).
Proof.
  split.
  - intros (b & x & a & E & X & N1 & N2). destruct a as [|y a _] using rev_ind.
    + apply app_inj_tail in E. destruct E as [_ <-]. now left.
    + change (b ++ x :: a ++ [y]) with (b ++ (x :: a) ++ [y]) in E. rewrite app_assoc in E. apply app_inj_tail in E. destruct E as [-> ->].
      rewrite in_app_iff in N1, N2. cbn [In] in N1, N2. right. split; [exists b, x, a; tauto|]. split; intros ->; tauto.
  - intros [X|((b & x & a & -> & X & N1 & N2) & A & B)].
    + exists l, c, []. cbn [In]. tauto.
    + exists b, x, (a ++ [c]). rewrite <- app_assoc. cbn [app]. split; [reflexivity|]. split; [exact X|].
      rewrite !in_app_iff. cbn [In]. split; intros [Y|[Y|[]]]; auto.
Qed.
Lemma masks_on n k l : cat_of n = Some k -> (Z.testbit (g_masks l) k = true <-> switched_on l n).
Proof.
  intros C. induction l as [|c l IH] using rev_ind.
  - unfold g_masks. cbn [fold_left]. rewrite Z.bits_0. split; [discriminate|]. intros (b & x & a & E & _). now destruct b.
  - unfold g_masks in *. rewrite fold_left_app. cbn [fold_left]. rewrite (step_bit n k _ c C), on_snoc, <- IH.
    destruct (Z.testbit (fold_left g_mask l 0) k); destruct c as [x|x| |]; try destruct (String.eqb_spec x n) as [->|NE]; cbn [orb andb negb];
      split; intros Q; try reflexivity; try discriminate Q; try (left; now right); try (left; now left);
      try (right; split; [reflexivity|split; congruence]); exfalso;
      repeat match goal with Q : _ \/ _ |- _ => destruct Q as [Q|Q] | Q : _ /\ _ |- _ => destruct Q end; congruence.
Qed.

Lemma up_field a : arfcn_ok a -> read_arfcn (Z.lor a UPLINK) = (a, true).
Proof.
  unfold arfcn_ok, read_arfcn, UPLINK. intros R. assert (E : Z.lor a 0x4000 = a + 16384).
  { assert (D : Z.land a 16384 = 0).
    { change 16384 with (2 ^ 14). apply Z.bits_inj'. intros j J. rewrite Z.land_spec, Z.bits_0, Z.pow2_bits_eqb by lia.
      destruct (Z.eqb_spec 14 j) as [<-|_]; [|apply andb_false_r]. rewrite Z.testbit_eqb by lia. rewrite Z.div_small by lia. reflexivity. }
    rewrite Z.add_nocarry_lxor, Z.lxor_lor by exact D. reflexivity. }
  rewrite E. f_equal.
  - change 16384 with (16 * 1024). rewrite Z.mod_add by lia. apply Z.mod_small. lia.
  - replace (a + 16384) with (a + 1 * 16384) by lia. rewrite Z.div_add, Z.div_small by lia. reflexivity.
Qed.
Lemma down_field a : arfcn_ok a -> read_arfcn a = (a, false).
Proof. unfold arfcn_ok, read_arfcn. intros R. rewrite Z.mod_small, Z.div_small by lia. reflexivity. Qed.
Lemma arf_at (arf : list Z) trx : List.length arf = 8%nat -> 0 <= trx < 8 -> nth_error arf (Z.to_nat trx) = Some (nth (Z.to_nat trx) arf 0).
Proof. intros L R. apply nth_error_nth'. lia. Qed.
Lemma arf_ok (arf : list Z) trx : List.length arf = 8%nat -> Forall arfcn_ok arf -> 0 <= trx < 8 -> arfcn_ok (nth (Z.to_nat trx) arf 0).
Proof. intros L F R. apply (proj1 (Forall_forall _ _) F). apply nth_In. lia. Qed.
Lemma ra_contents (e : bool) ra : 0 <= ra < (if e then 2048 else 256) ->
  if e then exists x y : Z, ra_buf e ra = [x; y] /\ 0 <= x < 256 /\ 0 <= y < 256 /\ x * 256 + y = ra * 32 else ra_buf e ra = [ra].
Proof.
  intros R. destruct e; unfold ra_buf.
  - eexists; eexists; split; [reflexivity|]. change 0xff with (Z.ones 8). rewrite !Z.land_ones, Z.shiftr_div_pow2, Z.shiftl_mul_pow2 by lia.
    change (2 ^ 8) with 256. change (2 ^ 3) with 8. change (2 ^ 5) with 32. rewrite (Z.mod_small (ra / 8)) by (Z.div_mod_to_equations; lia).
    Z.div_mod_to_equations. lia.
  - f_equal. change 0xff with (Z.ones 8). rewrite Z.land_ones by lia. apply Z.mod_small. exact R.
Qed.

Lemma tap_ok : forall l arf a, List.length arf = 8%nat -> Forall arfcn_ok arf -> air_ok a ->
  exists r, tap (g_masks l) arf a = Some r /\ (r <> None <-> switched_on l (name_of a)) /\
    forall p, r = Some p -> contents a (p_data p) /\ p_chan p = chan_of a /\
      forall n ts fn, place_of arf a = Some (n, ts, fn) -> read_arfcn (p_arfcn p) = (n, is_uplink a) /\ p_ts p = ts /\ p_fn p = fn.
Proof.
  intros l arf a L F OK. set (m := g_masks l).
  assert (MEAS : forall k n up trx ts ch fn d, cat_of n = Some k -> 0 <= trx < 8 ->
    exists r, send_meas m arf k up trx ts ch fn d = Some r /\ (r <> None <-> switched_on l n) /\
      forall p, r = Some p -> p_data p = d /\ p_chan p = ch /\ read_arfcn (p_arfcn p) = (nth (Z.to_nat trx) arf 0, up) /\ p_ts p = ts /\ p_fn p = fn).
  { intros k n up trx ts ch fn d C R. unfold send_meas. rewrite bit_on by (pose proof (cat_range _ _ C); lia). rewrite (arf_at arf trx L R).
    pose proof (masks_on n k l C) as MO. fold m in MO. destruct (Z.testbit m k); cbn [negb]; eexists; (split; [reflexivity|]).
    - split; [split; [intros _; now apply MO|discriminate]|]. intros p X. injection X as <-. cbn [p_data p_chan p_arfcn p_ts p_fn]. pose proof (arf_ok arf trx L F R) as Q.
      split; [reflexivity|]. split; [reflexivity|]. split; [|auto]. destruct up; [now apply up_field|now apply down_field].
    - split; [split; [intros X; now elim X|intros X; apply MO in X; discriminate]|]. discriminate. }
  assert (IF : forall k n q, cat_of n = Some k -> exists r, send_if m k q = Some r /\ (r <> None <-> switched_on l n) /\ forall p, r = Some p -> p = q).
  { intros k n q C. unfold send_if. rewrite bit_on by (pose proof (cat_range _ _ C); lia). pose proof (masks_on n k l C) as MO. fold m in MO.
    destruct (Z.testbit m k); cbn [negb]; eexists; (split; [reflexivity|]).
    - split; [split; [intros _; now apply MO|discriminate]|]. intros p X. now injection X as <-.
    - split; [split; [intros X; now elim X|intros X; apply MO in X; discriminate]|]. discriminate. }
  destruct a as [trx ts fn d|e trx ts fn d|trx ts fn d|trx ts fn d|d|d|e trx ts fn d|e trx ts fn d|e ra trx ts fn|e ra trx ts fn|n ts fn ch d];
    cbn [tap name_of air_ok is_uplink place_of contents chan_of] in *;
    try match goal with e : bool |- _ => destruct e end;
    try match goal with |- context [send_meas m arf ?k ?up ?trx ?ts ?ch ?fn ?d] =>
      match goal with |- context [switched_on l ?n] =>
        destruct (MEAS k n up trx ts ch fn d eq_refl ltac:(tauto)) as (r & E & S1 & P) end;
      exists r; split; [exact E|]; split; [exact S1|]; intros p X; destruct (P p X) as (P1 & P0 & P2 & P3 & P4); rewrite P1;
      split; [try reflexivity|split; [exact P0|]; intros n0 ts0 fn0 Y; injection Y as <- <- <-; auto] end.
  - destruct OK as [R ND]. destruct d as [|x d]; [now elim ND|]. rewrite (arf_at arf trx L R).
    destruct (IF C_DL_PTCCH "dl-ptcch"%string (mk_pkt (nth (Z.to_nat trx) arf 0) ts ChPtcch fn (x :: d)) eq_refl) as (r & E & S1 & P).
    exists r. split; [exact E|]. split; [exact S1|]. intros p X. rewrite (P p X). cbn [p_data p_chan p_arfcn p_ts p_fn]. split; [reflexivity|]. split; [reflexivity|].
    intros n0 ts0 fn0 Y. injection Y as <- <- <-. split; [apply down_field; exact (arf_ok arf trx L F R)|auto].
  - destruct (IF C_DL_AGCH "dl-agch"%string (mk_pkt 0 0 ChAgch 0 d) eq_refl) as (r & E & S1 & P).
    exists r. split; [exact E|]. split; [exact S1|]. intros p X. rewrite (P p X). split; [reflexivity|]. split; [reflexivity|]. discriminate.
  - destruct (IF C_DL_PCH "dl-pch"%string (mk_pkt 0 0 ChPch 0 d) eq_refl) as (r & E & S1 & P).
    exists r. split; [exact E|]. split; [exact S1|]. intros p X. rewrite (P p X). split; [reflexivity|]. split; [reflexivity|]. discriminate.
  - exact (ra_contents true ra (proj2 OK)).
  - exact (ra_contents false ra (proj2 OK)).
  - exact (ra_contents true ra (proj2 OK)).
  - exact (ra_contents false ra (proj2 OK)).
  - destruct (IF C_UL_UNKNOWN "ul-unknown"%string (mk_pkt (Z.lor n UPLINK) ts ch fn d) eq_refl) as (r & E & S1 & P).
    exists r. split; [exact E|]. split; [exact S1|]. intros p X. rewrite (P p X). cbn [p_data p_chan p_arfcn p_ts p_fn]. split; [reflexivity|]. split; [reflexivity|].
    intros n0 ts0 fn0 Y. injection Y as <- <- <-. split; [now apply up_field|auto].
Qed.

Lemma off_ok : forall l arf a, ~ switched_on l (name_of a) -> match a with DlPtcch trx _ _ _ => 0 <= trx < 8 /\ List.length arf = 8%nat | _ => True end ->
  tap (g_masks l) arf a = Some None.
Proof.
  intros l arf a NO OK. set (m := g_masks l).
  assert (Z0 : forall k n, cat_of n = Some k -> ~ switched_on l n -> (Z.land m (Z.shiftl 1 k) =? 0) = true).
  { intros k n C X. rewrite bit_on by (pose proof (cat_range _ _ C); lia). pose proof (masks_on n k l C) as MO. fold m in MO.
    destruct (Z.testbit m k); [elim X; now apply MO|reflexivity]. }
  destruct a as [trx ts fn d|e trx ts fn d|trx ts fn d|trx ts fn d|d|d|e trx ts fn d|e trx ts fn d|e ra trx ts fn|e ra trx ts fn|n ts fn ch d];
    cbn [tap name_of] in *; try destruct e; unfold send_meas, send_if;
    try (match type of NO with ~ switched_on l ?n => match goal with |- context [Z.shiftl 1 ?k] => rewrite (Z0 k n eq_refl NO) end end; reflexivity).
  destruct d as [|x d]; [reflexivity|]. destruct OK as [R L]. rewrite (arf_at arf trx L R). rewrite (Z0 C_DL_PTCCH "dl-ptcch"%string eq_refl NO). reflexivity.
Qed.
Lemma ccch_refuted : exists l n a, In a [DlAgch [1]; DlPch [1]] /\ arfcn_ok n /\ exists p, tap (g_masks l) (repeat n 8) a = Some (Some p) /\ fst (read_arfcn (p_arfcn p)) <> n.
Proof. exists [GAll], 871, (DlAgch [1]). split; [now left|]. split; [split; [discriminate|reflexivity]|]. eexists. split; [reflexivity|]. vm_compute. discriminate. Qed.
Lemma burst_refuted : forall arf e ra trx ts fn, List.length arf = 8%nat -> 8 <= trx ->
  tap (g_masks [GOn "ul-rach"]) arf (UlRach e ra trx ts fn) = None /\ tap (g_masks [GOn "ul-ptcch"]) arf (UlPtcch e ra trx ts fn) = None.
Proof.
  intros arf e ra trx ts fn L R. cbn [tap]. unfold send_meas. rewrite (proj2 (nth_error_None arf (Z.to_nat trx))) by lia. split; reflexivity.
Qed.
