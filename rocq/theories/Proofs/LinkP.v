(** Lemmas for C37, C50, C51. *)
From Coq Require Import ZArith List Bool Lia.
From Verif Require Import Base.Arith Model.CodingScheme Model.Mslot Model.BtsConf Model.LinkAdapt Spec.CodingSpec Spec.LinkSpec
  Proofs.CodingP.
Import ListNotations.
Local Open Scope Z_scope.

(** * C50 *)
Definition masks : list Z := map Z.of_nat (seq 0 256).
Lemma in_masks m : 0 <= m < 256 -> In m masks.
Proof.
  intro H. unfold masks. apply in_map_iff. exists (Z.to_nat m). split; [lia|]. apply in_seq. lia.
Qed.
Lemma count_eq m : 0 <= m < 256 -> bitcount m = Z.of_nat (slot_count m).
Proof.
  intro H.
  assert (A : forallb (fun m => bitcount m =? Z.of_nat (slot_count m)) masks = true) by (vm_compute; reflexivity).
  rewrite forallb_forall in A. specialize (A m (in_masks m H)). lia.
Qed.
Lemma count_rng m : 1 <= m < 256 -> (1 <= slot_count m <= 8)%nat.
Proof.
  intro H.
  assert (A : forallb (fun m => (m =? 0) || ((1 <=? slot_count m)%nat && (slot_count m <=? 8)%nat)) masks = true)
    by (vm_compute; reflexivity).
  rewrite forallb_forall in A. specialize (A m (in_masks m ltac:(lia))).
  destruct (Z.eqb_spec m 0); [lia|]. cbn [orb] in A. apply andb_true_iff in A. destruct A as [A B].
  apply Nat.leb_le in A. apply Nat.leb_le in B. lia.
Qed.
Lemma count_cases m : 1 <= m < 256 -> In (slot_count m) [1; 2; 3; 4; 5; 6; 7; 8]%nat.
Proof. intro H. pose proof (count_rng m H). cbn [In]. lia. Qed.
Lemma ws_eq base pdch m : ws_conf base pdch -> 1 <= m < 256 ->
  egprs_window_size base pdch m =
  Z.min (ws_limit (slot_count m)) (Z.max 64 ((base + Z.of_nat (slot_count m) * pdch) / 32 * 32)).
Proof.
  intros [B P] H. unfold egprs_window_size. rewrite count_eq by lia.
  pose proof (count_cases m H) as C. cbv zeta.
  assert (E : (if negb (Z.of_nat (slot_count m) =? 1) then 128 * Z.of_nat (slot_count m) else 192) = ws_limit (slot_count m)
              /\ 0 <= ws_limit (slot_count m) <= 1024).
  { cbn [In] in C. repeat (destruct C as [<-|C]; [cbn; lia|]). destruct C. }
  destruct E as [E R]. rewrite E, Z.mod_small; [reflexivity|lia].
Qed.
Lemma ws_legal base pdch m : ws_conf base pdch -> 1 <= m < 256 ->
  let w := egprs_window_size base pdch m in
  w mod 32 = 0 /\ 64 <= w <= ws_limit (slot_count m) /\ ws_limit (slot_count m) <= 1024.
Proof.
  intros W H. cbv zeta. rewrite ws_eq by assumption. destruct W as [B P].
  set (x := (base + Z.of_nat (slot_count m) * pdch) / 32). clearbody x.
  assert (L : exists k, ws_limit (slot_count m) = 32 * k /\ 6 <= k <= 32).
  { pose proof (count_cases m H) as C. cbn [In] in C.
    repeat (destruct C as [<-|C]; [eexists; split; [cbn; first [instantiate (1 := 6); reflexivity|instantiate (1 := 8); reflexivity|instantiate (1 := 12); reflexivity|instantiate (1 := 16); reflexivity|instantiate (1 := 20); reflexivity|instantiate (1 := 24); reflexivity|instantiate (1 := 28); reflexivity|instantiate (1 := 32); reflexivity]|lia]|]). destruct C. }
  destruct L as (k & -> & K).
  replace (Z.min (32 * k) (Z.max 64 (x * 32))) with (Z.min k (Z.max 2 x) * 32) by lia.
  rewrite Z.mod_mul by lia. lia.
Qed.
Lemma ws_announced base pdch m : ws_conf base pdch -> 1 <= m < 256 ->
  let w := egprs_window_size base pdch m in
  ws_meaning (ws_field_dl w) = Some w /\ ws_meaning (ws_field_ia w) = Some w.
Proof.
  intros W H w. destruct (ws_legal base pdch m W H) as (D & R & L). fold w in D, R. clearbody w.
  assert (E : exists k, w = 64 + 32 * k /\ 0 <= k <= 30).
  { exists ((w - 64) / 32). pose proof (Z.div_mod w 32 ltac:(lia)). Z.div_mod_to_equations. lia. }
  destruct E as (k & -> & K).
  unfold ws_field_dl, ws_field_ia, enc_ws. replace (64 + 32 * k - 64) with (k * 32) by lia.
  rewrite Z.quot_mul by lia. rewrite (Z.mod_small k 65536), (Z.mod_small k 256), (Z.mod_small k 32) by lia.
  unfold ws_meaning. destruct (Z.leb_spec 0 k); [|lia]. destruct (Z.leb_spec k 30); [|lia]. split; reflexivity.
Qed.
Lemma ws_uplink base pdch m : ws_conf base pdch -> 1 <= m < 256 ->
  let w := egprs_window_size base pdch m in ws_meaning (ws_field_ul w) = Some 64.
Proof.
  intros W H w. destruct (ws_legal base pdch m W H) as (D & _). fold w in D. clearbody w.
  unfold ws_field_ul. rewrite <- Znumtheory.Zmod_div_mod by (try lia; exists 8; reflexivity).
  rewrite D. reflexivity.
Qed.
Lemma ws_mono base pdch a b : ws_conf base pdch -> 1 <= a < 256 -> 1 <= b < 256 ->
  (slot_count a <= slot_count b)%nat -> egprs_window_size base pdch a <= egprs_window_size base pdch b.
Proof.
  intros W A B L. rewrite !ws_eq by assumption. destruct W as [U V].
  assert (M : ws_limit (slot_count a) <= ws_limit (slot_count b)).
  { pose proof (count_cases a A) as CA. pose proof (count_cases b B) as CB. cbn [In] in CA, CB. revert L.
    repeat (destruct CA as [<-|CA]; [repeat (destruct CB as [<-|CB]; [cbn; lia|]); destruct CB|]). destruct CA. }
  assert (D : (base + Z.of_nat (slot_count a) * pdch) / 32 <= (base + Z.of_nat (slot_count b) * pdch) / 32).
  { apply Z.div_le_mono; [lia|]. nia. }
  lia.
Qed.

(** * C51 *)
Lemma highest_le mask n : 0 <= highest mask n <= Z.of_nat n.
Proof. induction n as [|n IH]; [cbn; lia|]. cbn [highest]. destruct (Z.testbit mask (Z.of_nat n)); lia. Qed.
Lemma highest_bit mask n : highest mask n = 0 \/ Z.testbit mask (highest mask n - 1) = true.
Proof.
  induction n as [|n IH]; [left; reflexivity|]. cbn [highest].
  destruct (Z.testbit mask (Z.of_nat n)) eqn:E; [|exact IH]. right.
  replace (Z.of_nat (S n) - 1) with (Z.of_nat n) by lia. exact E.
Qed.
Lemma highest_max mask n k : 1 <= k <= Z.of_nat n -> Z.testbit mask (k - 1) = true -> k <= highest mask n.
Proof.
  induction n as [|n IH]; intros K T; [lia|]. cbn [highest].
  destruct (Z.testbit mask (Z.of_nat n)) eqn:E; [lia|].
  destruct (Z.eq_dec k (Z.of_nat (S n))) as [->|Q].
  - replace (Z.of_nat (S n) - 1) with (Z.of_nat n) in T by lia. congruence.
  - apply IH; [lia|exact T].
Qed.

(** The state follows from what was said last. *)
Definition mask_cs (cs : Z) := Z.lor 1 (Z.land cs 15).
Definition cinv (os : list confop) (s : vty * bconf) : Prop :=
  let '(y, b) := s in
  y_max_cs y = limit_cs os /\ y_max_mcs y = limit_mcs os /\
  (told os = true ->
   b_cs_mask b = mask_cs (fst (last_flags os (0, 0))) /\ b_mcs_mask b = Z.land (snd (last_flags os (0, 0))) 511 /\
   b_max_cs b = recalc_max (b_cs_mask b) (y_max_cs y) /\ b_max_mcs b = recalc_max (b_mcs_mask b) (y_max_mcs y)).

Lemma last_limit_app m os o d : last_limit m (os ++ o) d = last_limit m o (last_limit m os d).
Proof. revert d. induction os as [|x os IH]; intro d; [reflexivity|]. destruct x; cbn [last_limit app]; apply IH. Qed.
Lemma last_flags_app os o d : last_flags (os ++ o) d = last_flags o (last_flags os d).
Proof. revert d. induction os as [|x os IH]; intro d; [reflexivity|]. destruct x; cbn [last_flags app]; apply IH. Qed.
Lemma told_app os o : told (os ++ o) = told os || told o.
Proof. unfold told. apply existsb_app. Qed.

Lemma cinv_step os o s : cinv os s -> cinv (os ++ [o]) (conf_step o s).
Proof.
  destruct s as [y b]. unfold cinv, limit_cs, limit_mcs. rewrite !last_limit_app, last_flags_app, told_app.
  intros (A & B & C). destruct o; cbn [conf_step last_limit last_flags told existsb orb y_max_cs y_max_mcs];
    rewrite ?orb_false_r, ?orb_true_r.
  all: try (split; [first [reflexivity|exact A]|split; [first [reflexivity|exact B]|]]).
  all: try (intro T; destruct (C T) as (D & E & F & G);
    cbn [recalc_max_cs recalc_max_mcs recalc_ini_cs recalc_ini_mcs b_cs_mask b_mcs_mask b_max_cs b_max_mcs y_max_cs y_max_mcs];
    repeat split; assumption || reflexivity).
  intros _. cbn. repeat split; reflexivity.
Qed.
Lemma conf_run_app os o : conf_run (os ++ [o]) = conf_step o (conf_run os).
Proof. unfold conf_run. rewrite fold_left_app. reflexivity. Qed.
Lemma cinv_run os : cinv os (conf_run os).
Proof.
  induction os as [|o os IH] using rev_ind.
  - cbn. split; [reflexivity|]. split; [reflexivity|]. discriminate.
  - rewrite conf_run_app. apply cinv_step, IH.
Qed.

Lemma mask_cs_bit cs k : 0 <= k -> Z.testbit (mask_cs cs) k = (k =? 0) || ((k <=? 3) && Z.testbit cs k).
Proof.
  intro K. unfold mask_cs. rewrite Z.lor_spec, Z.land_spec.
  change 15 with (Z.ones 4). rewrite Z.testbit_ones_nonneg by lia.
  assert (E : Z.testbit 1 k = (k =? 0)).
  { destruct (Z.eqb_spec k 0) as [->|N]; [reflexivity|]. change 1 with (2 ^ 0). apply Z.pow2_bits_false. lia. }
  rewrite E. destruct (Z.eqb_spec k 0); [reflexivity|]. cbn [orb].
  destruct (Z.leb_spec k 3), (Z.ltb_spec k 4); try lia; rewrite ?andb_true_r, ?andb_false_r; reflexivity.
Qed.
Lemma mask_mcs_bit mcs k : 0 <= k -> Z.testbit (Z.land mcs 511) k = (k <=? 8) && Z.testbit mcs k.
Proof.
  intro K. rewrite Z.land_spec. change 511 with (Z.ones 9). rewrite Z.testbit_ones_nonneg by lia.
  destruct (Z.leb_spec k 8), (Z.ltb_spec k 9); try lia; rewrite ?andb_true_r, ?andb_false_r; reflexivity.
Qed.

Lemma ann_cs cs mcs c : In c [CS1; CS2; CS3; CS4] -> (announced cs mcs c <-> Z.testbit (mask_cs cs) (number c - 1) = true).
Proof.
  intro I. rewrite mask_cs_bit by (destruct I as [<-|[<-|[<-|[<-|[]]]]]; cbn; lia). unfold announced.
  destruct I as [<-|[<-|[<-|[<-|[]]]]]; cbn [number is_cs]; cbn [Z.sub Z.eqb Z.leb orb andb]; split; intro H;
    try (split; [discriminate|]); try tauto; try (destruct H as [_ [H|H]]; [discriminate|exact H]).
Qed.
Lemma ann_mcs cs mcs c : In c all_mcs -> (announced cs mcs c <-> Z.testbit (Z.land mcs 511) (number c - 1) = true).
Proof.
  intro I. unfold announced. cbn [all_mcs In] in I.
  repeat (destruct I as [<-|I]; [
    rewrite mask_mcs_bit by (cbn; lia); cbn [number is_cs]; cbn [Z.sub Z.leb andb]; split; intro H;
    [destruct H as [_ [H|H]]; [discriminate|exact H]|split; [discriminate|right; exact H]]|]).
  destruct I.
Qed.

Lemma limit_rng m hi os d : (forall o, In o os -> conf_ok o) -> (if m : bool then hi = 9 else hi = 4) ->
  0 <= p_dl d <= hi /\ 0 <= p_ul d <= hi ->
  0 <= p_dl (last_limit m os d) <= hi /\ 0 <= p_ul (last_limit m os d) <= hi.
Proof.
  intros C HI. revert d. induction os as [|o os IH]; intros d D; [exact D|].
  assert (C' : forall o, In o os -> conf_ok o) by (intros; apply C; right; assumption).
  pose proof (C o (or_introl eq_refl)) as O.
  destruct o; cbn [last_limit]; apply (IH C'); try exact D; destruct m; try exact D; subst hi;
    cbn [p_dl p_ul]; unfold conf_ok, in_rng in O; lia.
Qed.
Lemma maxima os : (forall o, In o os -> conf_ok o) -> told os = true ->
  let b := snd (conf_run os) in
  let ann := announced (fst (last_flags os (0, 0))) (snd (last_flags os (0, 0))) in
  highest_number ann [CS1; CS2; CS3; CS4] (p_dl (limit_cs os)) (p_dl (b_max_cs b)) /\
  highest_number ann [CS1; CS2; CS3; CS4] (p_ul (limit_cs os)) (p_ul (b_max_cs b)) /\
  highest_number ann all_mcs (p_dl (limit_mcs os)) (p_dl (b_max_mcs b)) /\
  highest_number ann all_mcs (p_ul (limit_mcs os)) (p_ul (b_max_mcs b)).
Proof.
  intros C T. cbv zeta. pose proof (cinv_run os) as I. destruct (conf_run os) as [y b]. cbn [snd].
  destruct I as (A & B & I). destruct (I T) as (D & E & F & G). rewrite F, G, D, E, A, B. clear - C.
  pose proof (limit_rng false 4 os (mk2 4 4) C eq_refl ltac:(cbn; lia)) as R. fold (limit_cs os) in R.
  pose proof (limit_rng true 9 os (mk2 9 9) C eq_refl ltac:(cbn; lia)) as Q. fold (limit_mcs os) in Q.
  set (cs := fst (last_flags os (0, 0))). set (mcs := snd (last_flags os (0, 0))). clearbody cs mcs.
  assert (X : forall l, 0 <= l <= 4 ->
    highest_number (announced cs mcs) [CS1; CS2; CS3; CS4] l (highest (mask_cs cs) (Z.to_nat l))).
  { intros l L. pose proof (highest_le (mask_cs cs) (Z.to_nat l)) as HL. split.
    - destruct (highest_bit (mask_cs cs) (Z.to_nat l)) as [Z0|Z0]; [left; exact Z0|].
      destruct (Z.eq_dec (highest (mask_cs cs) (Z.to_nat l)) 0) as [W|W]; [left; exact W|]. right.
      assert (exists c, In c [CS1; CS2; CS3; CS4] /\ number c = highest (mask_cs cs) (Z.to_nat l)) as (c & IC & NC).
      { assert (V : highest (mask_cs cs) (Z.to_nat l) = 1 \/ highest (mask_cs cs) (Z.to_nat l) = 2 \/
          highest (mask_cs cs) (Z.to_nat l) = 3 \/ highest (mask_cs cs) (Z.to_nat l) = 4) by lia.
        destruct V as [V|[V|[V|V]]]; rewrite V; [exists CS1|exists CS2|exists CS3|exists CS4]; split; cbn; tauto. }
      exists c. split; [exact IC|]. split; [apply ann_cs; [exact IC|]; rewrite NC; exact Z0|]. split; [exact NC|lia].
    - intros c IC AC N. apply highest_max; [|apply (ann_cs cs mcs); assumption].
      destruct IC as [<-|[<-|[<-|[<-|[]]]]]; cbn [number] in *; lia. }
  assert (Y : forall l, 0 <= l <= 9 ->
    highest_number (announced cs mcs) all_mcs l (highest (Z.land mcs 511) (Z.to_nat l))).
  { intros l L. pose proof (highest_le (Z.land mcs 511) (Z.to_nat l)) as HL. split.
    - destruct (highest_bit (Z.land mcs 511) (Z.to_nat l)) as [Z0|Z0]; [left; exact Z0|].
      destruct (Z.eq_dec (highest (Z.land mcs 511) (Z.to_nat l)) 0) as [W|W]; [left; exact W|]. right.
      set (h := highest (Z.land mcs 511) (Z.to_nat l)) in *.
      assert (exists c, In c all_mcs /\ number c = h) as (c & IC & NC).
      { assert (V : h = 1 \/ h = 2 \/ h = 3 \/ h = 4 \/ h = 5 \/ h = 6 \/ h = 7 \/ h = 8 \/ h = 9) by lia.
        destruct V as [V|[V|[V|[V|[V|[V|[V|[V|V]]]]]]]]; rewrite V;
          [exists MCS1|exists MCS2|exists MCS3|exists MCS4|exists MCS5|exists MCS6|exists MCS7|exists MCS8|exists MCS9];
          split; cbn; tauto. }
      exists c. split; [exact IC|]. split; [apply ann_mcs; [exact IC|]; rewrite NC; exact Z0|]. split; [exact NC|lia].
    - intros c IC AC N. apply highest_max; [|apply (ann_mcs cs mcs); assumption].
      cbn [all_mcs In] in IC. repeat (destruct IC as [<-|IC]; [cbn [number] in *; lia|]). destruct IC. }
  splits; cbn [recalc_max p_dl p_ul]; [apply X|apply X|apply Y|apply Y]; lia.
Qed.
Lemma supported os c : (forall o, In o os -> conf_ok o) -> told os = true -> c <> UNKNOWN ->
  let b := snd (conf_run os) in
  let mx := if is_cs c then p_dl (b_max_cs b) else p_dl (b_max_mcs b) in
  exists r, cs_dl_is_supported b c = Some r /\
  (r = true <-> announced (fst (last_flags os (0, 0))) (snd (last_flags os (0, 0))) c /\ number c <= mx + 1).
Proof.
  intros C T U. cbv zeta. pose proof (cinv_run os) as I. destruct (conf_run os) as [y b]. cbn [snd].
  destruct I as (A & B & I). destruct (I T) as (D & E & _). clear I A B.
  unfold cs_dl_is_supported. rewrite D, E. clear D E C T.
  set (cs := fst (last_flags os (0, 0))). set (mcs := snd (last_flags os (0, 0))). clearbody cs mcs.
  assert (V : mcs_is_valid c = true) by (destruct c; try reflexivity; contradiction). rewrite V. cbn [negb]. cbv zeta.
  eexists. split; [reflexivity|].
  assert (Q : mcs_is_gprs c = is_cs c) by (destruct c; reflexivity).
  assert (N : mcs_chan_code c = number c - 1) by (destruct c; try reflexivity; contradiction).
  rewrite Q, N. destruct (is_cs c) eqn:IC.
  - rewrite andb_true_iff, Z.leb_le, <- (ann_cs cs mcs) by (destruct c; try discriminate; cbn; tauto).
    split; intros [X Y]; (split; [|]); try assumption; lia.
  - rewrite andb_true_iff, Z.leb_le, <- (ann_mcs cs mcs) by (destruct c; try discriminate; try contradiction; cbn; tauto).
    split; intros [X Y]; (split; [|]); try assumption; lia.
Qed.

(** * C37 *)
(** Finite: all modes, schemes and maxima. *)
Definition fitsb (k : mkind) (a m : Z) (c : scheme) : bool :=
  existsb (seqb c) (ladder k) && (number c <=? top k a m).
Lemma seqb_eq a b : seqb a b = true <-> a = b.
Proof. split; [destruct a, b; try discriminate; reflexivity|intros ->; destruct b; reflexivity]. Qed.
Lemma fitsb_iff k a m c : fitsb k a m c = true <-> fits k a m c.
Proof.
  unfold fitsb, fits. rewrite andb_true_iff, Z.leb_le, existsb_exists. split; intros [L T]; (split; [|exact T]).
  - destruct L as (x & I & E). apply seqb_eq in E. subst x. exact I.
  - exists c. split; [exact L|]. apply seqb_eq. reflexivity.
Qed.
Definition everywhere (p : mkind -> Z -> Z -> scheme -> bool) : bool :=
  forallb (fun k => forallb (fun a => forallb (fun m => forallb (p k a m) all_schemes)
    [0; 1; 2; 3; 4; 5; 6; 7; 8; 9]) [0; 1; 2; 3; 4]) [GPRS; EGPRS_GMSK; EGPRS].
Lemma everywhere_ok p : everywhere p = true -> forall k a m c, 0 <= a <= 4 -> 0 <= m <= 9 -> p k a m c = true.
Proof.
  intros E k a m c A M. unfold everywhere in E. rewrite forallb_forall in E.
  assert (K : In k [GPRS; EGPRS_GMSK; EGPRS]) by (destruct k; cbn; tauto). specialize (E k K). cbv beta in E.
  rewrite forallb_forall in E. specialize (E a ltac:(cbn [In]; lia)). cbv beta in E.
  rewrite forallb_forall in E. specialize (E m ltac:(cbn [In]; lia)). cbv beta in E.
  rewrite forallb_forall in E. apply E. destruct c; cbn; tauto.
Qed.
Lemma inc_fits k a m c : fits k a m c -> snum c < snum (ms_max_cs k c a m) -> 0 <= a <= 4 -> 0 <= m <= 9 ->
  fits k a m (mcs_inc_kind c k).
Proof.
  intros F S A M.
  assert (E : everywhere (fun k a m c => negb (fitsb k a m c && (snum c <? snum (ms_max_cs k c a m))) ||
    fitsb k a m (mcs_inc_kind c k)) = true) by (vm_compute; reflexivity).
  pose proof (everywhere_ok _ E k a m c A M) as P. cbv beta in P. apply fitsb_iff in F. apply Z.ltb_lt in S.
  rewrite F, S in P. apply fitsb_iff. exact P.
Qed.
Lemma dec_fits k a m c : fits k a m c -> 0 <= a <= 4 -> 0 <= m <= 9 -> fits k a m (mcs_dec_kind c k).
Proof.
  intros F A M.
  assert (E : everywhere (fun k a m c => negb (fitsb k a m c) || fitsb k a m (mcs_dec_kind c k)) = true) by (vm_compute; reflexivity).
  pose proof (everywhere_ok _ E k a m c A M) as P. cbv beta in P. apply fitsb_iff in F. rewrite F in P.
  apply fitsb_iff. exact P.
Qed.
Lemma max_known k a m c : fits k a m c -> 0 <= a <= 4 -> 0 <= m <= 9 -> ms_max_cs k c a m <> UNKNOWN.
Proof.
  intros F A M X.
  assert (E : everywhere (fun k a m c => negb (fitsb k a m c) || negb (seqb (ms_max_cs k c a m) UNKNOWN)) = true) by (vm_compute; reflexivity).
  pose proof (everywhere_ok _ E k a m c A M) as P. cbv beta in P. apply fitsb_iff in F. rewrite F, X in P. discriminate P.
Qed.
Lemma gprs_num n : 1 <= n <= 4 -> In (mcs_get_gprs_by_num n) (ladder GPRS) /\ number (mcs_get_gprs_by_num n) = n.
Proof.
  intro H. assert (V : n = 1 \/ n = 2 \/ n = 3 \/ n = 4) by lia.
  destruct V as [->|[->|[->| ->]]]; cbn; tauto.
Qed.
Lemma egprs_num n : 0 <= n <= 9 -> let c := or_first (mcs_get_egprs_by_num n) MCS1 in
  In c all_mcs /\ number c = Z.max 1 n.
Proof.
  intro H. assert (V : n = 0 \/ n = 1 \/ n = 2 \/ n = 3 \/ n = 4 \/ n = 5 \/ n = 6 \/ n = 7 \/ n = 8 \/ n = 9) by lia.
  repeat (destruct V as [->|V]; [cbn; tauto|]). subst n; cbn; tauto.
Qed.
Lemma gmsk_num n : 0 <= n <= 4 -> let c := or_first (mcs_get_egprs_by_num n) MCS1 in
  In c (ladder EGPRS_GMSK) /\ number c = Z.max 1 n.
Proof.
  intro H. assert (V : n = 0 \/ n = 1 \/ n = 2 \/ n = 3 \/ n = 4) by lia.
  repeat (destruct V as [->|V]; [cbn; tauto|]). subst n; cbn; tauto.
Qed.

Lemma fits_valid k a m c : fits k a m c -> c <> UNKNOWN.
Proof. intros [L _] ->. destruct k; cbn in L; intuition discriminate. Qed.
Lemma err_ok q b now rate m : sound b -> within b m ->
  exists m', update_error_rate q b now rate m = Some m' /\ within b m'.
Proof.
  intros (SD & SU) (WD & WU). destruct SD as (A & _ & M & _).
  pose proof (max_known _ _ _ _ WD A M) as K.
  pose proof (dec_fits _ _ _ _ WD A M) as DEC.
  unfold update_error_rate. cbv zeta.
  pose proof (fun S => inc_fits _ _ _ _ WD S A M) as INC.
  destruct (ms_max_cs (s_mode m) (s_cs_dl m) (p_dl (b_max_cs b)) (p_dl (b_max_mcs b))) eqn:E; try congruence.
  all: destruct (rate <? 0); [eexists; split; [reflexivity|split; assumption]|].
  all: destruct (l_upper q <? rate); [destruct (0 <? mcs_chan_code (s_cs_dl m)); eexists; (split; [reflexivity|]);
         split; cbn [s_mode s_cs_dl s_cs_ul]; assumption|].
  all: destruct (rate <? l_lower q); [|eexists; split; [reflexivity|split; cbn [s_mode s_cs_dl s_cs_ul]; assumption]].
  all: match goal with |- context [snum ?a <? snum ?c] => destruct (Z.ltb_spec (snum a) (snum c)) as [L|L] end;
    [destruct (1000 <? now - s_notlow m)|]; eexists; (split; [reflexivity|]);
    split; cbn [s_mode s_cs_dl s_cs_ul]; try assumption; apply INC; exact L.
Qed.
Lemma meas_ok q b lq m : sound b -> within b m -> within b (update_l1_meas q b lq m).
Proof.
  intros (SD & SU) W. pose proof W as (WD & WU). destruct SU as (A & _ & M & _).
  assert (X : within b (update_cs_ul q b lq m)).
  { pose proof (dec_fits _ _ _ _ WU A M) as DEC. pose proof (fun S => inc_fits _ _ _ _ WU S A M) as INC.
    unfold update_cs_ul. cbv zeta.
    set (mx := ms_max_cs (s_mode m) (s_cs_ul m) (p_ul (b_max_cs b)) (p_ul (b_max_mcs b))) in *. clearbody mx.
    destruct lq as [new|]; [|destruct mx; try exact W; destruct (s_cs_ul m); exact W].
    assert (G : forall cur (lh : Z * Z), within b (let '(low, high) := lh in
      mk_st (s_mode m) (if (new <? low) && (cur <? low) then mcs_dec_kind (s_cs_ul m) (s_mode m)
        else if (high <? new) && (high <? cur) && (snum (s_cs_ul m) <? snum mx) then mcs_inc_kind (s_cs_ul m) (s_mode m)
        else s_cs_ul m) (s_cs_dl m) (s_eclass m) (s_nack m) (s_notlow m) (s_qual m))).
    { intros cur [lo hi]. split; cbn [s_mode s_cs_dl s_cs_ul]; [assumption|].
      destruct ((new <? lo) && (cur <? lo)); [assumption|].
      destruct (Z.ltb_spec (snum (s_cs_ul m)) (snum mx)); [|rewrite andb_false_r; assumption].
      destruct ((hi <? new) && (hi <? cur)); cbn [andb]; [apply INC; assumption|assumption]. }
    destruct mx; try exact W; destruct (s_cs_ul m); try exact W; apply G. }
  unfold update_l1_meas. destruct lq; [|exact X]. destruct X as [X1 X2]. split; cbn [s_mode s_cs_dl s_cs_ul]; assumption.
Qed.

Lemma pick_ok b k m : sound b ->
  (k <> GPRS -> 1 <= p_ul (b_max_mcs b) /\ 1 <= p_dl (b_max_mcs b)) ->
  (k = EGPRS_GMSK -> p_ul (b_max_mcs b) <= 4 /\ p_dl (b_max_mcs b) <= 4) ->
  (mcs_is_edge (s_cs_dl m) = true -> number (s_cs_dl m) <= p_dl (b_max_mcs b)) ->
  (mcs_is_edge (s_cs_ul m) = true -> number (s_cs_ul m) <= p_ul (b_max_mcs b)) ->
  (mcs_is_gprs (s_cs_dl m) = true -> number (s_cs_dl m) <= top GPRS (p_dl (b_max_cs b)) 0) ->
  (mcs_is_gprs (s_cs_ul m) = true -> number (s_cs_ul m) <= top GPRS (p_ul (b_max_cs b)) 0) ->
  within b (set_mode b k m).
Proof.
  intros (SD & SU) M1 M4 ED EU GD GU.
  assert (G : forall cur mc ic mm im, sound1 mc ic mm im -> (k <> GPRS -> 1 <= mm) -> (k = EGPRS_GMSK -> mm <= 4) ->
    (mcs_is_edge cur = true -> number cur <= mm) -> (mcs_is_gprs cur = true -> number cur <= top GPRS mc 0) ->
    fits k mc mm (match k with
      | GPRS => if mcs_is_gprs cur then cur else or_first (mcs_get_gprs_by_num ic) CS1
      | EGPRS_GMSK => if mcs_is_edge_gmsk cur then cur else or_first (mcs_get_egprs_by_num im) MCS1
      | EGPRS => if mcs_is_edge cur then cur else or_first (mcs_get_egprs_by_num im) MCS1 end)).
  { intros cur mc ic mm im (A & B & C & D) H1 H4 E F. unfold fits, top.
    destruct k.
    - destruct (mcs_is_gprs cur) eqn:Q.
      + split; [destruct cur; try discriminate Q; cbn; tauto|]. apply F. reflexivity.
      + destruct (gprs_num ic ltac:(lia)) as [I N]. unfold or_first.
        destruct (mcs_is_valid (mcs_get_gprs_by_num ic)); [split; [exact I|rewrite N]|split; [cbn; tauto|cbn]];
        destruct (Z.eqb_spec mc 0); lia.
    - specialize (H4 eq_refl). specialize (H1 ltac:(discriminate)). destruct (mcs_is_edge_gmsk cur) eqn:Q.
      + split; [destruct cur; try discriminate Q; cbn; tauto|].
        assert (number cur <= 4) by (destruct cur; try discriminate Q; cbn; lia).
        assert (number cur <= mm) by (apply E; destruct cur; try discriminate Q; reflexivity). lia.
      + destruct (gmsk_num im ltac:(lia)) as [I N]. split; [exact I|rewrite N; lia].
    - specialize (H1 ltac:(discriminate)). destruct (mcs_is_edge cur) eqn:Q.
      + split; [destruct cur; try discriminate Q; cbn; tauto|]. apply E. reflexivity.
      + destruct (egprs_num im ltac:(lia)) as [I N]. split; [exact I|rewrite N; lia]. }
  unfold within, set_mode. cbv zeta. cbn [s_mode s_cs_dl s_cs_ul]. split; apply G; try assumption;
    intro K; first [apply M1 in K|apply M4 in K]; lia.
Qed.
Lemma within_nums b m : within b m ->
  (mcs_is_edge (s_cs_dl m) = true -> number (s_cs_dl m) <= p_dl (b_max_mcs b)) /\
  (mcs_is_edge (s_cs_ul m) = true -> number (s_cs_ul m) <= p_ul (b_max_mcs b)) /\
  (mcs_is_gprs (s_cs_dl m) = true -> number (s_cs_dl m) <= top GPRS (p_dl (b_max_cs b)) 0) /\
  (mcs_is_gprs (s_cs_ul m) = true -> number (s_cs_ul m) <= top GPRS (p_ul (b_max_cs b)) 0).
Proof.
  intros [[LD TD] [LU TU]]. unfold top in *. destruct (s_mode m); cbn [ladder all_mcs In] in LD, LU; splits; intro E;
    try assumption; try lia; exfalso; intuition (subst; try congruence);
    repeat match goal with H : _ = s_cs_dl m |- _ => rewrite <- H in E | H : _ = s_cs_ul m |- _ => rewrite <- H in E end;
    discriminate E.
Qed.
Lemma edge_gmsk_num n : 0 <= n <= 9 -> mcs_is_edge_gmsk (mcs_get_egprs_by_num n) = true -> n <= 4.
Proof.
  intros H. assert (V : n = 0 \/ n = 1 \/ n = 2 \/ n = 3 \/ n = 4 \/ n = 5 \/ n = 6 \/ n = 7 \/ n = 8 \/ n = 9) by lia.
  repeat (destruct V as [->|V]; [cbn; intro Q; try discriminate Q; lia|]). subst n; cbn; discriminate.
Qed.
Lemma class_ok b cl m : sound b -> within b m -> within b (set_egprs_class b cl m).
Proof.
  intros S W. unfold set_egprs_class. destruct (cl =? s_eclass m); [exact W|]. cbv zeta.
  destruct (Z.eqb_spec (p_ul (b_max_mcs b)) 0) as [U|U]; cbn [orb]; [destruct W as [X Y]; split; cbn; assumption|].
  destruct (Z.eqb_spec (p_dl (b_max_mcs b)) 0) as [D|D]; [destruct W as [X Y]; split; cbn; assumption|].
  destruct (within_nums b m W) as (N1 & N2 & N3 & N4).
  pose proof S as ((_ & _ & SD & _) & (_ & _ & SU & _)).
  match goal with |- context [if ?c then _ else _] => destruct c eqn:E end.
  - apply andb_true_iff in E. destruct E as [E _]. apply andb_true_iff in E. destruct E as [E1 E2].
    apply edge_gmsk_num in E1; [|exact SU]. apply edge_gmsk_num in E2; [|exact SD].
    apply pick_ok; try assumption; try (intros _; lia).
  - apply pick_ok; try assumption; try (intros _; lia); discriminate.
Qed.
Lemma alloc_ok b now : sound b -> within b (ms_alloc b now).
Proof.
  intro S. apply pick_ok; try assumption; cbn [s_cs_dl s_cs_ul]; intro K; try discriminate K; try (exfalso; apply K; reflexivity).
Qed.
Lemma la_fixed q y b os m : sound b -> conf_fixed os -> within b m ->
  exists m', la_run q os ((y, b), m) = Some ((y, b), m') /\ within b m'.
Proof.
  intros S. revert m. induction os as [|o os IH]; intros m F W; [exists m; split; [reflexivity|exact W]|].
  assert (F' : conf_fixed os) by (intros c I; apply (F c); right; exact I).
  destruct o; cbn [la_run la_step snd].
  - destruct (err_ok q b now rate m S W) as (m' & E & W'). rewrite E. apply IH; assumption.
  - apply IH; [exact F'|]. apply meas_ok; assumption.
  - apply IH; [exact F'|]. apply class_ok; assumption.
  - exfalso. apply (F o). left. reflexivity.
Qed.
