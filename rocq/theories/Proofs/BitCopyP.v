(** Unaligned copies, bit by bit. *)
From Coq Require Import ZArith List Bool Lia.
From Verif Require Import Base.Arith Model.CodingScheme Model.RlcCps Model.UlParse Model.BitCopy Spec.UlParseSpec Spec.BitSpec.
Import ListNotations.
Local Open Scope Z_scope.

Lemma octets_nth l i : octets l -> 0 <= nth i l 0 < 256.
Proof.
  intros O. destruct (Nat.lt_ge_cases i (length l)) as [L|L]; [|rewrite nth_overflow by lia; lia].
  unfold octets in O. rewrite Forall_forall in O. apply O. apply nth_In. exact L.
Qed.
Lemma high_bit x j : 0 <= x < 256 -> 8 <= j -> Z.testbit x j = false.
Proof.
  intros A B. destruct (Z.eq_dec x 0) as [->|N]; [apply Z.bits_0|]. apply Z.bits_above_log2; [lia|].
  assert (Z.log2 x < 8) by (apply Z.log2_lt_pow2; lia). lia.
Qed.
Lemma mod256_bit x j : Z.testbit (x mod 256) j = if (0 <=? j) && (j <? 8) then Z.testbit x j else false.
Proof.
  change 256 with (2 ^ 8). destruct (j <? 8) eqn:E.
  - apply Z.ltb_lt in E. destruct (0 <=? j) eqn:E0; cbn [andb].
    + apply Z.leb_le in E0. apply Z.mod_pow2_bits_low. lia.
    + apply Z.leb_gt in E0. apply Z.testbit_neg_r. lia.
  - apply Z.ltb_ge in E. rewrite andb_false_r. apply Z.mod_pow2_bits_high. lia.
Qed.

(** ** Reading *)
Lemma shift_down_nth extra : forall n src last out, shift_down extra last n src = Some out ->
  length out = n /\ forall k, (k < n)%nat -> nth k out 0 =
    Z.lor (Z.shiftr (nth k (last :: src) 0) extra) (Z.shiftl (nth k src 0) (8 - extra) mod 256).
Proof.
  induction n as [|n IH]; intros src last out E; cbn [shift_down] in E.
  - injection E as <-. split; [reflexivity|]. intros; lia.
  - destruct src as [|c src]; [discriminate|]. destruct (shift_down extra c n src) as [r|] eqn:R; [|discriminate].
    injection E as <-. destruct (IH _ _ _ R) as [I1 I2]. split; [cbn [length]; lia|].
    intros k K. destruct k as [|k]; [reflexivity|]. cbn [nth]. rewrite I2 by lia. reflexivity.
Qed.
Lemma shift_down_some extra : forall n src last, (n <= length src)%nat -> exists out, shift_down extra last n src = Some out.
Proof.
  induction n as [|n IH]; intros src last L; cbn [shift_down]; [eauto|].
  destruct src as [|c src]; [cbn [length] in L; lia|]. destruct (IH src c) as [r ->]; [cbn [length] in L; lia|]. eauto.
Qed.
Lemma down_bit a b extra j : 0 < extra < 8 -> 0 <= j < 8 -> 0 <= a < 256 -> 0 <= b < 256 ->
  Z.testbit (Z.lor (Z.shiftr a extra) (Z.shiftl b (8 - extra) mod 256)) j
  = if j + extra <? 8 then Z.testbit a (j + extra) else Z.testbit b (j + extra - 8).
Proof.
  intros E J A B. rewrite Z.lor_spec, Z.shiftr_spec, mod256_bit, Z.shiftl_spec by lia.
  replace ((0 <=? j) && (j <? 8)) with true by (symmetry; apply andb_true_intro; split; [apply Z.leb_le|apply Z.ltb_lt]; lia).
  replace (j - (8 - extra)) with (j + extra - 8) by lia.
  destruct (j + extra <? 8) eqn:L.
  - apply Z.ltb_lt in L. rewrite (Z.testbit_neg_r b) by lia. apply orb_false_r.
  - apply Z.ltb_ge in L. rewrite (high_bit a) by lia. reflexivity.
Qed.
Lemma nth_skipn {A} (d : A) : forall n k l, nth k (skipn n l) d = nth (n + k) l d.
Proof.
  induction n as [|n IH]; intros k l; [reflexivity|]. destruct l; [destruct k; reflexivity|]. cbn [skipn plus nth]. apply IH.
Qed.
Lemma nth_firstn_lt {A} (d : A) : forall n k l, (k < n)%nat -> nth k (firstn n l) d = nth k l d.
Proof.
  induction n as [|n IH]; intros k l K; [lia|]. destruct l; [destruct k; reflexivity|]. destruct k; [reflexivity|].
  cbn [firstn nth]. apply IH. lia.
Qed.
Lemma div8 a b : 0 <= b < 8 -> (8 * a + b) / 8 = a /\ (8 * a + b) mod 8 = b.
Proof. intros B. Z.div_mod_to_equations. lia. Qed.

Lemma copy_to_ok offs n src : octets src -> 0 <= offs -> needs offs n <= num src ->
  exists out, copy_to_aligned offs n src = Some out /\ length out = n /\ octets out /\
    forall k, 0 <= k < 8 * Z.of_nat n -> bit out k = bit src (offs + k).
Proof.
  intros OC O N. unfold copy_to_aligned, needs, num in *.
  set (h := offs / 8) in *. set (e := offs mod 8) in *.
  assert (OF : offs = 8 * h + e) by (subst h e; Z.div_mod_to_equations; lia).
  assert (E8 : 0 <= e < 8) by (subst e; apply Z.mod_pos_bound; lia).
  assert (H0 : 0 <= h) by (subst h; apply Z.div_pos; lia). clearbody h e. subst offs.
  assert (N1 : h + Z.of_nat n + (if e =? 0 then 0 else 1) <= Z.of_nat (length src)).
  { destruct (e =? 0) eqn:E0; [apply Z.eqb_eq in E0|apply Z.eqb_neq in E0]; Z.div_mod_to_equations; lia. }
  destruct (e =? 0) eqn:E0.
  - apply Z.eqb_eq in E0. subst e. rewrite skipn_length. destruct (_ <? _)%nat eqn:L; [apply Nat.ltb_lt in L; lia|].
    eexists. split; [reflexivity|]. split; [rewrite firstn_length, skipn_length; lia|]. split.
    { unfold octets in *. rewrite Forall_forall in *. intros x I. apply OC.
      rewrite <- (firstn_skipn (Z.to_nat h) src). apply in_app_iff. right.
      rewrite <- (firstn_skipn n (skipn _ src)). apply in_app_iff. left. exact I. }
    intros k K. unfold bit. pose proof (Z.div_mod k 8 ltac:(lia)) as DM. pose proof (Z.mod_pos_bound k 8 ltac:(lia)) as MB.
    set (q := k / 8) in *. set (j := k mod 8) in *. clearbody q j. subst k.
    replace (8 * h + 0 + (8 * q + j)) with (8 * (h + q) + j) by lia.
    destruct (div8 (h + q) j MB) as [D1 D2]. rewrite D1, D2. rewrite nth_firstn_lt, nth_skipn by lia. do 2 f_equal. lia.
  - apply Z.eqb_neq in E0. destruct (skipn (Z.to_nat h) src) as [|last s'] eqn:SK.
    { apply (f_equal (@length Z)) in SK. rewrite skipn_length in SK. cbn [length] in SK. lia. }
    assert (LS : (n <= length s')%nat). { apply (f_equal (@length Z)) in SK. rewrite skipn_length in SK. cbn [length] in SK. lia. }
    destruct (shift_down_some e n s' last LS) as [out R]. rewrite R. exists out.
    destruct (shift_down_nth _ _ _ _ _ R) as [L NT].
    assert (NS : forall k, nth k (last :: s') 0 = nth (Z.to_nat h + k) src 0) by (intros k; rewrite <- SK; apply nth_skipn).
    split; [reflexivity|]. split; [exact L|]. 
    assert (NR : forall k, (k < n)%nat -> forall j, 0 <= j < 8 -> Z.testbit (nth k out 0) j =
       if j + e <? 8 then Z.testbit (nth (Z.to_nat h + k) src 0) (j + e) else Z.testbit (nth (Z.to_nat h + S k) src 0) (j + e - 8)).
    { intros k K j J. rewrite NT by lia. change (nth k s' 0) with (nth (S k) (last :: s') 0). rewrite !NS.
      apply down_bit; auto; try lia; apply octets_nth; exact OC. }
    split.
    + unfold octets. apply Forall_forall. intros x I. apply In_nth with (d := 0) in I. destruct I as (k & K & <-).
      rewrite NT by lia.
      assert (A1 : 0 <= nth k (last :: s') 0 < 256) by (rewrite NS; apply octets_nth; exact OC).
      assert (A2 : 0 <= Z.shiftl (nth k s' 0) (8 - e) mod 256 < 256) by (apply Z.mod_pos_bound; lia).
      assert (A3 : 0 <= Z.shiftr (nth k (last :: s') 0) e < 256).
      { rewrite Z.shiftr_div_pow2 by lia. split; [apply Z.div_pos; lia|]. apply Z.div_lt_upper_bound; [lia|].
        assert (1 <= 2 ^ e) by (change 1 with (2 ^ 0); apply Z.pow_le_mono_r; lia). nia. }
      split; [apply Z.lor_nonneg; lia|].
      set (a := Z.shiftr _ _) in *. set (b := _ mod 256) in *. clearbody a b.
      destruct (Z.eq_dec (Z.lor a b) 0) as [->|NZ]; [lia|].
      assert (0 <= Z.lor a b) by (apply Z.lor_nonneg; lia).
      change 256 with (2 ^ 8). apply Z.log2_lt_pow2; [lia|]. rewrite Z.log2_lor by lia.
      assert (Z.log2 a < 8 /\ Z.log2 b < 8); [|lia].
      split; (match goal with |- Z.log2 ?x < 8 => destruct (Z.eq_dec x 0) as [->|]; [cbn; lia|apply Z.log2_lt_pow2; lia] end).
    + intros k K. unfold bit. pose proof (Z.div_mod k 8 ltac:(lia)) as DM. pose proof (Z.mod_pos_bound k 8 ltac:(lia)) as MB.
      set (q := k / 8) in *. set (j := k mod 8) in *. clearbody q j. subst k. rewrite NR by lia.
      destruct (j + e <? 8) eqn:LT.
      * apply Z.ltb_lt in LT. replace (8 * h + e + (8 * q + j)) with (8 * (h + q) + (j + e)) by lia.
        destruct (div8 (h + q) (j + e) ltac:(lia)) as [D1 D2]. rewrite D1, D2. do 2 f_equal. lia.
      * apply Z.ltb_ge in LT. replace (8 * h + e + (8 * q + j)) with (8 * (h + q + 1) + (j + e - 8)) by lia.
        destruct (div8 (h + q + 1) (j + e - 8) ltac:(lia)) as [D1 D2]. rewrite D1, D2. do 2 f_equal. lia.
Qed.

(** ** Writing *)
Lemma shift_up_nth e : forall buf dst last, (length buf < length dst)%nat ->
  exists r, shift_up e last buf dst = Some r /\ length r = length dst /\ forall k, nth k r 0 =
    if (k <? length buf)%nat then Z.lor (Z.shiftr (nth k (last :: buf) 0) (8 - e)) (Z.shiftl (nth k buf 0) e) mod 256
    else if (k =? length buf)%nat then Z.lor (Z.land (nth k dst 0) (Z.shiftl 0xff e)) (Z.shiftr (nth k (last :: buf) 0) (8 - e)) mod 256
    else nth k dst 0.
Proof.
  induction buf as [|c buf IH]; intros dst last L; (destruct dst as [|d dst]; [cbn [length] in L; lia|]); cbn [shift_up].
  - eexists. split; [reflexivity|]. split; [reflexivity|]. intros k. destruct k; reflexivity.
  - destruct (IH dst c) as (r & -> & LR & NT); [cbn [length] in L; lia|]. eexists. split; [reflexivity|].
    split; [cbn [length]; lia|]. intros k. destruct k as [|k]; [reflexivity|]. cbn [nth length]. rewrite NT.
    change (S k <? S (length buf))%nat with (k <? length buf)%nat. change (S k =? S (length buf))%nat with (k =? length buf)%nat.
    reflexivity.
Qed.
Lemma up_bit a b e j : 0 < e < 8 -> 0 <= j < 8 -> 0 <= a < 256 ->
  Z.testbit (Z.lor (Z.shiftr a (8 - e)) (Z.shiftl b e) mod 256) j
  = if j <? e then Z.testbit a (j + 8 - e) else Z.testbit b (j - e).
Proof.
  intros E J A. rewrite mod256_bit.
  replace ((0 <=? j) && (j <? 8)) with true by (symmetry; apply andb_true_intro; split; [apply Z.leb_le|apply Z.ltb_lt]; lia).
  rewrite Z.lor_spec, Z.shiftr_spec, Z.shiftl_spec by lia. replace (j + (8 - e)) with (j + 8 - e) by lia.
  destruct (j <? e) eqn:L.
  - apply Z.ltb_lt in L. rewrite (Z.testbit_neg_r b) by lia. apply orb_false_r.
  - apply Z.ltb_ge in L. rewrite (high_bit a) by lia. reflexivity.
Qed.
Lemma ff_bit e j : 0 < e < 8 -> 0 <= j < 8 -> Z.testbit (Z.shiftl 0xff e) j = negb (j <? e).
Proof.
  intros E J. rewrite Z.shiftl_spec by lia. destruct (j <? e) eqn:L; cbn [negb].
  - apply Z.ltb_lt in L. apply Z.testbit_neg_r. lia.
  - apply Z.ltb_ge in L. change 0xff with (Z.ones 8). apply Z.ones_spec_low. lia.
Qed.
Lemma end_bit d a e j : 0 < e < 8 -> 0 <= j < 8 -> 0 <= a < 256 ->
  Z.testbit (Z.lor (Z.land d (Z.shiftl 0xff e)) (Z.shiftr a (8 - e)) mod 256) j
  = if j <? e then Z.testbit a (j + 8 - e) else Z.testbit d j.
Proof.
  intros E J A. rewrite mod256_bit.
  replace ((0 <=? j) && (j <? 8)) with true by (symmetry; apply andb_true_intro; split; [apply Z.leb_le|apply Z.ltb_lt]; lia).
  rewrite Z.lor_spec, Z.land_spec, Z.shiftr_spec, ff_bit by lia. replace (j + (8 - e)) with (j + 8 - e) by lia.
  destruct (j <? e) eqn:L; cbn [negb].
  - rewrite andb_false_r. reflexivity.
  - apply Z.ltb_ge in L. rewrite (high_bit a) by lia. rewrite andb_true_r, orb_false_r. reflexivity.
Qed.

Lemma nth_app_l {A} (d : A) a b k : (k < length a)%nat -> nth k (a ++ b) d = nth k a d.
Proof. intros L. apply app_nth1. exact L. Qed.

Lemma octets_app a b : octets (a ++ b) <-> octets a /\ octets b.
Proof. apply Forall_app. Qed.
Lemma octets_sub l (P : list Z) : octets l -> (forall x, In x P -> In x l) -> octets P.
Proof. unfold octets. rewrite !Forall_forall. intros A B x I. apply A, B, I. Qed.

Lemma copy_from_ok offs buf dst : octets buf -> octets dst -> 0 <= offs -> needs offs (length buf) <= num dst ->
  exists d', copy_from_aligned offs buf dst = Some d' /\ length d' = length dst /\ octets d' /\
    forall i, 0 <= i -> bit d' i =
      if (offs <=? i) && (i <? offs + 8 * num buf) then bit buf (i - offs) else bit dst i.
Proof.
  intros OB OC O N. unfold copy_from_aligned, needs, num in *.
  set (h := offs / 8) in *. set (e := offs mod 8) in *.
  assert (OF : offs = 8 * h + e) by (subst h e; Z.div_mod_to_equations; lia).
  assert (E8 : 0 <= e < 8) by (subst e; apply Z.mod_pos_bound; lia).
  assert (H0 : 0 <= h) by (subst h; apply Z.div_pos; lia). clearbody h e. subst offs.
  assert (N1 : h + Z.of_nat (length buf) + (if e =? 0 then 0 else 1) <= Z.of_nat (length dst)).
  { destruct (e =? 0) eqn:E0; [apply Z.eqb_eq in E0|apply Z.eqb_neq in E0]; Z.div_mod_to_equations; lia. }
  assert (N2 : h + Z.of_nat (length buf) <= Z.of_nat (length dst)) by (destruct (e =? 0); lia).
  assert (OSK : octets (skipn (Z.to_nat h) dst)).
  { apply (octets_sub dst); [exact OC|]. intros x I. rewrite <- (firstn_skipn (Z.to_nat h) dst). apply in_app_iff. right. exact I. }
  assert (OFN : octets (firstn (Z.to_nat h) dst)).
  { apply (octets_sub dst); [exact OC|]. intros x I. rewrite <- (firstn_skipn (Z.to_nat h) dst). apply in_app_iff. left. exact I. }
  assert (LF : length (firstn (Z.to_nat h) dst) = Z.to_nat h) by (rewrite firstn_length; lia).
  (* reduce to the part behind the whole octets *)
  assert (RED : forall d1, length d1 = length (skipn (Z.to_nat h) dst) -> octets d1 ->
    (forall q j, 0 <= q -> 0 <= j < 8 -> Z.testbit (nth (Z.to_nat q) d1 0) j =
       if (e <=? 8 * q + j) && (8 * q + j <? e + 8 * Z.of_nat (length buf)) then bit buf (8 * q + j - e)
       else Z.testbit (nth (Z.to_nat (h + q)) dst 0) j) ->
    exists d', Some (firstn (Z.to_nat h) dst ++ d1) = Some d' /\ length d' = length dst /\ octets d' /\
      forall i, 0 <= i -> bit d' i =
      if (8 * h + e <=? i) && (i <? 8 * h + e + 8 * Z.of_nat (length buf)) then bit buf (i - (8 * h + e)) else bit dst i).
  { intros d1 L1 O1 B1. eexists. split; [reflexivity|]. split.
    { rewrite app_length, LF, L1, skipn_length. lia. }
    split; [apply octets_app; auto|]. intros i I. unfold bit at 1 3.
    pose proof (Z.div_mod i 8 ltac:(lia)) as DM. pose proof (Z.mod_pos_bound i 8 ltac:(lia)) as MB.
    pose proof (Z.div_pos i 8 I ltac:(lia)) as DP.
    set (q := i / 8) in *. set (j := i mod 8) in *. clearbody q j. subst i.
    destruct (Z.lt_ge_cases q h) as [C|C].
    - rewrite app_nth1 by lia. rewrite nth_firstn_lt by lia.
      replace (8 * h + e <=? 8 * q + j) with false; [reflexivity|]. symmetry. apply Z.leb_gt. lia.
    - rewrite app_nth2 by lia. rewrite LF. replace (Z.to_nat q - Z.to_nat h)%nat with (Z.to_nat (q - h)) by lia.
      rewrite B1 by lia. replace (h + (q - h)) with q by lia.
      replace (e <=? 8 * (q - h) + j) with (8 * h + e <=? 8 * q + j) by (destruct (Z.leb_spec (8 * h + e) (8 * q + j)), (Z.leb_spec e (8 * (q - h) + j)); try reflexivity; exfalso; lia).
      replace (8 * (q - h) + j <? e + 8 * Z.of_nat (length buf)) with (8 * q + j <? 8 * h + e + 8 * Z.of_nat (length buf))
        by (destruct (Z.ltb_spec (8 * q + j) (8 * h + e + 8 * Z.of_nat (length buf))), (Z.ltb_spec (8 * (q - h) + j) (e + 8 * Z.of_nat (length buf))); try reflexivity; exfalso; lia).
      replace (8 * (q - h) + j - e) with (8 * q + j - (8 * h + e)) by lia. reflexivity. }
  destruct (e =? 0) eqn:E0.
  - apply Z.eqb_eq in E0. subst e. destruct (_ <? _)%nat eqn:L; [apply Nat.ltb_lt in L; rewrite skipn_length in L; lia|].
    apply RED.
    + rewrite app_length, !skipn_length. lia.
    + apply octets_app. split; [exact OB|]. apply (octets_sub _ _ OSK). intros x I.
      rewrite <- (firstn_skipn (length buf) (skipn (Z.to_nat h) dst)). apply in_app_iff. right. exact I.
    + intros q j Q J. destruct (Z.lt_ge_cases q (Z.of_nat (length buf))) as [C|C].
      * rewrite app_nth1 by lia. replace (0 <=? 8 * q + j) with true by (symmetry; apply Z.leb_le; lia).
        replace (8 * q + j <? 0 + 8 * Z.of_nat (length buf)) with true by (symmetry; apply Z.ltb_lt; lia). cbn [andb].
        unfold bit. rewrite Z.sub_0_r. destruct (div8 q j J) as [-> ->]. reflexivity.
      * rewrite app_nth2 by lia. replace (8 * q + j <? 0 + 8 * Z.of_nat (length buf)) with false by (symmetry; apply Z.ltb_ge; lia).
        rewrite andb_false_r, !nth_skipn. do 2 f_equal. lia.
  - apply Z.eqb_neq in E0.
    assert (LSK : length (skipn (Z.to_nat h) dst) = (length dst - Z.to_nat h)%nat) by apply skipn_length.
    destruct (skipn (Z.to_nat h) dst) as [|d0 ds] eqn:SK; [cbn [length] in LSK; lia|].
    assert (NS : forall q, 0 <= q -> nth (Z.to_nat q) (d0 :: ds) 0 = nth (Z.to_nat (h + q)) dst 0).
    { intros q Q. rewrite <- SK, nth_skipn. f_equal. lia. }
    rewrite <- SK in *. rewrite SK in *.
    set (last := Z.shiftl d0 (8 - e) mod 256).
    destruct (shift_up_nth e buf (d0 :: ds) last) as (r & R1 & R2 & R3); [lia|]. rewrite R1.
    assert (OL : octets (last :: buf)) by (constructor; [apply Z.mod_pos_bound; lia|exact OB]).
    apply RED; [exact R2| |].
    + unfold octets. apply Forall_forall. intros x I. apply In_nth with (d := 0) in I. destruct I as (k & K & <-). rewrite R3.
      destruct (_ <? _)%nat; [apply Z.mod_pos_bound; lia|]. destruct (_ =? _)%nat; [apply Z.mod_pos_bound; lia|].
      apply octets_nth. exact OSK.
    + intros q j Q J. rewrite R3.
      assert (LB : 0 < q -> bit buf (8 * q + j - e) = if j <? e then Z.testbit (nth (Z.to_nat (q - 1)) buf 0) (j + 8 - e) else Z.testbit (nth (Z.to_nat q) buf 0) (j - e)).
      { intros Q0. unfold bit. destruct (j <? e) eqn:JE.
        - apply Z.ltb_lt in JE. replace (8 * q + j - e) with (8 * (q - 1) + (j + 8 - e)) by lia.
          destruct (div8 (q - 1) (j + 8 - e) ltac:(lia)) as [-> ->]. reflexivity.
        - apply Z.ltb_ge in JE. replace (8 * q + j - e) with (8 * q + (j - e)) by lia.
          destruct (div8 q (j - e) ltac:(lia)) as [-> ->]. reflexivity. }
      assert (LZ : q = 0 -> e <= j -> bit buf (8 * q + j - e) = Z.testbit (nth (Z.to_nat q) buf 0) (j - e)).
      { intros -> JE. unfold bit. replace (8 * 0 + j - e) with (8 * 0 + (j - e)) by lia. destruct (div8 0 (j - e) ltac:(lia)) as [-> ->]. reflexivity. }
      assert (AL : 0 <= nth (Z.to_nat q) (last :: buf) 0 < 256) by (apply octets_nth; exact OL).
      assert (LAST : q = 0 -> j < e -> Z.testbit (nth (Z.to_nat q) (last :: buf) 0) (j + 8 - e) = Z.testbit (nth (Z.to_nat (h + q)) dst 0) j).
      { intros -> JE. rewrite <- NS by lia. cbn [Z.to_nat nth]. unfold last. rewrite mod256_bit.
        replace ((0 <=? j + 8 - e) && (j + 8 - e <? 8)) with true by (symmetry; apply andb_true_intro; split; [apply Z.leb_le|apply Z.ltb_lt]; lia).
        rewrite Z.shiftl_spec by lia. f_equal. lia. }
      assert (PREV : 0 < q -> nth (Z.to_nat q) (last :: buf) 0 = nth (Z.to_nat (q - 1)) buf 0).
      { intros Q0. replace (Z.to_nat q) with (S (Z.to_nat (q - 1))) by lia. reflexivity. }
      destruct (Nat.ltb_spec (Z.to_nat q) (length buf)) as [C|C].
      * rewrite up_bit by (auto; lia).
        replace (8 * q + j <? e + 8 * Z.of_nat (length buf)) with true by (symmetry; apply Z.ltb_lt; lia). rewrite andb_true_r.
        destruct (Z.eq_dec q 0) as [Q0|Q0].
        -- destruct (Z.ltb_spec j e) as [JE|JE].
           ++ replace (e <=? 8 * q + j) with false by (symmetry; apply Z.leb_gt; lia). apply LAST; lia.
           ++ replace (e <=? 8 * q + j) with true by (symmetry; apply Z.leb_le; lia). rewrite LZ by lia. reflexivity.
        -- replace (e <=? 8 * q + j) with true by (symmetry; apply Z.leb_le; lia). rewrite LB, PREV by lia.
           destruct (j <? e); reflexivity.
      * destruct (Nat.eqb_spec (Z.to_nat q) (length buf)) as [C2|C2].
        -- rewrite end_bit by (auto; lia). rewrite NS by lia.
           destruct (Z.ltb_spec j e) as [JE|JE].
           ++ replace (8 * q + j <? e + 8 * Z.of_nat (length buf)) with true by (symmetry; apply Z.ltb_lt; lia). rewrite andb_true_r.
              destruct (Z.eq_dec q 0) as [Q0|Q0].
              ** replace (e <=? 8 * q + j) with false by (symmetry; apply Z.leb_gt; lia). apply LAST; lia.
              ** replace (e <=? 8 * q + j) with true by (symmetry; apply Z.leb_le; lia). rewrite LB, PREV by lia.
                 replace (j <? e) with true by (symmetry; apply Z.ltb_lt; lia). reflexivity.
           ++ replace (8 * q + j <? e + 8 * Z.of_nat (length buf)) with false by (symmetry; apply Z.ltb_ge; lia).
              rewrite andb_false_r. reflexivity.
        -- replace (8 * q + j <? e + 8 * Z.of_nat (length buf)) with false by (symmetry; apply Z.ltb_ge; lia).
           rewrite andb_false_r. rewrite NS by lia. reflexivity.
Qed.

(** ** Round trips *)
Lemma bits_ext a b : octets a -> octets b -> length a = length b ->
  (forall k, 0 <= k < 8 * num a -> bit a k = bit b k) -> a = b.
Proof.
  intros OA OB L E. apply (nth_ext _ _ 0 0 L). intros n N. apply Z.bits_inj'. intros j J.
  destruct (Z.lt_ge_cases j 8) as [C|C].
  - specialize (E (8 * Z.of_nat n + j)). unfold bit, num in E. destruct (div8 (Z.of_nat n) j ltac:(lia)) as [D1 D2].
    rewrite D1, D2, Nat2Z.id in E. apply E. lia.
  - rewrite !high_bit; auto using octets_nth.
Qed.

Lemma write_read offs buf dst : octets buf -> octets dst -> 0 <= offs -> needs offs (length buf) <= num dst ->
  exists d', copy_from_aligned offs buf dst = Some d' /\ copy_to_aligned offs (length buf) d' = Some buf.
Proof.
  intros OB OD O N. destruct (copy_from_ok offs buf dst OB OD O N) as (d' & E & L & OD' & B).
  exists d'. split; [exact E|].
  destruct (copy_to_ok offs (length buf) d' OD' O) as (out & E2 & L2 & OO & B2); [unfold num in *; lia|].
  rewrite E2. f_equal. apply bits_ext; auto. intros k K. unfold num in K. rewrite L2 in K. rewrite B2 by lia. rewrite B by lia.
  replace ((offs <=? offs + k) && (offs + k <? offs + 8 * num buf)) with true.
  - f_equal. lia.
  - symmetry. apply andb_true_intro. split; [apply Z.leb_le|apply Z.ltb_lt]; unfold num; lia.
Qed.
Lemma read_write offs n src : octets src -> 0 <= offs -> needs offs n <= num src ->
  exists out, copy_to_aligned offs n src = Some out /\ copy_from_aligned offs out src = Some src.
Proof.
  intros OS O N. destruct (copy_to_ok offs n src OS O N) as (out & E & L & OO & B).
  exists out. split; [exact E|].
  destruct (copy_from_ok offs out src OO OS O) as (d' & E2 & L2 & OD & B2); [rewrite L; exact N|].
  rewrite E2. f_equal. apply bits_ext; auto. intros k K. rewrite B2 by lia.
  destruct (_ && _) eqn:C; [|reflexivity]. apply andb_prop in C. destruct C as [C1 C2]. apply Z.leb_le in C1. apply Z.ltb_lt in C2.
  unfold num in C2. rewrite B by lia. f_equal. lia.
Qed.
Lemma two_fields o1 o2 b1 b2 dst : octets b1 -> octets b2 -> octets dst -> 0 <= o1 -> o1 + 8 * num b1 <= o2 ->
  needs o2 (length b2) <= num dst ->
  exists d1 d2, copy_from_aligned o1 b1 dst = Some d1 /\ copy_from_aligned o2 b2 d1 = Some d2 /\
    copy_to_aligned o1 (length b1) d2 = Some b1 /\ copy_to_aligned o2 (length b2) d2 = Some b2.
Proof.
  intros O1 O2 OD P D N.
  assert (N1 : needs o1 (length b1) <= num dst). { unfold needs, num in *. Z.div_mod_to_equations. lia. }
  destruct (copy_from_ok o1 b1 dst O1 OD P N1) as (d1 & E1 & L1 & OD1 & B1).
  assert (P2 : 0 <= o2) by (unfold num in D; lia).
  assert (N2 : needs o2 (length b2) <= num d1) by (unfold num in *; lia).
  destruct (copy_from_ok o2 b2 d1 O2 OD1 P2 N2) as (d2 & E2 & L2 & OD2 & B2).
  exists d1, d2. splits; auto.
  - destruct (copy_to_ok o1 (length b1) d2 OD2 P) as (out & E3 & L3 & OO & B3); [unfold num in *; lia|].
    rewrite E3. f_equal. apply bits_ext; auto. intros k K. unfold num in K. rewrite L3 in K. rewrite B3, B2, B1 by lia.
    replace (o2 <=? o1 + k) with false by (symmetry; apply Z.leb_gt; unfold num in D; lia). cbn [andb].
    replace ((o1 <=? o1 + k) && (o1 + k <? o1 + 8 * num b1)) with true.
    + f_equal. lia.
    + symmetry. apply andb_true_intro. split; [apply Z.leb_le|apply Z.ltb_lt]; unfold num; lia.
  - destruct (write_read o2 b2 d1 O2 OD1 P2 N2) as (d' & E & R). rewrite E2 in E. injection E as <-. exact R.
Qed.

(** ** The fields of every coding scheme *)
Lemma fields_all : forall c pad l,
  (data_info_init_dl c pad = Some l -> fields_ok (mcs_size_dl c) 0 l) /\
  (data_info_init_ul c pad = Some l -> fields_ok (mcs_size_ul c) 0 l).
Proof.
  intros c pad l. split; intros E; destruct c, pad; vm_compute in E; try discriminate; injection E as <-; cbn [fields_ok];
  repeat split; try discriminate.
Qed.
