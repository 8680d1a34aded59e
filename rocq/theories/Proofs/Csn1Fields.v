(** What the decoded uplink control message says. *)
From Coq Require Import ZArith List Bool Lia.
Import ListNotations.
From Verif Require Import Model.Csn1 Model.Csn1Tables Spec.UlControlSpec Proofs.Csn1Check Proofs.Csn1Ul.
Open Scope Z_scope.

(** ** Fields of bits *)
Lemma high_bit x k : 0 <= x < 256 -> 8 <= k -> Z.testbit x k = false.
Proof.
  intros X K. destruct (Z.eq_dec x 0) as [->|N]; [apply Z.bits_0|].
  apply Z.bits_above_log2; [lia|]. apply Z.lt_le_trans with 8; [apply Z.log2_lt_pow2; lia|lia].
Qed.

Lemma number_cons_bits m : octets m -> 0 <= number m < 2 ^ (8 * Z.of_nat (length m)) /\
  forall i, 0 <= i < 8 * Z.of_nat (length m) -> Z.testbit (number m) (8 * Z.of_nat (length m) - 1 - i) = bit_of m i.
Proof.
  unfold number. induction m as [|x m IH] using rev_ind; intro O.
  - cbn. split; [lia|intros; lia].
  - apply Forall_app in O as [O1 O2]. inversion O2 as [|? ? X _]; subst. specialize (IH O1). destruct IH as [R B].
    rewrite fold_left_app, app_length. cbn [fold_left length]. set (N := fold_left _ m 0) in *.
    rewrite Nat2Z.inj_add. change (Z.of_nat 1) with 1. set (L := Z.of_nat (length m)) in *.
    assert (L0 : 0 <= L) by lia.
    assert (HX : forall k, 8 <= k -> Z.testbit x k = false) by (intros k K; apply high_bit; lia).
    assert (E : 256 * N + x = Z.lor (Z.shiftl N 8) x).
    { assert (D : Z.land (Z.shiftl N 8) x = 0).
      { apply Z.bits_inj'. intros k K. rewrite Z.land_spec, Z.bits_0. destruct (Z.lt_ge_cases k 8) as [C|C].
        - rewrite Z.shiftl_spec_low by lia. reflexivity.
        - rewrite HX by lia. apply andb_false_r. }
      rewrite <- (Z.lxor_lor _ _ D), <- (Z.add_nocarry_lxor _ _ D), Z.shiftl_mul_pow2 by lia. change (2 ^ 8) with 256. lia. }
    split.
    + replace (8 * (L + 1)) with (8 * L + 8) by lia. rewrite Z.pow_add_r by lia. change (2 ^ 8) with 256. nia.
    + intros i I. rewrite E, Z.lor_spec, Z.shiftl_spec by lia.
      unfold bit_of. destruct (Z.lt_ge_cases i (8 * L)) as [C|C].
      * replace (8 * (L + 1) - 1 - i - 8) with (8 * L - 1 - i) by lia. rewrite B by lia.
        rewrite HX by lia.
        rewrite orb_false_r. unfold bit_of. rewrite app_nth1; [reflexivity|].
        apply Nat2Z.inj_lt. rewrite Z2Nat.id by (apply Z.div_pos; lia). apply Z.div_lt_upper_bound; lia.
      * rewrite Z.testbit_neg_r by lia. cbn [orb].
        assert (D : i / 8 = L) by (symmetry; apply Z.div_unique with (i - 8 * L); lia).
        rewrite D. subst L. rewrite Nat2Z.id, app_nth2 by lia. rewrite Nat.sub_diag. cbn [nth].
        f_equal. rewrite Z.mod_eq, D by lia. lia.
Qed.

Section Bits.
Variable m : list Z.
Notation v := (bit_of m).
Notation n := (8 * Z.of_nat (length m)).

Lemma rfield_bits k : forall i j, 0 <= j < Z.of_nat k -> Z.testbit (rfield v n k i) j = (0 <? rbit v n (i + Z.of_nat k - 1 - j)).
Proof.
  induction k; intros i j J; [lia|].
  cbn [rfield]. pose proof (rfield_range v n k (i + 1)) as R.
  rewrite Nat2Z.inj_succ in *.
  assert (B : rbit v n i = 0 \/ rbit v n i = 1). { unfold rbit. destruct (_ && _); [destruct (v i)|]; cbn; lia. }
  set (K := Z.of_nat k) in *.
  assert (E : forall b, b = 0 \/ b = 1 -> Z.testbit (2 ^ K * b + rfield v n k (i + 1)) j =
     if j =? K then 0 <? b else Z.testbit (rfield v n k (i + 1)) j).
  { intros b Bb. destruct (j =? K) eqn:C.
    - apply Z.eqb_eq in C. subst j. rewrite Z.testbit_eqb by lia.
      replace (2 ^ K * b + rfield v n k (i + 1)) with (rfield v n k (i + 1) + b * 2 ^ K) by lia.
      rewrite Z.div_add by lia. rewrite Z.div_small by lia. destruct Bb; subst b; reflexivity.
    - apply Z.eqb_neq in C. rewrite !Z.testbit_eqb by lia.
      replace (2 ^ K) with (2 ^ (K - 1 - j) * 2 * 2 ^ j) by (rewrite <- Z.mul_assoc, <- Z.pow_succ_r, <- Z.pow_add_r by lia; f_equal; lia).
      replace (2 ^ (K - 1 - j) * 2 * 2 ^ j * b + rfield v n k (i + 1)) with (rfield v n k (i + 1) + (2 ^ (K - 1 - j) * b * 2) * 2 ^ j) by lia.
      rewrite Z.div_add by (apply Z.pow_nonzero; lia).
      now rewrite Z.mod_add by lia. }
  rewrite E by exact B. destruct (j =? K) eqn:C.
  - apply Z.eqb_eq in C. subst j. f_equal. f_equal. lia.
  - apply Z.eqb_neq in C. rewrite IHk by lia. f_equal. f_equal. lia.
Qed.

Lemma rfield_field k i : octets m -> 0 <= i -> 0 <= k -> i + k <= n -> rfield v n (Z.to_nat k) i = field m i k.
Proof.
  intros O I K L. unfold field. destruct (number_cons_bits m O) as [R B].
  pose proof (rfield_range v n (Z.to_nat k) i) as RR. rewrite Z2Nat.id in RR by lia.
  apply Z.bits_inj'. intros j J. destruct (Z.lt_ge_cases j k) as [C|C].
  - rewrite rfield_bits by lia. rewrite Z.mod_pow2_bits_low by lia. rewrite Z.div_pow2_bits by lia.
    rewrite Z2Nat.id by lia. unfold rbit.
    replace (0 <=? i + k - 1 - j) with true by (symmetry; apply Z.leb_le; lia).
    replace (i + k - 1 - j <? n) with true by (symmetry; apply Z.ltb_lt; lia). cbn [andb].
    rewrite <- B by lia. replace (n - 1 - (i + k - 1 - j)) with (j + (n - i - k)) by lia.
    now destruct (Z.testbit _ _).
  - rewrite Z.mod_pow2_bits_high by lia.
    destruct (Z.eq_dec (rfield v n (Z.to_nat k) i) 0) as [E|E]; [rewrite E; apply Z.bits_0|].
    apply Z.bits_above_log2; [lia|]. apply Z.lt_le_trans with k; [apply Z.log2_lt_pow2; lia|lia].
Qed.
End Bits.

(** ** Steps of a decoding that succeeds *)
Fixpoint stm (k : nat) (f : Z -> Z) (o x : Z) : Z -> Z :=
  match k with O => f | S j => stm j (fun a => if a =? o then x mod 256 else f a) (o + 1) (x / 256) end.

(** Memory, position and number of bits left. *)
Definition st (s : state) (f : Z -> Z) (i r : Z) : Prop := mem s = f /\ rd s = i /\ rem s = r.

Lemma store_st k : forall s o x, mem (store k s o x) = stm k (mem s) o x /\ rd (store k s o x) = rd s /\ rem (store k s o x) = rem s.
Proof. induction k; intros s o x; cbn [store stm]; [auto|]. destruct (IHk (setm s o x) (o + 1) (x / 256)) as (A & B & C). now rewrite A, B, C. Qed.
Lemma put_st w k s o x f i r : st s f i r -> st (put w k s o x) (stm k f o x) i r.
Proof. intros (A & B & C). unfold put. destruct (store_st k (log s w o (Z.of_nat k)) o x) as (D & E & F). unfold st. rewrite D, E, F. cbn. now rewrite A, B, C. Qed.

Lemma put8_st w s o x f i r : st s f i r -> st (put8 w s o x) (stm 1 f o x) i r.
Proof. apply put_st. Qed.
Lemma less_st s k f i r : st s f i r -> st (less s k) f i (r - k).
Proof. intros (A & B & C). unfold st. cbn. now rewrite A, B, C. Qed.

Lemma rem256' x : (x mod 256) mod 256 = x mod 256.
Proof. apply Z.mod_mod. lia. Qed.

Section Steps.
Variable v : Z -> bool.
Variable n : Z.
Notation dec := (dec v n).
Notation run := (run v n dec).
Definition fld (i b : Z) : Z := rfield v n (Z.to_nat b) i.

Lemma Go_inj a b : Go a = Go b -> a = b.
Proof. congruence. Qed.

Definition plain (e : entry) : bool := match e with NextExist _ _ _ _ => false | _ => true end.

Lemma run_go e r base w s s' : plain e = true -> run 0 (e :: r) base w s = Go s' ->
  exists s1, dec e base w s = Go s1 /\ 0 <= rem s1 /\ run 0 r base w s1 = Go s'.
Proof.
  intros P H. assert (E : run 0 (e :: r) base w s =
    match dec e base w s with Go s1 => if rem s1 <? 0 then Stop ERROR_NEED_MORE_BITS s1 else run 0 r base w s1 | x => x end).
  { destruct e; try discriminate P; reflexivity. }
  rewrite E in H. destruct (dec e base w s) as [s1|c s1|s1]; try discriminate H.
  destruct (rem s1 <? 0) eqn:R; [discriminate H|]. apply Z.ltb_ge in R. eauto.
Qed.

Lemma run_nil_go base w s s' : run 0 [] base w s = Go s' -> s' = s.
Proof. cbn. destruct (_ <? 0); congruence. Qed.

Lemma table_go l base w s s' : table v n dec l base w s = Go s' -> run 0 l base w s = Go s'.
Proof. unfold table. destruct (_ <? 0); congruence. Qed.

Lemma uint_go b off cap base w s s1 f i r : st s f i r -> dec (Uint false b off cap) base w s = Go s1 -> 0 <= b <= 32 ->
  exists x, x = fld i b /\ 0 <= x < 2 ^ b /\ b <= r /\ st s1 (stm (uint_bytes b) f (base + off) x) (i + b) (r - b).
Proof.
  intros S H B. cbn [Csn1.dec] in H. unfold dec_uint in H. pose proof S as (A & I & R).
  destruct (b <=? rem s) eqn:E; [|discriminate H]. apply Z.leb_le in E.
  replace (b <=? 32) with true in H by (symmetry; apply Z.leb_le; lia).
  unfold take in H. injection H as <-. exists (fld i b). unfold fld. rewrite <- I.
  split; [reflexivity|]. split.
  { pose proof (rfield_range v n (Z.to_nat b) (rd s)) as RR. now rewrite Z2Nat.id in RR by lia. }
  split; [lia|].
  assert (S1 : st (skip_bits s b) f (i + b) r). { unfold st. cbn. now rewrite A, I, R. }
  rewrite I. apply less_st, put_st. exact S1.
Qed.

Lemma bit_go off cap base w s s1 f i r : st s f i r -> dec (Bit false off cap) base w s = Go s1 ->
  exists x, x = fld i 1 /\ 0 <= x < 2 ^ 1 /\ 1 <= r /\ st s1 (stm 1 f (base + off) x) (i + 1) (r - 1).
Proof.
  intros S H. cbn [Csn1.dec] in H. unfold dec_bit in H. pose proof S as (A & I & R).
  destruct (0 <? rem s) eqn:E; [|discriminate H]. apply Z.ltb_lt in E.
  unfold take in H. injection H as <-. exists (fld i 1). unfold fld. rewrite <- I.
  split; [reflexivity|]. split; [apply (rfield_range v n 1 (rd s))|]. split; [lia|].
  assert (S1 : st (skip_bits s 1) f (i + 1) r). { unfold st. cbn. now rewrite A, I, R. }
  rewrite I. apply less_st, put8_st. exact S1.
Qed.

Lemma typ_go off cap sub base w s s1 : dec (Typ false off cap sub) base w s = Go s1 ->
  run 0 sub (base + off) (inter w (base + off) (base + off + cap)) s = Go s1.
Proof. intro H. apply table_go. exact H. Qed.

Lemma ne_go null k off cap r base w s s' f i rr : st s f i rr -> run 0 (NextExist null k off cap :: r) base w s = Go s' -> 0 < rr ->
  exists x s1, x = fld i 1 /\ 0 <= x < 2 /\ 
    let e := if x =? 0 then false else if rr =? 1 then negb (forallb may_be_null (firstn k r)) else true in
    st s1 (stm 1 f (base + off) (if e then 1 else 0)) (i + 1) (rr - 1) /\ run (if e then O else k) r base w s1 = Go s'.
Proof.
  intros S H RR. pose proof S as (A & I & R). cbn [Csn1.run] in H. unfold dec_next_exist in H.
  replace (rem s =? 0) with false in H by (symmetry; apply Z.eqb_neq; lia). rewrite andb_false_r in H.
  unfold take in H. set (x := rfield v n (Z.to_nat 1) (rd s)) in *.
  set (nul := if x =? 0 then true else if rem s =? 1 then forallb may_be_null (firstn k r) else false) in *.
  match type of H with (if ?c then _ else _) = _ => destruct c; [discriminate H|] end.
  exists x. eexists. split; [unfold fld, x; now rewrite I|]. split; [apply (rfield_range v n 1 (rd s))|].
  assert (E : (if x =? 0 then false else if rr =? 1 then negb (forallb may_be_null (firstn k r)) else true) = negb nul).
  { subst nul. rewrite R. destruct (x =? 0); [reflexivity|]. now destruct (rr =? 1). }
  cbv zeta. rewrite E. split; [|].
  2: { replace (if negb nul then 0%nat else k) with (if nul then k else 0%nat) by (now destruct nul). exact H. }
  assert (S1 : st (skip_bits s 1) f (i + 1) rr). { unfold st. cbn. now rewrite A, I, R. }
  replace (if negb nul then 1 else 0) with (if nul then 0 else 1) by (now destruct nul).
  apply less_st, put8_st. exact S1.
Qed.

(** A union of two. *)
Lemma union2_go off cap a b base w s s' f i r : st s f i r -> dec (Union off cap [a; b]) base w s = Go s' ->
  exists x s1, x = fld i 1 /\ 0 <= x < 2 /\ st s1 (stm 1 f (base + off) x) (i + 1) (r - 1) /\
    dec_alt v n dec (if x =? 0 then a else b) base w s1 = Go s'.
Proof.
  intros S H. pose proof S as (A & I & R). cbn [Csn1.dec] in H. unfold union_index, take in H.
  change (ix_bits (Z.of_nat (length [a; b]))) with 1 in H. change ((Z.of_nat (length [a; b]) <=? 0) || (16 <? Z.of_nat (length [a; b]))) with false in H. cbv iota in H.
  set (x := rfield v n (Z.to_nat 1) (rd s)) in *. pose proof (rfield_range v n 1 (rd s)) as RR. change (0 <= x < 2) in RR.
  rewrite (Z.mod_small x 256) in H by lia.
  exists x. eexists. split; [unfold fld, x; now rewrite I|]. split; [exact RR|].
  assert (S1 : st (less (skip_bits s 1) 1) f (i + 1) (r - 1)). { unfold st. cbn. now rewrite A, I, R. }
  split; [apply put_st with (w := inter w (base + off) (base + off + cap)) (k := 1%nat) (o := base + off) (x := x); exact S1|].
  assert (C : x = 0 \/ x = 1) by lia. destruct C as [->| ->]; exact H.
Qed.

Lemma alt_uint_go null b off cap base w s s1 f i r : st s f i r -> dec_alt v n dec (Uint null b off cap) base w s = Go s1 -> 0 <= b <= 32 ->
  exists x, x = fld i b /\ 0 <= x < 2 ^ b /\ b <= r /\ st s1 (stm (uint_bytes b) f (base + off) x) (i + b) (r - b).
Proof.
  intros S H B. cbn [dec_alt] in H. destruct (b <=? rem s); [|discriminate H].
  now apply (uint_go b off cap base w s s1 f i r S H B).
Qed.

Lemma alt_typ_go off cap sub base w s s1 : dec_alt v n dec (Typ false off cap sub) base w s = Go s1 ->
  run 0 sub (base + off) (inter w (base + off) (base + off + cap)) s = Go s1.
Proof. apply typ_go. Qed.

(** A choice between 0 and 1. *)
Lemma choice2_go off cap a b base w s s' f i r : st s f i r -> dec (Choice off cap [(1, 0, a); (1, 1, b)]) base w s = Go s' ->
  exists x s1, x = fld i 1 /\ 0 <= x < 2 /\ st s1 (stm 1 f (base + off) x) (i + 1) (r - 1) /\
    dec (if x =? 0 then a else b) base w s1 = Go s'.
Proof.
  intros S H. pose proof S as (A & I & R). cbn [Csn1.dec choose] in H. unfold take in H.
  set (x := rfield v n (Z.to_nat 1) (rd s)) in *. pose proof (rfield_range v n 1 (rd s)) as RR. change (0 <= x < 2) in RR.
  rewrite (Z.mod_small x 256) in H by lia.
  assert (S1 : st (skip_bits s 1) f (i + 1) r). { unfold st. cbn. now rewrite A, I, R. }
  assert (G : forall j, exists s1, s1 = less (put8 (inter w (base + off) (base + off + cap)) (skip_bits s 1) (base + off) j) 1 /\ st s1 (stm 1 f (base + off) j) (i + 1) (r - 1)).
  { intro j. eexists. split; [reflexivity|].
    apply less_st, put8_st. exact S1. }
  exists x. assert (C : x = 0 \/ x = 1) by lia. destruct C as [C|C]; rewrite C in H |- *; cbn [Z.eqb] in H; cbv iota in H; rewrite ?Pos.eqb_refl in H.
  - destruct (G 0) as (s1 & E1 & G1). exists s1. change (0 =? 0) with true. cbv iota.
    rewrite <- E1 in H. destruct (rem s1 <? 0); [discriminate H|].
    split; [unfold fld; rewrite <- I; now symmetry|]. split; [lia|]. split; [exact G1|].
    destruct (dec a base w s1) as [s2|c s2|s2]; try discriminate H. destruct (rem s2 <? 0); [discriminate H|]. destruct (_ <? 0); [discriminate H|congruence].
  - destruct (G 1) as (s1 & E1 & G1). exists s1. change (1 =? 0) with false. cbv iota.
    change (0 + 1) with 1 in H.
    rewrite <- E1 in H. destruct (rem s1 <? 0); [discriminate H|].
    split; [unfold fld; rewrite <- I; now symmetry|]. split; [lia|]. split; [exact G1|].
    destruct (dec b base w s1) as [s2|c s2|s2]; try discriminate H. destruct (rem s2 <? 0); [discriminate H|]. destruct (_ <? 0); [discriminate H|congruence].
Qed.

(** Octets one after the other. *)
Fixpoint stocts (k : nat) (f : Z -> Z) (o : Z) (i : Z) : Z -> Z :=
  match k with O => f | S j => stocts j (fun a => if a =? o then fld i 8 mod 256 else f a) (o + 1) (i + 8) end.
Lemma octets_in_st w k : forall s o f i r, st s f i r ->
  st (octets_in v n k 8 w o s) (stocts k f o i) (i + 8 * Z.of_nat k) r.
Proof.
  induction k; intros s o f i r Hs; cbn [octets_in stocts].
  - rewrite Z.add_0_r. exact Hs.
  - unfold take. replace (i + 8 * Z.of_nat (S k)) with (i + 8 + 8 * Z.of_nat k) by lia. apply IHk.
    destruct Hs as (A & I & R). unfold st. cbn. rewrite A, I, R. auto.
Qed.
Lemma stocts_other k : forall f o i a, a < o \/ o + Z.of_nat k <= a -> stocts k f o i a = f a.
Proof.
  induction k; intros f o i a L; cbn [stocts]; [reflexivity|].
  rewrite IHk by lia. replace (a =? o) with false by (symmetry; apply Z.eqb_neq; lia). reflexivity.
Qed.
Lemma stocts_at k : forall f o i j, 0 <= j < Z.of_nat k -> stocts k f o i (o + j) = fld (i + 8 * j) 8.
Proof.
  assert (M : forall i, fld i 8 mod 256 = fld i 8). { intro i. apply Z.mod_small. apply (rfield_range v n 8 i). }
  induction k; intros f o i j J; [lia|]. cbn [stocts]. destruct (Z.eq_dec j 0) as [->|N].
  - rewrite stocts_other by lia. rewrite Z.add_0_r, Z.eqb_refl, M. f_equal. lia.
  - replace (o + j) with (o + 1 + (j - 1)) by lia. rewrite IHk by lia. f_equal. lia.
Qed.

Lemma bitmap64_go off cap base w s s1 f i r : st s f i r -> dec (Bitmap 64 off cap) base w s = Go s1 ->
  64 <= r /\ st s1 (stocts 8 f (base + off) i) (i + 64) (r - 64).
Proof.
  intros S H. cbn [Csn1.dec] in H. unfold dec_bitmap in H. pose proof S as (A & I & R).
  change (0 <? 64) with true in H. cbv iota in H. destruct (rem s <? 64) eqn:E; [discriminate H|]. apply Z.ltb_ge in E.
  change (64 <=? 32) with false in H. change (64 <=? 64) with true in H. cbv iota in H. apply Go_inj in H. subst s1.
  split; [lia|]. apply less_st. apply (octets_in_st _ 8). exact S.
Qed.

(** The rest of a table leaves the bytes below [lo] alone. *)
Lemma left_rest_go cnt off cap base w s s1 f i k : st s f i (8 * Z.of_nat k) -> 0 < 8 * Z.of_nat k < 256 -> dec (LeftBmp true cnt 0 off cap) base w s = Go s1 ->
  st s1 (stocts k (stm 1 f (base + cnt) (8 * Z.of_nat k)) (base + off) i) (i + 8 * Z.of_nat k) 0.
Proof.
  intros S K H. cbn [Csn1.dec] in H. unfold dec_left_bmp in H. cbv zeta in H. pose proof S as (A & I & R).
  assert (N : get8 (put8 w s (base + cnt) (rem s)) (base + cnt) + 0 = 8 * Z.of_nat k).
  { unfold get8, put8, put. cbn -[Z.mul]. rewrite Z.eqb_refl, R, rem256', Z.mod_small by lia. lia. }
  rewrite N in H. replace (0 <? 8 * Z.of_nat k) with true in H by (symmetry; apply Z.ltb_lt; lia). cbv iota in H.
  pose proof (less_st _ (8 * Z.of_nat k) _ _ _ (put8_st w _ (base + cnt) (rem s) _ _ _ S)) as S2. rewrite Z.sub_diag in S2.
  destruct (rem _ <? 0); [discriminate H|].
  replace (8 * Z.of_nat k mod 8) with 0 in H by (rewrite Z.mul_comm, Z.mod_mul; lia).
  replace (8 * Z.of_nat k / 8) with (Z.of_nat k) in H by (rewrite Z.mul_comm, Z.div_mul; lia).
  rewrite Nat2Z.id in H. cbv iota in H. change (0 <? 0) with false in H. cbv iota in H. apply Go_inj in H. subst s1. rewrite R in *.
  apply octets_in_st. exact S2.
Qed.

Lemma keeps_at lo l base w s s' : chk_run lo UL_SIZE false (fun _ => 255) (chk lo UL_SIZE false (fun _ => 255)) None l base w = true ->
  run 0 l base w s = Go s' -> forall a, a < lo -> mem s' a = mem s a.
Proof.
  intros C H a L.
  assert (F : fine lo UL_SIZE false (fun _ => 255) (mem s) (acc s) (run 0 l base w s)).
  { apply run_ok with (prev := None); [|exact C| |].
    - apply Forall_forall. intros e _. apply dec_sound.
    - split; [intro b; pose proof (Z.mod_pos_bound (mem s b) 256); lia|].
      split; [exists []; split; [reflexivity|constructor]|reflexivity].
    - split; [lia|exact Logic.I]. }
  rewrite H in F. destruct F as (_ & _ & F). apply F. lia.
Qed.
Lemma tail_keeps lo l w s s' : chk_run lo UL_SIZE false (fun _ => 255) (chk lo UL_SIZE false (fun _ => 255)) None l 0 w = true ->
  run 0 l 0 w s = Go s' -> forall a, a < lo -> mem s' a = mem s a.
Proof. apply keeps_at. Qed.
End Steps.

Lemma rem256 x : (x mod 256) mod 256 = x mod 256.
Proof. apply Z.mod_mod. lia. Qed.
Lemma le16 x : 0 <= x < 2 ^ 16 -> x mod 256 + 256 * (x / 256 mod 256) = x.
Proof. intro H. change (2 ^ 16) with 65536 in H. Z.div_mod_to_equations; lia. Qed.
Lemma le32 x : 0 <= x < 2 ^ 32 ->
  x mod 256 + 256 * (x / 256 mod 256) + 65536 * (x / 256 / 256 mod 256 + 256 * (x / 256 / 256 / 256 mod 256)) = x.
Proof.
  intro H. change (2 ^ 32) with (65536 * 65536) in H.
  assert (x / 256 / 256 / 256 mod 256 = x / 256 / 256 / 256).
  { apply Z.mod_small. split; [repeat apply Z.div_pos; lia|]. repeat (apply Z.div_lt_upper_bound; [lia|]). lia. }
  Z.div_mod_to_equations; lia.
Qed.
