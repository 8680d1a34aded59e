(** Proofs about the headers of data blocks. *)
From Coq Require Import ZArith List Bool Lia.
From Verif Require Import Base.Arith Model.CodingScheme Model.RlcCps Model.BitCopy Model.DataHeader
  Spec.UlParseSpec Spec.BitSpec Spec.CodingSpec Spec.DataHeaderSpec Proofs.BitCopyP.
Import ListNotations.
Open Scope Z_scope.

(** ** Fields *)
Lemma field_range m : forall w o, 0 <= field m o w < 2 ^ Z.of_nat w.
Proof.
  induction w as [|w IH]; intro o; [cbn; lia|]. cbn [field]. specialize (IH (o + 1)).
  rewrite Nat2Z.inj_succ, Z.pow_succ_r by lia. destruct (bit m o); lia.
Qed.
Lemma field_bits m v : forall w o, (forall k, 0 <= k < Z.of_nat w -> bit m (o + k) = Z.testbit v k) -> field m o w = v mod 2 ^ Z.of_nat w.
Proof.
  intros w. revert v. induction w as [|w IH]; intros v o B; [cbn; now rewrite Z.mod_1_r|]. cbn [field].
  rewrite (IH (v / 2) (o + 1)).
  - pose proof (B 0 ltac:(lia)) as B0. rewrite Z.add_0_r in B0. rewrite B0, Z.bit0_odd.
    rewrite Nat2Z.inj_succ, Z.pow_succ_r, Z.rem_mul_r by lia.
    rewrite Zmod_odd. destruct (Z.odd v); lia.
  - intros k K. replace (o + 1 + k) with (o + (k + 1)) by lia. rewrite B by lia. rewrite Z.div2_bits by lia. f_equal; lia.
Qed.
Lemma field_same m m' : forall w o, (forall k, 0 <= k < Z.of_nat w -> bit m' (o + k) = bit m (o + k)) -> field m' o w = field m o w.
Proof.
  induction w as [|w IH]; intros o B; [reflexivity|]. cbn [field]. pose proof (B 0 ltac:(lia)) as B0. rewrite Z.add_0_r in B0. rewrite B0.
  f_equal. f_equal. apply IH. intros k K. replace (o + 1 + k) with (o + (k + 1)) by lia. apply B. lia.
Qed.
Lemma field_app m : forall a o b, field m o (a + b) = field m o a + 2 ^ Z.of_nat a * field m (o + Z.of_nat a) b.
Proof.
  induction a as [|a IH]; intros o b; [cbn [Nat.add field]; change (Z.of_nat 0) with 0; rewrite Z.add_0_r, Z.pow_0_r; lia|].
  cbn [Nat.add field]. rewrite IH. rewrite Nat2Z.inj_succ, Z.pow_succ_r by lia.
  replace (o + 1 + Z.of_nat a) with (o + Z.succ (Z.of_nat a)) by lia. lia.
Qed.
Lemma split_mod v a b : 0 <= a -> 0 <= b -> v mod 2 ^ a + 2 ^ a * (Z.shiftr v a mod 2 ^ b) = v mod 2 ^ (a + b).
Proof.
  intros A B. rewrite Z.shiftr_div_pow2, Z.pow_add_r by lia. rewrite Z.rem_mul_r; [reflexivity|lia|]. apply Z.pow_pos_nonneg; lia.
Qed.
Lemma lor_add x y a : 0 <= a -> 0 <= x < 2 ^ a -> 0 <= y -> Z.lor x (Z.shiftl y a) = x + 2 ^ a * y.
Proof.
  intros A X Y. rewrite Z.shiftl_mul_pow2 by lia.
  assert (N : Z.land x (y * 2 ^ a) = 0); [|rewrite <- (Z.lxor_lor _ _ N), <- (Z.add_nocarry_lxor _ _ N); lia]. apply Z.bits_inj'. intros k K. rewrite Z.land_spec, Z.bits_0.
  destruct (Z.lt_ge_cases k a) as [L|L].
  - rewrite Z.mul_pow2_bits_low by lia. apply andb_false_r.
  - destruct (Z.eq_dec x 0) as [->|N]; [rewrite Z.bits_0; reflexivity|].
    rewrite Z.bits_above_log2; [reflexivity|lia|]. apply Z.log2_lt_pow2; try lia.
    apply Z.lt_le_trans with (2 ^ a); [lia|]. apply Z.pow_le_mono_r; lia.
Qed.

(** ** Writing a piece *)
Lemma put_ok : forall o f m, (o < length m)%nat -> exists m', put o f m = Some m'.
Proof. induction o as [|o IH]; intros f [|x m] L; cbn [put length] in *; try lia; [now eexists|]. destruct (IH f m) as [m' ->]; [lia|]. now eexists. Qed.
Lemma put_len : forall o f m m', put o f m = Some m' -> length m' = length m /\ (o < length m)%nat.
Proof.
  induction o as [|o IH]; intros f [|x m] m' E; cbn [put] in E; try discriminate; [injection E as <-; cbn; lia|].
  destruct (put o f m) as [m1|] eqn:P; [|discriminate]. injection E as <-. destruct (IH _ _ _ P). cbn. lia.
Qed.
Lemma put_nth : forall o f m m' k, put o f m = Some m' -> nth k m' 0 = if (k =? o)%nat then f (nth k m 0) else nth k m 0.
Proof.
  induction o as [|o IH]; intros f [|x m] m' k E; cbn [put] in E; try discriminate; [injection E as <-; destruct k; reflexivity|].
  destruct (put o f m) as [m1|] eqn:P; [|discriminate]. injection E as <-. destruct k; [reflexivity|]. cbn [nth]. rewrite (IH _ _ _ _ P). reflexivity.
Qed.
Lemma octets_nth_all m : octets m <-> forall k, (k < length m)%nat -> 0 <= nth k m 0 < 256.
Proof.
  unfold octets. split.
  - intros F k K. rewrite Forall_forall in F. apply F, nth_In, K.
  - intro A. apply Forall_forall. intros x I. destruct (In_nth _ _ 0 I) as (k & K & <-). apply A, K.
Qed.
Lemma put_octets o f m m' : put o f m = Some m' -> octets m -> (forall x, 0 <= x < 256 -> 0 <= f x < 256) -> octets m'.
Proof.
  intros E O F. destruct (put_len _ _ _ _ E) as [L _]. rewrite octets_nth_all in *. intros k K. rewrite (put_nth _ _ _ _ k E).
  rewrite L in K. destruct (k =? o)%nat; auto.
Qed.

Definition okp (p : piece) : Prop := 0 <= c_bit p /\ 0 < c_width p /\ c_bit p + c_width p <= 8.
Definition pos (p : piece) : Z := 8 * Z.of_nat (c_oct p) + c_bit p.
Definition inp (p : piece) (i : Z) : bool := (pos p <=? i) && (i <? pos p + c_width p).

Lemma bits_set_bit s w v x k : 0 <= s -> 0 < w -> 0 <= k ->
  Z.testbit (bits_set s w v x) k = if (s <=? k) && (k <? s + w) then Z.testbit v (k - s) else Z.testbit x k.
Proof.
  intros S W K. unfold bits_set. rewrite Z.lor_spec, Z.ldiff_spec, !Z.shiftl_spec by lia.
  destruct (Z.leb_spec s k); cbn [andb].
  - destruct (Z.ltb_spec k (s + w)).
    + rewrite Z.ones_spec_low by lia. rewrite Z.mod_pow2_bits_low by lia. cbn. now rewrite andb_false_r.
    + rewrite Z.ones_spec_high by lia. rewrite Z.mod_pow2_bits_high by lia. cbn. now rewrite andb_true_r, orb_false_r.
  - rewrite (Z.testbit_neg_r (Z.ones w) (k - s)), (Z.testbit_neg_r (v mod 2 ^ w) (k - s)) by lia. cbn. now rewrite andb_true_r, orb_false_r.
Qed.
Lemma small_bits x n : 0 <= n -> 0 <= x -> (forall k, n <= k -> Z.testbit x k = false) -> x < 2 ^ n.
Proof.
  intros N X B. destruct (Z.lt_ge_cases x (2 ^ n)) as [L|L]; [exact L|exfalso].
  assert (P : 0 < x) by (pose proof (Z.pow_pos_nonneg 2 n); lia).
  pose proof (Z.bit_log2 x P) as T. rewrite B in T; [discriminate|]. apply Z.log2_le_pow2; lia.
Qed.
Lemma bits_set_octet s w v x : 0 <= s -> 0 < w -> s + w <= 8 -> 0 <= x < 256 -> 0 <= bits_set s w v x < 256.
Proof.
  intros S W B X.
  assert (N : 0 <= bits_set s w v x).
  { unfold bits_set. apply Z.lor_nonneg. split; [apply Z.ldiff_nonneg; lia|]. apply Z.shiftl_nonneg. apply Z.mod_pos_bound. apply Z.pow_pos_nonneg; lia. }
  split; [exact N|]. change 256 with (2 ^ 8). apply small_bits; try lia. intros k K. rewrite bits_set_bit by lia.
  replace (k <? s + w) with false by (symmetry; apply Z.ltb_ge; lia). rewrite andb_false_r.
  apply high_bit; lia.
Qed.
Lemma put_piece p m m' i : okp p -> put (c_oct p) (bits_set (c_bit p) (c_width p) (c_val p)) m = Some m' -> 0 <= i ->
  bit m' i = if inp p i then Z.testbit (c_val p) (i - pos p) else bit m i.
Proof.
  intros (A & B & C) E I. unfold bit. rewrite (put_nth _ _ _ _ _ E). unfold inp, pos.
  assert (D : i = 8 * (i / 8) + i mod 8 /\ 0 <= i mod 8 < 8 /\ 0 <= i / 8) by (Z.div_mod_to_equations; lia).
  destruct D as (D & M & Q).
  destruct (Nat.eqb_spec (Z.to_nat (i / 8)) (c_oct p)) as [N|N].
  - rewrite bits_set_bit by lia. assert (N' : i / 8 = Z.of_nat (c_oct p)) by lia.
    replace (8 * Z.of_nat (c_oct p) + c_bit p <=? i) with (c_bit p <=? i mod 8) by (destruct (Z.leb_spec (c_bit p) (i mod 8)), (Z.leb_spec (8 * Z.of_nat (c_oct p) + c_bit p) i); lia).
    replace (i <? 8 * Z.of_nat (c_oct p) + c_bit p + c_width p) with (i mod 8 <? c_bit p + c_width p) by (destruct (Z.ltb_spec (i mod 8) (c_bit p + c_width p)), (Z.ltb_spec i (8 * Z.of_nat (c_oct p) + c_bit p + c_width p)); lia).
    replace (i - (8 * Z.of_nat (c_oct p) + c_bit p)) with (i mod 8 - c_bit p) by lia. reflexivity.
  - assert (N' : i / 8 <> Z.of_nat (c_oct p)) by lia.
    destruct (Z.leb_spec (8 * Z.of_nat (c_oct p) + c_bit p) i); cbn [andb]; [|reflexivity].
    destruct (Z.ltb_spec i (8 * Z.of_nat (c_oct p) + c_bit p + c_width p)); [lia|reflexivity].
Qed.

(** ** Writing several pieces: those that do not overlap can all be read back. *)
Definition apart (p q : piece) : Prop := pos p + c_width p <= pos q \/ pos q + c_width q <= pos p.
Fixpoint disjoint (l : list piece) : Prop :=
  match l with [] => True | p :: l => okp p /\ Forall (apart p) l /\ disjoint l end.

Lemma puts_other : forall l m m' i, disjoint l -> puts l m = Some m' -> 0 <= i -> Forall (fun p => inp p i = false) l -> bit m' i = bit m i.
Proof.
  induction l as [|[o s w v] l IH]; intros m m' i D E I F; cbn [puts] in E; [injection E as <-; reflexivity|].
  destruct D as (P & A & D). destruct (put o _ m) as [m1|] eqn:E1; [|discriminate]. inversion F as [|? ? F1 F2]; subst.
  rewrite (IH _ _ _ D E I F2). rewrite (put_piece (Piece o s w v) m m1 i P E1 I). now rewrite F1.
Qed.
Lemma puts_in : forall l m m' p i, disjoint l -> puts l m = Some m' -> In p l -> inp p i = true -> 0 <= i -> bit m' i = Z.testbit (c_val p) (i - pos p).
Proof.
  induction l as [|[o s w v] l IH]; intros m m' p i D E N I K; [destruct N|]. cbn [puts] in E. destruct D as (P & A & D).
  destruct (put o _ m) as [m1|] eqn:E1; [|discriminate]. destruct N as [<-|N]; [|eapply IH; eauto].
  rewrite (puts_other _ _ _ _ D E K).
  - rewrite (put_piece (Piece o s w v) m m1 i P E1 K). now rewrite I.
  - apply Forall_forall. intros q Q. rewrite Forall_forall in A. specialize (A q Q). unfold inp in I. apply andb_true_iff in I. destruct I as [I1 I2].
    apply Z.leb_le in I1. apply Z.ltb_lt in I2. unfold apart in A. unfold inp. apply andb_false_iff. rewrite Z.leb_gt, Z.ltb_ge. lia.
Qed.
Lemma puts_field l m m' p : disjoint l -> puts l m = Some m' -> In p l -> field m' (pos p) (Z.to_nat (c_width p)) = c_val p mod 2 ^ c_width p.
Proof.
  intros D E N.
  assert (P : okp p).
  { clear E. induction l as [|q l IH]; [destruct N|]. destruct D as (P & _ & D). destruct N as [<-|N]; auto. }
  destruct P as (A & B & C). replace (2 ^ c_width p) with (2 ^ Z.of_nat (Z.to_nat (c_width p))) by (f_equal; lia).
  apply field_bits. intros k K. rewrite (puts_in _ _ _ p (pos p + k) D E N).
  - f_equal. lia.
  - unfold inp. apply andb_true_iff. rewrite Z.leb_le, Z.ltb_lt. lia.
  - unfold pos. lia.
Qed.
Lemma puts_ok : forall l m, Forall (fun p => (c_oct p < length m)%nat) l -> exists m', puts l m = Some m' /\ length m' = length m.
Proof.
  induction l as [|[o s w v] l IH]; intros m F; cbn [puts]; [now exists m|]. inversion F as [|? ? F1 F2]; subst.
  destruct (put_ok o (bits_set s w v) m F1) as [m1 E1]. rewrite E1. destruct (put_len _ _ _ _ E1) as [L _].
  destruct (IH m1) as (m' & E & L'); [rewrite L; exact F2|]. exists m'. split; [exact E|lia].
Qed.
Lemma puts_octets : forall l m m', Forall okp l -> puts l m = Some m' -> octets m -> octets m'.
Proof.
  induction l as [|[o s w v] l IH]; intros m m' F E O; cbn [puts] in E; [now injection E as <-|]. inversion F as [|? ? (A & B & C) F2]; subst.
  destruct (put o _ m) as [m1|] eqn:E1; [|discriminate]. apply (IH m1 m' F2 E). eapply put_octets; eauto. intros x X. apply bits_set_octet; auto.
Qed.
Lemma puts_app : forall a b m, puts (a ++ b) m = match puts a m with Some m => puts b m | None => None end.
Proof. induction a as [|[o s w v] a IH]; intros b m; [reflexivity|]. cbn [app puts]. destruct (put o _ m); [apply IH|reflexivity]. Qed.
Lemma put_ext : forall o f g m, octets m -> (forall x, 0 <= x < 256 -> f x = g x) -> put o f m = put o g m.
Proof.
  induction o as [|o IH]; intros f g [|x m] O E; cbn [put]; try reflexivity; inversion O; subst; [now rewrite E|]. now rewrite (IH f g m).
Qed.

(** ** The pieces of a downlink header *)
Definition tail (c : scheme) (d : dinfo) : list piece :=
  let o0 := offs_dl c (i_pad d) 0 in
  let o1 := offs_dl c (i_pad d) 1 in
  match mcs_header_type c with
  | HType1 =>
      let delta := Z.land (i_bsn (i_b1 d) - i_bsn (i_b0 d)) 2047 in
      [ Piece 4 3 5 (i_cps d); Piece 3 1 7 delta; Piece 4 0 3 (Z.shiftr delta 7);
        Piece (Z.to_nat (o0 / 8)) 0 2 (e_fbi (i_b0 d)); Piece (Z.to_nat (o1 / 8)) 2 2 (e_fbi (i_b1 d)) ]
  | HType2 => [ Piece 3 1 3 (i_cps d); Piece (Z.to_nat (o0 / 8)) 4 2 (e_fbi (i_b0 d)) ]
  | HType3 =>
      [ Piece 3 1 4 (i_cps d); Piece 3 5 2 (i_spb (i_b0 d));
        Piece (Z.to_nat (o0 / 8 - 1)) 7 1 (e_fbi (i_b0 d)); Piece (Z.to_nat (o0 / 8)) 0 1 (Z.shiftr (e_fbi (i_b0 d)) 1) ]
  | _ => []
  end.
Definition gprs_pieces (d : dinfo) : list piece :=
  [ Piece 0 0 3 (i_usf d); Piece 0 3 1 (ofb (negb (i_esp d =? 0))); Piece 0 4 2 (i_rrbp d); Piece 0 6 2 0;
    Piece 1 1 5 (i_tfi d); Piece 1 6 2 (i_pr d);
    Piece 1 0 1 (ofb (i_cv (i_b0 d) =? 0)); Piece 2 0 1 (i_e (i_b0 d)); Piece 2 1 7 (i_bsn (i_b0 d)) ].
Definition pieces (c : scheme) (d : dinfo) : list piece := if is_cs c then gprs_pieces d else common d ++ tail c d.

(** Shapes: everything but the values. *)
Definition shape (p : piece) : nat * Z * Z := (c_oct p, c_bit p, c_width p).
Definition spos (s : nat * Z * Z) : Z := let '(o, b, w) := s in 8 * Z.of_nat o + b.
Definition sok (s : nat * Z * Z) : bool := let '(o, b, w) := s in (0 <=? b) && (0 <? w) && (b + w <=? 8).
Definition sapart (s t : nat * Z * Z) : bool := (spos s + snd s <=? spos t) || (spos t + snd t <=? spos s).
Fixpoint sdisjoint (l : list (nat * Z * Z)) : bool :=
  match l with [] => true | s :: l => sok s && forallb (sapart s) l && sdisjoint l end.
Lemma sdisjoint_ok : forall l, sdisjoint (map shape l) = true -> disjoint l.
Proof.
  induction l as [|[o b w v] l IH]; intro H; [exact I|]. cbn [map sdisjoint] in H. rewrite !andb_true_iff in H. destruct H as ((O & A) & D).
  cbn [disjoint]. split; [|split; [|apply IH, D]].
  - unfold okp. cbn in *. rewrite !andb_true_iff, !Z.leb_le, Z.ltb_lt in O. lia.
  - apply Forall_forall. intros q Q. rewrite forallb_forall in A. specialize (A (shape q) (in_map _ _ _ Q)).
    unfold sapart in A. rewrite orb_true_iff, !Z.leb_le in A. destruct q. exact A.
Qed.
Lemma disjoint_okp : forall l, disjoint l -> Forall okp l.
Proof. induction l as [|p l IH]; intro D; constructor; destruct D as (A & _ & D); auto. Qed.

Lemma pieces_disjoint c d : data_scheme c -> disjoint (pieces c d).
Proof.
  intro V. apply sdisjoint_ok. unfold pieces, tail. destruct (i_pad d); destruct c; try (exfalso; apply V; reflexivity); vm_compute; reflexivity.
Qed.
Lemma pieces_fit c d (m : list Z) : data_scheme c -> length m = Z.to_nat (mcs_size_dl c) -> Forall (fun p => (c_oct p < length m)%nat) (pieces c d).
Proof.
  intros V L. rewrite L.
  assert (B : forallb (fun s => Nat.ltb (fst (fst s)) (Z.to_nat (mcs_size_dl c))) (map shape (pieces c d)) = true).
  { unfold pieces, tail. destruct (i_pad d); destruct c; try (exfalso; apply V; reflexivity); vm_compute; reflexivity. }
  apply Forall_forall. intros p P. rewrite forallb_forall in B. specialize (B (shape p) (in_map _ _ _ P)). now apply Nat.ltb_lt in B.
Qed.
Lemma pieces_inside c d i : data_scheme c -> ~ header_bit c (i_pad d) i -> Forall (fun p => inp p i = false) (pieces c d).
Proof.
  intros V H.
  assert (B : forallb (fun s => ((0 <=? spos s) && (spos s + snd s <=? dl_bits c)) ||
      (negb (is_cs c) && (((dl_data c (i_pad d) 0 - 2 <=? spos s) && (spos s + snd s <=? dl_data c (i_pad d) 0)) ||
       (two_blocks c && (dl_data c (i_pad d) 1 - 2 <=? spos s) && (spos s + snd s <=? dl_data c (i_pad d) 1))))) (map shape (pieces c d)) = true).
  { unfold pieces, tail. destruct (i_pad d); destruct c; try (exfalso; apply V; reflexivity); vm_compute; reflexivity. }
  apply Forall_forall. intros p P. rewrite forallb_forall in B. specialize (B (shape p) (in_map _ _ _ P)).
  destruct (inp p i) eqn:I; [exfalso|reflexivity]. apply H. unfold inp in I. rewrite andb_true_iff, Z.leb_le, Z.ltb_lt in I.
  rewrite !orb_true_iff, !andb_true_iff, !orb_true_iff, !andb_true_iff, !Z.leb_le, negb_true_iff in B.
  assert (S : spos (shape p) = pos p /\ snd (shape p) = c_width p) by (destruct p; split; reflexivity). destruct S as [S1 S2]. rewrite S1, S2 in B.
  unfold header_bit. destruct B as [B|(B1 & [B|((B2 & B3) & B4)])].
  - left. lia.
  - right. split; [exact B1|]. left. lia.
  - right. split; [exact B1|]. right. split; [exact B2|]. lia.
Qed.

(** The code's own masks do the same. *)
Definition below (n : nat) : list Z := map Z.of_nat (seq 0 n).
Lemma in_below n x : 0 <= x < Z.of_nat n -> In x (below n).
Proof. intro H. unfold below. apply in_map_iff. exists (Z.to_nat x). split; [lia|]. apply in_seq. lia. Qed.
Lemma octet_check (f g : Z -> Z -> Z) : forallb (fun v => forallb (fun x => f v x =? g v x) (below 256)) (below 4) = true ->
  forall v x, 0 <= v < 4 -> 0 <= x < 256 -> f v x = g v x.
Proof.
  intros H v x V X. rewrite forallb_forall in H. specialize (H v (in_below 4 v V)). rewrite forallb_forall in H. specialize (H x (in_below 256 x X)). now apply Z.eqb_eq.
Qed.
Lemma mask_t1a : forall v x, 0 <= v < 4 -> 0 <= x < 256 -> Z.lor (Z.land x 0xfc) v = bits_set 0 2 v x.
Proof. apply (octet_check (fun v x => Z.lor (Z.land x 0xfc) v) (fun v x => bits_set 0 2 v x)). vm_compute. reflexivity. Qed.
Lemma mask_t1b : forall v x, 0 <= v < 4 -> 0 <= x < 256 -> Z.lor (Z.land x 0xf3) (Z.shiftl v 2) = bits_set 2 2 v x.
Proof. apply (octet_check (fun v x => Z.lor (Z.land x 0xf3) (Z.shiftl v 2)) (fun v x => bits_set 2 2 v x)). vm_compute. reflexivity. Qed.
Lemma mask_t2 : forall v x, 0 <= v < 4 -> 0 <= x < 256 -> Z.lor (Z.land x 0xcf) (Z.shiftl v 4) = bits_set 4 2 v x.
Proof. apply (octet_check (fun v x => Z.lor (Z.land x 0xcf) (Z.shiftl v 4)) (fun v x => bits_set 4 2 v x)). vm_compute. reflexivity. Qed.
Lemma mask_t3a : forall v x, 0 <= v < 4 -> 0 <= x < 256 -> Z.lor (Z.land x 0x7f) (Z.shiftl v 7) mod 256 = bits_set 7 1 v x.
Proof. apply (octet_check (fun v x => Z.lor (Z.land x 0x7f) (Z.shiftl v 7) mod 256) (fun v x => bits_set 7 1 v x)). vm_compute. reflexivity. Qed.
Lemma mask_t3b : forall v x, 0 <= v < 4 -> 0 <= x < 256 -> Z.lor (Z.land x 0xfe) (Z.shiftr (Z.shiftl v 7) 8) = bits_set 0 1 (Z.shiftr v 1) x.
Proof. apply (octet_check (fun v x => Z.lor (Z.land x 0xfe) (Z.shiftr (Z.shiftl v 7) 8)) (fun v x => bits_set 0 1 (Z.shiftr v 1) x)). vm_compute. reflexivity. Qed.
Lemma e_fbi_range b : 0 <= e_fbi b < 4.
Proof. unfold e_fbi. destruct (i_e b =? 0), (i_cv b =? 0); vm_compute; split; congruence. Qed.

Lemma offs_ok c pad : data_scheme c ->
  match mcs_header_type c with
  | HType1 => offs_dl c pad 0 mod 8 = 2 /\ offs_dl c pad 1 mod 8 = 4
  | HType2 => offs_dl c pad 0 mod 8 = 6
  | HType3 => offs_dl c pad 0 mod 8 = 1
  | HGprs => True
  | _ => False
  end.
Proof. intro V. destruct pad; destruct c; try (exfalso; apply V; reflexivity); vm_compute; auto. Qed.
Lemma write_pieces c d m : data_scheme c -> octets m -> write_dl c d m = puts (pieces c d) m.
Proof.
  intros V O. pose proof (offs_ok c (i_pad d) V) as F. pose proof (e_fbi_range (i_b0 d)) as R0. pose proof (e_fbi_range (i_b1 d)) as R1.
  assert (K : is_cs c = match mcs_header_type c with HGprs => true | _ => false end) by (destruct c; reflexivity).
  assert (Kc : forall l, Forall okp (common d ++ l) <-> Forall okp l).
  { intro l. rewrite Forall_app. split; [tauto|]. intro H. split; [|exact H]. repeat constructor; cbn; lia. }
  unfold write_dl, pieces. rewrite K. unfold tail. destruct (mcs_header_type c); try contradiction; try reflexivity.
  - destruct F as [F1 F2]. rewrite F1, F2. cbn [Z.eqb Pos.eqb negb].
    match goal with |- _ = puts (_ ++ [?a; ?b; ?e; ?p; ?q]) m => change [a; b; e; p; q] with ([a; b; e] ++ [p; q]) end.
    rewrite app_assoc. set (l := common d ++ _). rewrite (puts_app l). destruct (puts l m) as [m1|] eqn:E1; [|reflexivity].
    assert (O1 : octets m1). { apply (puts_octets l m m1); auto. apply Kc. repeat constructor; cbn; lia. }
    cbn [puts]. rewrite (put_ext _ _ _ m1 O1 (fun x X => mask_t1a _ x R0 X)).
    destruct (put _ _ m1) as [m2|] eqn:E2; [|reflexivity].
    assert (O2 : octets m2). { eapply put_octets; eauto. intros x X. apply bits_set_octet; lia. }
    rewrite (put_ext _ _ _ m2 O2 (fun x X => mask_t1b _ x R1 X)). destruct (put _ _ m2); reflexivity.
  - rewrite F. cbn [Z.eqb Pos.eqb negb].
    match goal with |- _ = puts (_ ++ [?a; ?p]) m => change [a; p] with ([a] ++ [p]) end.
    rewrite app_assoc. set (l := common d ++ _). rewrite (puts_app l). destruct (puts l m) as [m1|] eqn:E1; [|reflexivity].
    assert (O1 : octets m1). { apply (puts_octets l m m1); auto. apply Kc. repeat constructor; cbn; lia. }
    cbn [puts]. rewrite (put_ext _ _ _ m1 O1 (fun x X => mask_t2 _ x R0 X)). destruct (put _ _ m1); reflexivity.
  - rewrite F. cbn [Z.eqb Pos.eqb negb].
    match goal with |- _ = puts (_ ++ [?a; ?b; ?p; ?q]) m => change [a; b; p; q] with ([a; b] ++ [p; q]) end.
    rewrite app_assoc. set (l := common d ++ _). rewrite (puts_app l). destruct (puts l m) as [m1|] eqn:E1; [|reflexivity].
    assert (O1 : octets m1). { apply (puts_octets l m m1); auto. apply Kc. repeat constructor; cbn; lia. }
    cbn [puts]. rewrite (put_ext _ _ _ m1 O1 (fun x X => mask_t3a _ x R0 X)).
    destruct (put _ _ m1) as [m2|] eqn:E2; [|reflexivity].
    assert (O2 : octets m2). { eapply put_octets; eauto. intros x X. apply bits_set_octet; lia. }
    rewrite (put_ext _ _ _ m2 O2 (fun x X => mask_t3b _ x R0 X)). destruct (put _ _ m2); reflexivity.
Qed.

(** ** Reading the downlink header back *)
Lemma field_of l m m' o w n p : disjoint l -> puts l m = Some m' -> In p l -> pos p = o -> c_width p = w -> w = Z.of_nat n -> field m' o n = c_val p mod 2 ^ w.
Proof. intros D E N <- <- W. rewrite <- (puts_field _ _ _ _ D E N). f_equal. lia. Qed.
Ltac here := first [left; reflexivity | right; here].
Ltac fieldp P := eapply (field_of _ _ _ _ _ _ P); [eassumption|eassumption|here|reflexivity|reflexivity|reflexivity].

Lemma common_fields d l m m' : disjoint (common d ++ l) -> puts (common d ++ l) m = Some m' ->
  field m' 0 3 = i_usf d mod 2 ^ 3 /\ field m' 3 2 = i_esp d mod 2 ^ 2 /\ field m' 5 2 = i_rrbp d mod 2 ^ 2 /\ field m' 7 5 = i_tfi d mod 2 ^ 5 /\
  field m' 12 2 = i_pr d mod 2 ^ 2 /\ field m' 14 11 = i_bsn (i_b0 d) mod 2 ^ 11.
Proof.
  intros D E. splits.
  - fieldp (Piece 0 0 3 (i_usf d)).
  - fieldp (Piece 0 3 2 (i_esp d)).
  - fieldp (Piece 0 5 2 (i_rrbp d)).
  - change (field m' 7 5) with (field m' 7 (1 + 4)). rewrite (field_app m' 1 7 4). assert (A : field m' 7 1 = i_tfi d mod 2 ^ 1) by (fieldp (Piece 0 7 1 (i_tfi d))).
    assert (B : field m' (7 + Z.of_nat 1) 4 = Z.shiftr (i_tfi d) 1 mod 2 ^ 4) by (fieldp (Piece 1 0 4 (Z.shiftr (i_tfi d) 1))).
    rewrite A, B. change (Z.of_nat 1) with 1. rewrite split_mod by lia. reflexivity.
  - fieldp (Piece 1 4 2 (i_pr d)).
  - set (b := i_bsn (i_b0 d)). change (field m' 14 11) with (field m' 14 (2 + (8 + 1))). rewrite (field_app m' 2 14 (8 + 1)), (field_app m' 8 (14 + Z.of_nat 2) 1).
    assert (A : field m' 14 2 = b mod 2 ^ 2) by (fieldp (Piece 1 6 2 b)).
    assert (B : field m' (14 + Z.of_nat 2) 8 = Z.shiftr b 2 mod 2 ^ 8) by (fieldp (Piece 2 0 8 (Z.shiftr b 2))).
    assert (C : field m' (14 + Z.of_nat 2 + Z.of_nat 8) 1 = Z.shiftr b 10 mod 2 ^ 1) by (fieldp (Piece 3 0 1 (Z.shiftr b 10))).
    rewrite A, B, C. change (Z.of_nat 2) with 2. change (Z.of_nat 8) with 8.
    replace (Z.shiftr b 10) with (Z.shiftr (Z.shiftr b 2) 8) by (rewrite Z.shiftr_shiftr by lia; reflexivity).
    rewrite split_mod by lia. rewrite split_mod by lia. reflexivity.
Qed.
Lemma e_fbi_e b : 0 <= i_e b <= 1 -> e_fbi b mod 2 = i_e b.
Proof. intro R. unfold e_fbi. destruct (Z.eqb_spec (i_e b) 0) as [->|N], (i_cv b =? 0); cbn; lia. Qed.
Lemma e_fbi_f b : Z.shiftr (e_fbi b) 1 mod 2 = final b.
Proof. unfold e_fbi, final. destruct (i_e b =? 0), (i_cv b =? 0); reflexivity. Qed.

Lemma ebits_two m o b : 0 <= i_e b <= 1 -> field m (o - 2) 2 = e_fbi b mod 2 ^ 2 -> ebits m o = (i_e b, final b).
Proof.
  intros R H. pose proof (e_fbi_range b) as Q. rewrite Z.mod_small in H by (change (2 ^ 2) with 4; lia).
  cbn [field] in H. unfold ebits. cbn [field]. replace (o - 2 + 1) with (o - 1) in H by lia. rewrite !Z.add_0_r in *.
  revert H. unfold e_fbi, final. destruct (bit m (o - 2)), (bit m (o - 1)), (Z.eqb_spec (i_e b) 0), (Z.eqb_spec (i_cv b) 0); cbn [Z.lor Pos.lor]; intro H; f_equal; try lia.
Qed.
Lemma ebits_one m o b : 0 <= i_e b <= 1 -> field m (o - 2) 1 = e_fbi b mod 2 ^ 1 -> field m (o - 1) 1 = Z.shiftr (e_fbi b) 1 mod 2 ^ 1 -> ebits m o = (i_e b, final b).
Proof. intros R A B. unfold ebits. rewrite A, B. change (2 ^ 1) with 2. rewrite e_fbi_e, e_fbi_f by exact R. reflexivity. Qed.

Lemma read_pieces c d m m' : data_scheme c -> info_ok c d -> puts (pieces c d) m = Some m' -> read_dl c m' = shall_read c d /\ type_ok c m'.
Proof.
  intros V K E. pose proof (pieces_disjoint c d V) as D. destruct K as (U & ES & RR & T & PR & CP & PD & B0 & B1 & DL).
  destruct B0 as (N0 & E0 & S0). destruct B1 as (N1 & E1 & S1).
  assert (G : is_cs c = true \/ mcs_header_type c = HType1 \/ mcs_header_type c = HType2 \/ mcs_header_type c = HType3) by (destruct c; vm_compute; auto; exfalso; apply V; reflexivity).
  destruct G as [G|G].
  - unfold pieces in *. rewrite G in *.
    assert (F : field m' 0 3 = i_usf d mod 2 ^ 3 /\ field m' 3 1 = ofb (negb (i_esp d =? 0)) mod 2 ^ 1 /\ field m' 4 2 = i_rrbp d mod 2 ^ 2 /\
      field m' 6 2 = 0 mod 2 ^ 2 /\ field m' 9 5 = i_tfi d mod 2 ^ 5 /\ field m' 14 2 = i_pr d mod 2 ^ 2 /\ field m' 8 1 = ofb (i_cv (i_b0 d) =? 0) mod 2 ^ 1 /\
      field m' 16 1 = i_e (i_b0 d) mod 2 ^ 1 /\ field m' 17 7 = i_bsn (i_b0 d) mod 2 ^ 7).
    { unfold gprs_pieces in *. splits.
      - fieldp (Piece 0 0 3 (i_usf d)).
      - fieldp (Piece 0 3 1 (ofb (negb (i_esp d =? 0)))).
      - fieldp (Piece 0 4 2 (i_rrbp d)).
      - fieldp (Piece 0 6 2 0).
      - fieldp (Piece 1 1 5 (i_tfi d)).
      - fieldp (Piece 1 6 2 (i_pr d)).
      - fieldp (Piece 1 0 1 (ofb (i_cv (i_b0 d) =? 0))).
      - fieldp (Piece 2 0 1 (i_e (i_b0 d))).
      - fieldp (Piece 2 1 7 (i_bsn (i_b0 d))). }
    destruct F as (F1 & F2 & F3 & F4 & F5 & F6 & F7 & F8 & F9).
    rewrite Z.mod_small in F1, F3, F5, F6, F8, F9 by (cbn; lia).
    assert (F2' : field m' 3 1 = i_esp d). { rewrite F2. destruct (Z.eqb_spec (i_esp d) 0); cbn; lia. }
    assert (F7' : field m' 8 1 = final (i_b0 d)). { rewrite F7. unfold final. destruct (i_cv (i_b0 d) =? 0); reflexivity. }
    split; [|intros _; rewrite F4; reflexivity]. unfold shall_read. destruct c; try discriminate G; cbn [read_dl is_cs two_blocks]; rewrite F1, F2', F3, F5, F6, F7', F8, F9; reflexivity.
  - assert (NC : is_cs c = false) by (destruct c; try reflexivity; vm_compute in G; destruct G as [G|[G|G]]; discriminate).
    unfold pieces in *. rewrite NC in *. split; [|intro X; rewrite NC in X; discriminate].
    destruct (common_fields _ _ _ _ D E) as (F1 & F2 & F3 & F4 & F5 & F6).
    rewrite Z.mod_small in F1, F2, F3, F4, F5, F6 by (cbn; lia).
    destruct G as [G|[G|G]]; unfold tail in *; rewrite G in *.
    + set (delta := Z.land (i_bsn (i_b1 d) - i_bsn (i_b0 d)) 2047) in *.
      assert (DD : delta = (i_bsn (i_b1 d) - i_bsn (i_b0 d)) mod 2048) by (unfold delta; change 2047 with (Z.ones 11); rewrite Z.land_ones by lia; reflexivity).
      assert (H1 : field m' 35 5 = i_cps d mod 2 ^ 5) by (fieldp (Piece 4 3 5 (i_cps d))).
      assert (H2 : field m' 25 7 = delta mod 2 ^ 7) by (fieldp (Piece 3 1 7 delta)).
      assert (H3 : field m' 32 3 = Z.shiftr delta 7 mod 2 ^ 3) by (fieldp (Piece 4 0 3 (Z.shiftr delta 7))).
      assert (H4 : field m' 25 10 = delta mod 2 ^ 10).
      { change (field m' 25 10) with (field m' 25 (7 + 3)). rewrite (field_app m' 7 25 3). change (25 + Z.of_nat 7) with 32. rewrite H2, H3. change (Z.of_nat 7) with 7. rewrite split_mod by lia. reflexivity. }
      assert (TB : two_blocks c = true) by (destruct c; vm_compute in G; try discriminate; reflexivity).
      specialize (DL TB). rewrite Z.mod_small in H1 by (exact CP).
      assert (BB : (i_bsn (i_b0 d) + field m' 25 10) mod 2048 = i_bsn (i_b1 d)).
      { rewrite H4, DD. rewrite (Z.mod_small (_ mod 2048)) by (change (2 ^ 10) with 1024; split; [apply Z.mod_pos_bound; lia|exact DL]).
        rewrite Zplus_mod_idemp_r. replace (i_bsn (i_b0 d) + (i_bsn (i_b1 d) - i_bsn (i_b0 d))) with (i_bsn (i_b1 d)) by lia. apply Z.mod_small. exact N1. }
      assert (Q0 : ebits m' (dl_data c (i_pad d) 0) = (i_e (i_b0 d), final (i_b0 d))).
      { apply ebits_two; [exact E0|]. eapply (field_of _ _ _ _ _ _ (Piece (Z.to_nat (offs_dl c (i_pad d) 0 / 8)) 0 2 (e_fbi (i_b0 d)))); [eassumption|eassumption|here| |reflexivity|reflexivity].
        destruct (i_pad d); destruct c; try discriminate G; vm_compute; reflexivity. }
      assert (Q1 : ebits m' (dl_data c (i_pad d) 1) = (i_e (i_b1 d), final (i_b1 d))).
      { apply ebits_two; [exact E1|]. eapply (field_of _ _ _ _ _ _ (Piece (Z.to_nat (offs_dl c (i_pad d) 1 / 8)) 2 2 (e_fbi (i_b1 d)))); [eassumption|eassumption|here| |reflexivity|reflexivity].
        destruct (i_pad d); destruct c; try discriminate G; vm_compute; reflexivity. }
      rewrite PD in Q0, Q1. unfold shall_read. rewrite TB, NC.
      destruct c; try discriminate G; cbn [read_dl]; rewrite H1, F1, F2, F3, F4, F5, F6, BB, Q0, Q1; reflexivity.
    + assert (H1 : field m' 25 3 = i_cps d mod 2 ^ 3) by (fieldp (Piece 3 1 3 (i_cps d))).
      rewrite Z.mod_small in H1 by (exact CP).
      assert (Q0 : ebits m' (dl_data c (i_pad d) 0) = (i_e (i_b0 d), final (i_b0 d))).
      { apply ebits_two; [exact E0|]. eapply (field_of _ _ _ _ _ _ (Piece (Z.to_nat (offs_dl c (i_pad d) 0 / 8)) 4 2 (e_fbi (i_b0 d)))); [eassumption|eassumption|here| |reflexivity|reflexivity].
        destruct (i_pad d); destruct c; try discriminate G; vm_compute; reflexivity. }
      rewrite PD in Q0. unfold shall_read. rewrite NC.
      destruct c; try discriminate G; cbn [read_dl two_blocks]; rewrite H1, F1, F2, F3, F4, F5, F6, Q0; reflexivity.
    + assert (H1 : field m' 25 4 = i_cps d mod 2 ^ 4) by (fieldp (Piece 3 1 4 (i_cps d))).
      assert (H2 : field m' 29 2 = i_spb (i_b0 d) mod 2 ^ 2) by (fieldp (Piece 3 5 2 (i_spb (i_b0 d)))).
      rewrite Z.mod_small in H1 by (exact CP). rewrite Z.mod_small in H2 by (cbn; lia).
      assert (Q0 : ebits m' (dl_data c (i_pad d) 0) = (i_e (i_b0 d), final (i_b0 d))).
      { apply ebits_one; [exact E0| |].
        - eapply (field_of _ _ _ _ _ _ (Piece (Z.to_nat (offs_dl c (i_pad d) 0 / 8 - 1)) 7 1 (e_fbi (i_b0 d)))); [eassumption|eassumption|here| |reflexivity|reflexivity].
          destruct (i_pad d); destruct c; try discriminate G; vm_compute; reflexivity.
        - eapply (field_of _ _ _ _ _ _ (Piece (Z.to_nat (offs_dl c (i_pad d) 0 / 8)) 0 1 (Z.shiftr (e_fbi (i_b0 d)) 1))); [eassumption|eassumption|here| |reflexivity|reflexivity].
          destruct (i_pad d); destruct c; try discriminate G; vm_compute; reflexivity. }
      rewrite PD in Q0. unfold shall_read. rewrite NC.
      destruct c; try discriminate G; cbn [read_dl two_blocks]; rewrite H1, H2, F1, F2, F3, F4, F5, F6, Q0; reflexivity.
Qed.

Theorem dl_header : forall c d m, data_scheme c -> octets m -> length m = Z.to_nat (mcs_size_dl c) -> info_ok c d ->
  exists m', write_dl c d m = Some m' /\ length m' = length m /\ octets m' /\ read_dl c m' = shall_read c d /\ type_ok c m' /\
  forall i, 0 <= i -> ~ header_bit c (i_pad d) i -> bit m' i = bit m i.
Proof.
  intros c d m V O L K. rewrite write_pieces by auto. pose proof (pieces_disjoint c d V) as D.
  destruct (puts_ok _ _ (pieces_fit c d m V L)) as (m' & E & L'). exists m'. rewrite E.
  destruct (read_pieces c d m m' V K E) as [R T].
  split; [reflexivity|]. split; [exact L'|]. split; [exact (puts_octets _ _ _ (disjoint_okp _ D) E O)|]. split; [exact R|]. split; [exact T|].
  intros i I H. apply (puts_other _ _ _ _ D E I). apply pieces_inside; auto.
Qed.
