(** Whole radio blocks, the USF, and uplink headers. *)
From Coq Require Import ZArith List Bool Lia.
From Verif Require Import Base.Arith Model.CodingScheme Model.RlcCps Model.BitCopy Model.DataHeader Model.UlParse
  Spec.UlParseSpec Spec.BitSpec Spec.CodingSpec Spec.DataHeaderSpec Proofs.BitCopyP Proofs.DataHeaderP.
Import ListNotations.
Open Scope Z_scope.

Lemma init_fields c pad : data_scheme c ->
  data_info_init_dl c pad = Some ((dl_data c pad 0, data_octets c pad) :: if two_blocks c then [(dl_data c pad 1, data_octets c pad)] else []).
Proof. intro V. destruct pad; destruct c; try (exfalso; apply V; reflexivity); vm_compute; reflexivity. Qed.
Lemma layout c pad : data_scheme c -> 0 <= data_octets c pad /\ dl_bits c <= dl_data c pad 0 /\ (is_cs c = false -> dl_bits c <= dl_data c pad 0 - 2) /\
  needs (dl_data c pad 0) (Z.to_nat (data_octets c pad)) <= mcs_size_dl c /\
  (two_blocks c = true -> dl_data c pad 0 + 8 * data_octets c pad <= dl_data c pad 1 - 2 /\ needs (dl_data c pad 1) (Z.to_nat (data_octets c pad)) <= mcs_size_dl c) /\
  0 <= mcs_size_dl c.
Proof.
  intro V. assert (B : (0 <=? data_octets c pad) && (dl_bits c <=? dl_data c pad 0) && (is_cs c || (dl_bits c <=? dl_data c pad 0 - 2)) &&
    (needs (dl_data c pad 0) (Z.to_nat (data_octets c pad)) <=? mcs_size_dl c) &&
    (negb (two_blocks c) || ((dl_data c pad 0 + 8 * data_octets c pad <=? dl_data c pad 1 - 2) && (needs (dl_data c pad 1) (Z.to_nat (data_octets c pad)) <=? mcs_size_dl c))) &&
    (0 <=? mcs_size_dl c) = true).
  { destruct pad; destruct c; try (exfalso; apply V; reflexivity); vm_compute; reflexivity. }
  rewrite !andb_true_iff, !orb_true_iff, !andb_true_iff, !Z.leb_le, negb_true_iff in B. destruct B as (((((A & B) & C) & D) & E) & F).
  splits; auto; intros X; rewrite X in *; destruct C as [C|C], E as [E|E]; try discriminate; tauto.
Qed.
Lemma octets_zero n : octets (repeat 0 n).
Proof. apply Forall_forall. intros x I. apply repeat_spec in I. subst x. lia. Qed.
Lemma octets_firstn n l : octets l -> octets (firstn n l).
Proof. intro O. apply Forall_forall. intros x I. rewrite <- (firstn_skipn n l) in O. apply octets_app in O. destruct O as [O _]. now apply (proj1 (Forall_forall _ _) O). Qed.
Lemma bit_firstn n l k : 0 <= k < 8 * Z.of_nat n -> bit (firstn n l) k = bit l k.
Proof. intro K. unfold bit. rewrite nth_firstn_lt; [reflexivity|]. Z.div_mod_to_equations. lia. Qed.

Theorem dl_block : forall c d blocks, data_scheme c -> info_ok c d -> length blocks = (if two_blocks c then 2 else 1)%nat ->
  Forall (fun b => octets b /\ data_octets c (i_pad d) <= Z.of_nat (length b)) blocks ->
  exists m, radio_block c d blocks = Some m /\ Z.of_nat (length m) = mcs_size_dl c /\ octets m /\ read_dl c m = shall_read c d /\
  forall i b k, nth_error blocks i = Some b -> 0 <= k < 8 * data_octets c (i_pad d) -> bit m (dl_data c (i_pad d) (Z.of_nat i) + k) = bit b k.
Proof.
  intros c d blocks V K LB FB. set (pad := i_pad d) in *. destruct (layout c pad V) as (P & B0 & B1 & N0 & T2 & SZ).
  unfold radio_block. fold pad. rewrite (init_fields c pad V).
  set (n := Z.to_nat (data_octets c pad)) in *. set (z := repeat 0 (Z.to_nat (mcs_size_dl c))).
  assert (LZ : length z = Z.to_nat (mcs_size_dl c)) by apply repeat_length. assert (OZ : octets z) by apply octets_zero.
  assert (OF : forall b, In b blocks -> octets (firstn n b) /\ length (firstn n b) = n).
  { intros b I. rewrite Forall_forall in FB. destruct (FB b I) as [O L]. split; [now apply octets_firstn|]. rewrite firstn_length. lia. }
  assert (D0 : 0 <= dl_data c pad 0) by (assert (0 <= dl_bits c) by (destruct c; vm_compute; discriminate); lia).
  destruct (two_blocks c) eqn:TB.
  - destruct blocks as [|b0 [|b1 [|]]]; cbn [length] in LB; try discriminate LB.
    destruct (OF b0 ltac:(now left)) as [O0 L0]. destruct (OF b1 ltac:(right; now left)) as [O1 L1]. destruct (T2 eq_refl) as [G N1].
    cbn [copy_blocks]. fold n.
    destruct (copy_from_ok (dl_data c pad 0) (firstn n b0) z O0 OZ D0) as (m1 & E1 & LM1 & OM1 & Q1); [rewrite L0; unfold num; lia|].
    rewrite E1. destruct (copy_from_ok (dl_data c pad 1) (firstn n b1) m1 O1 OM1) as (m2 & E2 & LM2 & OM2 & Q2); [lia|rewrite L1; unfold num; lia|].
    rewrite E2. destruct (dl_header c d m2 V OM2) as (m & E & L & O & R & _ & Z); [lia|exact K|].
    exists m. split; [exact E|]. split; [lia|]. split; [exact O|]. split; [exact R|].
    assert (NC : is_cs c = false) by (destruct c; try discriminate TB; reflexivity). specialize (B1 NC).
    intros i b k I Kk. fold pad in Z. destruct i as [|[|i]]; cbn [nth_error] in I.
    + injection I as <-. change (Z.of_nat 0) with 0. rewrite Z; [|lia|].
      * rewrite Q2, Q1 by lia. unfold num. rewrite L0, L1.
        replace (dl_data c pad 1 <=? dl_data c pad 0 + k) with false by (symmetry; apply Z.leb_gt; lia). cbn [andb].
        replace (dl_data c pad 0 <=? dl_data c pad 0 + k) with true by (symmetry; apply Z.leb_le; lia).
        replace (dl_data c pad 0 + k <? dl_data c pad 0 + 8 * Z.of_nat n) with true by (symmetry; apply Z.ltb_lt; lia). cbn [andb].
        rewrite bit_firstn by lia. f_equal. lia.
      * unfold header_bit. intros [H|(_ & [H|(_ & H)])]; lia.
    + injection I as <-. change (Z.of_nat 1) with 1. rewrite Z; [|lia|].
      * rewrite Q2 by lia. unfold num. rewrite L1.
        replace (dl_data c pad 1 <=? dl_data c pad 1 + k) with true by (symmetry; apply Z.leb_le; lia).
        replace (dl_data c pad 1 + k <? dl_data c pad 1 + 8 * Z.of_nat n) with true by (symmetry; apply Z.ltb_lt; lia). cbn [andb].
        rewrite bit_firstn by lia. f_equal. lia.
      * unfold header_bit. intros [H|(_ & [H|(_ & H)])]; lia.
    + destruct i; discriminate I.
  - destruct blocks as [|b0 [|]]; cbn [length] in LB; try discriminate LB.
    destruct (OF b0 ltac:(now left)) as [O0 L0]. cbn [copy_blocks]. fold n.
    destruct (copy_from_ok (dl_data c pad 0) (firstn n b0) z O0 OZ D0) as (m1 & E1 & LM1 & OM1 & Q1); [rewrite L0; unfold num; lia|].
    rewrite E1. destruct (dl_header c d m1 V OM1) as (m & E & L & O & R & _ & Z); [lia|exact K|].
    exists m. split; [exact E|]. split; [lia|]. split; [exact O|]. split; [exact R|].
    intros i b k I Kk. fold pad in Z. destruct i as [|i]; cbn [nth_error] in I; [|destruct i; discriminate I].
    injection I as <-. change (Z.of_nat 0) with 0. rewrite Z; [|lia|].
    + rewrite Q1 by lia. unfold num. rewrite L0.
      replace (dl_data c pad 0 <=? dl_data c pad 0 + k) with true by (symmetry; apply Z.leb_le; lia).
      replace (dl_data c pad 0 + k <? dl_data c pad 0 + 8 * Z.of_nat n) with true by (symmetry; apply Z.ltb_lt; lia). cbn [andb].
      rewrite bit_firstn by lia. f_equal. lia.
    + unfold header_bit. intros [H|(NC & [H|(X & _)])]; [lia|lia|congruence].
Qed.

(** ** The USF *)
Lemma mask_usf : forall v x, 0 <= v < 8 -> 0 <= x < 256 -> Z.lor (Z.land x 0xf8) v = bits_set 0 3 v x.
Proof.
  intros v x V X.
  assert (H : forallb (fun v => forallb (fun x => Z.lor (Z.land x 0xf8) v =? bits_set 0 3 v x) (below 256)) (below 8) = true) by (vm_compute; reflexivity).
  rewrite forallb_forall in H. specialize (H v (in_below 8 v V)). rewrite forallb_forall in H. specialize (H x (in_below 256 x X)). now apply Z.eqb_eq.
Qed.
Theorem usf_ok : forall c u m, data_scheme c -> octets m -> m <> [] -> 0 <= u < 8 ->
  exists m', set_usf u m = Some m' /\ length m' = length m /\ octets m' /\
  (forall i, 3 <= i -> bit m' i = bit m i) /\
  let h := read_dl c m in
  read_dl c m' = Dh u (h_poll h) (h_rrbp h) (h_tfi h) (h_pr h) (h_cps h) (h_spb h) (h_blocks h).
Proof.
  intros c u m V O NE U. unfold set_usf. rewrite (put_ext 0 _ _ m O (fun x X => mask_usf u x U X)).
  assert (L0 : (0 < length m)%nat) by (destruct m; [congruence|cbn; lia]).
  destruct (put_ok 0 (bits_set 0 3 u) m L0) as [m' E]. exists m'. destruct (put_len _ _ _ _ E) as [L _].
  assert (PB : forall i, 0 <= i -> bit m' i = if inp (Piece 0 0 3 u) i then Z.testbit u (i - 0) else bit m i).
  { intros i I. rewrite (put_piece (Piece 0 0 3 u) m m' i); [reflexivity| |exact E|exact I]. repeat split; cbn; lia. }
  assert (A : forall i, 3 <= i -> bit m' i = bit m i).
  { intros i I. rewrite PB by lia. unfold inp, pos. cbn [c_oct c_bit c_width]. replace (i <? _) with false by (symmetry; apply Z.ltb_ge; cbn; lia). now rewrite andb_false_r. }
  assert (F0 : field m' 0 3 = u).
  { rewrite (field_bits m' u 3 0); [apply Z.mod_small; cbn; lia|]. intros k Kk. rewrite PB by lia. unfold inp, pos. cbn [c_oct c_bit c_width].
    replace (_ && _) with true; [f_equal; lia|]. symmetry. apply andb_true_iff. rewrite Z.leb_le, Z.ltb_lt. cbn in *. lia. }
  split; [exact E|]. split; [exact L|]. split.
  { eapply put_octets; eauto. intros x X. apply bits_set_octet; lia. }
  split; [exact A|].
  assert (S : forall o w, 3 <= o -> field m' o w = field m o w). { intros o w H. apply field_same. intros k Kk. apply A. lia. }
  assert (EB : forall pad i, is_cs c = false -> 0 <= i -> ebits m' (dl_data c pad i) = ebits m (dl_data c pad i)).
  { intros pad i NC I. unfold ebits. assert (D : 3 <= dl_data c pad i - 2).
    { unfold dl_data. rewrite NC. assert (0 <= payload c /\ 3 <= dl_bits c /\ 0 <= padding c) by (destruct c; vm_compute; repeat split; discriminate). destruct pad; nia. }
    rewrite !S by lia. reflexivity. }
  cbn zeta. destruct c; try (exfalso; apply V; reflexivity); cbn [read_dl h_poll h_rrbp h_tfi h_pr h_cps h_spb h_blocks]; rewrite F0; rewrite !S by lia; rewrite ?EB by (reflexivity || lia); reflexivity.
Qed.

(** ** Uplink *)
Lemma get_field m o s w : 0 <= s -> 0 <= w -> s + w <= 8 -> (o < length m)%nat -> get o s w m = Some (field m (8 * Z.of_nat o + s) (Z.to_nat w)).
Proof.
  intros S W B L. unfold get. rewrite (nth_error_nth' m 0 L). f_equal.
  replace w with (Z.of_nat (Z.to_nat w)) at 1 by lia. symmetry. apply field_bits. intros k Kk. unfold bit.
  rewrite Z.shiftr_spec by lia. replace (8 * Z.of_nat o + s + k) with (8 * Z.of_nat o + (s + k)) by lia.
  destruct (div8 (Z.of_nat o) (s + k)) as [D M]; [lia|]. rewrite D, M, Nat2Z.id. f_equal. lia.
Qed.
Lemma gets_fields m : forall l, Forall (fun '(o, s, w) => 0 <= s /\ 0 <= w /\ s + w <= 8 /\ (o < length m)%nat) l ->
  gets l m = Some (map (fun '(o, s, w) => field m (8 * Z.of_nat o + s) (Z.to_nat w)) l).
Proof.
  induction l as [|[[o s] w] l IH]; intro F; [reflexivity|]. inversion F as [|? ? F1 F2]; subst. cbv beta iota in F1. destruct F1 as (A & B & C & D). cbn [gets map]. rewrite get_field by auto. rewrite IH by auto. reflexivity.
Qed.
Lemma join m o a b : Z.lor (field m o a) (Z.shiftl (field m (o + Z.of_nat a) b) (Z.of_nat a)) = field m o (a + b).
Proof.
  pose proof (field_range m a o) as A. pose proof (field_range m b (o + Z.of_nat a)) as B. rewrite lor_add by lia. now rewrite field_app.
Qed.
Lemma bang_bit h k : 0 <= k -> bang (Z.land h (2 ^ k)) = if Z.testbit h k then 1 else 0.
Proof.
  intro K. unfold bang. destruct (Z.testbit h k) eqn:T.
  - destruct (Z.eqb_spec (Z.land h (2 ^ k)) 0) as [E|E]; [|reflexivity]. exfalso.
    assert (X : Z.testbit (Z.land h (2 ^ k)) k = false) by (rewrite E; apply Z.bits_0). rewrite Z.land_spec, T, Z.pow2_bits_true in X by lia. discriminate.
  - replace (Z.land h (2 ^ k)) with 0; [reflexivity|]. symmetry. apply Z.bits_inj'. intros j J. rewrite Z.land_spec, Z.bits_0, Z.pow2_bits_eqb by lia.
    destruct (Z.eqb_spec k j) as [->|N]; [rewrite T; reflexivity|apply andb_false_r].
Qed.
Lemma bang0 h : bang (Z.land h 1) = if Z.testbit h 0 then 1 else 0.
Proof. exact (bang_bit h 0 ltac:(lia)). Qed.
Lemma bang1 h : bang (Z.land h 2) = if Z.testbit h 1 then 1 else 0.
Proof. exact (bang_bit h 1 ltac:(lia)). Qed.
Lemma land1_bit h : Z.land h 1 = if Z.testbit h 0 then 1 else 0.
Proof. change 1 with (Z.ones 1) at 1. rewrite Z.land_ones by lia. change (2 ^ 1) with 2. rewrite Z.bit0_odd, Zmod_odd. reflexivity. Qed.
Lemma field1 m o : field m o 1 = if bit m o then 1 else 0.
Proof. cbn [field]. lia. Qed.
Lemma bit_at m q j : 0 <= q -> 0 <= j < 8 -> bit m (8 * q + j) = Z.testbit (nth (Z.to_nat q) m 0) j.
Proof. intros Q J. unfold bit. destruct (div8 q j J) as [-> ->]. reflexivity. Qed.

Lemma pad_ok c m cps : data_scheme c -> is_cs c = false -> cps = (match c with MCS7 | MCS8 | MCS9 => field m 32 5 | MCS5 | MCS6 => field m 22 3 | _ => field m 22 4 end) ->
  ul_cps_ok c m -> exists p p2, mcs_cps_decode cps c = Some (p, p2, padded c cps).
Proof.
  intros V NC -> K. pose proof (field_range m 4 22) as R4. pose proof (field_range m 3 22) as R3. cbn in R4, R3.
  destruct c; try discriminate NC; try (exfalso; apply V; reflexivity); cbn [mcs_cps_decode padded ul_cps_ok] in *; eexists; eexists; try reflexivity.
  - f_equal. f_equal. rewrite Z.mod_small by lia. destruct (Z.leb_spec 3 (field m 22 4 - 3)), (Z.leb_spec 6 (field m 22 4)), (Z.leb_spec (field m 22 4) 8); cbn; lia.
  - f_equal. f_equal. rewrite Z.mod_small by lia. destruct (Z.leb_spec 2 (field m 22 3 - 0)), (Z.leb_spec 2 (field m 22 3)), (Z.leb_spec (field m 22 3) 3); cbn; lia.
Qed.
Lemma offs_ul_data c pad i : data_scheme c -> i = 0 \/ i = 1 -> is_cs c = false -> (pad = true -> padding c <> 0) -> offs_ul c pad i = ul_data c pad i \/ (i = 1 /\ pad = true).
Proof. intros V I NC P. destruct I as [-> | ->]; destruct pad; auto; left; destruct c; try discriminate NC; try (exfalso; apply V; reflexivity); vm_compute; reflexivity. Qed.
Lemma ul_geom c pad : data_scheme c -> is_cs c = false -> (pad = true -> padding c <> 0) ->
  offs_ul c pad 0 = ul_data c pad 0 /\ block_data_len c pad = data_octets c pad /\ 1 <= offs_ul c pad 0 / 8 < mcs_size_ul c /\
  offs_ul c pad 0 mod 8 = match mcs_header_type c with HType1 => 0 | HType2 => 7 | _ => 1 end /\
  (mcs_header_type c = HType1 -> offs_ul c pad 1 = ul_data c pad 1 /\ offs_ul c pad 1 mod 8 = 2 /\ 0 <= offs_ul c pad 1 / 8 < mcs_size_ul c).
Proof.
  intros V NC P. destruct pad; destruct c; try discriminate NC; try (exfalso; apply V; reflexivity); try (exfalso; apply P; reflexivity); splits; try (intro X; vm_compute in X; try discriminate X; splits); vm_compute; try reflexivity; discriminate.
Qed.
Lemma padded_padding c x : padded c x = true -> padding c <> 0.
Proof. destruct c; cbn; intros; discriminate. Qed.
Lemma ul_small c : data_scheme c -> 23 <= mcs_size_ul c.
Proof. intro V. destruct c; try (exfalso; apply V; reflexivity); vm_compute; discriminate. Qed.
Ltac getf L := rewrite gets_fields; [reflexivity|repeat constructor; cbn; lia].

Theorem ul_header : forall c m, data_scheme c -> octets m -> mcs_size_ul c <= Z.of_nat (length m) -> ul_cps_ok c m ->
  parse_ul c m = Some (read_ul c m).
Proof.
  intros c m V O L K. pose proof (ul_small c V) as L23.
  assert (J1 : Z.lor (field m 6 2) (Z.shiftl (field m 8 3) 2) = field m 6 5) by exact (join m 6 2 3).
  assert (J2 : Z.lor (field m 11 5) (Z.shiftl (field m 16 6) 5) = field m 11 11) by exact (join m 11 5 6).
  assert (J3 : Z.lor (field m 22 2) (Z.shiftl (field m 24 8) 2) = field m 22 10) by exact (join m 22 2 8).
  assert (J4 : Z.lor (field m 22 2) (Z.shiftl (field m 24 2) 2) = field m 22 4) by exact (join m 22 2 2).
  assert (J5 : Z.lor (field m 22 2) (Z.shiftl (field m 24 1) 2) = field m 22 3) by exact (join m 22 2 1).
  assert (OB : forall k, (k < length m)%nat -> 0 <= nth k m 0 < 256) by (apply octets_nth_all, O).
  assert (H : is_cs c = true \/ mcs_header_type c = HType1 \/ mcs_header_type c = HType2 \/ mcs_header_type c = HType3) by (destruct c; vm_compute; auto; exfalso; apply V; reflexivity).
  destruct H as [H|H].
  - assert (G : gets [(0%nat, 0, 1); (0%nat, 1, 1); (0%nat, 2, 4); (1%nat, 0, 1); (1%nat, 1, 5); (1%nat, 6, 1); (2%nat, 0, 1); (2%nat, 1, 7)] m =
      Some [field m 0 1; field m 1 1; field m 2 4; field m 8 1; field m 9 5; field m 14 1; field m 16 1; field m 17 7]) by getf 1.
    unfold parse_ul. destruct c; try discriminate H; cbn [mcs_header_type mcs_info mi_hdr]; rewrite G; reflexivity.
  - assert (NC : is_cs c = false) by (destruct c; try reflexivity; vm_compute in H; destruct H as [H|[H|H]]; discriminate).
    destruct H as [H|[H|H]].
    + assert (G : gets [(0%nat, 0, 1); (0%nat, 1, 1); (0%nat, 2, 4); (0%nat, 6, 2); (1%nat, 0, 3); (1%nat, 3, 5); (2%nat, 0, 6); (2%nat, 6, 2);
                  (3%nat, 0, 8); (4%nat, 0, 5); (4%nat, 5, 1); (4%nat, 6, 1)] m =
        Some [field m 0 1; field m 1 1; field m 2 4; field m 6 2; field m 8 3; field m 11 5; field m 16 6; field m 22 2; field m 24 8; field m 32 5; field m 37 1; field m 38 1]) by getf 1.
      destruct (pad_ok c m (field m 32 5) V NC) as (p & p2 & CP); [destruct c; try discriminate H; reflexivity|exact K|].
      set (pad := padded c (field m 32 5)) in *.
      destruct (ul_geom c pad V NC (padded_padding _ _)) as (GO & GL & GR & GM & G1). destruct (G1 H) as (GO1 & GM1 & GR1). rewrite H in GM.
      unfold parse_ul. rewrite H, G, CP, J1, J2, J3. rewrite GM, GM1. cbn [Z.eqb Pos.eqb negb].
      set (o0 := offs_ul c pad 0) in *. set (o1 := offs_ul c pad 1) in *.
      rewrite (nth_error_nth' m 0) by lia. rewrite (nth_error_nth' m 0) by lia. cbv zeta.
      set (x := nth (Z.to_nat (o0 / 8 - 1)) m 0). set (y := nth (Z.to_nat (o1 / 8)) m 0).
      assert (E0 : ebits m (ul_data c pad 0) = (Z.land (Z.shiftr x 6) 1, bang (Z.land (Z.shiftr x 6) 2))).
      { unfold ebits. rewrite !field1, land1_bit. rewrite bang1. rewrite !Z.shiftr_spec by lia. rewrite <- GO.
        replace (o0 - 2) with (8 * (o0 / 8 - 1) + 6) by (Z.div_mod_to_equations; lia). replace (o0 - 1) with (8 * (o0 / 8 - 1) + 7) by (Z.div_mod_to_equations; lia).
        rewrite !bit_at by lia. reflexivity. }
      assert (E1 : ebits m (ul_data c pad 1) = (Z.land (Z.land y 3) 1, bang (Z.land (Z.land y 3) 2))).
      { unfold ebits. rewrite !field1, land1_bit. rewrite bang1. rewrite !Z.land_spec. rewrite <- GO1.
        replace (o1 - 2) with (8 * (o1 / 8) + 0) by (Z.div_mod_to_equations; lia). replace (o1 - 1) with (8 * (o1 / 8) + 1) by (Z.div_mod_to_equations; lia).
        rewrite !bit_at by lia. change (Z.testbit 3 0) with true. change (Z.testbit 3 1) with true. rewrite !andb_true_r. reflexivity. }
      assert (EB : Z.land (field m 11 11 + field m 22 10) 2047 = (field m 11 11 + field m 22 10) mod 2048) by (change 2047 with (Z.ones 11); rewrite Z.land_ones by lia; reflexivity).
      rewrite EB. f_equal. unfold o0, o1 in *. rewrite GO, GO1, GL.
      assert (CV : forall b cv : Z, (if negb (b =? field m 11 11) && (cv =? 0) then 1 else cv) = (if b =? field m 11 11 then cv else if cv =? 0 then 1 else cv)).
      { intros b cv. destruct (b =? field m 11 11), (cv =? 0); reflexivity. }
      rewrite CV. unfold pad in *. destruct c; try discriminate H; cbn [read_ul two_blocks]; cbv zeta; rewrite E0, E1; reflexivity.
    + assert (G : gets [(0%nat, 0, 1); (0%nat, 1, 1); (0%nat, 2, 4); (0%nat, 6, 2); (1%nat, 0, 3); (1%nat, 3, 5); (2%nat, 0, 6); (2%nat, 6, 2);
                  (3%nat, 0, 1); (3%nat, 1, 1); (3%nat, 2, 1)] m =
        Some [field m 0 1; field m 1 1; field m 2 4; field m 6 2; field m 8 3; field m 11 5; field m 16 6; field m 22 2; field m 24 1; field m 25 1; field m 26 1]) by getf 1.
      destruct (pad_ok c m (field m 22 3) V NC) as (p & p2 & CP); [destruct c; try discriminate H; reflexivity|exact K|].
      set (pad := padded c (field m 22 3)) in *.
      destruct (ul_geom c pad V NC (padded_padding _ _)) as (GO & GL & GR & GM & _). rewrite H in GM.
      unfold parse_ul. rewrite H, G, J5, CP, J1, J2. rewrite GM. cbn [Z.eqb Pos.eqb negb].
      set (o0 := offs_ul c pad 0) in *. rewrite (nth_error_nth' m 0) by lia. cbv zeta. set (y := nth (Z.to_nat (o0 / 8)) m 0).
      assert (E0 : ebits m (ul_data c pad 0) = (bang (Z.land (Z.shiftr (Z.land y 0x60) 5) 1), bang (Z.land (Z.shiftr (Z.land y 0x60) 5) 2))).
      { unfold ebits. rewrite !field1. rewrite bang0, bang1. rewrite !Z.shiftr_spec, !Z.land_spec by lia. rewrite <- GO.
        replace (o0 - 2) with (8 * (o0 / 8) + 5) by (Z.div_mod_to_equations; lia). replace (o0 - 1) with (8 * (o0 / 8) + 6) by (Z.div_mod_to_equations; lia).
        rewrite !bit_at by lia. change (Z.testbit 0x60 (0 + 5)) with true. change (Z.testbit 0x60 (1 + 5)) with true. rewrite !andb_true_r. reflexivity. }
      f_equal. unfold o0 in *. rewrite GO, GL. unfold pad in *. destruct c; try discriminate H; cbn [read_ul two_blocks]; cbv zeta; rewrite E0; reflexivity.
    + assert (G : gets [(0%nat, 0, 1); (0%nat, 1, 1); (0%nat, 2, 4); (0%nat, 6, 2); (1%nat, 0, 3); (1%nat, 3, 5); (2%nat, 0, 6); (2%nat, 6, 2);
                  (3%nat, 0, 2); (3%nat, 2, 2); (3%nat, 4, 1); (3%nat, 5, 1)] m =
        Some [field m 0 1; field m 1 1; field m 2 4; field m 6 2; field m 8 3; field m 11 5; field m 16 6; field m 22 2; field m 24 2; field m 26 2; field m 28 1; field m 29 1]) by getf 1.
      destruct (pad_ok c m (field m 22 4) V NC) as (p & p2 & CP); [destruct c; try discriminate H; reflexivity|exact K|].
      set (pad := padded c (field m 22 4)) in *.
      destruct (ul_geom c pad V NC (padded_padding _ _)) as (GO & GL & GR & GM & _). rewrite H in GM.
      unfold parse_ul. rewrite H, G, J4, CP, J1, J2. rewrite GM. cbn [Z.eqb Pos.eqb negb].
      set (o0 := offs_ul c pad 0) in *. rewrite (nth_error_nth' m 0) by lia. rewrite (nth_error_nth' m 0) by lia. cbv zeta.
      pose proof (OB (Z.to_nat (o0 / 8 - 1)) ltac:(lia)) as RX. pose proof (OB (Z.to_nat (o0 / 8)) ltac:(lia)) as RY.
      set (x := nth (Z.to_nat (o0 / 8 - 1)) m 0) in *. set (y := nth (Z.to_nat (o0 / 8)) m 0) in *.
      assert (E0 : ebits m (ul_data c pad 0) = (bang (Z.land (Z.shiftr (x + Z.shiftl y 8) 7) 1), bang (Z.land (Z.shiftr (x + Z.shiftl y 8) 7) 2))).
      { unfold ebits. rewrite !field1. rewrite bang0, bang1. rewrite !Z.shiftr_spec by lia.
        replace (x + Z.shiftl y 8) with (Z.lor x (Z.shiftl y 8)) by (rewrite lor_add by (change (2 ^ 8) with 256; lia); rewrite Z.shiftl_mul_pow2 by lia; lia).
        rewrite !Z.lor_spec, !Z.shiftl_spec by lia. rewrite (high_bit x (1 + 7)) by lia. rewrite (Z.testbit_neg_r y) by lia. rewrite orb_false_r. cbn [orb].
        rewrite <- GO.
        replace (o0 - 2) with (8 * (o0 / 8 - 1) + 7) by (Z.div_mod_to_equations; lia). replace (o0 - 1) with (8 * (o0 / 8) + 0) by (Z.div_mod_to_equations; lia).
        rewrite !bit_at by lia. reflexivity. }
      f_equal. unfold o0 in *. rewrite GO, GL. unfold pad in *. destruct c; try discriminate H; cbn [read_ul two_blocks]; cbv zeta; rewrite E0; reflexivity.
Qed.
