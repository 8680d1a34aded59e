(** From the decoded members to the bits the window is told. *)
From Coq Require Import ZArith List Bool Lia.
Import ListNotations.
From Verif Require Import Model.Csn1 Model.Csn1Tables Model.T4 Model.RlcWindow Model.RlcWindowDl Model.TbfDlWindow Model.EgprsReport
  Spec.UlControlSpec Spec.T4Spec Spec.EgprsReportSpec
  Proofs.Csn1Check Proofs.Csn1Ul Proofs.Csn1Fields Proofs.Csn1Msgs Proofs.T4P Proofs.EgprsReportP.
Open Scope Z_scope.

Section Members.
Variable msg : list Z.
Hypothesis OCT : octets msg.
Hypothesis L : (23 <= length msg)%nat.
Notation v := (bit_of msg).
Notation n := (8 * Z.of_nat (length msg)).

Lemma field_nonneg p k : 0 <= k -> 0 <= field msg p k < 2 ^ k.
Proof. intro K. unfold field. apply Z.mod_pos_bound. apply Z.pow_pos_nonneg; lia. Qed.
Lemma flag_field p : field msg p 1 = Z.b2z (flag msg p).
Proof. unfold flag. pose proof (field_nonneg p 1 ltac:(lia)) as R. change (2 ^ 1) with 2 in R. destruct (Z.eqb_spec (field msg p 1) 1); cbn; lia. Qed.
Lemma flag_nz p : negb (field msg p 1 =? 0) = flag msg p.
Proof. rewrite flag_field. now destruct (flag msg p). Qed.

(** Bit [j] of an octet. *)
Lemma field_bit p j : 0 <= p -> p + 8 <= 184 -> 0 <= j < 8 -> Z.testbit (field msg p 8) (7 - j) = flag msg (p + j).
Proof.
  intros P E J. rewrite <- (fl_field msg OCT L) by lia. unfold fld. rewrite (rfield_bits msg) by lia.
  rewrite (flag_fl msg OCT L) by lia. unfold fld. change (Z.to_nat 8) with 8%nat. change (Z.to_nat 1) with 1%nat. cbn [rfield].
  change (2 ^ Z.of_nat 0) with 1. replace (p + Z.of_nat 8 - 1 - (7 - j)) with (p + j) by lia.
  unfold rbit. destruct (_ && _); [|reflexivity]. now destruct (v (p + j)).
Qed.

(** Whole octets are read bit by bit. *)
Lemma octets_bits a p N : 0 <= p -> p + N <= 184 -> N mod 8 = 0 ->
  (forall k, 0 <= k -> 8 * k < N -> a k = field msg (p + 8 * k) (Z.min 8 (N - 8 * k))) ->
  forall j, 0 <= j < N -> array_bit a j = flag msg (p + j).
Proof.
  intros P E M A j J. unfold array_bit. pose proof (Z.div_mod j 8 ltac:(lia)) as D. pose proof (Z.mod_pos_bound j 8 ltac:(lia)) as B.
  pose proof (Z.div_mod N 8 ltac:(lia)) as DN.
  rewrite A by lia. replace (Z.min 8 (N - 8 * (j / 8))) with 8 by lia.
  rewrite field_bit by lia. f_equal. lia.
Qed.
Lemma octets_list a p N : 0 <= p -> p + N <= 184 -> N mod 8 = 0 ->
  (forall k, 0 <= k -> 8 * k < N -> a k = field msg (p + 8 * k) (Z.min 8 (N - 8 * k))) ->
  map (fun k => array_bit a (Z.of_nat k)) (seq 0 (Z.to_nat N)) = bits_at msg p N.
Proof.
  intros P E M A. unfold bits_at. apply map_ext_in. intros k K. apply in_seq in K. apply (octets_bits a p N P E M A). lia.
Qed.

Lemma bits_at_length p N : 0 <= N -> Z.of_nat (length (bits_at msg p N)) = N.
Proof. intro H. unfold bits_at. rewrite map_length, seq_length. lia. Qed.

Lemma u8_of s o x : mem s o = x -> 0 <= x < 256 -> u8 s o = x.
Proof. intros <- R. unfold u8, get8. now apply Z.mod_small. Qed.

(** The members in terms of the report. *)
Definition holds (s : state) (r : report) : Prop :=
  epda_final s = Z.b2z (r_final r) /\ epda_bow s = Z.b2z (r_bow r) /\ epda_eow s = Z.b2z (r_eow r) /\ epda_ssn s = r_ssn r /\
  epda_exist_crbb s = (match r_crbb r with Some _ => 1 | None => 0 end) /\
  (forall c z, r_crbb r = Some (c, z) -> epda_crbb_colour s = Z.b2z c /\ epda_crbb_length s = Z.of_nat (length z) /\
     forall k, 0 <= k -> 8 * k < Z.of_nat (length z) ->
       epda_crbb s k = field msg (desc_from msg + 23 + 8 * k) (Z.min 8 (Z.of_nat (length z) - 8 * k))) /\
  epda_urbb_length s = Z.of_nat (length (r_urbb r)) /\
  forall k, 0 <= k -> 8 * k < Z.of_nat (length (r_urbb r)) ->
    epda_urbb s k = field msg (urbb_from msg + 8 * k) (Z.min 8 (Z.of_nat (length (r_urbb r)) - 8 * k)).

Lemma desc_from_pos : 0 <= desc_from msg -> 0 <= urbb_from msg.
Proof. intro P. pose proof (field_nonneg (desc_from msg + 15) 7 ltac:(lia)). unfold urbb_from, crbb_len. destruct (flag msg _); lia. Qed.

Lemma desc_at_pos : 20 <= desc_at msg.
Proof.
  assert (A : forall part p, (forall q, q <= part q) -> p <= after_opt msg part p).
  { intros part p H. unfold after_opt. destruct (flag msg p); [pose proof (H (p + 1)); lia|lia]. }
  assert (I : forall k f p, (forall q, q <= f q) -> p <= Nat.iter k f p).
  { induction k; intros f p H; [cbn; lia|]. change (p <= f (Nat.iter k f p)). pose proof (IHk f p H). pose proof (H (Nat.iter k f p)). lia. }
  assert (Q : forall p, p <= quality msg p).
  { intro p. unfold quality. cbv zeta.
    pose proof (A (fun q => q + 8) p ltac:(intro; cbv beta; lia)) as H1. set (p1 := after_opt msg _ p) in *.
    pose proof (A (fun q => q + 8) p1 ltac:(intro; cbv beta; lia)) as H2. set (p2 := after_opt msg _ p1) in *.
    pose proof (A (Nat.iter 8 (after_opt msg (fun q => q + 5))) (p2 + 6)) as H3.
    set (p3 := after_opt msg (Nat.iter 8 (after_opt msg (fun q => q + 5))) (p2 + 6)) in *.
    pose proof (A (Nat.iter 8 (after_opt msg (fun q => q + 4))) p3) as H4.
    assert (p2 + 6 <= p3). { apply H3. intro q. apply I. intro q'. apply A. intro; cbv beta; lia. }
    assert (p3 <= after_opt msg (Nat.iter 8 (after_opt msg (fun q => q + 4))) p3). { apply H4. intro q. apply I. intro q'. apply A. intro; cbv beta; lia. }
    lia. }
  unfold desc_at. cbv zeta. pose proof (A (quality msg) 20 Q) as H1. set (p1 := after_opt msg (quality msg) 20) in *.
  pose proof (A (fun q => q + 24) p1 ltac:(intro; cbv beta; lia)) as H2. set (p2 := after_opt msg _ p1) in *.
  pose proof (A (fun q => q + 7) p2 ltac:(intro; cbv beta; lia)) as H3. set (p3 := after_opt msg _ p2) in *.
  pose proof (A (fun q => q + 6 + (field msg q 6 + 1)) p3) as H4.
  assert (p3 <= after_opt msg (fun q => q + 6 + (field msg q 6 + 1)) p3). { apply H4. intro q. pose proof (field_nonneg q 6 ltac:(lia)). cbv beta. lia. }
  lia.
Qed.

Theorem egprs_members s r : decode_ul msg = Go s -> message_type msg = EGPRS_DOWNLINK_ACK_NACK -> report_of msg = Some r -> holds s r.
Proof.
  intros D M RP. pose proof (egprs_decoded msg OCT L s r D M RP) as E.
  unfold report_of in RP. destruct ((urbb_from msg <=? desc_to msg) && (desc_to msg <=? 184)) eqn:W; [|discriminate RP]. injection RP as <-.
  apply andb_prop in W as [W1 W2]. apply Z.leb_le in W1, W2.
  unfold holds. cbn [r_final r_bow r_eow r_ssn r_crbb r_urbb].
  pose proof desc_at_pos as DP.
  assert (BP : 0 <= desc_from msg) by (unfold desc_from; destruct (flag msg (desc_at msg)); lia).
  pose proof (desc_from_pos BP) as UP.
  unfold desc_left in E. cbv zeta in E. fold (crbb_len msg) in E. fold (urbb_from msg) in E. set (b := desc_from msg) in *.
  destruct E as (_ & B2 & B3 & B4 & B5 & B6 & B7 & B8 & B9 & B10).
  pose proof (field_nonneg (b + 3) 11 ltac:(lia)) as RS. change (2 ^ 11) with 2048 in RS.
  assert (RF : forall p, 0 <= field msg p 1 < 256). { intro p. pose proof (field_nonneg p 1 ltac:(lia)) as R. change (2 ^ 1) with 2 in R. lia. }
  assert (RC : 0 <= crbb_len msg < 128) by apply (field_nonneg (b + 15) 7 ltac:(lia)).
  assert (R8 : forall p k, 0 <= k <= 8 -> 0 <= field msg p k < 256).
  { intros p k K. pose proof (field_nonneg p k ltac:(lia)) as R. assert (2 ^ k <= 2 ^ 8) by (apply Z.pow_le_mono_r; lia). change (2 ^ 8) with 256 in *. lia. }
  rewrite (bits_at_length (urbb_from msg) (desc_to msg - urbb_from msg)) by lia.
  split; [unfold epda_final; rewrite (u8_of s 208 _ B2 (RF _)); apply flag_field|].
  split; [unfold epda_bow; rewrite (u8_of s 209 _ B3 (RF _)); apply flag_field|].
  split; [unfold epda_eow; rewrite (u8_of s 210 _ B4 (RF _)); apply flag_field|].
  split. { unfold epda_ssn, u16, get8. change (212 + 1) with 213. rewrite B5, B6, !rem256. apply le16. change (2 ^ 16) with 65536. lia. }
  split. { unfold epda_exist_crbb. rewrite (u8_of s 216 _ B7); [now destruct (flag msg (b + 14))|destruct (flag msg (b + 14)); lia]. }
  split.
  { intros c z C. destruct (flag msg (b + 14)); [|discriminate C]. injection C as <- <-. destruct (B8 eq_refl) as (C1 & C2 & C3).
    rewrite bits_at_length by lia.
    split; [unfold epda_crbb_colour; rewrite (u8_of s 221 _ C2 (RF _)); apply flag_field|].
    split; [unfold epda_crbb_length; apply (u8_of s 220 _ C1); lia|].
    intros k K1 K2. unfold epda_crbb. apply u8_of; [exact (C3 k K1 K2)|apply R8; lia]. }
  split. { unfold epda_urbb_length. apply (u8_of s 238 _ B9). unfold b in *. lia. }
  intros k K1 K2. unfold epda_urbb. apply u8_of; [exact (B10 k K1 K2)|apply R8; lia].
Qed.

Lemma report_bits_at r : report_of msg = Some r -> 0 <= urbb_from msg /\ 0 <= desc_from msg /\ urbb_from msg + Z.of_nat (length (r_urbb r)) <= 184 /\
  r_urbb r = bits_at msg (urbb_from msg) (Z.of_nat (length (r_urbb r))) /\
  (forall c z, r_crbb r = Some (c, z) -> z = bits_at msg (desc_from msg + 23) (Z.of_nat (length z)) /\ desc_from msg + 23 + Z.of_nat (length z) <= 184).
Proof.
  intro RP. unfold report_of in RP. destruct ((urbb_from msg <=? desc_to msg) && (desc_to msg <=? 184)) eqn:W; [|discriminate RP]. injection RP as <-.
  apply andb_prop in W as [W1 W2]. apply Z.leb_le in W1, W2. pose proof desc_at_pos as DP. cbn [r_urbb r_crbb].
  assert (BP : 0 <= desc_from msg) by (unfold desc_from; destruct (flag msg (desc_at msg)); lia).
  pose proof (desc_from_pos BP) as UP. rewrite bits_at_length by lia.
  split; [exact UP|]. split; [exact BP|]. split; [lia|]. split; [reflexivity|].
  intros c z C. unfold urbb_from in W1. destruct (flag msg (desc_from msg + 14)); [|discriminate C]. injection C as <- <-.
  assert (RC : 0 <= crbb_len msg) by apply (field_nonneg _ 7 ltac:(lia)). rewrite bits_at_length by lia. split; [reflexivity|lia].
Qed.

Lemma mod8 k : (k mod 8 = 0)%nat -> Z.of_nat k mod 8 = 0.
Proof. intro H. change 8 with (Z.of_nat 8). rewrite <- Nat2Z.inj_mod. now rewrite H. Qed.

(** The bits told, if the report is made of whole octets. *)
Theorem told s r l w : decode_ul msg = Go s -> message_type msg = EGPRS_DOWNLINK_ACK_NACK -> report_of msg = Some r -> whole r -> says r l ->
  r_final r = false -> 
  let implicit := if r_bow r then dmod w (r_ssn r - 1 - dw_va w) else 0 in
  0 <= implicit -> implicit + 1 + Z.of_nat (length l) <= 1024 ->
  told_bits s w = decode_egprs_acknack false (r_bow r) (r_ssn r)
     (match r_crbb r with Some (c, z) => if Nat.eqb (length z) 0 then None else Some (true, firstn (length l - length (r_urbb r)) l) | None => None end) (rev (r_urbb r)) w.
Proof.
  intros D M RP [WU WC] SA F implicit IP FIT.
  destruct (egprs_members s r D M RP) as (H1 & H2 & H3 & H4 & H5 & H6 & H7 & H8).
  destruct (report_bits_at r RP) as (UP & BP & UE & UB & CB).
  assert (EU : urbb_bits s = rev (r_urbb r)).
  { unfold urbb_bits. rewrite map_rev. f_equal. rewrite H7, UB. rewrite bits_at_length by lia.
    apply octets_list; [lia|lia|apply mod8; exact WU|exact H8]. }
  unfold told_bits, decode_egprs_acknack. rewrite H1, F. change (negb (Z.b2z false =? 0)) with false. cbv iota.
  rewrite H2, H4, H5, H7, EU. replace (negb (Z.b2z (r_bow r) =? 0)) with (r_bow r) by (now destruct (r_bow r)). fold implicit.
  assert (B0 : length (bv_pushes 1024 [] (repeat true (Z.to_nat implicit))) = Z.to_nat implicit).
  { assert (G : forall k b, Z.of_nat (length b) + Z.of_nat k <= 1024 -> length (bv_pushes 1024 b (repeat true k)) = (length b + k)%nat).
    { induction k; intros b Hb; [cbn; lia|]. cbn [repeat]. unfold bv_pushes. cbn [fold_left]. fold (bv_pushes 1024 (bv_push 1024 b true) (repeat true k)).
      assert (P : bv_push 1024 b true = b ++ [true]) by (unfold bv_push; replace (Z.of_nat (length b) <? 1024) with true by (symmetry; apply Z.ltb_lt; lia); reflexivity).
      rewrite P, IHk; rewrite app_length; cbn [length]; lia. }
    rewrite G; cbn [length]; lia. }
  set (b0 := bv_pushes 1024 [] (repeat true (Z.to_nat implicit))) in *.
  assert (B1 : bv_push 1024 b0 false = b0 ++ [false]) by (unfold bv_push; replace (Z.of_nat (length b0) <? 1024) with true by (symmetry; apply Z.ltb_lt; lia); reflexivity).
  unfold says in SA. rewrite <- (rev_length (r_urbb r)). rewrite <- (rev_length (r_urbb r)) in UB, WU. destruct (r_crbb r) as [[c z]|] eqn:C.
  - destruct (H6 c z eq_refl) as (C1 & C2 & C3). destruct (CB c z eq_refl) as [CZ CE]. destruct SA as (rs & RO & Z1 & L1).
    change (negb (1 =? 0)) with true. cbv iota. rewrite C1, C2. replace (negb (Z.b2z c =? 0)) with c by (now destruct c).
    assert (EC : crbb_bits s = z).
    { unfold crbb_bits. rewrite C2. etransitivity; [|symmetry; exact CZ]. apply octets_list; [lia|lia|apply mod8; exact WC|exact C3]. }
    rewrite EC. destruct (Nat.eqb_spec (length z) 0) as [E0|E0].
    + rewrite E0. change (0 <? Z.of_nat 0) with false. cbv iota. rewrite Z.add_0_r.
      destruct (length (rev (r_urbb r))) as [|n0]; [reflexivity|]. replace (0 <? Z.of_nat (S n0)) with true by (symmetry; apply Z.ltb_lt; lia). reflexivity.
    + replace (0 <? Z.of_nat (length (rev (r_urbb r))) + Z.of_nat (length z)) with true by (symmetry; apply Z.ltb_lt; lia).
      replace (0 <? Z.of_nat (length z)) with true by (symmetry; apply Z.ltb_lt; lia). cbn [negb].
      assert (LL : length l = (length (paint c rs) + length (rev (r_urbb r)))%nat) by (rewrite L1, app_length; reflexivity).
      replace (firstn (length l - length (rev (r_urbb r))) l) with (paint c rs).
      2: { rewrite LL, L1. replace (length (paint c rs) + length (rev (r_urbb r)) - length (rev (r_urbb r)))%nat with (length (paint c rs)) by lia.
           rewrite firstn_app, Nat.sub_diag, firstn_all. cbn [firstn]. now rewrite app_nil_r. }
      rewrite Z1, decompress_ok; [|exact RO|rewrite B1, app_length; cbn [length]; lia].
      assert (G : forall p b, Z.of_nat (length b) + Z.of_nat (length p) <= 1024 -> bv_pushes 1024 b p = b ++ p).
      { induction p as [|x p IH]; intros b Hb; [symmetry; apply app_nil_r|]. unfold bv_pushes. cbn [fold_left]. fold (bv_pushes 1024 (bv_push 1024 b x) p). cbn [length] in Hb.
        assert (P : bv_push 1024 b x = b ++ [x]) by (unfold bv_push; replace (Z.of_nat (length b) <? 1024) with true by (symmetry; apply Z.ltb_lt; lia); reflexivity).
        rewrite P, IH by (rewrite app_length; cbn [length]; lia). rewrite <- app_assoc. reflexivity. }
      rewrite (G (paint c rs) (bv_push 1024 b0 false)) by (rewrite B1, app_length; cbn [length]; lia). reflexivity.
  - change (negb (0 =? 0)) with false. cbv iota. change (0 <? 0) with false. cbv iota. rewrite Z.add_0_r.
    destruct (length (rev (r_urbb r))) as [|n0]; [reflexivity|]. replace (0 <? Z.of_nat (S n0)) with true by (symmetry; apply Z.ltb_lt; lia). reflexivity.
Qed.

Theorem told_final s r w : decode_ul msg = Go s -> message_type msg = EGPRS_DOWNLINK_ACK_NACK -> report_of msg = Some r -> r_final r = true ->
  told_bits s w = handle_final_ack 1024 w.
Proof.
  intros D M RP F. destruct (egprs_members s r D M RP) as (H1 & _). unfold told_bits. rewrite H1, F. reflexivity.
Qed.
End Members.
