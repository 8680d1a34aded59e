From Coq Require Import ZArith List Bool Lia ZifyBool Znumtheory.
From Verif Require Import Base.Arith Model.RlcWindow Model.RlcWindowUl Model.TbfUlWindow Model.T4 Model.UlAckDesc
  Spec.UlWindowSpec Spec.T4Spec Spec.AckDescSpec Proofs.UlWindowP Proofs.UlWindowI Proofs.UlWindowProps Proofs.T4P.
Import ListNotations.
Local Open Scope Z_scope.

Lemma rcv_bit ws o bsn i : ul_reach 2048 ws o -> uws o <= 512 -> u_Q o < i < u_R o -> bsn mod 1024 = i mod 1024 ->
  (vn_is_received (ut_w (u_t o)) bsn = true <-> arrived o i).
Proof.
  intros H Hws Hi E.
  pose proof (reach_UInv _ _ _ H) as [HJ _ _ _]. pose proof HJ as HJ0. destruct HJ0.
  fold (uws o) in *.
  assert (Hh : ul_half 2048 (uws o)) by (unfold ul_half; change (Z.min 2048 1024) with 1024; lia).
  assert (Hnf : no_far (u_log o)) by (apply (reach_no_far _ _ _ H); lia).
  set (w := ut_w (u_t o)) in *.
  assert (Hok : sns_ok (uw_sns w)) by now rewrite j_sns.
  rewrite (vn_st w _ i); auto.
  2:{ rewrite slot_min by auto. rewrite j_sns. change (Z.min 2048 1024) with 1024. symmetry. exact E. }
  rewrite rcvd_true. split.
  - intro Hs. destruct (j_snd i ltac:(lia) Hs) as [far Hin]. eexists; eexists; eauto.
  - intro Ha. apply (c06_state 2048 ws o i H Hh Hnf Ha). lia.
Qed.

(** The truth about the blocks Q+1 ... R-1. *)
Definition truth (w : ul_window) (q : Z) (n : nat) : list bool := map (fun k => vn_is_received w (q + 1 + Z.of_nat k)) (seq 0 n).
Lemma truth_nth w q n k : (k < n)%nat -> nth k (truth w q n) false = vn_is_received w (q + 1 + Z.of_nat k).
Proof. intros L. apply map_seq_nth. exact L. Qed.
Lemma map_seq_shift {A} (f g : nat -> A) a : (forall k, f (a + k)%nat = g k) ->
  forall b s, map f (seq (a + s) b) = map g (seq s b).
Proof.
  intros E. induction b as [|b IH]; intros s; cbn [seq map]; [reflexivity|]. rewrite E. f_equal.
  rewrite plus_n_Sm. apply IH.
Qed.
Lemma truth_app w q a b : truth w q (a + b) = truth w q a ++ truth w (q + Z.of_nat a) b.
Proof.
  unfold truth. rewrite seq_app, map_app. f_equal. replace (0 + a)%nat with (a + 0)%nat by lia. apply map_seq_shift.
  intros k. f_equal. lia.
Qed.
Lemma vn_mod w a b : a mod 1024 = b mod 1024 -> vn_is_received w a = vn_is_received w b.
Proof. intros E. unfold vn_is_received, vn_get, mod_sns_half. rewrite !land_1023, E. reflexivity. Qed.
Lemma truth_mod w a b n : a mod 1024 = b mod 1024 -> truth w a n = truth w b n.
Proof.
  intros E. unfold truth. apply map_ext. intros k. apply vn_mod.
  rewrite <- !Z.add_assoc. rewrite <- (Zplus_mod_idemp_l a), <- (Zplus_mod_idemp_l b), E. reflexivity.
Qed.
Lemma truth_length w q n : length (truth w q n) = n.
Proof. unfold truth. rewrite map_length, seq_length. reflexivity. Qed.
Lemma truth_firstn w q n k : (k <= n)%nat -> firstn k (truth w q n) = truth w q k.
Proof.
  intros L. replace n with (k + (n - k))%nat by lia. rewrite truth_app, firstn_app, truth_length, Nat.sub_diag, firstn_O, app_nil_r.
  apply firstn_all2. rewrite truth_length. lia.
Qed.
Lemma urbb_truth w esn n : rev (map (fun k => vn_is_received w (esn + Z.of_nat k)) (rev (seq 1 n))) = truth w esn n.
Proof.
  rewrite map_rev, rev_involutive. unfold truth. change (seq 1 n) with (seq (1 + 0) n). apply map_seq_shift.
  intros k. f_equal. lia.
Qed.

Lemma egprs_rbb_loop w : sns_ok (uw_sns w) -> uw_sns w = 2048 -> forall n i bsn, uw_vr w <= 2047 ->
  0 <= bsn -> i + (uw_vr w - bsn) <= uw_ws w -> Z.of_nat n >= uw_vr w - bsn ->
  ul_egprs_rbb_loop n w i bsn = truth w (bsn - 1) (Z.to_nat (uw_vr w - bsn)).
Proof.
  intros OK SN. induction n as [|n IH]; intros i bsn V B W N.
  { replace (Z.to_nat (uw_vr w - bsn)) with 0%nat by lia. reflexivity. }
  cbn [ul_egprs_rbb_loop]. destruct (bsn <? uw_vr w) eqn:L.
  - apply Z.ltb_lt in L. replace (i <? uw_ws w) with true by lia. cbn [andb].
    replace (Z.to_nat (uw_vr w - bsn)) with (1 + Z.to_nat (uw_vr w - (bsn + 1)))%nat by lia.
    rewrite truth_app. cbn [truth seq map app]. f_equal; [f_equal; lia|].
    rewrite umod_mod by exact OK. rewrite SN, Z.mod_small by lia. rewrite IH by lia. f_equal. lia.
  - cbn [andb]. apply Z.ltb_ge in L. replace (Z.to_nat (uw_vr w - bsn)) with 0%nat by lia. reflexivity.
Qed.

Lemma rbb_ok ws o : ul_reach 2048 ws o -> uws o <= 512 ->
  let w := ut_w (u_t o) in let n := Z.to_nat (u_R o - u_Q o - 1) in
  ul_update_egprs_rbb w = [] \/ ul_update_egprs_rbb w = truth w (u_Q o) n.
Proof.
  intros H Hws w n. pose proof (reach_UInv _ _ _ H) as [HJ _ _ _]. destruct HJ. fold (uws o) in *. fold w in j_sns, j_vq, j_vr.
  assert (Hok : sns_ok (uw_sns w)) by now rewrite j_sns.
  unfold ul_update_egprs_rbb. rewrite j_vq.
  pose proof (Z.mod_pos_bound (u_Q o) 2048 ltac:(lia)) as BQ. pose proof (Z.mod_pos_bound (u_R o) 2048 ltac:(lia)) as BR.
  destruct (Z.leb (u_Q o mod 2048 + 1) (u_R o mod 2048)) eqn:L.
  - right. apply Z.leb_le in L.
    assert (D : u_R o mod 2048 - u_Q o mod 2048 = u_R o - u_Q o).
    { pose proof (mod_sub_dist 2048 (u_Q o) (u_R o)) as X. Z.div_mod_to_equations. lia. }
    change (uw_ws w) with (uws o). rewrite egprs_rbb_loop; auto; rewrite ?j_vr; try lia.
    + unfold n. replace (Z.to_nat (u_R o mod 2048 - (u_Q o mod 2048 + 1))) with (Z.to_nat (u_R o - u_Q o - 1)) by lia.
      apply truth_mod. replace (u_Q o mod 2048 + 1 - 1) with (u_Q o mod 2048) by lia.
      rewrite <- (Zmod_div_mod 1024 2048 (u_Q o)); try lia. now exists 2.
    + change (uw_ws w) with (uws o). lia.
  - left. apply Z.leb_gt in L. destruct (Z.to_nat (uw_ws w)); [reflexivity|]. cbn [ul_egprs_rbb_loop].
    rewrite j_vr. replace (u_Q o mod 2048 + 1 <? u_R o mod 2048) with false by lia. reflexivity.
Qed.

Lemma truth_bitmap ws o n : ul_reach 2048 ws o -> uws o <= 512 -> Z.of_nat n <= pending o ->
  bitmap o (truth (ut_w (u_t o)) (u_Q o) n).
Proof.
  intros H W N k K. rewrite truth_length in K. rewrite truth_nth by exact K. unfold pending in N.
  apply (rcv_bit ws); auto. lia.
Qed.
(** What an uncompressed report with [n] bits says. *)
Lemma tell_unc ws o len eow ssn n : ul_reach 2048 ws o -> uws o <= 512 -> Z.of_nat n <= pending o ->
  let d := mk_desc len eow ssn None (map (fun k => vn_is_received (ut_w (u_t o)) (u_Q o mod 2048 + Z.of_nat k)) (rev (seq 1 n))) in
  told d = Some (truth (ut_w (u_t o)) (u_Q o) n) /\ desc_bits d = 24 + Z.of_nat n.
Proof.
  intros H W N d. unfold d, told, desc_bits. cbn [a_crbb a_urbb]. rewrite urbb_truth, map_length, rev_length, seq_length. split; [|lia].
  f_equal. apply truth_mod. rewrite <- (Zmod_div_mod 1024 2048 (u_Q o)); try lia. now exists 2.
Qed.

Lemma report_ok ws o rest0 : ul_reach 2048 ws o -> uws o <= 512 -> 40 <= rest0 <= 160 ->
  pending o <= 255 -> no_cut o (rest0 - 40) ->
  exists d, ack_desc_egprs (ut_w (u_t o)) rest0 = Some d /\ a_ssn d = (u_Q o + 1) mod 2048 /\
    a_len d = (desc_bits d - 9) mod 256 /\
    (forall c b, a_crbb d = Some (c, b) -> Z.of_nat (length b) <= 127) /\
    (a_eow d = false -> desc_bits d <= rest0) /\
    exists l, told d = Some l /\ bitmap o l /\ Z.of_nat (length l) <= pending o /\
      (a_eow d = true <-> Z.of_nat (length l) = pending o).
Proof.
  intros H Hws HR HP NC.
  pose proof (rbb_ok ws o H Hws) as RB. cbv zeta in RB.
  pose proof (reach_UInv _ _ _ H) as [HJ _ _ _]. pose proof HJ as HJ0. destruct HJ0. fold (uws o) in *.
  pose proof (truth_bitmap ws o) as TB.
  pose proof (fun len eow ssn n => tell_unc ws o len eow ssn n H Hws) as TU.
  set (w := ut_w (u_t o)) in *.
  assert (Hok : sns_ok (uw_sns w)) by now rewrite j_sns.
  unfold ack_desc_egprs.
  rewrite !umod_mod by auto. rewrite j_sns, j_vq, j_vr.
  rewrite mod_add_l by lia.
  rewrite (mod_sub_l 2048 (u_Q o + 1) 1) by lia.
  replace (u_Q o + 1 - 1) with (u_Q o) by lia.
  rewrite (mod_sub_dist 2048 (u_Q o) (u_R o)) by lia.
  replace (if u_R o - u_Q o >? 0 then u_R o - u_Q o - 1 else u_R o - u_Q o) with (pending o).
  2:{ unfold pending. destruct (u_R o - u_Q o >? 0) eqn:E; lia. }
  change (uw_ws w) with (uws o). replace (pending o >? uws o) with false by (unfold pending; lia).
  replace (rest0 - 24 <? 16) with false by lia.
  assert (PN : 0 <= pending o) by (unfold pending; lia).
  (* uncompressed *)
  assert (UNC : forall n, Z.of_nat n = Z.min (pending o) (rest0 - 24) ->
    let d := mk_desc ((Z.of_nat n + 15) mod 256) (negb (pending o >? rest0 - 24)) ((u_Q o + 1) mod 2048) None
       (map (fun k => vn_is_received w (u_Q o mod 2048 + Z.of_nat k)) (rev (seq 1 n))) in
    a_ssn d = (u_Q o + 1) mod 2048 /\
    a_len d = (desc_bits d - 9) mod 256 /\
    (forall c b, a_crbb d = Some (c, b) -> Z.of_nat (length b) <= 127) /\
    (a_eow d = false -> desc_bits d <= rest0) /\
    exists l, told d = Some l /\ bitmap o l /\ Z.of_nat (length l) <= pending o /\
      (a_eow d = true <-> Z.of_nat (length l) = pending o)).
  { intros n Hn d.
    destruct (TU ((Z.of_nat n + 15) mod 256) (negb (pending o >? rest0 - 24)) ((u_Q o + 1) mod 2048) n) as [T1 T2]; [lia|].
    fold d in T1, T2. split; [reflexivity|]. split; [rewrite T2; unfold d; cbn [a_len]; f_equal; lia|].
    split; [discriminate|]. split; [intros _; rewrite T2; lia|].
    exists (truth w (u_Q o) n). split; [exact T1|]. split; [apply TB; auto; lia|]. rewrite truth_length. split; [lia|].
    unfold d. cbn [a_eow]. lia. }
  destruct (pending o >? rest0 - 24) eqn:TRY.
  2:{ cbn [length]. change (23 * 8 <? Z.of_nat 0) with false. cbv iota.
      replace (pending o >? 0 + (rest0 - 24)) with false by lia.
      rewrite Z.sub_0_r, (Z.mod_small (pending o) (2 ^ 32)), (Z.mod_small (pending o) 256) by lia.
      eexists. split; [reflexivity|].
      specialize (UNC (Z.to_nat (pending o)) ltac:(lia)). rewrite Z2Nat.id in UNC by lia. exact UNC. }
  specialize (UNC (Z.to_nat (rest0 - 24)) ltac:(lia)). rewrite Z2Nat.id in UNC by lia.
  assert (NOC : forall (out crbb : list bool) (uc : Z), (length out <= 184)%nat ->
    exists d,
    (if 23 * 8 <? Z.of_nat (length out) then None else
     let crbb_len := if false then Z.of_nat (length crbb) else 0 in
     let uclen := if false then uc else 0 in
     let rest := if false then rest0 - 24 - 8 else rest0 - 24 in
     let eow := negb (pending o >? uclen + rest) in
     let urbb_len := (if pending o >? uclen + rest then rest - crbb_len else pending o - uclen) mod 2 ^ 32 in
     let len := (if false then urbb_len + crbb_len + 23 else urbb_len + 15) mod 256 in
     let esn := if false then (u_Q o mod 2048 + uclen) mod 2048 else u_Q o mod 2048 in
     Some (mk_desc len eow ((u_Q o + 1) mod 2048) (if false then Some (hd false (ul_update_egprs_rbb w), crbb) else None)
      (map (fun k => vn_is_received w (esn + Z.of_nat k)) (rev (seq 1 (Z.to_nat (urbb_len mod 256))))))) = Some d /\
    a_ssn d = (u_Q o + 1) mod 2048 /\
    a_len d = (desc_bits d - 9) mod 256 /\
    (forall c b, a_crbb d = Some (c, b) -> Z.of_nat (length b) <= 127) /\
    (a_eow d = false -> desc_bits d <= rest0) /\
    exists l, told d = Some l /\ bitmap o l /\ Z.of_nat (length l) <= pending o /\
      (a_eow d = true <-> Z.of_nat (length l) = pending o)).
  { intros out crbb uc LO. replace (23 * 8 <? Z.of_nat (length out)) with false by lia. cbv iota zeta.
    rewrite Z.add_0_l, TRY. cbv iota. rewrite Z.sub_0_r, (Z.mod_small (rest0 - 24) (2 ^ 32)), (Z.mod_small (rest0 - 24) 256) by lia.
    eexists. split; [reflexivity|]. exact UNC. }
  rewrite (Z.mod_small (rest0 - 24 - 16)) by lia.
  destruct RB as [RB|RB].
  { rewrite RB. change (compress_rbb [] (rest0 - 24 - 16)) with (@nil bool, @nil bool, 0, false). cbv iota beta.
    rewrite RB in NOC. apply (NOC [] [] 0). cbn [length]. lia. }
  replace (Z.to_nat (u_R o - u_Q o - 1)) with (Z.to_nat (pending o)) in RB by (unfold pending; lia).
  set (A := truth w (u_Q o) (Z.to_nat (pending o))) in *.
  destruct (runs_exist A false) as (rs & RP & RA). set (c := hd false A) in *.
  assert (LA : length A = Z.to_nat (pending o)) by (unfold A; apply truth_length).
  assert (PR : proper rs) by (apply (proper_runs c); [exact RP|rewrite <- RA, LA; lia]).
  assert (NE : rs <> []). { intros ->. cbn [paint] in RA. rewrite RA in LA. cbn [length] in LA. lia. }
  assert (CUT : Forall (fun r => (r < 64)%nat) rs \/ Z.of_nat (length (code_runs c rs)) <= rest0 - 24 - 16).
  { replace (rest0 - 24 - 16) with (rest0 - 40) by lia. destruct NC as (c2 & rs2 & N1 & N2 & N3 & N4).
    assert (EQ : paint c2 rs2 = A).
    { assert (LQ : length (paint c2 rs2) = length A) by (rewrite LA; lia).
      apply (nth_ext _ _ false false LQ). intros i Li. pose proof (N2 i Li) as B1.
      pose proof (TB (Z.to_nat (pending o)) H Hws ltac:(lia) i ltac:(fold A; lia)) as B2. fold A in B2.
      destruct (nth i (paint c2 rs2) false), (nth i A false); try reflexivity; exfalso; [|symmetry in B1]; intuition congruence. }
    rewrite RA in EQ. destruct (paint_unique rs2 c2 rs c N1 RP EQ) as [E1 E2]. subst rs2. rewrite <- (E2 NE). exact N4. }
  destruct (compress_clean (rest0 - 24 - 16) c rs PR NE CUT) as (k & out & K1 & K2 & K3 & K4 & E).
  rewrite RB in NOC |- *. fold c in NOC |- *. rewrite <- RA in E.
  rewrite E. cbv iota beta.
  set (CR := code_runs c (firstn k rs)) in *. set (U := length (paint c (firstn k rs))) in *.
  assert (LC : Z.of_nat (length CR) <= rest0 - 40).
  { destruct K4 as [->|K4]; [|lia]. unfold CR. cbn [firstn code_runs length]. lia. }
  destruct (paint_firstn c rs k) as [tl PT].
  assert (UA : (U <= length A)%nat) by (rewrite RA, PT, app_length; unfold U; lia).
  destruct (negb (Z.of_nat U <=? Z.of_nat (length CR))) eqn:OKF.
  2:{ apply (NOC out CR 0). clear -K3 LC HR. lia. }
  apply negb_true_iff, Z.leb_gt in OKF.
  replace (23 * 8 <? Z.of_nat (length out)) with false by lia. cbv iota zeta.
  rewrite (Z.mod_small (Z.of_nat U) 256) by lia.
  rewrite umod_mod by auto. rewrite j_sns. rewrite (mod_add_l 2048) by lia.
  assert (UN : Z.of_nat U <= pending o) by (rewrite LA in UA; clear - UA PN; lia).
  set (urbb := if pending o >? Z.of_nat U + (rest0 - 24 - 8) then rest0 - 24 - 8 - Z.of_nat (length CR) else pending o - Z.of_nat U).
  assert (UB : 0 <= urbb <= 255) by (unfold urbb; clear - UN LC HR PN HP; destruct (pending o >? _) eqn:Q; lia).
  rewrite (Z.mod_small urbb (2 ^ 32)), (Z.mod_small urbb 256) by lia.
  eexists. split; [reflexivity|]. cbn [a_ssn a_len a_crbb a_eow]. split; [reflexivity|].
  assert (DB : forall len eow ssn cc e, desc_bits (mk_desc len eow ssn (Some (cc, CR)) (map (fun k => vn_is_received w (e + Z.of_nat k)) (rev (seq 1 (Z.to_nat urbb)))))
     = 32 + Z.of_nat (length CR) + urbb).
  { intros. unfold desc_bits. cbn [a_crbb a_urbb]. rewrite map_length, rev_length, seq_length. lia. }
  rewrite DB. split; [f_equal; lia|]. split; [intros c0 b0 EB; injection EB as <- <-; lia|].
  split.
  { intros EO. apply negb_false_iff in EO. unfold urbb. rewrite EO. lia. }
  exists (truth w (u_Q o) (U + Z.to_nat urbb)).
  assert (UL : Z.of_nat U + urbb <= pending o) by (unfold urbb; clear - UN LC HR PN HP; destruct (pending o >? _) eqn:Q; lia).
  split; [|split; [|split]].
  - unfold told. cbn [a_crbb a_urbb]. rewrite urbb_truth. unfold CR. rewrite decompress_ok.
    + cbn [app]. rewrite truth_app. f_equal. f_equal.
      * assert (X : firstn U A = truth w (u_Q o) U) by (unfold A; apply truth_firstn; lia). rewrite <- X, RA, PT.
        rewrite firstn_app. fold U. rewrite Nat.sub_diag, firstn_O, app_nil_r. symmetry. apply firstn_all.
      * apply truth_mod. rewrite <- (Zmod_div_mod 1024 2048); try lia. now exists 2.
    + apply Forall_firstn, proper_ok, PR.
    + cbn [length]. fold U. lia.
  - apply TB; auto. lia.
  - rewrite truth_length. lia.
  - rewrite truth_length. unfold urbb. destruct (pending o >? Z.of_nat U + (rest0 - 24 - 8)) eqn:Q; cbn [negb]; split; intros X; try discriminate; try reflexivity; lia.
Qed.
