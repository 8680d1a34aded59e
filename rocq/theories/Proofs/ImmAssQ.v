From Coq Require Import ZArith List Bool Lia.
From Verif Require Import Base.Arith Model.CodingScheme Model.BtsConf Model.ImmAss Spec.ImmAssSpec Proofs.ImmAssP.
Import ListNotations.
Local Open Scope Z_scope.

Lemma rb_app_inv : forall l i, length (rb i l) = length l.
Proof. induction l; intros; cbn [rb length]; [reflexivity|]. now rewrite IHl. Qed.

Lemma sent_inj : forall a b c d, IaSent a b = IaSent c d -> a = c /\ b = d.
Proof. intros a b c d E. injection E as -> ->. split; reflexivity. Qed.

Lemma sent_view : forall p t q plen vec, write_immediate_assignment p t q = IaSent plen vec ->
  exists r, w_rest t q = Some r /\ plen = 11 + Z.of_nat (length (ma_of p)) /\
    (88 + 8 * length (ma_of p) + length r <= 176)%nat /\
    vec = octets 22 (puts 0 (w_header p q ++ r ++ repeat L (176 - (88 + 8 * length (ma_of p) + length r)))) /\
    message_bits vec = rb 0 (w_header p q ++ r ++ repeat L (176 - (88 + 8 * length (ma_of p) + length r))).
Proof.
  intros p t q plen vec W. unfold write_immediate_assignment in W. destruct (w_rest t q) as [r|]; [|discriminate W].
  cbv zeta in W. destruct (Nat.ltb VEC_BITS (length (w_header p q ++ r))) eqn:E; [discriminate W|]. apply sent_inj in W. destruct W as [<- <-].
  apply Nat.ltb_ge in E. rewrite app_length, header_length in *. unfold VEC_BITS in *. exists r. split; [reflexivity|].
  split; [|split; [exact E|rewrite <- app_assoc; split; [reflexivity|]]].
  - rewrite Nat2Z.inj_add, Nat2Z.inj_mul. Z.div_mod_to_equations. lia.
  - apply bits_of_puts; [|reflexivity].
    rewrite !app_length, repeat_length, header_length. lia.
Qed.

Lemma l2_length : forall n, 0 <= n < 64 -> Z.lor (Z.shiftl n 2) 1 mod 256 = 4 * n + 1.
Proof.
  intros n N. assert (A : forallb (fun k => Z.lor (Z.shiftl k 2) 1 mod 256 =? 4 * k + 1) (map Z.of_nat (seq 0 64)) = true) by (vm_compute; reflexivity).
  rewrite forallb_forall in A. apply Z.eqb_eq. apply A. apply in_map_iff. exists (Z.to_nat n). split; [lia|]. apply in_seq. lia.
Qed.

Lemma reads : forall p q r (R : rest -> Prop) plen vec k, pdch_ok p -> par_ok q -> plen = 11 + Z.of_nat (length (ma_of p)) ->
  message_bits vec = rb 0 (w_header p q ++ r ++ k) ->
  (forall i, exists rr j, R rr /\ r_rest (q_down q) (rb i (r ++ k)) = Some (rr, j)) ->
  exists rr, R rr /\ mobile_reads (l1_block plen vec) = Some (plen, message_for p q rr).
Proof.
  intros p q r R plen vec k P Q PL M RR. unfold mobile_reads, l1_block.
  assert (ML : (length (ma_of p) <= 8)%nat).
  { destruct P as (_ & _ & _ & P). unfold ma_of. destruct (ip_fh p) as [[[a b] c]|]; [tauto|cbn; lia]. }
  rewrite l2_length by lia. replace ((4 * plen + 1) mod 4) with 1 by (Z.div_mod_to_equations; lia). rewrite Z.eqb_refl.
  replace ((4 * plen + 1) / 4) with plen by (Z.div_mod_to_equations; lia). rewrite M.
  destruct (header_ok p q (r ++ k) 0 P Q) as [j E]. rewrite E. destruct (RR j) as (rr & j' & Rr & E'). exists rr. split; [exact Rr|].
  rewrite (bind_some _ _ _ _ _ _ _ E'). reflexivity.
Qed.

Lemma read_uplink : forall p t q plen vec, pdch_ok p -> par_ok q -> q_down q = false -> ul_ok t q ->
  write_immediate_assignment p t q = IaSent plen vec ->
  plen = 11 + Z.of_nat (length (ma_of p)) /\ mobile_reads (l1_block plen vec) = Some (plen, message_for p q (RUp (uplink_for t q))).
Proof.
  intros p t q plen vec P Q D U W. destruct (sent_view p t q plen vec W) as (r & R & PL & _ & _ & M). split; [exact PL|].
  destruct (reads p q r (fun x => x = RUp (uplink_for t q)) plen vec _ P Q PL M) as (rr & -> & E); [|exact E].
  intros i. rewrite D. destruct (uplink_ok t q (repeat L (176 - (88 + 8 * length (ma_of p) + length r))) i Q D U r R) as [j E]. exists (RUp (uplink_for t q)), j. auto.
Qed.

Lemma read_downlink : forall p tlli tfi ws q plen vec, pdch_ok p -> par_ok q -> q_down q = true -> fits 32 tlli -> fits 5 tfi ->
  write_immediate_assignment p (DlTbf tlli tfi false ws) q = IaSent plen vec ->
  plen = 11 + Z.of_nat (length (ma_of p)) /\ mobile_reads (l1_block plen vec) = Some (plen, message_for p q (downlink_for tlli tfi q None)).
Proof.
  intros p tlli tfi ws q plen vec P Q D T F W. destruct (sent_view _ _ q plen vec W) as (r & R & PL & _ & _ & M). split; [exact PL|].
  unfold w_rest in R. rewrite D in R. injection R as <-.
  destruct (reads p q _ (fun x => x = downlink_for tlli tfi q None) plen vec _ P Q PL M) as (rr & -> & E); [|exact E].
  intros i. rewrite D.
  match goal with |- context [w_rest_dl _ _ _ _ _ _ _ _ _ _ ++ ?l0] =>
  destruct (rest_dl_gen tlli tfi false (fun x => x = None) ws q l0 i Q T F) as (pe & j & -> & E) end.
  - intros j. exists None. eexists. split; [reflexivity|]. cbn [app]. apply optL.
  - exists (downlink_for tlli tfi q None), j. auto.
Qed.

Lemma rest_dl_length : forall tlli tfi (e : bool) ws q, let r := w_rest_dl tlli tfi e ws (q_poll q) (q_ta q <? 64) (q_start q) (q_alpha q) (q_gamma q) (q_tai q) in
  (length r = 49 + (if (q_alpha q =? 0)%Z then 1 else 5) + (if (q_tai q <? 0)%Z then 1 else 5) + (if q_poll q then 17 else 1) + (if e then 9 else 1) + 2)%nat.
Proof.
  intros. unfold r, w_rest_dl, w_alpha_gamma, w_ta_index. rewrite !app_length.
  destruct (q_alpha q =? 0), (q_tai q <? 0), (q_poll q), e; cbn [negb length]; rewrite ?app_length, ?fld_length, ?start_length; cbn [length]; lia.
Qed.

(** With EGPRS the mobile goes on to read a BEP_PERIOD2 from the padding. *)
Lemma read_downlink_egprs : forall p tlli tfi ws q plen vec, pdch_ok p -> par_ok q -> q_down q = true -> fits 32 tlli -> fits 5 tfi -> ws_ok ws ->
  (length (ma_of p) <= 1)%nat -> q_poll q = false -> q_tai q < 0 ->
  write_immediate_assignment p (DlTbf tlli tfi true ws) q = IaSent plen vec ->
  exists bep, mobile_reads (l1_block plen vec) = Some (plen, message_for p q (downlink_for tlli tfi q (Some ((ws - 64) / 32, 0, Some bep)))).
Proof.
  intros p tlli tfi ws q plen vec P Q D T F WS ML NP NT W. destruct (sent_view _ _ q plen vec W) as (r & R & PL & _ & _ & M).
  unfold w_rest in R. rewrite D in R. injection R as <-.
  pose proof (rest_dl_length tlli tfi true ws q) as RL. cbv zeta in RL.
  match type of RL with length ?x = _ => set (r := x) in * end.
  assert (RL' : (length r <= 67)%nat) by (rewrite RL, NP; apply Z.ltb_lt in NT; rewrite NT; destruct (q_alpha q =? 0); lia).
  destruct (reads p q r (fun x => exists bep, x = downlink_for tlli tfi q (Some ((ws - 64) / 32, 0, Some bep))) plen vec _ P Q PL M) as (rr & (bep & ->) & E).
  2:{ exists bep. exact E. }
  intros i. rewrite D. unfold r.
  destruct (rest_dl_gen tlli tfi true (fun x => exists bep, x = Some ((ws - 64) / 32, 0, Some bep)) ws q (repeat L (176 - (88 + 8 * length (ma_of p) + length r))) i Q T F) as (pe & j & (bep & ->) & E).
  - intros j. remember (176 - (88 + 8 * length (ma_of p) + length r))%nat as k eqn:KE. clear - KE WS ML RL'.
    do 4 (destruct k as [|k]; [lia|]). cbn [repeat]. destruct (egprs_bep ws j L L L L (repeat L k) WS) as [j' E].
    eexists. exists j'. split; [|exact E]. eexists. reflexivity.
  - exists (downlink_for tlli tfi q (Some ((ws - 64) / 32, 0, Some bep))), j. eauto.
Qed.

(** * Extracting the TLLI *)
Lemma puts_length : forall l i, length (puts i l) = length l.
Proof. induction l; intros; cbn [puts length]; [reflexivity|]. now rewrite IHl. Qed.
Lemma octets_length : forall n l, length (octets n l) = n.
Proof. induction n; intros; cbn [octets length]; [reflexivity|]. now rewrite IHn. Qed.
Lemma octets_split : forall k n i a b, length a = (8 * k)%nat ->
  octets (k + n) (puts i (a ++ b)) = octets k (puts i a) ++ octets n (puts (i + 8 * Z.of_nat k) b).
Proof.
  induction k as [|k IH]; intros n i a b Len.
  - destruct a; [|cbn [length] in Len; lia]. cbn [octets app Nat.add]. do 2 f_equal. lia.
  - do 8 (destruct a as [|? a]; [cbn [length] in Len; lia|]).
    cbn [app puts octets Nat.add firstn skipn]. rewrite IH by (cbn [length] in Len; lia). cbn [app]. do 4 f_equal. lia.
Qed.

Lemma lor_shift : forall m n x y, 0 <= m -> 0 <= n -> 0 <= y < 2 ^ n -> Z.lor (Z.shiftl x (m + n)) (Z.shiftl y m) = Z.shiftl (x * 2 ^ n + y) m.
Proof.
  intros m n x y M N Y. replace (m + n) with (n + m) by lia. rewrite <- Z.shiftl_shiftl, <- Z.shiftl_lor by lia. f_equal.
  rewrite <- Z.shiftl_mul_pow2 by lia. symmetry.
  apply Z.bits_inj'. intros k K. rewrite Z.lor_spec, Z.shiftl_spec by lia. rewrite Z.shiftl_mul_pow2 by lia.
  destruct (Z_lt_ge_dec k n).
  - rewrite (Z.testbit_neg_r x) by lia. cbn [orb]. rewrite <- (Z.mod_pow2_bits_low _ n k) by lia.
    rewrite Z.add_comm, Z_mod_plus_full, Z.mod_small by lia. reflexivity.
  - replace (Z.testbit y k) with false. 2:{ symmetry. destruct (Z.eq_dec y 0) as [->|]; [apply Z.bits_0|]. apply Z.bits_above_log2; [lia|]. apply Z.log2_lt_pow2; [lia|]. apply Z.lt_le_trans with (2 ^ n); [lia|apply Z.pow_le_mono_r; lia]. }
    rewrite orb_false_r. replace k with (k - n + n) at 1 by lia. rewrite <- Z.div_pow2_bits by lia. f_equal.
    rewrite Z.div_add_l by (apply Z.pow_nonzero; lia). rewrite Z.div_small by lia. lia.
Qed.

Lemma octet_fld : forall w v i acc, fold_left (fun a (b : bool) => 2 * a + (if b then 1 else 0)) (puts i (fld w v)) acc = acc * 2 ^ Z.of_nat w + v mod 2 ^ Z.of_nat w.
Proof.
  induction w as [|w IH]; intros.
  - cbn [fld seq map puts fold_left]. rewrite Z.mod_1_r. change (2 ^ Z.of_nat 0) with 1. lia.
  - rewrite fld_S. cbn [puts fold_left put]. rewrite IH.
    rewrite Nat2Z.inj_succ, Z.pow_succ_r by lia. set (p := 2 ^ Z.of_nat w). assert (0 < p) by (apply Z.pow_pos_nonneg; lia).
    rewrite (Z.mul_comm 2 p), Z.rem_mul_r by lia.
    replace ((v / p) mod 2) with (if Z.testbit v (Z.of_nat w) then 1 else 0); [ring|].
    unfold p. rewrite <- Z.testbit_spec' by lia. reflexivity.
Qed.

Definition b2 (b : bool) : Z := if b then 1 else 0.
Lemma b2_rng : forall b, 0 <= b2 b <= 1.
Proof. intros [|]; cbn [b2]; lia. Qed.
Lemma extract : forall t0 t1 t2 t3 t4 t5 t6 t7 t8 t9 t10 t11 t12 t13 t14 t15 t16 t17 t18 t19 t20 t21 t22 t23 t24 t25 t26 t27 t28 t29 t30 t31 x3 x2 x1 x0,
  let a := octet [true; true; false; true; t31; t30; t29; t28] in
  let b := octet [t27; t26; t25; t24; t23; t22; t21; t20] in
  let c := octet [t19; t18; t17; t16; t15; t14; t13; t12] in
  let d := octet [t11; t10; t9; t8; t7; t6; t5; t4] in
  let e := octet [t3; t2; t1; t0; x3; x2; x1; x0] in
  Z.land a 0xf0 = 0xd0 /\
  Z.lor (Z.lor (Z.lor (Z.lor (Z.shiftl (Z.land a 0xf) 28) (Z.shiftl b 20)) (Z.shiftl c 12)) (Z.shiftl d 4)) (Z.shiftr e 4) =
  octet [t31; t30; t29; t28; t27; t26; t25; t24; t23; t22; t21; t20; t19; t18; t17; t16; t15; t14; t13; t12; t11; t10; t9; t8; t7; t6; t5; t4; t3; t2; t1; t0].
Proof.
  intros. split; [unfold a; destruct t31, t30, t29, t28; vm_compute; reflexivity|].
  assert (A : Z.land a 0xf = octet [t31; t30; t29; t28]) by (unfold a; destruct t31, t30, t29, t28; vm_compute; reflexivity).
  assert (E : Z.shiftr e 4 = octet [t3; t2; t1; t0]) by (unfold e; destruct t3, t2, t1, t0, x3, x2, x1, x0; vm_compute; reflexivity).
  rewrite A, E.
  assert (R : forall y7 y6 y5 y4 y3 y2 y1 y0, 0 <= octet [y7; y6; y5; y4; y3; y2; y1; y0] < 2 ^ 8).
  { intros. change (2 ^ 8) with 256. unfold octet. cbn [fold_left]. destruct y7, y6, y5, y4, y3, y2, y1, y0; lia. }
  change 28 with (20 + 8). rewrite lor_shift by (lia || apply R). change 20 with (12 + 8). rewrite lor_shift by (lia || apply R).
  change 12 with (4 + 8) at 1. rewrite lor_shift by (lia || apply R).
  change (octet [t3; t2; t1; t0]) with (octet [t3; t2; t1; t0]).
  rewrite <- (Z.shiftl_0_r (octet [t3; t2; t1; t0])). change 4 with (0 + 4). rewrite lor_shift; [|lia|lia|].
  2:{ change (2 ^ 4) with 16. unfold octet. cbn [fold_left]. destruct t3, t2, t1, t0; lia. }
  rewrite Z.shiftl_0_r. change (2 ^ 4) with 16. change (2 ^ 8) with 256. unfold b, c, d, octet. cbn [fold_left].
  repeat match goal with |- context [if ?x then 1 else 0] => let y := fresh in set (y := if x then 1 else 0); clearbody y end. ring.
Qed.

Lemma tlli_echo : forall p tlli tfi e ws q plen vec, pdch_ok p -> q_down q = true -> fits 32 tlli ->
  write_immediate_assignment p (DlTbf tlli tfi e ws) q = IaSent plen vec ->
  tlli_from_imm_ass (l1_block plen vec) = Tlli tlli.
Proof.
  intros p tlli tfi e ws q plen vec P D T W. destruct (sent_view _ _ q plen vec W) as (r & R & PL & Room & V & _).
  unfold w_rest in R. rewrite D in R. injection R as <-.
  match type of V with context [repeat L ?k] => set (tail := repeat L k) in *; clearbody tail end.
  pose proof (rest_dl_length tlli tfi e ws q) as RL. cbv zeta in RL. rewrite RL in Room. clear RL.
  assert (ML : (length (ma_of p) <= 4)%nat) by (destruct (q_alpha q =? 0)%Z, (q_tai q <? 0)%Z, (q_poll q), e; lia). clear Room.
  unfold tlli_from_imm_ass, l1_block. cbn [nth]. rewrite l2_length by lia.
  replace (Z.shiftr (4 * plen + 1) 2) with plen. 2:{ rewrite Z.shiftr_div_pow2 by lia. change (2 ^ 2) with 4. Z.div_mod_to_equations; lia. }
  cbn [Nat.add skipn]. set (n := length (ma_of p)) in *.
  assert (S : skipn (Z.to_nat plen) vec = octets (5 + (6 - n)) (puts (0 + 8 * Z.of_nat (11 + n)) (w_rest_dl tlli tfi e ws (q_poll q) (q_ta q <? 64) (q_start q) (q_alpha q) (q_gamma q) (q_tai q) ++ tail))).
  { rewrite V. replace 22%nat with ((11 + n) + (5 + (6 - n)))%nat by lia. rewrite octets_split by (rewrite header_length; fold n; lia).
    replace (Z.to_nat plen) with (11 + n)%nat by lia.
    rewrite skipn_app, skipn_all2 by (rewrite octets_length; lia). rewrite octets_length, Nat.sub_diag. reflexivity. }
  rewrite S. clear S V W. set (k := (6 - n)%nat). clearbody k.
  assert (PA : pad (0 + 8 * Z.of_nat (11 + n)) = false /\ pad (0 + 8 * Z.of_nat (11 + n) + 1) = false).
  { split; [replace (0 + 8 * Z.of_nat (11 + n)) with (8 * Z.of_nat (11 + n) + 0) by lia|replace (0 + 8 * Z.of_nat (11 + n) + 1) with (8 * Z.of_nat (11 + n) + 1) by lia];
      rewrite pad_at by (try lia; Z.div_mod_to_equations; lia); reflexivity. }
  set (i := 0 + 8 * Z.of_nat (11 + n)) in *. clearbody i. destruct PA as [PA1 PA2].
  assert (TV : octet (puts 0 (fld 32 tlli)) = tlli).
  { unfold octet. rewrite octet_fld. rewrite Z.mod_small by exact T. reflexivity. }
  unfold w_rest_dl. unfold fld at 1. unfold fld in TV. cbn [seq map puts put] in TV. unfold w_alpha_gamma.
  unfold fld at 1.
  cbn [seq map app puts put octets firstn skipn Nat.add]. rewrite PA1, PA2. cbn [negb].
  match goal with |- context [octet [true; true; false; true; ?a; ?b; ?c; ?d]] => idtac end.
  match type of TV with octet [?t31; ?t30; ?t29; ?t28; ?t27; ?t26; ?t25; ?t24; ?t23; ?t22; ?t21; ?t20; ?t19; ?t18; ?t17; ?t16; ?t15; ?t14; ?t13; ?t12; ?t11; ?t10; ?t9; ?t8; ?t7; ?t6; ?t5; ?t4; ?t3; ?t2; ?t1; ?t0] = _ =>
    match goal with |- context [octet [_; _; _; _; true; ?x2; ?x1; ?x0]] =>
    destruct (extract t0 t1 t2 t3 t4 t5 t6 t7 t8 t9 t10 t11 t12 t13 t14 t15 t16 t17 t18 t19 t20 t21 t22 t23 t24 t25 t26 t27 t28 t29 t30 t31 true x2 x1 x0) as [X1 X2] end end.
  rewrite X1, X2, TV. reflexivity.
Qed.

Lemma times_S : forall A (r : reader A) n l a l1 l2 t, r l = Some (a, l1) -> times n r l1 = Some (t, l2) -> times (S n) r l = Some (a :: t, l2).
Proof. intros A r n l a l1 l2 t E1 E2. cbn [times]. rewrite (bind_some _ _ _ _ _ _ _ E1), (bind_some _ _ _ _ _ _ _ E2). reflexivity. Qed.
Lemma reject_read : forall ra rfn ext t3142, 0 <= rfn < 65536 -> (ext = false -> fits 8 ra) -> fits 8 t3142 ->
  exists plen vec, write_immediate_assignment_reject ra rfn ext t3142 = IaSent plen vec /\
  mobile_reads_reject (l1_block plen vec) = Some (19, (repeat (mk_request (if ext then 127 else ra) (time_of rfn), t3142) 4,
    if ext then [Some (ra mod 32); Some 2; None; None] else [None; None; Some 11; None])).
Proof.
  intros ra rfn ext t3142 R E T. unfold write_immediate_assignment_reject. cbv zeta.
  set (one := w_reference ext ra rfn ++ fld 8 t3142).
  set (rest := (if ext then B true :: fld 5 (Z.land ra 31) else [B false]) ++ [B false; B false; B false]).
  set (hd := fld 4 0 ++ fld 4 6 ++ fld 8 58 ++ [B false; B false; B false; B true] ++ fld 4 0 ++ one ++ one ++ one ++ one).
  assert (L1 : length one = 32%nat) by (unfold one, w_reference; rewrite !app_length, !fld_length, start_length; reflexivity).
  assert (LH : length hd = 152%nat) by (unfold hd; rewrite !app_length, !fld_length, L1; reflexivity).
  assert (LR : (length rest <= 9)%nat) by (unfold rest; rewrite app_length; destruct ext; cbn [length]; rewrite ?fld_length; lia).
  rewrite LH. change (Z.of_nat 152 / 8) with 19. eexists _, _. split; [reflexivity|].
  unfold mobile_reads_reject, l1_block. change (Z.lor (Z.shiftl 19 2) 1 mod 256) with 77. change (77 mod 4 =? 1) with true. cbv iota. change (77 / 4) with 19.
  rewrite app_length, LH. rewrite bits_of_puts; [|rewrite !app_length, repeat_length, LH; unfold VEC_BITS; lia|reflexivity].
  set (tail := repeat L _).
  replace (hd ++ rest ++ tail) with (fld 8 6 ++ fld 8 58 ++ fld 8 16 ++ one ++ one ++ one ++ one ++ rest ++ tail).
  2:{ unfold hd. rewrite <- !app_assoc. reflexivity. }
  unfold r_reject.
  rewrite (bind_some _ _ _ _ _ _ _ (expect_fld 8 6 _ _ (fits_const 8 6 ltac:(lia) eq_refl))).
  rewrite (bind_some _ _ _ _ _ _ _ (expect_fld 8 58 _ _ (fits_const 8 58 ltac:(lia) eq_refl))).
  rewrite (bind_some _ _ _ _ _ _ _ (uint_fits 8 16 _ _ (fits_const 8 16 ltac:(lia) eq_refl))).
  set (rd1 := let* q := r_request in let* w := uint 8 in ret (q, w)).
  assert (O : forall i l, rd1 (rb i (one ++ l)) = Some ((mk_request (if ext then 127 else ra) (time_of rfn), t3142), rb (i + 32) l)).
  { intros i l. unfold rd1, one. rewrite <- app_assoc. rewrite (bind_some _ _ _ _ _ _ _ (request_at _ _ _ _ _ R E)).
    rewrite (bind_some _ _ _ _ _ _ _ (uint_fits 8 _ _ _ T)). unfold ret. do 3 f_equal. lia. }
  assert (F : times 4 rd1 (rb (0 + Z.of_nat 8 + Z.of_nat 8 + Z.of_nat 8) (one ++ one ++ one ++ one ++ rest ++ tail)) =
     Some (repeat (mk_request (if ext then 127 else ra) (time_of rfn), t3142) 4, rb 152 (rest ++ tail))).
  { repeat (eapply times_S; [apply O|]). reflexivity. }
  rewrite (bind_some _ _ _ _ _ _ _ F). clear F O.
  assert (EX : exists j, times 4 (opt_h (uint 5)) (rb 152 (rest ++ tail)) = Some (if ext then [Some (ra mod 32); Some 2; None; None] else [None; None; Some 11; None], j)).
  { unfold tail. clear tail LR. unfold rest. clear rest hd LH. destruct ext.
    - cbn [app length]. rewrite app_length, fld_length. cbn [length Nat.add Nat.sub VEC_BITS repeat]. rewrite <- app_assoc. cbn [times].
      set (sk := fld 5 (Z.land ra 31) ++ _).
      assert (HH : opt_h (uint 5) (rb 152 (B true :: sk)) = Some (Some (ra mod 32), rb 158 (skipn 5 sk))).
      { change (opt_h (uint 5) (rb 152 (B true :: sk))) with (bind (uint 5) (fun x => ret (Some x)) (rb 153 sk)). unfold sk.
        assert (RA : fits (Z.of_nat 5) (Z.land ra 31)) by (unfold fits; change 31 with (Z.ones 5); rewrite Z.land_ones by lia; apply Z.mod_pos_bound; lia).
        rewrite (bind_some _ _ _ _ _ _ _ (uint_fits 5 _ _ _ RA)). rewrite skipn_app, skipn_all2, fld_length by (rewrite fld_length; lia).
        unfold ret. change 31 with (Z.ones 5). rewrite Z.land_ones by lia. reflexivity. }
      rewrite (bind_some _ _ _ _ _ _ _ HH). unfold sk. rewrite skipn_app, skipn_all2, fld_length by (rewrite fld_length; lia).
      cbn [app skipn Nat.sub]. unfold VEC_BITS. cbn [Nat.sub repeat]. eexists. reflexivity.
    - eexists. reflexivity. }
  destruct EX as [j EX]. rewrite (bind_some _ _ _ _ _ _ _ EX). reflexivity.
Qed.

(** * Room *)
Lemma alpha_length : forall a g, (length (w_alpha_gamma a g) <= 10)%nat.
Proof. intros. unfold w_alpha_gamma. rewrite app_length, fld_length. destruct (a =? 0); cbn [negb length]; rewrite ?fld_length; lia. Qed.
Lemma tai_length : forall t, (length (w_ta_index t) <= 5)%nat.
Proof. intros. unfold w_ta_index. destruct (t <? 0); cbn [length]; rewrite ?fld_length; lia. Qed.
Lemma rest_some : forall t q, ~ aborts t q -> exists r, w_rest t q = Some r.
Proof.
  intros t q N. unfold aborts in N. unfold w_rest. destruct (q_down q).
  - destruct t; [eexists; reflexivity|tauto|tauto].
  - destruct (q_ext q); [eexists; reflexivity|]. destruct t as [? ? e ?|? ? e ? ?|]; try (destruct e; [tauto|]); eexists; reflexivity.
Qed.
Lemma sent_if : forall p t q n, ~ aborts t q -> (forall r, w_rest t q = Some r -> (length r <= n)%nat) ->
  (88 + 8 * length (ma_of p) + n <= 176)%nat -> exists plen vec, write_immediate_assignment p t q = IaSent plen vec.
Proof.
  intros p t q n N Hn Le. destruct (rest_some t q N) as [r R]. specialize (Hn r R). unfold write_immediate_assignment. rewrite R. cbv zeta.
  rewrite app_length, header_length. destruct (Nat.ltb_spec VEC_BITS (88 + 8 * length (ma_of p) + length r)) as [Hl|Hl]; [unfold VEC_BITS in Hl; lia|].
  eexists _, _. reflexivity.
Qed.
Lemma ul_room : forall p t q, q_down q = false -> ~ aborts t q -> (length (ma_of p) <= 4)%nat ->
  exists plen vec, write_immediate_assignment p t q = IaSent plen vec.
Proof.
  intros p t q D N M. apply (sent_if p t q 52 N); [|lia]. intros r R. unfold w_rest in R. rewrite D in R.
  pose proof (alpha_length (q_alpha q) (q_gamma q)). pose proof (tai_length (q_tai q)).
  assert (G : forall l, (length l <= 42)%nat -> (length ([L; ImmAss.H; B false; B false] ++ fld 5 (Z.land (q_ra q) 31) ++ [B false] ++ l) <= 52)%nat)
    by (intros; rewrite !app_length, fld_length; cbn [length]; lia).
  destruct (q_ext q).
  - injection R as <-. apply G. destruct t; unfold w_rest_egprs_sba, w_rest_egprs_mba, w_tfi_usf; rewrite ?app_length, ?fld_length, ?start_length; cbn [length]; lia.
  - match type of R with (if ?c then _ else _) = _ => destruct c; [discriminate R|] end. injection R as <-. cbn [length].
    destruct t; unfold w_rest_ul_sba, w_rest_ul_mba, w_tfi_usf; rewrite ?app_length, ?fld_length, ?start_length; cbn [length]; lia.
Qed.
Lemma dl_room : forall p tlli tfi e ws last ta alpha gamma, (length (ma_of p) <= 2)%nat ->
  exists plen vec, write_immediate_assignment p (DlTbf tlli tfi e ws) (dl_par last ta alpha gamma) = IaSent plen vec.
Proof.
  intros p tlli tfi e ws last ta alpha gamma M. apply (sent_if p _ _ 67); [unfold aborts; cbn; tauto| |lia].
  intros r R. unfold w_rest in R. cbn [q_down dl_par] in R. injection R as <-.
  pose proof (rest_dl_length tlli tfi e ws (dl_par last ta alpha gamma)) as RL. cbv zeta in RL. cbn [q_poll q_ta q_start q_alpha q_gamma q_tai dl_par] in *.
  rewrite RL. change (-1 <? 0) with true. cbv iota. destruct (alpha =? 0)%Z, e; lia.
Qed.

Lemma cnf_lookup : forall d tlli, tlli_from_imm_ass d = Tlli tlli -> tlli <> 0xffffffff ->
  imm_ass_cnf_tlli (Some d) 0xffffffff = Some tlli /\ imm_ass_cnf_tlli None tlli = Some tlli.
Proof.
  intros d tlli E N. unfold imm_ass_cnf_tlli. change (0xffffffff =? 0xffffffff) with true. cbv iota. rewrite E.
  apply Z.eqb_neq in N. rewrite N. split; reflexivity.
Qed.

Lemma uplink_refused : forall p t q plen vec, pdch_ok p -> q_down q = false ->
  write_immediate_assignment p t q = IaSent plen vec -> tlli_from_imm_ass (l1_block plen vec) = Refused.
Proof.
  intros p t q plen vec P D W. destruct (sent_view _ _ q plen vec W) as (r & R & PL & Room & V & _).
  match type of V with context [repeat L ?k] => set (tail := repeat L k) in *; clearbody tail end.
  set (n := length (ma_of p)) in *.
  assert (HD : exists s0 s1 t0 t1 t2 t3 r', r = s0 :: s1 :: B false :: B false :: t0 :: t1 :: t2 :: t3 :: r' /\ (s0 = L \/ s0 = H) /\ (s1 = L \/ s1 = H)).
  { unfold w_rest in R. rewrite D in R. destruct (q_ext q).
    - injection R as <-. unfold fld; cbn [seq map app]; do 7 eexists. split; [reflexivity|]. tauto.
    - match type of R with (if ?c then _ else _) = _ => destruct c; [discriminate R|] end. injection R as <-.
      assert (G : forall i o t', exists t0 t1 t2 t3 r', match t with UlTbf _ tfi _ _ cs => w_rest_ul_mba tfi cs i o t' (q_tai q) | _ => w_rest_ul_sba i o t' end = t0 :: t1 :: t2 :: t3 :: r').
      { intros. destruct t; unfold w_rest_ul_sba, w_rest_ul_mba, w_alpha_gamma, w_tfi_usf.
        - destruct (o =? 0); cbn [negb app]; unfold fld; cbn [seq map app]; do 5 eexists; reflexivity.
        - cbn [app]; unfold fld; cbn [seq map app]; do 5 eexists; reflexivity.
        - destruct (o =? 0); cbn [negb app]; unfold fld; cbn [seq map app]; do 5 eexists; reflexivity. }
      destruct t as [a1 a2 a3 a4|a1 a2 a3 a4 a5|].
      + destruct (G (q_start q) (q_alpha q) (q_gamma q)) as (t0 & t1 & t2 & t3 & r' & E). rewrite E. cbn [app]. do 7 eexists. split; [reflexivity|]. tauto.
      + destruct (G (q_usf q) (q_alpha q) (q_gamma q)) as (t0 & t1 & t2 & t3 & r' & E). rewrite E. cbn [app]. do 7 eexists. split; [reflexivity|]. tauto.
      + destruct (G (q_start q) (q_alpha q) (q_gamma q)) as (t0 & t1 & t2 & t3 & r' & E). rewrite E. cbn [app]. do 7 eexists. split; [reflexivity|]. tauto. }
  destruct HD as (s0 & s1 & t0 & t1 & t2 & t3 & r' & -> & S0 & S1). cbn [length] in Room.
  unfold tlli_from_imm_ass, l1_block. cbn [nth]. rewrite l2_length by lia.
  replace (Z.shiftr (4 * plen + 1) 2) with plen. 2:{ rewrite Z.shiftr_div_pow2 by lia. change (2 ^ 2) with 4. Z.div_mod_to_equations; lia. }
  cbn [Nat.add skipn].
  assert (SK : skipn (Z.to_nat plen) vec = octets (1 + (10 - n)) (puts (0 + 8 * Z.of_nat (11 + n)) ((s0 :: s1 :: B false :: B false :: t0 :: t1 :: t2 :: t3 :: r') ++ tail))).
  { rewrite V. replace 22%nat with ((11 + n) + (1 + (10 - n)))%nat by lia. rewrite octets_split by (rewrite header_length; fold n; lia).
    replace (Z.to_nat plen) with (11 + n)%nat by lia.
    rewrite skipn_app, skipn_all2 by (rewrite octets_length; lia). rewrite octets_length, Nat.sub_diag. reflexivity. }
  rewrite SK. cbn [app puts octets firstn skipn Nat.add put].
  set (x0 := put _ s0). set (x1 := put _ s1). set (y0 := put _ t0). set (y1 := put _ t1). set (y2 := put _ t2). set (y3 := put _ t3). clearbody x0 x1 y0 y1 y2 y3.
  replace (Z.land (octet [x0; x1; false; false; y0; y1; y2; y3]) 240 =? 208) with false; [reflexivity|].
  destruct x0, x1, y0, y1, y2, y3; vm_compute; reflexivity.
Qed.

Lemma time_inj : forall a b, 0 <= a < 42432 -> 0 <= b < 42432 -> time_of a = time_of b -> a = b.
Proof.
  intros a b A B E. unfold time_of in E. injection E as E1 E2 E3.
  rewrite (Z.mod_small (a / 1326)), (Z.mod_small (b / 1326)) in E1 by (Z.div_mod_to_equations; lia).
  Z.div_mod_to_equations. lia.
Qed.
Lemma reference_distinct : forall last fn ta alpha gamma, 0 <= last < 2715648 -> 0 <= fn < 2715648 -> near last fn ->
  time_of (q_rfn (dl_par last ta alpha gamma)) <> time_of (fn mod 42432).
Proof.
  intros last fn ta alpha gamma A B N E. cbn [dl_par q_rfn] in E. apply time_inj in E; [|apply Z.mod_pos_bound; lia|apply Z.mod_pos_bound; lia].
  unfold near in N. Z.div_mod_to_equations. lia.
Qed.
