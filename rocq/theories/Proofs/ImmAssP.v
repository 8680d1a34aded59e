From Coq Require Import ZArith List Bool Lia.
From Verif Require Import Base.Arith Model.CodingScheme Model.BtsConf Model.ImmAss Spec.ImmAssSpec.
Import ListNotations.
Local Open Scope Z_scope.

(** * Bits and octets *)
Definition rb1 (i : Z) (s : sym) : rbit := (put i s, xorb (put i s) (pad i)).
Fixpoint rb (i : Z) (l : list sym) : list rbit := match l with [] => [] | s :: r => rb1 i s :: rb (i + 1) r end.

Lemma octet_bits_eq : forall a b c d e f g h,
  octet_bits (octet [a; b; c; d; e; f; g; h]) =
  map (fun p => (fst p, xorb (fst p) (Z.testbit 0x2b (snd p)))) [(a, 7); (b, 6); (c, 5); (d, 4); (e, 3); (f, 2); (g, 1); (h, 0)].
Proof. destruct a, b, c, d, e, f, g, h; vm_compute; reflexivity. Qed.

Lemma pad_at : forall i k, i mod 8 = 0 -> 0 <= k < 8 -> pad (i + k) = Z.testbit 0x2b (7 - k).
Proof. intros i k M K. unfold pad. replace ((i + k) mod 8) with k; [reflexivity|]. Z.div_mod_to_equations; lia. Qed.

Lemma bits_of_puts : forall n l i, length l = (8 * n)%nat -> i mod 8 = 0 ->
  message_bits (octets n (puts i l)) = rb i l.
Proof.
  induction n as [|n IH]; intros l i Len M.
  - destruct l; [reflexivity|cbn [length] in Len; lia].
  - do 8 (destruct l as [|? l]; [cbn [length] in Len; lia|]).
    cbn [puts octets firstn skipn]. unfold message_bits. cbn [flat_map]. fold (message_bits (octets n (puts (i + 1 + 1 + 1 + 1 + 1 + 1 + 1 + 1) l))).
    rewrite IH; [|cbn [length] in Len; lia|Z.div_mod_to_equations; lia].
    rewrite octet_bits_eq. cbn [map fst snd app rb]. unfold rb1.
    replace (pad i) with (Z.testbit 0x2b 7) by (rewrite <- (Z.add_0_r i), (pad_at i 0 M) by lia; reflexivity).
    replace (i + 1 + 1 + 1 + 1 + 1 + 1 + 1) with (i + 7) by lia. replace (i + 1 + 1 + 1 + 1 + 1 + 1) with (i + 6) by lia.
    replace (i + 1 + 1 + 1 + 1 + 1) with (i + 5) by lia. replace (i + 1 + 1 + 1 + 1) with (i + 4) by lia.
    replace (i + 1 + 1 + 1) with (i + 3) by lia. replace (i + 1 + 1) with (i + 2) by lia.
    rewrite (pad_at i 1 M), (pad_at i 2 M), (pad_at i 3 M), (pad_at i 4 M), (pad_at i 5 M), (pad_at i 6 M), (pad_at i 7 M) by lia.
    reflexivity.
Qed.

(** * Readers *)
Lemma bind_some : forall A C (r : reader A) (f : A -> reader C) l a l', r l = Some (a, l') -> bind r f l = f a l'.
Proof. intros A C r f l a l' E. unfold bind. now rewrite E. Qed.
Lemma flag_B : forall i b l, flag (rb i (B b :: l)) = Some (b, rb (i + 1) l).
Proof. reflexivity. Qed.
Lemma high_H : forall i l, high (rb i (H :: l)) = Some (true, rb (i + 1) l).
Proof. intros. cbn [high rb rb1 put]. now destruct (pad i). Qed.
Lemma high_L : forall i l, high (rb i (L :: l)) = Some (false, rb (i + 1) l).
Proof. intros. cbn [high rb rb1 put]. now destruct (pad i). Qed.

Lemma fld_S : forall w v, fld (S w) v = B (Z.testbit v (Z.of_nat w)) :: fld w v.
Proof.
  intros. unfold fld. cbn [seq map]. f_equal; [f_equal; f_equal; lia|].
  rewrite <- seq_shift, map_map. apply map_ext. intros a. f_equal. f_equal. lia.
Qed.
Lemma number_fld : forall w v acc i l, number w acc (rb i (fld w v ++ l)) = Some (acc * 2 ^ Z.of_nat w + v mod 2 ^ Z.of_nat w, rb (i + Z.of_nat w) l).
Proof.
  induction w as [|w IH]; intros.
  - cbn [number fld app seq map]. unfold ret. rewrite Z.mod_1_r. repeat f_equal; lia.
  - cbn [number]. rewrite fld_S. cbn [app]. rewrite (bind_some _ _ _ _ _ _ _ (flag_B _ _ _)), IH.
    f_equal. f_equal; [|f_equal; lia].
    rewrite Nat2Z.inj_succ, Z.pow_succ_r by lia. set (p := 2 ^ Z.of_nat w). assert (0 < p) by (apply Z.pow_pos_nonneg; lia).
    rewrite (Z.mul_comm 2 p), Z.rem_mul_r by lia.
    replace (Z.b2z (Z.testbit v (Z.of_nat w))) with ((v / p) mod 2); [ring|].
    rewrite Z.testbit_spec' by lia. reflexivity.
Qed.
Lemma uint_fld : forall w v i l, uint w (rb i (fld w v ++ l)) = Some (v mod 2 ^ Z.of_nat w, rb (i + Z.of_nat w) l).
Proof. intros. unfold uint. now rewrite number_fld. Qed.
Lemma uint_fits : forall w v i l, fits (Z.of_nat w) v -> uint w (rb i (fld w v ++ l)) = Some (v, rb (i + Z.of_nat w) l).
Proof. intros w v i l F. rewrite uint_fld, Z.mod_small by exact F. reflexivity. Qed.
Lemma expect_fld : forall w v i l, fits (Z.of_nat w) v -> expect w v (rb i (fld w v ++ l)) = Some (tt, rb (i + Z.of_nat w) l).
Proof. intros. unfold expect. rewrite (bind_some _ _ _ _ _ _ _ (uint_fits _ _ _ _ H)), Z.eqb_refl. reflexivity. Qed.
Lemma opt_0 : forall A (r : reader A) i l, opt r (rb i (B false :: l)) = Some (None, rb (i + 1) l).
Proof. reflexivity. Qed.
Lemma opt_1 : forall A (r : reader A) i l a j l', r (rb (i + 1) l) = Some (a, rb j l') -> opt r (rb i (B true :: l)) = Some (Some a, rb j l').
Proof. intros A r i l a j l' E. unfold opt. rewrite (bind_some _ _ _ _ _ _ _ (flag_B _ _ _)). cbv beta iota. now rewrite (bind_some _ _ _ _ _ _ _ E). Qed.
Lemma optL : forall A (r : reader A) i l, opt_h r (rb i (L :: l)) = Some (None, rb (i + 1) l).
Proof. intros. unfold opt_h. now rewrite (bind_some _ _ _ _ _ _ _ (high_L _ _)). Qed.
Lemma optH : forall A (r : reader A) i l a j l', r (rb (i + 1) l) = Some (a, rb j l') -> opt_h r (rb i (H :: l)) = Some (Some a, rb j l').
Proof. intros A r i l a j l' E. unfold opt_h. rewrite (bind_some _ _ _ _ _ _ _ (high_H _ _)). cbv beta iota. now rewrite (bind_some _ _ _ _ _ _ _ E). Qed.

Lemma time_ok : forall rfn i l, 0 <= rfn < 65536 -> r_time (rb i (w_start_time rfn ++ l)) = Some (time_of rfn, rb (i + 16) l).
Proof.
  intros rfn i l R. unfold r_time, w_start_time. rewrite (Z.mod_small rfn) by lia. cbv zeta. rewrite <- !app_assoc.
  assert (M : forall n, 0 < n -> 0 <= rfn mod n < n) by (intros; apply Z.mod_pos_bound; lia).
  pose proof (M 51 eq_refl). pose proof (M 26 eq_refl). pose proof (Z.mod_pos_bound (rfn / 1326) 32 eq_refl).
  assert (F1 : fits (Z.of_nat 5) ((rfn / 1326) mod 32)) by (unfold fits; change (2 ^ Z.of_nat 5) with 32; lia).
  assert (F2 : fits (Z.of_nat 6) (rfn mod 51)) by (unfold fits; change (2 ^ Z.of_nat 6) with 64; lia).
  assert (F3 : fits (Z.of_nat 5) (rfn mod 26)) by (unfold fits; change (2 ^ Z.of_nat 5) with 32; lia).
  rewrite (bind_some _ _ _ _ _ _ _ (uint_fits _ _ _ _ F1)), (bind_some _ _ _ _ _ _ _ (uint_fits _ _ _ _ F2)), (bind_some _ _ _ _ _ _ _ (uint_fits _ _ _ _ F3)).
  unfold ret, time_of. do 2 f_equal. f_equal. lia.
Qed.

Lemma power_ok : forall alpha gamma i l, fits 4 alpha -> fits 5 gamma ->
  exists j, r_power (rb i (w_alpha_gamma alpha gamma ++ l)) = Some (power_of alpha gamma, rb j l).
Proof.
  intros alpha gamma i l A G. unfold r_power, w_alpha_gamma, power_of. destruct (alpha =? 0); cbn [negb]; rewrite <- app_assoc; cbn [app].
  - rewrite (bind_some _ _ _ _ _ _ _ (opt_0 _ _ _ _)). rewrite (bind_some _ _ _ _ _ _ _ (uint_fits 5 _ _ _ G)). eexists. reflexivity.
  - rewrite (bind_some _ _ _ _ _ _ _ (opt_1 _ _ _ _ _ _ _ (uint_fits 4 _ _ _ A))). rewrite (bind_some _ _ _ _ _ _ _ (uint_fits 5 _ _ _ G)).
    eexists. reflexivity.
Qed.
Lemma tai_ok : forall tai i l, tai < 16 -> exists j, opt (uint 4) (rb i (w_ta_index tai ++ l)) = Some (tai_of tai, rb j l).
Proof.
  intros tai i l T. unfold w_ta_index, tai_of. destruct (tai <? 0) eqn:E; cbn [app].
  - eexists. apply opt_0.
  - apply Z.ltb_ge in E. eexists. apply opt_1. apply uint_fits. unfold fits. change (2 ^ Z.of_nat 4) with 16. lia.
Qed.
Lemma dyn_ok : forall tfi usf i l, fits 5 tfi -> fits 3 usf ->
  exists j, r_dynamic (rb i (w_tfi_usf tfi usf ++ l)) = Some (mk_dyn tfi false usf false None, rb j l).
Proof.
  intros tfi usf i l T U. unfold r_dynamic, w_tfi_usf. rewrite <- !app_assoc. cbn [app].
  rewrite (bind_some _ _ _ _ _ _ _ (uint_fits 5 _ _ _ T)), (bind_some _ _ _ _ _ _ _ (flag_B _ _ _)), (bind_some _ _ _ _ _ _ _ (flag_B _ _ _)).
  cbv beta iota. rewrite (bind_some _ _ _ _ _ _ _ (uint_fits 3 _ _ _ U)), (bind_some _ _ _ _ _ _ _ (flag_B _ _ _)), (bind_some _ _ _ _ _ _ _ (opt_0 _ _ _ _)).
  eexists. reflexivity.
Qed.
Lemma request_at : forall ext ra rfn i l, 0 <= rfn < 65536 -> (ext = false -> fits 8 ra) ->
  r_request (rb i (w_reference ext ra rfn ++ l)) = Some (mk_request (if ext then 127 else ra) (time_of rfn), rb (i + 24) l).
Proof.
  intros ext ra rfn i l R E. unfold r_request, w_reference. rewrite <- app_assoc.
  assert (F : fits (Z.of_nat 8) (if ext then 127 else ra)) by (destruct ext; [split; reflexivity || discriminate|auto]).
  rewrite (bind_some _ _ _ _ _ _ _ (uint_fits 8 _ _ _ F)), (bind_some _ _ _ _ _ _ _ (time_ok _ _ _ R)). unfold ret. do 3 f_equal. lia.
Qed.
Lemma request_ok : forall ext ra rfn i l, fits 11 ra -> 0 <= rfn < 65536 -> (ext = false -> fits 8 ra) ->
  exists j, r_request (rb i (w_reference ext ra rfn ++ l)) = Some (mk_request (if ext then 127 else ra) (time_of rfn), rb j l).
Proof. intros ext ra rfn i l A R E. eexists. apply request_at; assumption. Qed.
Lemma ma_ok : forall ma i l, (forall x, In x ma -> fits 8 x) ->
  times (length ma) (uint 8) (rb i (flat_map (fld 8) ma ++ l)) = Some (ma, rb (i + 8 * Z.of_nat (length ma)) l).
Proof.
  induction ma as [|x ma IH]; intros i l F.
  - cbn [times flat_map app length]. unfold ret. do 3 f_equal. lia.
  - cbn [times flat_map length]. rewrite <- app_assoc. rewrite (bind_some _ _ _ _ _ _ _ (uint_fits 8 x i _ (F x (or_introl eq_refl)))).
    rewrite (bind_some _ _ _ _ _ _ _ (IH _ _ (fun y I => F y (or_intror I)))). unfold ret. do 3 f_equal. lia.
Qed.

(** * The whole message *)
Ltac rd1 := match goal with
  | |- context [bind flag _ (rb _ (B _ :: _))] => rewrite (bind_some _ _ _ _ _ _ _ (flag_B _ _ _))
  | |- context [bind high _ (rb _ (H :: _))] => rewrite (bind_some _ _ _ _ _ _ _ (high_H _ _))
  | |- context [bind high _ (rb _ (L :: _))] => rewrite (bind_some _ _ _ _ _ _ _ (high_L _ _))
  | |- context [bind (opt _) _ (rb _ (B false :: _))] => rewrite (bind_some _ _ _ _ _ _ _ (opt_0 _ _ _ _))
  | |- context [bind (opt_h _) _ (rb _ (L :: _))] => rewrite (bind_some _ _ _ _ _ _ _ (optL _ _ _ _))
  end; cbv beta iota.

Lemma fld_length : forall w v, length (fld w v) = w.
Proof. intros. unfold fld. now rewrite map_length, seq_length. Qed.
Lemma start_length : forall r, length (w_start_time r) = 16%nat.
Proof. intros. unfold w_start_time. cbv zeta. now rewrite !app_length, !fld_length. Qed.
Lemma flat_length : forall ma, length (flat_map (fld 8) ma) = (8 * length ma)%nat.
Proof. induction ma; cbn [flat_map length]; [reflexivity|]. rewrite app_length, fld_length, IHma. lia. Qed.
Lemma header_length : forall p q, length (w_header p q) = (88 + 8 * length (ma_of p))%nat.
Proof.
  intros p q. unfold w_header, w_reference, ma_of.
  destruct (ip_fh p) as [[[maio hsn] ma]|]; cbv iota; rewrite !app_length, !fld_length, ?start_length, ?flat_length; cbn [length]; rewrite ?app_length, ?fld_length, ?flat_length; lia.
Qed.

Lemma fits_const : forall w v, 0 <= v -> v <? 2 ^ w = true -> fits w v.
Proof. intros w v A B. unfold fits. apply Z.ltb_lt in B. lia. Qed.

Lemma header_ok : forall p q l i, pdch_ok p -> par_ok q ->
  exists j, r_message (rb i (w_header p q ++ l)) =
    bind (r_rest (q_down q)) (fun r => ret (mk_msg (q_down q) (ip_ts p) (ip_tsc p) (freq_of p)
      (mk_request (if q_ext q then 127 else q_ra q) (time_of (q_rfn q))) (q_ta q mod 64) (ma_of p) r)) (rb j l).
Proof.
  intros p q l i (P1 & P2 & P3 & P4) (Q1 & Q2 & Q3 & Q4 & Q5 & Q6 & Q7 & Q8 & Q9).
  unfold r_message, w_header. rewrite <- !app_assoc.
  change (fld 4 0 ++ fld 4 6 ++ ?x) with (fld 8 6 ++ x).
  assert (X : forall C w v (k : unit -> reader C) j0 l0, 0 <= v -> v <? 2 ^ Z.of_nat w = true ->
     bind (expect w v) k (rb j0 (fld w v ++ l0)) = k tt (rb (j0 + Z.of_nat w) l0)).
  { intros C w v k j0 l0 A Bv. rewrite (bind_some _ _ _ _ _ _ _ (expect_fld w v j0 l0 (fits_const _ _ A Bv))). reflexivity. }
  assert (U : forall C w v (k : Z -> reader C) j0 l0, fits (Z.of_nat w) v ->
     bind (uint w) k (rb j0 (fld w v ++ l0)) = k v (rb (j0 + Z.of_nat w) l0)).
  { intros C w v k j0 l0 F. rewrite (bind_some _ _ _ _ _ _ _ (uint_fits w v j0 l0 F)). reflexivity. }
  rewrite X by (reflexivity || lia). rewrite X by (reflexivity || lia).
  change ([B false; B false; B (q_down q); B true] ++ ?x) with (fld 2 0 ++ B (q_down q) :: fld 1 1 ++ x).
  rewrite X by (reflexivity || lia). rd1. rewrite X by (reflexivity || lia). rewrite X by (reflexivity || lia).
  rewrite X by (reflexivity || lia). rewrite U by exact P1. rewrite U by exact P2.
  unfold freq_of, ma_of. destruct (ip_fh p) as [[[maio hsn] ma]|]; cbv iota.
  - destruct P4 as (M1 & M2 & M3 & M4). rewrite <- !app_assoc. change (fld 1 1 ++ ?x) with (B true :: x). rd1.
    erewrite bind_some; [|rewrite U by exact M1; rewrite U by exact M2; reflexivity].
    destruct (request_ok (q_ext q) (q_ra q) (q_rfn q) (i + Z.of_nat 8 + Z.of_nat 8 + Z.of_nat 2 + 1 + Z.of_nat 1 + Z.of_nat 4 + Z.of_nat 5 + Z.of_nat 3 + Z.of_nat 3 + 1 +
             Z.of_nat 6 + Z.of_nat 6) (fld 2 0 ++ fld 6 (q_ta q) ++ fld 8 (Z.of_nat (length ma)) ++ flat_map (fld 8) ma ++ l) Q1 Q3 Q2) as [j RQ].
    rewrite (bind_some _ _ _ _ _ _ _ RQ). rewrite X by (reflexivity || lia).
    rewrite (bind_some _ _ _ _ _ _ _ (uint_fld 6 _ _ _)). rewrite U by (unfold fits; change (2 ^ Z.of_nat 8) with 256; lia).
    rewrite Nat2Z.id. rewrite (bind_some _ _ _ _ _ _ _ (ma_ok ma _ _ M4)). eexists. reflexivity.
  - rewrite <- !app_assoc. change (fld 3 0 ++ ?x) with (B false :: fld 2 0 ++ x). rd1.
    erewrite bind_some; [|rewrite X by (reflexivity || lia); rewrite U by exact P3; reflexivity].
    match goal with |- context [bind r_request _ (rb ?i0 (w_reference _ _ _ ++ ?l0))] =>
      destruct (request_ok (q_ext q) (q_ra q) (q_rfn q) i0 l0 Q1 Q3 Q2) as [j RQ] end.
    rewrite (bind_some _ _ _ _ _ _ _ RQ). rewrite X by (reflexivity || lia).
    rewrite (bind_some _ _ _ _ _ _ _ (uint_fld 6 _ _ _)). rewrite U by (unfold fits; change (2 ^ Z.of_nat 8) with 256; lia).
    cbn [Z.to_nat times]. erewrite bind_some; [|reflexivity]. eexists. reflexivity.
Qed.

Lemma enc_ws_eq : forall ws, ws_ok ws -> enc_ws ws = (ws - 64) / 32 /\ fits 5 (enc_ws ws).
Proof.
  intros ws [A C]. unfold enc_ws. rewrite Z.quot_div_nonneg by lia.
  assert (0 <= (ws - 64) / 32 <= 30) by (Z.div_mod_to_equations; lia).
  rewrite Z.mod_small by lia. split; [reflexivity|]. unfold fits. change (2 ^ 5) with 32. lia.
Qed.

(** Rest octets. *)
Ltac rdu F := rewrite (bind_some _ _ _ _ _ _ _ (uint_fits _ _ _ _ F)); cbv beta.
Ltac rdp := match goal with
  | A : fits 4 _, G : fits 5 _ |- context [bind r_power _ (rb ?i0 (w_alpha_gamma ?a ?g ++ ?l0))] =>
    let j := fresh "j" in let E := fresh "E" in
    destruct (power_ok a g i0 l0) as [j E]; [assumption|assumption|]; rewrite (bind_some _ _ _ _ _ _ _ E); cbv beta
  end.
Ltac rdt := match goal with
  | |- context [bind (opt (uint 4)) _ (rb ?i0 (w_ta_index ?a ++ ?l0))] =>
    let j := fresh "j" in let E := fresh "E" in
    destruct (tai_ok a i0 l0) as [j E]; [assumption|]; rewrite (bind_some _ _ _ _ _ _ _ E); cbv beta
  end.
Ltac rdy := match goal with
  | |- context [bind r_dynamic _ (rb ?i0 (w_tfi_usf ?a ?b ++ ?l0))] =>
    let j := fresh "j" in let E := fresh "E" in
    destruct (dyn_ok a b i0 l0) as [j E]; [assumption|assumption|]; rewrite (bind_some _ _ _ _ _ _ _ E); cbv beta
  end.

Lemma start_ok : forall (poll : bool) r i l, 0 <= r < 65536 ->
  exists j, opt r_time (rb i ((if poll then B true :: w_start_time r else [B false]) ++ l)) = Some (if poll then Some (time_of r) else None, rb j l).
Proof.
  intros [|] r i l R; cbn [app].
  - eexists. apply opt_1. apply time_ok. exact R.
  - eexists. apply opt_0.
Qed.

(** Behind "H H 0 1": [e] is the last part, [R] tells what is read from it. *)
Lemma downlink_ok : forall tlli tfi q e (R : option (Z * Z * option Z) -> Prop) l i, par_ok q -> fits 32 tlli -> fits 5 tfi ->
  (forall j, exists pe j', R pe /\ opt_h (let* ws := uint 5 in let* lqm := uint 2 in let* bep := opt (uint 4) in ret (ws, lqm, bep)) (rb j (e ++ l)) = Some (pe, j')) ->
  exists pe j, R pe /\ r_downlink (rb i (fld 32 tlli ++ [B true] ++ fld 5 tfi ++ [B false] ++ w_alpha_gamma (q_alpha q) (q_gamma q) ++
    [B (q_poll q); B (q_ta q <? 64)] ++ w_ta_index (q_tai q) ++
    (if q_poll q then B true :: w_start_time (q_start q) else [B false]) ++ [B false] ++ e ++ l)) =
    Some (mk_dl tlli tfi false (power_of (q_alpha q) (q_gamma q)) (q_poll q) (q_ta q <? 64) (tai_of (q_tai q))
    (if q_poll q then Some (time_of (q_start q)) else None) None pe, j).
Proof.
  intros tlli tfi q e R l i (Q1 & Q2 & Q3 & Q4 & Q5 & Q6 & Q7 & Q8 & Q9) T F PE.
  unfold r_downlink. cbn [app].
  assert (U : forall C w v (k : Z -> reader C) j0 l0, fits (Z.of_nat w) v ->
     bind (uint w) k (rb j0 (fld w v ++ l0)) = k v (rb (j0 + Z.of_nat w) l0)).
  { intros C w v k j0 l0 FF. rewrite (bind_some _ _ _ _ _ _ _ (uint_fits w v j0 l0 FF)). reflexivity. }
  destruct (power_ok (q_alpha q) (q_gamma q) (i + Z.of_nat 32 + 1 + Z.of_nat 5 + 1) (B (q_poll q) :: B (q_ta q <? 64) :: w_ta_index (q_tai q) ++
    (if q_poll q then B true :: w_start_time (q_start q) else [B false]) ++ B false :: e ++ l) Q7 Q8) as [j1 E1].
  destruct (tai_ok (q_tai q) (j1 + 1 + 1) ((if q_poll q then B true :: w_start_time (q_start q) else [B false]) ++ B false :: e ++ l) Q9) as [j2 E2].
  destruct (start_ok (q_poll q) (q_start q) j2 (B false :: e ++ l) Q6) as [j3 E3].
  destruct (PE (j3 + 1)) as (pe & j' & RP & E'). exists pe, j'. split; [exact RP|].
  rewrite U by exact T. rd1. rewrite U by exact F. rd1. rewrite (bind_some _ _ _ _ _ _ _ E1). do 2 rd1.
  rewrite (bind_some _ _ _ _ _ _ _ E2), (bind_some _ _ _ _ _ _ _ E3). rd1.
  rewrite (bind_some _ _ _ _ _ _ _ E'). reflexivity.
Qed.
Lemma rest_dl_gen : forall tlli tfi e (R : option (Z * Z * option Z) -> Prop) ws q l i, par_ok q -> fits 32 tlli -> fits 5 tfi ->
  (forall j, exists pe j', R pe /\ opt_h (let* ws := uint 5 in let* lqm := uint 2 in let* bep := opt (uint 4) in ret (ws, lqm, bep))
     (rb j ((if e : bool then H :: fld 5 (enc_ws ws) ++ [B false; B false; B true] else [L]) ++ l)) = Some (pe, j')) ->
  exists pe j, R pe /\ r_rest true (rb i (w_rest_dl tlli tfi e ws (q_poll q) (q_ta q <? 64) (q_start q) (q_alpha q) (q_gamma q) (q_tai q) ++ l)) =
    Some (downlink_for tlli tfi q pe, j).
Proof.
  intros tlli tfi e R ws q l i Q T F PE. unfold w_rest_dl. rewrite <- !app_assoc.
  set (ee := if e then _ else _) in *. change ([H; H; B false; B true] ++ ?x) with (H :: H :: B false :: B true :: x).
  destruct (downlink_ok tlli tfi q ee R l (i + 1 + 1 + 1 + 1) Q T F PE) as (pe & j & RP & E). exists pe, j. split; [exact RP|].
  unfold r_rest. do 4 rd1. rewrite (bind_some _ _ _ _ _ _ _ E). reflexivity.
Qed.
Lemma egprs_bep : forall ws j b3 b2 b1 b0 l, ws_ok ws ->
  exists j', opt_h (let* ws := uint 5 in let* lqm := uint 2 in let* bep := opt (uint 4) in ret (ws, lqm, bep))
     (rb j ((H :: fld 5 (enc_ws ws) ++ [B false; B false; B true]) ++ b3 :: b2 :: b1 :: b0 :: l)) =
     Some (Some ((ws - 64) / 32, 0, Some (octet [put (j + 9) b3; put (j + 10) b2; put (j + 11) b1; put (j + 12) b0])), j').
Proof.
  intros ws j b3 b2 b1 b0 l W. destruct (enc_ws_eq ws W) as [E F]. rewrite <- E.
  change ((H :: ?x) ++ ?y) with (H :: x ++ y). rewrite <- !app_assoc.
  unfold opt_h. rd1. erewrite bind_some; [eexists; reflexivity|].
  rdu (F : fits (Z.of_nat 5) (enc_ws ws)). change ([B false; B false; B true] ++ ?x) with (fld 2 0 ++ B true :: x).
  rewrite (bind_some _ _ _ _ _ _ _ (uint_fits 2 0 _ _ (fits_const 2 0 ltac:(lia) eq_refl))).
  erewrite bind_some; [reflexivity|]. unfold opt. rd1. erewrite bind_some; [reflexivity|].
  unfold uint. cbn [number rb bind]. unfold flag, bind, ret, rb1, octet. cbn [fold_left].
  replace (j + 1 + Z.of_nat 5 + Z.of_nat 2 + 1) with (j + 9) by lia.
  replace (j + 9 + 1 + 1 + 1) with (j + 12) by lia. replace (j + 9 + 1 + 1) with (j + 11) by lia. replace (j + 9 + 1) with (j + 10) by lia.
  reflexivity.
Qed.

Lemma chan4 : forall cs, cs <> UNKNOWN -> fits 4 (mcs_chan_code cs).
Proof. intros cs N. unfold fits. change (2 ^ 4) with 16. destruct cs; try congruence; vm_compute; split; congruence. Qed.
Lemma chan2 : forall cs, In cs [CS1; CS2; CS3; CS4] -> fits 2 (mcs_chan_code cs).
Proof. intros cs [<-|[<-|[<-|[<-|[]]]]]; vm_compute; split; congruence. Qed.

Lemma uplink_ok : forall t q l i, par_ok q -> q_down q = false ->
  ul_ok t q ->
  forall r, w_rest t q = Some r ->
  exists j, r_rest false (rb i (r ++ l)) = Some (RUp (uplink_for t q), j).
Proof.
  intros t q l i Q D T r W. unfold ul_ok in T. pose proof Q as (Q1 & Q2 & Q3 & Q4 & Q5 & Q6 & Q7 & Q8 & Q9).
  unfold w_rest in W. rewrite D in W. destruct (q_ext q) eqn:X.
  - injection W as <-. cbn [app]. rewrite <- ?app_assoc. cbn [app]. rewrite <- ?app_assoc. unfold r_rest.
    do 4 rd1.
    assert (RA : fits (Z.of_nat 5) (q_ra q mod 32)) by (unfold fits; change (2 ^ Z.of_nat 5) with 32; apply Z.mod_pos_bound; lia).
    change 31 with (Z.ones 5). rewrite Z.land_ones by lia. change (2 ^ 5) with 32.
    assert (G : forall i0, exists j, r_uplink_egprs (rb i0 (fld 5 (q_ra q mod 32) ++ [B false] ++
       match t with UlTbf tlli tfi _ ws cs => w_rest_egprs_sba tlli tfi ws cs (q_usf q) (q_alpha q) (q_gamma q) (q_tai q)
        | _ => w_rest_egprs_mba (q_start q) (q_alpha q) (q_gamma q) end ++ l)) = Some (uplink_for t q, j)).
    { intros i0. unfold r_uplink_egprs, uplink_for. rewrite X. rdu RA. change ([B false] ++ ?x) with (B false :: x). rd1. destruct t as [? ? ? ?|tlli tfi e ws cs|].
      - contradiction.
      - destruct T as (T1 & T2 & T3 & T4). destruct (enc_ws_eq ws T2) as [E F]. unfold w_rest_egprs_sba.
        rewrite <- !app_assoc. change ([B true] ++ ?x) with (B true :: x). rd1. rdy.
        assert (C : fits (Z.of_nat 4) (mcs_chan_code cs)) by exact (chan4 cs T4).
        rdu C. replace (tlli_bit tlli) with (B false).
        2:{ unfold tlli_bit. destruct (Z.eqb_spec tlli 1) as [->|]; [exfalso; apply T3; left; reflexivity|].
            destruct (Z.eqb_spec tlli 2) as [->|]; [exfalso; apply T3; right; left; reflexivity|]. destruct (Z.eqb_spec tlli 3) as [->|]; [exfalso; apply T3; right; right; left; reflexivity|]. reflexivity. }
        cbn [app]. do 3 rd1. rdu (F : fits (Z.of_nat 5) (enc_ws ws)). rdp. rdt. rd1. rewrite E. eexists. reflexivity.
      - unfold w_rest_egprs_mba. rewrite <- !app_assoc. change ([B false] ++ ?x) with (B false :: x). rd1. rdp.
        rewrite (bind_some _ _ _ _ _ _ _ (time_ok _ _ _ Q6)). change ([B false; B false; B false] ++ ?x) with (fld 2 0 ++ B false :: x).
        rewrite (bind_some _ _ _ _ _ _ _ (uint_fits 2 0 _ _ (fits_const 2 0 ltac:(lia) eq_refl))). rd1. eexists. reflexivity. }
    match goal with |- context [bind r_uplink_egprs _ (rb ?i0 _)] => destruct (G i0) as [j EG] end.
    rewrite (bind_some _ _ _ _ _ _ _ EG). exists j. reflexivity.
  - match type of W with (if ?c then _ else _) = _ => destruct c eqn:NE; [discriminate W|] end.
    injection W as <-. cbn [app]. rewrite <- ?app_assoc. unfold r_rest.
    do 4 rd1.
    assert (G : forall i0, exists j, r_uplink (rb i0 (
       match t with UlTbf _ tfi _ _ cs => w_rest_ul_mba tfi cs (q_usf q) (q_alpha q) (q_gamma q) (q_tai q)
        | _ => w_rest_ul_sba (q_start q) (q_alpha q) (q_gamma q) end ++ l)) = Some (uplink_for t q, j)).
    { intros i0. unfold r_uplink, uplink_for. rewrite X. destruct t as [? ? ? ?|tlli tfi e ws cs|].
      - contradiction.
      - destruct T as (T1 & T2 & T3 & T4). unfold w_rest_ul_mba.
        rewrite <- !app_assoc. change ([B true] ++ ?x) with (B true :: x). rd1. rdy.
        assert (C : fits (Z.of_nat 2) (mcs_chan_code cs)) by exact (chan2 cs T4).
        rdu C. change ([B true] ++ ?x) with (B true :: x). rd1. rdp. rdt. change ([B false] ++ ?x) with (B false :: x). rd1. eexists. reflexivity.
      - unfold w_rest_ul_sba. rewrite <- !app_assoc. change ([B false] ++ ?x) with (B false :: x). rd1. rdp.
        change ([B false; B true] ++ ?x) with (fld 2 1 ++ x).
        rewrite (bind_some _ _ _ _ _ _ _ (expect_fld 2 1 _ _ (fits_const 2 1 ltac:(lia) eq_refl))).
        rewrite (bind_some _ _ _ _ _ _ _ (time_ok _ _ _ Q6)). eexists. reflexivity. }
    match goal with |- context [bind r_uplink _ (rb ?i0 _)] => destruct (G i0) as [j EG] end.
    rewrite (bind_some _ _ _ _ _ _ _ EG). exists j. reflexivity.
Qed.
