(** Proofs about the messages received over the PCU interface (C73). *)
From Coq Require Import ZArith List Bool Lia.
From Verif Require Import Model.FrameNo Model.BtsConf Model.PcuIf Spec.PcuIfSpec.
Import ListNotations.
Local Open Scope Z_scope.

(** ** Reading what was encoded *)
Definition reads {A} (m : reader A) (bs : list Z) (a : A) : Prop := forall r, m (bs ++ r) = Some (a, r).

Lemma reads_ret : forall A (a : A), reads (ret a) [] a.
Proof. intros A a r. reflexivity. Qed.
Lemma reads_bind : forall A B (m : reader A) (k : A -> reader B) b1 b2 a c,
  reads m b1 a -> reads (k a) b2 c -> reads (bind m k) (b1 ++ b2) c.
Proof. intros A B m k b1 b2 a c H1 H2 r. unfold bind. rewrite <- app_assoc, H1. apply H2. Qed.
Lemma reads_octet : forall x, reads octet [x] x.
Proof. intros x r. reflexivity. Qed.
Lemma reads_times : forall A (m : reader A) (enc : A -> list Z) l,
  (forall a, In a l -> reads m (enc a) a) -> reads (times (length l) m) (concat (map enc l)) l.
Proof.
  intros A m enc. induction l as [|a l IH]; intros Hl.
  - apply reads_ret.
  - cbn [length times map concat].
    apply reads_bind with (a := a). { apply Hl. now left. }
    rewrite <- (app_nil_r (concat (map enc l))).
    apply reads_bind with (a := l). { apply IH. intros b Hb. apply Hl. now right. }
    apply reads_ret.
Qed.
Lemma reads_times_n : forall A (m : reader A) (enc : A -> list Z) n l, length l = n ->
  (forall a, In a l -> reads m (enc a) a) -> reads (times n m) (concat (map enc l)) l.
Proof. intros A m enc n l <-. apply reads_times. Qed.
Lemma reads_octets : forall n l, length l = n -> reads (times n octet) l l.
Proof.
  intros n l <-. pose proof (reads_times Z octet (fun x => [x]) l (fun a _ => reads_octet a)) as R.
  replace (concat (map (fun x : Z => [x]) l)) with l in R; [exact R|].
  clear R. induction l; cbn; congruence.
Qed.
Lemma le_octets : forall n x, 0 <= x < 256 ^ Z.of_nat n -> le (octets_le n x) = x.
Proof.
  induction n as [|n IH]; intros x Hx.
  - cbn in *. lia.
  - cbn [octets_le]. unfold le. cbn [fold_right]. fold (le (octets_le n (x / 256))).
    rewrite IH. { pose proof (Z.div_mod x 256). lia. }
    split. { apply Z.div_pos; lia. }
    apply Z.div_lt_upper_bound; [lia|].
    replace (Z.of_nat (S n)) with (Z.of_nat n + 1) in Hx by lia. rewrite Z.pow_add_r in Hx by lia. lia.
Qed.
Lemma octets_le_length : forall n x, length (octets_le n x) = n.
Proof. induction n; intros; cbn; [reflexivity | f_equal; apply IHn]. Qed.
Lemma reads_num : forall n x, 0 <= x < 256 ^ Z.of_nat n -> reads (num n) (octets_le n x) x.
Proof.
  intros n x Hx. unfold num. rewrite <- (app_nil_r (octets_le n x)).
  apply reads_bind with (a := octets_le n x). { apply reads_octets. apply octets_le_length. }
  rewrite (le_octets n x Hx). apply reads_ret.
Qed.
Lemma reads_num2 : forall x, u16 x -> reads (num 2) (octets_le 2 x) x.
Proof. intros x Hx. apply reads_num. unfold u16 in Hx. cbn. lia. Qed.
Lemma reads_num4 : forall x, u32z x -> reads (num 4) (octets_le 4 x) x.
Proof. intros x Hx. apply reads_num. unfold u32z in Hx. cbn. lia. Qed.
Lemma reads_be : forall x, u16 x -> reads be16 (octets_be x) x.
Proof.
  intros x Hx r. unfold be16, octets_be, bind, octet, ret. cbn [app]. f_equal. f_equal.
  pose proof (Z.div_mod x 256). lia.
Qed.
Lemma signed_8 : forall x, i8 x -> signed 8 (x mod 256) = x.
Proof.
  intros x Hx. unfold i8 in Hx. unfold signed. cbn [Z.sub Z.pow].
  change (2 ^ (8 - 1)) with 128. change (2 ^ 8) with 256.
  destruct (Z.ltb_spec (x mod 256) 128); Z.div_mod_to_equations; lia.
Qed.
Lemma signed_16 : forall x, i16 x -> signed 16 (x mod 65536) = x.
Proof.
  intros x Hx. unfold i16 in Hx. unfold signed.
  change (2 ^ (16 - 1)) with 32768. change (2 ^ 16) with 65536.
  destruct (Z.ltb_spec (x mod 65536) 32768); Z.div_mod_to_equations; lia.
Qed.
Lemma u16_mod : forall x, u16 (x mod 65536).
Proof. intros x. unfold u16. apply Z.mod_pos_bound. lia. Qed.

Ltac step := eapply reads_bind.
Lemma reads_last : forall A B (m : reader A) (k : A -> reader B) b a c,
  reads m b a -> reads (k a) [] c -> reads (bind m k) b c.
Proof. intros. rewrite <- (app_nil_r b). now apply reads_bind with (a := a). Qed.

Lemma layout_data : forall m, ok_data m -> reads rd_data (enc_data m) m.
Proof.
  intros m (H1 & H2 & H3 & H4 & H5 & H6 & H7 & H8 & H9 & H10 & H11 & H12).
  unfold rd_data, enc_data. change ([di_sapi m; di_len m]) with ([di_sapi m] ++ [di_len m]).
  change ([di_trx m; di_ts m; di_blk m; di_rssi m mod 256])
    with ([di_trx m] ++ [di_ts m] ++ [di_blk m] ++ [di_rssi m mod 256]).
  repeat rewrite <- app_assoc.
  step; [apply reads_octet|]. step; [apply reads_octet|].
  step; [now apply reads_octets|]. step; [now apply reads_num4|]. step; [now apply reads_num2|].
  do 4 (step; [apply reads_octet|]). step; [now apply reads_num2|].
  step; [apply reads_num2, u16_mod|].
  apply reads_last with (a := di_lqual m mod 65536); [apply reads_num2, u16_mod|].
  rewrite (signed_8 _ H9), (signed_16 _ H11), (signed_16 _ H12).
  destruct m. apply reads_ret.
Qed.
Lemma layout_rts : forall spare arfcn m, length spare = 3%nat -> u16 arfcn -> ok_rts m ->
  reads rd_rts (enc_rts spare arfcn m) m.
Proof.
  intros spare arfcn m Hs Ha Hm. unfold rd_rts, enc_rts.
  change ([rt_trx m; rt_ts m; rt_blk m]) with ([rt_trx m] ++ [rt_ts m] ++ [rt_blk m]).
  step; [apply reads_octet|]. step; [now apply reads_octets|]. step; [now apply reads_num4|].
  step; [now apply reads_num2|]. do 2 (step; [apply reads_octet|]).
  apply reads_last with (a := rt_blk m); [apply reads_octet|]. destruct m. apply reads_ret.
Qed.
Lemma layout_rach : forall arfcn m, u16 arfcn -> ok_rach m -> reads rd_rach (enc_rach arfcn m) m.
Proof.
  intros arfcn m Ha (H1 & H2 & H3). unfold rd_rach, enc_rach.
  change ([ri_11 m; ri_burst m; ri_trx m; ri_ts m]) with ([ri_11 m] ++ [ri_burst m] ++ [ri_trx m] ++ [ri_ts m]).
  step; [apply reads_octet|]. step; [now apply reads_num2|]. step; [apply reads_num2, u16_mod|].
  step; [now apply reads_num4|]. step; [now apply reads_num2|]. do 3 (step; [apply reads_octet|]).
  apply reads_last with (a := ri_ts m); [apply reads_octet|].
  rewrite (signed_16 _ H2). destruct m. apply reads_ret.
Qed.
Lemma layout_its : forall t, ok_its t -> reads rd_its (enc_its t) t.
Proof.
  intros t Ht. unfold rd_its, enc_its.
  change ([is_tsc t; is_hop t; is_hsn t; is_maio t; is_malen t])
    with ([is_tsc t] ++ [is_hop t] ++ [is_hsn t] ++ [is_maio t] ++ [is_malen t]).
  repeat rewrite <- app_assoc. do 5 (step; [apply reads_octet|]).
  apply reads_last with (a := is_ma t); [now apply reads_octets|]. destruct t. apply reads_ret.
Qed.
Lemma layout_itrx : forall t, ok_itrx t -> reads rd_itrx (enc_itrx t) t.
Proof.
  intros t (H1 & H2 & H3 & H4). unfold rd_itrx, enc_itrx.
  change ([ix_mask t; 0]) with ([ix_mask t] ++ [0]). repeat rewrite <- app_assoc.
  step; [now apply reads_num2|]. do 2 (step; [apply reads_octet|]). step; [now apply reads_num4|].
  apply reads_last with (a := ix_ts t).
  - apply reads_times_n; [exact H3|]. intros a Ha. apply layout_its. rewrite Forall_forall in H4. now apply H4.
  - destruct t. apply reads_ret.
Qed.
Lemma reads_any : forall n l, length l = n -> exists x, reads (num n) l x.
Proof.
  intros n l Hl. exists (le l). intros r. unfold num, bind.
  rewrite (reads_octets n l Hl r). reflexivity.
Qed.
Lemma layout_info : forall nse cell rep cv ext i,
  length nse = 7%nat -> length cell = 11%nat -> length rep = 3%nat -> length ext = 4%nat -> ok_info i ->
  reads rd_info (enc_info nse cell rep cv ext i) i.
Proof.
  intros nse cell rep cv ext i L1 L2 L3 L4
    (H1 & H2 & H3 & H4 & H5 & H6 & H7 & H8 & H9 & H10 & H11 & H12 & H13 & H14 & H15 & H16 & H17 & H18 & H19 & H20).
  unfold rd_info, enc_info.
  change ([in_t3142 i; in_t3169 i; in_t3191 i; in_t3193 i; in_t3195 i; in_n3101 i; in_n3103 i; in_n3105 i; cv])
    with ([in_t3142 i] ++ [in_t3169 i] ++ [in_t3191 i] ++ [in_t3193 i] ++ [in_t3195 i] ++ [in_n3101 i]
          ++ [in_n3103 i] ++ [in_n3105 i] ++ [cv]).
  change ([in_cs i; in_mcs i]) with ([in_cs i] ++ [in_mcs i]).
  destruct rep as [|r1 [|r2 [|r3 [|]]]]; try discriminate. change [r1; r2; r3] with ([r1; r2] ++ [r3]).
  destruct ext as [|e1 [|e2 [|e3 [|e4 [|]]]]]; try discriminate. change [e1; e2; e3; e4] with ([e1; e2] ++ [e3; e4]).
  destruct (reads_any 2 [r1; r2] eq_refl) as [xr Xr].
  destruct (reads_any 2 [e1; e2] eq_refl) as [xe Xe].
  destruct (reads_any 2 [e3; e4] eq_refl) as [xf Xf].
  repeat rewrite <- app_assoc.
  step; [now apply reads_num4|]. step; [now apply reads_num4|].
  step. { apply reads_times_n; [exact H3|]. intros a Ha. apply layout_itrx. rewrite Forall_forall in H4. now apply H4. }
  step; [apply reads_octet|]. step; [now apply reads_num2|]. step; [now apply reads_num2|].
  step; [apply reads_octet|]. do 3 (step; [now apply reads_num2|]).
  step; [now apply reads_octets|]. step; [now apply reads_octets|]. step; [now apply reads_num2|].
  step; [exact Xr|]. step; [apply reads_octet|]. step; [now apply reads_num2|].
  do 9 (step; [apply reads_octet|]). step; [exact Xe|]. step; [exact Xf|].
  do 2 (step; [apply reads_octet|]).
  step. { apply reads_times_n; [exact H12|]. intros a Ha. apply reads_num2. rewrite Forall_forall in H13. now apply H13. }
  step. { apply reads_times_n; [exact H14|]. intros a Ha. apply reads_num2. rewrite Forall_forall in H15. now apply H15. }
  step. { apply reads_times_n; [exact H16|]. intros a Ha. apply reads_num2. rewrite Forall_forall in H17. now apply H17. }
  step; [now apply reads_octets|].
  step. { rewrite <- (map_id (in_ip i)) at 1. apply (reads_times_n _ (times 16 octet) (fun x => x)); [exact H19|].
          intros a Ha. apply reads_octets. rewrite Forall_forall in H20. now apply H20. }
  apply reads_last with (a := in_model i); [apply reads_octet|]. destruct i. apply reads_ret.
Qed.
Lemma layout_naddr : forall n, ok_naddr n -> reads rd_naddr (enc_naddr n) n.
Proof.
  intros n (H1 & H2 & H3 & H4 & H5 & H6 & H7 & H8). unfold rd_naddr, enc_naddr.
  change ([na_bsic n; na_err n]) with ([na_bsic n] ++ [na_err n]). repeat rewrite <- app_assoc.
  do 3 (step; [now apply reads_be|]). do 2 (step; [apply reads_octet|]).
  do 2 (step; [now apply reads_be|]). step; [apply reads_octet|]. step; [now apply reads_be|].
  step; [apply reads_octet|].
  apply reads_last with (a := g_ci (na_cgi n)); [now apply reads_be|].
  replace (flag (g_mnc3 (na_cgi n))) with (g_mnc3 (na_cgi n)) by (destruct H6 as [-> | ->]; reflexivity).
  destruct n as [? ? ? ? ? []]. apply reads_ret.
Qed.
