(** Where the parts of an EGPRS PACKET DOWNLINK ACK/NACK are, and what its decoding leaves. *)
From Coq Require Import ZArith List Bool Lia.
Import ListNotations.
From Verif Require Import Model.Csn1 Model.Csn1Tables Model.EgprsReport Spec.UlControlSpec Spec.EgprsReportSpec
  Proofs.Csn1Check Proofs.Csn1Ul Proofs.Csn1Fields Proofs.Csn1Msgs.
Open Scope Z_scope.

Section Left.
Variable v : Z -> bool.
Variable n : Z.
Notation fl := (fld v n).
Notation dec := (dec v n).

Lemma fl_range i k : 0 <= k -> 0 <= fl i k < 2 ^ k.
Proof. intro K. unfold fld. pose proof (rfield_range v n (Z.to_nat k) i) as R. now rewrite Z2Nat.id in R. Qed.

Lemma log_st s w o k f i r : st s f i r -> st (log s w o k) f i r.
Proof. intros (A & B & C). unfold st. cbn. auto. Qed.

(** A bitmap: whole octets, then the odd bits in the low end of an octet. *)
Lemma left_go (rest : bool) cnt off cap base w s s1 f i r N : st s f i r -> 0 <= r < 256 -> N = (if rest then r else f (base + cnt) mod 256) ->
  dec (LeftBmp rest cnt 0 off cap) base w s = Go s1 ->
  0 <= N <= r /\ rd s1 = i + N /\ rem s1 = r - N /\
  (forall k, 0 <= k -> 8 * k < N -> mem s1 (base + off + k) = fl (i + 8 * k) (Z.min 8 (N - 8 * k))) /\
  (forall a, ~ base + off <= a < base + off + (N + 7) / 8 -> mem s1 a = if rest && (a =? base + cnt) then r else f a).
Proof.
  intros S R HN H. cbn [Csn1.dec] in H. unfold dec_left_bmp in H. cbv zeta in H. pose proof S as (A & I & RR).
  set (s0 := if rest then put8 w s (base + cnt) (rem s) else log s w (base + cnt) 1) in *.
  set (g := fun a => if rest && (a =? base + cnt) then r else f a).
  assert (S0 : st s0 (mem s0) i r /\ forall a, mem s0 a = g a).
  { subst s0 g. destruct rest; cbn [andb].
    - pose proof (put8_st w s (base + cnt) (rem s) _ _ _ S) as (P1 & P2 & P3). split; [unfold st; auto|]. intro a. rewrite P1. cbn [stm].
      rewrite RR. destruct (a =? base + cnt); [apply Z.mod_small; lia|reflexivity].
    - pose proof (log_st s w (base + cnt) 1 _ _ _ S) as (P1 & P2 & P3). split; [unfold st; auto|]. intro a. now rewrite P1. }
  destruct S0 as [S0 G]. set (h := mem s0) in *.
  assert (EN : get8 s0 (base + cnt) + 0 = N).
  { unfold get8. fold h. rewrite G. unfold g. rewrite Z.eqb_refl. destruct rest; cbn [andb]; rewrite HN; [rewrite Z.mod_small by lia; lia|lia]. }
  assert (N0 : 0 <= N). { rewrite HN. destruct rest; [lia|]. apply Z.mod_pos_bound. lia. }
  rewrite EN in H. destruct (0 <? N) eqn:EP.
  2: { apply Z.ltb_ge in EP. assert (N = 0) by lia. apply Go_inj in H. subst s1. destruct S0 as (_ & S2 & S3).
       split; [lia|]. split; [lia|]. split; [lia|]. split; [intros; lia|]. intros a _. apply G. }
  apply Z.ltb_lt in EP. pose proof (less_st s0 N _ _ _ S0) as S1.
  destruct (rem (less s0 N) <? 0) eqn:ER; [discriminate H|]. apply Z.ltb_ge in ER.
  assert (NR : N <= r). { destruct S1 as (_ & _ & S1). lia. }
  set (m := inter w (base + off) (base + off + cap)) in *.
  pose proof (octets_in_st v n m (Z.to_nat (N / 8)) _ (base + off) _ _ _ S1) as S2.
  pose proof (Z.div_pos N 8 ltac:(lia) ltac:(lia)) as DP. pose proof (Z.div_mod N 8 ltac:(lia)) as DM. pose proof (Z.mod_pos_bound N 8 ltac:(lia)) as MB.
  rewrite Z2Nat.id in S2 by lia. set (q := octets_in v n _ 8 m (base + off) (less s0 N)) in *.
  destruct (0 <? N mod 8) eqn:EM.
  - apply Z.ltb_lt in EM. unfold take in H. apply Go_inj in H.
    assert (S3 : st (skip_bits q (N mod 8)) (mem q) (i + N) (r - N)). { destruct S2 as (_ & B & C). unfold st. cbn. rewrite B, C. split; [reflexivity|]. split; lia. }
    pose proof (put8_st m _ (base + off + N / 8) (rfield v n (Z.to_nat (N mod 8)) (rd q)) _ _ _ S3) as (P1 & P2 & P3). rewrite H in P1, P2, P3.
    destruct S2 as (Q1 & Q2 & Q3).
    assert (C8 : (N + 7) / 8 = N / 8 + 1). { symmetry. apply Z.div_unique with (N mod 8 - 1); lia. }
    split; [lia|]. split; [lia|]. split; [lia|]. split.
    + intros k K1 K2. rewrite P1. cbn [stm]. rewrite Q1. destruct (Z.eq_dec k (N / 8)) as [->|NK].
      * rewrite Z.eqb_refl. rewrite Q2. replace (Z.min 8 (N - 8 * (N / 8))) with (N mod 8) by lia. fold (fl (i + 8 * (N / 8)) (N mod 8)).
        apply Z.mod_small. pose proof (fl_range (i + 8 * (N / 8)) (N mod 8) ltac:(lia)) as FR.
        assert (2 ^ (N mod 8) <= 2 ^ 8) by (apply Z.pow_le_mono_r; lia). change (2 ^ 8) with 256 in *. lia.
      * replace (base + off + k =? base + off + N / 8) with false by (symmetry; apply Z.eqb_neq; lia).
        rewrite stocts_at by lia. f_equal. lia.
    + intros a HA. rewrite P1. cbn [stm]. replace (a =? base + off + N / 8) with false by (symmetry; apply Z.eqb_neq; lia).
      rewrite Q1, stocts_other by lia. apply G.
  - apply Z.ltb_ge in EM. apply Go_inj in H. rewrite H in S2. destruct S2 as (Q1 & Q2 & Q3).
    assert (C8 : (N + 7) / 8 = N / 8). { symmetry. apply Z.div_unique with 7; lia. }
    split; [lia|]. split; [lia|]. split; [lia|]. split.
    + intros k K1 K2. rewrite Q1, stocts_at by lia. f_equal. lia.
    + intros a HA. rewrite Q1, stocts_other by lia. apply G.
Qed.
End Left.

Section Where.
Variable msg : list Z.
Hypothesis OCT : octets msg.
Hypothesis L : (23 <= length msg)%nat.
Notation v := (bit_of msg).
Notation n := (8 * Z.of_nat (length msg)).
Notation fl := (fld v n).
Notation go := (run v n (dec v n) 0).
Notation dc := (dec v n).

(** At position [p] of a part that ends at [e]. *)
Definition upto (s : state) (p e : Z) : Prop := rd s = p /\ rem s = e - p /\ 0 <= p <= e /\ e <= 184.

Lemma upto_st s p e : upto s p e -> st s (mem s) p (e - p).
Proof. intros (A & B & _). unfold st. auto. Qed.
Lemma st_upto s f p r e : st s f p r -> r = e - p -> 0 <= p -> 0 <= r -> e <= 184 -> upto s p e.
Proof. intros (_ & A & B) -> ? ? ?. unfold upto. repeat split; lia. Qed.

Definition goes (e : entry) (base : Z) (w : Z * Z) (part : Z -> Z) (E : Z) : Prop :=
  forall s s1 p, upto s p E -> dc e base w s = Go s1 -> upto s1 (part p) E.
Definition goes_table (l : list entry) (base : Z) (w : Z * Z) (part : Z -> Z) (E : Z) : Prop :=
  forall s s1 p, upto s p E -> go l base w s = Go s1 -> upto s1 (part p) E.

Lemma goes_uint b off cap base w E : 0 <= b <= 32 -> goes (Uint false b off cap) base w (fun q => q + b) E.
Proof.
  intros B s s1 p U H. apply (uint_go _ _ _ _ _ _ _ _ _ _ _ _ (upto_st _ _ _ U)) in H; [|exact B].
  destruct H as (x & _ & _ & K & S). destruct U as (_ & _ & U & UE). apply (st_upto _ _ _ _ _ S); lia.
Qed.

Lemma goes_cons e l base w p1 p2 E : plain e = true -> goes e base w p1 E -> goes_table l base w p2 E -> goes_table (e :: l) base w (fun q => p2 (p1 q)) E.
Proof.
  intros P G T s s1 p U H. apply run_go in H; [|exact P]. destruct H as (s2 & D & _ & H).
  apply (T s2); [|exact H]. apply (G s); assumption.
Qed.
Lemma goes_nil base w E : goes_table [] base w (fun q => q) E.
Proof. intros s s1 p U H. apply run_nil_go in H. now subst s1. Qed.
Lemma goes_typ off cap sub base w part E : (forall w', goes_table sub (base + off) w' part E) -> goes (Typ false off cap sub) base w part E.
Proof. intros T s s1 p U H. apply typ_go in H. exact (T _ _ _ _ U H). Qed.

Lemma flag_fl p : 0 <= p < 184 -> flag msg p = negb (fl p 1 =? 0).
Proof.
  intro P. unfold flag. rewrite <- (fl_field msg OCT L) by lia. pose proof (fl_range v n p 1 ltac:(lia)) as R. change (2 ^ 1) with 2 in R.
  destruct (Z.eqb_spec (fl p 1) 0), (Z.eqb_spec (fl p 1) 1); try reflexivity; lia.
Qed.

(** A flag for the next [k] entries, which are not all nullable. *)
Lemma ne_upto k off cap r base w s s' p E : forallb may_be_null (firstn k r) = false -> upto s p E -> run v n dc 0 (NextExist false k off cap :: r) base w s = Go s' ->
  exists s1, upto s1 (p + 1) E /\ run v n dc (if flag msg p then O else k) r base w s1 = Go s' /\
    mem s1 = (fun a => if a =? base + off then (if flag msg p then 1 else 0) else mem s a).
Proof.
  intros NN U H. assert (R : 0 < E - p).
  { destruct (Z.lt_ge_cases 0 (E - p)) as [?|Q]; [assumption|]. exfalso. destruct U as (U1 & U2 & _). cbn [Csn1.run] in H. unfold dec_next_exist, take in H. cbn [andb] in H.
    match type of H with (if ?c then _ else _) = _ => assert (X : c = true) by (apply Z.ltb_lt; cbn; lia); rewrite X in H end. discriminate H. }
  apply (ne_go _ _ _ _ _ _ _ _ _ _ _ _ _ _ (upto_st _ _ _ U)) in H; [|exact R]. destruct H as (x & s1 & X & RX & H). cbv zeta in H. rewrite NN in H.
  destruct U as (U1 & U2 & U3 & UE). rewrite (flag_fl p) by lia. rewrite <- X.
  assert (EE : (if x =? 0 then false else if E - p =? 1 then negb false else true) = negb (x =? 0)) by (destruct (x =? 0), (E - p =? 1); reflexivity).
  rewrite EE in H. destruct H as [S H]. exists s1. split; [apply (st_upto _ _ _ _ _ S); lia|]. split; [exact H|].
  destruct S as (S & _). rewrite S. cbn [stm]. destruct (negb (x =? 0)); reflexivity.
Qed.

Lemma goes_opt1 off cap e l base w part rest E : plain e = true -> may_be_null e = false -> goes e base w part E -> goes_table l base w rest E ->
  goes_table (NextExist false 1 off cap :: e :: l) base w (fun q => rest (after_opt msg part q)) E.
Proof.
  intros P N G T s s1 p U H. apply (ne_upto _ _ _ _ _ _ _ _ p E) in H; [|cbn; now rewrite N|exact U]. destruct H as (s2 & U2 & H & _).
  unfold after_opt. destruct (flag msg p).
  - apply run_go in H; [|exact P]. destruct H as (s3 & D & _ & H). apply (T s3); [|exact H]. now apply (G s2).
  - apply (T s2); [exact U2|exact H].
Qed.
Lemma goes_opt2 off cap e e' l base w part part' rest E : plain e = true -> plain e' = true -> may_be_null e = false -> goes e base w part E -> goes e' base w part' E -> goes_table l base w rest E ->
  goes_table (NextExist false 2 off cap :: e :: e' :: l) base w (fun q => rest (after_opt msg (fun q => part' (part q)) q)) E.
Proof.
  intros P P' N G G' T s s1 p U H. apply (ne_upto _ _ _ _ _ _ _ _ p E) in H; [|cbn; now rewrite N|exact U]. destruct H as (s2 & U2 & H & _).
  unfold after_opt. destruct (flag msg p).
  - apply run_go in H; [|exact P]. destruct H as (s3 & D & _ & H). apply run_go in H; [|exact P']. destruct H as (s4 & D' & _ & H). apply (T s4); [|exact H]. apply (G' s3); [|exact D']. now apply (G s2).
  - apply (T s2); [exact U2|exact H].
Qed.

Lemma goes_union off cap a1 a2 c1 c2 b base w E : 0 <= b <= 32 -> goes (Union off cap [Uint false b a1 c1; Uint false b a2 c2]) base w (fun q => q + (1 + b)) E.
Proof.
  intros B s s1 p U D. apply (union2_go _ _ _ _ _ _ _ _ _ _ _ _ _ (upto_st _ _ _ U)) in D. destruct D as (x & q2 & X & RX & S2 & D).
  destruct U as (_ & _ & U & UE). replace (p + (1 + b)) with (p + 1 + b) by lia.
  destruct (x =? 0); (apply (alt_uint_go _ _ _ _ _ _ _ _ _ _ _ _ _ S2) in D; [|lia]); destruct D as (y & _ & _ & K & S3); apply (st_upto _ _ _ _ _ S3); lia.
Qed.

Lemma goes_arr num off size cap sub base w part E : (forall b w', goes_table sub b w' part E) -> goes (TArr num off size cap sub) base w (Nat.iter (Z.to_nat num) part) E.
Proof.
  intros T s s1 p U H. cbn [Csn1.dec] in H. set (w' := inter w _ _) in H. revert s p U H. generalize (base + off) as o. generalize (Z.to_nat num) as k.
  assert (C : forall k q, part (Nat.iter k part q) = Nat.iter k part (part q)). { induction k; intro q; [reflexivity|]. change (part (part (Nat.iter k part q)) = part (Nat.iter k part (part q))). now rewrite IHk. }
  induction k; intros o s p U H; cbn [repeat_table] in H.
  - apply Go_inj in H. now subst s1.
  - destruct (table v n (fun e => dc e) sub o w' s) as [s2|? ?|?] eqn:D; try discriminate H. apply table_go in D. change (upto s1 (part (Nat.iter k part p)) E). rewrite C.
    apply (IHk (o + size) s2); [|exact H]. exact (T _ _ _ _ _ U D).
Qed.

Lemma goes_ext (l : list entry) base w p1 p2 E : goes_table l base w p1 E -> (forall q, p1 q = p2 q) -> goes_table l base w p2 E.
Proof. intros G X s s1 p U H. rewrite <- X. now apply (G s). Qed.
Lemma goes_ext1 (e : entry) base w p1 p2 E : goes e base w p1 E -> (forall q, p1 q = p2 q) -> goes e base w p2 E.
Proof. intros G X s s1 p U H. rewrite <- X. now apply (G s). Qed.

Lemma goes_bep base w E : goes_table T_EGPRS_BEP_LinkQualityMeasurements_t base w
  (fun q => after_opt msg (fun q => q + 8) (after_opt msg (fun q => q + 8) q)) E.
Proof.
  eapply goes_ext.
  - apply goes_opt2; [reflexivity|reflexivity|reflexivity|apply goes_uint; lia|apply goes_uint; lia|].
    apply goes_opt2; [reflexivity|reflexivity|reflexivity|apply goes_uint; lia|apply goes_uint; lia|apply goes_nil].
  - intro q. cbv beta. unfold after_opt.
    assert (X : forall z, z + 5 + 3 = z + 8) by (intro; lia). rewrite !X. reflexivity.
Qed.
Lemma goes_slots base w E : goes_table T_EGPRS_TimeslotLinkQualityMeasurements_t base w
  (fun q => after_opt msg (Nat.iter 8 (after_opt msg (fun q => q + 4))) (after_opt msg (Nat.iter 8 (after_opt msg (fun q => q + 5))) q)) E.
Proof.
  unfold T_EGPRS_TimeslotLinkQualityMeasurements_t.
  apply (goes_opt1 _ _ _ _ _ _ (Nat.iter 8 (after_opt msg (fun q => q + 5))) (fun q => after_opt msg (Nat.iter 8 (after_opt msg (fun q => q + 4))) q) E); [reflexivity|reflexivity| |].
  - apply (goes_arr 8 _ _ _ _ _ _ (after_opt msg (fun q => q + 5)) E). intros b w'. unfold T_BEP_MeasurementReport_t.
    apply (goes_opt1 _ _ _ _ _ _ (fun q => q + 5) (fun q => q) E); [reflexivity|reflexivity| |apply goes_nil]. apply (goes_union _ _ _ _ _ _ 4); lia.
  - apply (goes_opt1 _ _ _ _ _ _ (Nat.iter 8 (after_opt msg (fun q => q + 4))) (fun q => q) E); [reflexivity|reflexivity| |apply goes_nil].
    apply (goes_arr 8 _ _ _ _ _ _ (after_opt msg (fun q => q + 4)) E). intros b w'. unfold T_InterferenceMeasurementReport_t.
    apply (goes_opt1 _ _ _ _ _ _ (fun q => q + 4) (fun q => q) E); [reflexivity|reflexivity| |apply goes_nil]. apply goes_uint; lia.
Qed.
Lemma goes_quality base w E : goes_table T_EGPRS_ChannelQualityReport_t base w (quality msg) E.
Proof.
  unfold T_EGPRS_ChannelQualityReport_t.
  set (f1 := fun q => after_opt msg (fun q => q + 8) (after_opt msg (fun q => q + 8) q)).
  set (f3 := fun q => after_opt msg (Nat.iter 8 (after_opt msg (fun q => q + 4))) (after_opt msg (Nat.iter 8 (after_opt msg (fun q => q + 5))) q)).
  apply (goes_ext _ _ _ (fun q => f3 (f1 q + 6))); [|reflexivity].
  apply (goes_cons _ _ _ _ f1 (fun q => f3 (q + 6))); [reflexivity|apply goes_typ; intro; apply goes_bep|].
  apply (goes_cons _ _ _ _ (fun q => q + 6) f3); [reflexivity|apply goes_uint; lia|].
  apply (goes_cons _ _ _ _ f3 (fun q => q)); [reflexivity|apply goes_typ; intro; apply goes_slots|apply goes_nil].
Qed.
Lemma goes_request base w E : goes_table T_Channel_Request_Description_t base w (fun q => q + 24) E.
Proof.
  eapply goes_ext.
  - unfold T_Channel_Request_Description_t.
    do 5 (apply goes_cons; [reflexivity|apply goes_uint; lia|]). apply goes_nil.
  - intro q. cbv beta. lia.
Qed.
Lemma goes_extension base w E : goes_table T_Extension_Bits_t base w (fun q => q + 6 + (field msg q 6 + 1)) E.
Proof.
  intros s s1 p U H. unfold T_Extension_Bits_t in H. apply run_go in H; [|reflexivity]. destruct H as (s2 & D & R2 & H).
  apply run_go in H; [|reflexivity]. destruct H as (s3 & D3 & R3 & H). apply run_nil_go in H. subst s3.
  cbn [Csn1.dec] in D. unfold dec_uint_off in D. destruct U as (U1 & U2 & U3 & UE).
  destruct (6 <=? rem s) eqn:B; [|discriminate D]. apply Z.leb_le in B. change (6 <=? 32) with true in D. cbv iota in D. unfold take in D. apply Go_inj in D.
  set (x := rfield v n (Z.to_nat 6) (rd s)) in *. assert (X : x = field msg p 6). { unfold x. rewrite U1. change (rfield v n (Z.to_nat 6) p) with (fl p 6). apply (fl_field msg OCT L); lia. }
  assert (RX : 0 <= x < 64) by apply (rfield_range v n 6 (rd s)).
  assert (S : st (skip_bits s 6) (mem s) (p + 6) (E - p)). { unfold st. cbn. rewrite U1, U2. auto. }
  pose proof (less_st _ 6 _ _ _ (put_st (inter w (base + 0) (base + 0 + 1)) (uint_bytes 6) _ (base + 0) (x + 1) _ _ _ S)) as S2. rewrite D in S2.
  apply (left_go _ _ _ _ _ _ _ _ _ _ _ _ _ (x + 1) S2) in D3; [| |].
  - destruct D3 as (N & Q1 & Q2 & _). rewrite <- X. unfold upto. rewrite Q1, Q2. lia.
  - lia.
  - cbn [stm uint_bytes]. change (uint_bytes 6) with 1%nat. cbn [stm]. rewrite Z.eqb_refl, rem256', Z.mod_small by lia. reflexivity.
Qed.

(** What the acknowledgement description between [b] and [e] leaves in the structure. *)
Definition desc_left (s : state) (b e : Z) : Prop :=
  let cl := field msg (b + 15) 7 in
  let u := if flag msg (b + 14) then b + 23 + cl else b + 15 in
  u <= e /\
  mem s 208 = field msg b 1 /\ mem s 209 = field msg (b + 1) 1 /\ mem s 210 = field msg (b + 2) 1 /\
  mem s 212 = field msg (b + 3) 11 mod 256 /\ mem s 213 = field msg (b + 3) 11 / 256 mod 256 /\
  mem s 216 = (if flag msg (b + 14) then 1 else 0) /\
  (flag msg (b + 14) = true -> mem s 220 = cl /\ mem s 221 = field msg (b + 22) 1 /\
     forall k, 0 <= k -> 8 * k < cl -> mem s (222 + k) = field msg (b + 23 + 8 * k) (Z.min 8 (cl - 8 * k))) /\
  mem s 238 = e - u /\
  forall k, 0 <= k -> 8 * k < e - u -> mem s (240 + k) = field msg (u + 8 * k) (Z.min 8 (e - u - 8 * k)).

Lemma small_field p k : 0 <= p -> 0 <= k <= 8 -> p + k <= 184 -> field msg p k mod 256 = field msg p k.
Proof.
  intros P K B. rewrite <- (fl_field msg OCT L) by lia. apply Z.mod_small. pose proof (fl_range v n p k ltac:(lia)) as R.
  assert (2 ^ k <= 2 ^ 8) by (apply Z.pow_le_mono_r; lia). change (2 ^ 8) with 256 in *. lia.
Qed.

Lemma desc_go w s s' b e : upto s b e -> go T_EGPRS_AckNack_Desc_t 208 w s = Go s' -> desc_left s' b e.
Proof.
  intros U H. unfold T_EGPRS_AckNack_Desc_t in H. pose proof (upto_st _ _ _ U) as S. destruct U as (_ & _ & U & UE).
  apply run_go in H; [|reflexivity]. destruct H as (s1 & D & _ & H). apply (uint_go _ _ _ _ _ _ _ _ _ _ _ _ S) in D; [|lia]. clear S. destruct D as (x1 & X1 & _ & K1 & S).
  apply run_go in H; [|reflexivity]. destruct H as (s2 & D & _ & H). apply (uint_go _ _ _ _ _ _ _ _ _ _ _ _ S) in D; [|lia]. clear S. destruct D as (x2 & X2 & _ & K2 & S).
  apply run_go in H; [|reflexivity]. destruct H as (s3 & D & _ & H). apply (uint_go _ _ _ _ _ _ _ _ _ _ _ _ S) in D; [|lia]. clear S. destruct D as (x3 & X3 & _ & K3 & S).
  apply run_go in H; [|reflexivity]. destruct H as (s4 & D & _ & H). apply (uint_go _ _ _ _ _ _ _ _ _ _ _ _ S) in D; [|lia]. clear S. destruct D as (x4 & X4 & _ & K4 & S).
  rewrite (fl_field msg OCT L) in X1, X2, X3, X4 by lia.
  replace (b + 1 + 1) with (b + 2) in * by lia. replace (b + 2 + 1) with (b + 3) in * by lia. replace (b + 3 + 11) with (b + 14) in * by lia.
  assert (M4 : mem s4 208 = x1 mod 256 /\ mem s4 209 = x2 mod 256 /\ mem s4 210 = x3 mod 256 /\ mem s4 212 = x4 mod 256 /\ mem s4 213 = x4 / 256 mod 256).
  { destruct S as (S & _). rewrite S. change (uint_bytes 1) with 1%nat. change (uint_bytes 11) with 2%nat. cbn [stm]. auto. }
  assert (U4 : upto s4 (b + 14) e) by (apply (st_upto _ _ _ _ _ S); lia). clear S.
  rewrite X1, X2, X3, X4 in M4. rewrite !small_field in M4 by lia. clear X1 X2 X3 X4.
  apply (ne_upto _ _ _ _ _ _ _ _ (b + 14) e) in H; [|reflexivity|exact U4]. destruct H as (s5 & U5 & H & M5).
  replace (b + 14 + 1) with (b + 15) in * by lia.
  set (fg := flag msg (b + 14)) in *. unfold desc_left. fold fg. cbv zeta. set (cl := field msg (b + 15) 7) in *.
  (* the state before the uncompressed bitmap *)
  assert (C : exists s6 u, u = (if fg then b + 23 + cl else b + 15) /\ upto s6 u e /\ go [LeftBmp true 30 0 32 42] 208 w s6 = Go s' /\
    mem s6 208 = field msg b 1 /\ mem s6 209 = field msg (b + 1) 1 /\ mem s6 210 = field msg (b + 2) 1 /\
    mem s6 212 = field msg (b + 3) 11 mod 256 /\ mem s6 213 = field msg (b + 3) 11 / 256 mod 256 /\ mem s6 216 = (if fg then 1 else 0) /\
    (fg = true -> mem s6 220 = cl /\ mem s6 221 = field msg (b + 22) 1 /\
       forall k, 0 <= k -> 8 * k < cl -> mem s6 (222 + k) = field msg (b + 23 + 8 * k) (Z.min 8 (cl - 8 * k)) /\ 0 <= 222 + k < 238)).
  { destruct M4 as (A1 & A2 & A3 & A4 & A5). destruct fg.
    - apply run_go in H; [|reflexivity]. destruct H as (s6 & D & _ & H). apply (uint_go _ _ _ _ _ _ _ _ _ _ _ _ (upto_st _ _ _ U5)) in D; [|lia]. destruct D as (y1 & Y1 & RY1 & L1 & S).
      apply run_go in H; [|reflexivity]. destruct H as (s7 & D & _ & H). apply (uint_go _ _ _ _ _ _ _ _ _ _ _ _ S) in D; [|lia]. clear S. destruct D as (y2 & Y2 & RY2 & L2 & S).
      apply run_go in H; [|reflexivity]. destruct H as (s8 & D & R8 & H).
      rewrite (fl_field msg OCT L) in Y1, Y2 by lia. replace (b + 15 + 7) with (b + 22) in * by lia. replace (b + 22 + 1) with (b + 23) in * by lia.
      change (2 ^ 7) with 128 in RY1. change (2 ^ 1) with 2 in RY2. fold cl in Y1.
      apply (left_go _ _ _ _ _ _ _ _ _ _ _ _ _ cl S) in D; [|lia|].
      2: { change (uint_bytes 7) with 1%nat. change (uint_bytes 1) with 1%nat. cbn [stm]. change (208 + 12 =? 208 + 13) with false. cbv iota. rewrite Z.eqb_refl, rem256', Z.mod_small by lia. now symmetry. }
      destruct D as (N & P1 & P2 & P3 & P4). change (208 + 14) with 222 in *.
      change (uint_bytes 7) with 1%nat in P4. change (uint_bytes 1) with 1%nat in P4. cbn [stm andb] in P4. rewrite M5 in P4.
      assert (NB : (cl + 7) / 8 < 17) by (apply Z.div_lt_upper_bound; lia).
      exists s8, (b + 23 + cl). split; [reflexivity|]. split; [unfold upto; lia|]. split; [exact H|].
      rewrite !P4 by lia. rewrite <- A1, <- A2, <- A3, <- A4, <- A5.
      repeat (split; [reflexivity|]). intros _. split; [cbn; rewrite Z.mod_small by lia; exact Y1|]. split; [cbn; rewrite Z.mod_small by lia; exact Y2|].
      intros k K5 K6. split; [|lia]. rewrite P3 by lia. apply (fl_field msg OCT L); lia.
    - apply skipped in H. apply skipped in H. apply skipped in H. exists s5, (b + 15). split; [reflexivity|]. split; [exact U5|]. split; [exact H|].
      rewrite M5. rewrite <- A1, <- A2, <- A3, <- A4, <- A5. repeat (split; [reflexivity|]). discriminate. }
  clear H U5 M5 U4 M4 s1 s2 s3 s4 s5. destruct C as (s6 & u & -> & U6 & H & A1 & A2 & A3 & A4 & A5 & A6 & A7). set (u := if fg then b + 23 + cl else b + 15) in *.
  apply run_go in H; [|reflexivity]. destruct H as (s7 & D & R7 & H). apply run_nil_go in H. subst s7.
  pose proof U6 as (_ & _ & B6 & _).
  assert (UB : b + 15 <= u). { assert (0 <= cl) by (unfold cl, field; apply Z.mod_pos_bound; lia). subst u. destruct fg; lia. }
  apply (left_go _ _ _ _ _ _ _ _ _ _ _ _ _ (e - u) (upto_st _ _ _ U6)) in D; [|lia|reflexivity]. destruct D as (N & P1 & P2 & P3 & P4).
  change (208 + 32) with 240 in *. change (208 + 30) with 238 in *. cbn [andb] in P4.
  assert (NB : 0 <= (e - u + 7) / 8) by (apply Z.div_pos; lia).
  assert (P5 : forall a, a < 238 -> mem s' a = mem s6 a). { intros a HA. rewrite P4 by lia. replace (a =? 238) with false by (symmetry; apply Z.eqb_neq; lia). reflexivity. }
  split; [lia|]. rewrite !P5 by lia. repeat (split; [assumption|]).
  split; [intros F; destruct (A7 F) as (B1 & B2 & B3); split; [exact B1|]; split; [exact B2|]; intros k K1' K2'; destruct (B3 k K1' K2') as [B4 B5]; rewrite P5 by lia; exact B4|].
  split; [rewrite P4 by lia; rewrite Z.eqb_refl; reflexivity|].
  intros k H1 H2. rewrite P3 by lia. apply (fl_field msg OCT L); lia.
Qed.

Theorem egprs_decoded s r : decode_ul msg = Go s -> message_type msg = EGPRS_DOWNLINK_ACK_NACK -> report_of msg = Some r ->
  desc_left s (desc_from msg) (desc_to msg).
Proof.
  intros D M RP. unfold report_of in RP. destruct ((urbb_from msg <=? desc_to msg) && (desc_to msg <=? 184)) eqn:W; [|discriminate RP]. clear RP.
  apply andb_prop in W as [W1 W2]. apply Z.leb_le in W1, W2.
  destruct (start_of msg OCT L s 8 _ _ D M eq_refl) as (s0 & S & G). unfold T_EGPRS_PD_AckNack_t in G.
  uint G S x1 X1 R1. uint G S x2 X2 R2. uint G S x3 X3 R3. uint G S x4 X4 R4. uint G S x5 X5 R5. uint G S x6 X6 R6.
  match type of S with st ?q _ _ _ => assert (U : upto q 20 184) by (apply (st_upto _ _ _ _ _ S); lia); clear S X1 X2 X3 X4 X5 X6 R1 R2 R3 R4 R5 R6 end.
  set (rest := [Typ false 204 80 T_EGPRS_AckNack_t; Padding]).
  assert (A : exists q, upto q (desc_at msg) 184 /\ go rest 0 (0, 284) q = Go s).
  { match type of U with upto ?q _ _ => revert G U; generalize q end. clear - OCT L. intros q G U.
    assert (opt : forall off cap e l part p q, plain e = true -> may_be_null e = false -> goes e 0 (0, 284) part 184 ->
      go (NextExist false 1 off cap :: e :: l) 0 (0, 284) q = Go s -> upto q p 184 -> exists q', upto q' (after_opt msg part p) 184 /\ go l 0 (0, 284) q' = Go s).
    { clear - OCT L. intros off cap e l part p q P N Ge G U. apply (ne_upto _ _ _ _ _ _ _ _ p 184) in G; [|cbn; now rewrite N|exact U]. destruct G as (s2 & U2 & G & _).
      unfold after_opt. destruct (flag msg p).
      - apply run_go in G; [|exact P]. destruct G as (s3 & D & _ & G). exists s3. split; [exact (Ge _ _ _ U2 D)|exact G].
      - exists s2. split; [exact U2|exact G]. }
    apply (opt _ _ _ _ (quality msg) 20) in G; [|reflexivity|reflexivity|apply goes_typ; intro; apply goes_quality|exact U]. clear q U. destruct G as (q & U & G).
    eapply (opt _ _ _ _ (fun q => q + 24)) in G; [|reflexivity|reflexivity|apply goes_typ; intro; apply goes_request|exact U]. clear q U. destruct G as (q & U & G).
    eapply (opt _ _ _ _ (fun q => q + 7)) in G; [|reflexivity|reflexivity|apply goes_uint; lia|exact U]. clear q U. destruct G as (q & U & G).
    eapply (opt _ _ _ _ (fun q => q + 6 + (field msg q 6 + 1))) in G; [|reflexivity|reflexivity|apply goes_typ; intro; apply goes_extension|exact U]. clear q U. destruct G as (q & U & G).
    exists q. split; [exact U|exact G]. }
  clear U G. destruct A as (q & U & G). subst rest.
  apply run_go in G; [|reflexivity]. destruct G as (q6 & D6 & _ & G). apply typ_go in D6. unfold T_EGPRS_AckNack_t in D6.
  apply run_go in D6; [|reflexivity]. destruct D6 as (q7 & D7 & _ & D6). apply run_nil_go in D6. subst q7.
  apply (union2_go _ _ _ _ _ _ _ _ _ _ _ _ _ (upto_st _ _ _ U)) in D7. destruct D7 as (z & q8 & ZE & RZ & S8 & D7).
  destruct U as (_ & _ & U & _).
  assert (F : 0 <= field msg (desc_from msg + 15) 7 /\ desc_at msg < 184 /\ 0 <= desc_from msg).
  { assert (FN : forall p k, 0 <= k -> 0 <= field msg p k). { intros p k K. unfold field. apply Z.mod_pos_bound. apply Z.pow_pos_nonneg; lia. }
    pose proof (FN (desc_from msg + 15) 7 ltac:(lia)). split; [lia|]. unfold urbb_from, crbb_len in W1.
    assert (desc_at msg < desc_from msg) by (unfold desc_from; destruct (flag msg (desc_at msg)); lia). 
    destruct (flag msg (desc_from msg + 14)); lia. }
  destruct F as (F1 & F2 & F3).
  pose proof (flag_fl (desc_at msg) ltac:(lia)) as FA. rewrite <- ZE in FA.
  assert (UB : desc_from msg + 15 <= desc_to msg). { unfold urbb_from, crbb_len in W1. destruct (flag msg (desc_from msg + 14)); lia. }
  assert (E : desc_left q6 (desc_from msg) (desc_to msg)).
  { unfold desc_from, desc_to in *. rewrite FA in *. destruct (z =? 0) eqn:EZ; cbn [negb] in *.
    - apply alt_typ_go in D7. apply (desc_go _ _ _ _ _ (st_upto _ _ _ _ 184 S8 ltac:(lia) ltac:(lia) ltac:(lia) ltac:(lia)) D7).
    - apply alt_typ_go in D7. unfold T_EGPRS_AckNack_w_len_t in D7. apply run_go in D7; [|reflexivity]. destruct D7 as (q9 & D8 & _ & D7). apply run_nil_go in D7. subst q9.
      cbn [Csn1.dec] in D8. unfold take in D8. destruct S8 as (S1 & S2 & S3). rewrite S2 in D8.
      set (x := rfield v n (Z.to_nat 8) (desc_at msg + 1)) in *.
      assert (X : x = field msg (desc_at msg + 1) 8). { unfold x. change (rfield v n (Z.to_nat 8) (desc_at msg + 1)) with (fl (desc_at msg + 1) 8). apply (fl_field msg OCT L); lia. }
      assert (RX : 0 <= x < 256) by apply (rfield_range v n 8).
      rewrite (Z.mod_small x 256) in D8 by lia. rewrite <- X in *.
      replace (0 <? x) with true in D8 by (symmetry; apply Z.ltb_lt; lia).
      match type of D8 with match ?t with _ => _ end = _ => destruct t as [q9|? ?|?] eqn:T; try discriminate D8 end.
      apply table_go in T. apply desc_go with (b := desc_at msg + 9) (e := desc_at msg + 9 + x) in T.
      2: { clearbody x. unfold upto. cbn [rd rem set_rem less skip_bits]. rewrite S2. repeat split; lia. }
      apply Go_inj in D8. rewrite <- D8. destruct (0 <? i16 (rem q9)); exact T. }
  keeps G 284 K.
  unfold desc_left in E |- *. cbv zeta in E |- *. destruct E as (B1 & B2 & B3 & B4 & B5 & B6 & B7 & B8 & B9 & B10).
  set (u := if flag msg (desc_from msg + 14) then _ else _) in *. 
  split; [exact B1|]. rewrite !K by lia. repeat (split; [assumption|]).
  assert (C7 : field msg (desc_from msg + 15) 7 < 128) by (unfold field; apply Z.mod_pos_bound; lia).
  assert (UU : desc_from msg + 15 <= u) by (subst u; destruct (flag msg (desc_from msg + 14)); lia).
  split; [intros F; destruct (B8 F) as (C1 & C2 & C3); split; [exact C1|]; split; [exact C2|]; intros k K1 K2; rewrite K by lia; exact (C3 k K1 K2)|].
  split; [assumption|]. intros k K1 K2. rewrite K by lia. exact (B10 k K1 K2).
Qed.
End Where.
