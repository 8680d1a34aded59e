(** The channel quality a mobile reports, read from the air. *)
From Coq Require Import ZArith List Bool Lia.
Import ListNotations.
From Verif Require Import Model.Csn1 Model.Csn1Tables Model.L1Meas Spec.UlControlSpec Spec.MeasSpec
  Proofs.Csn1Check Proofs.Csn1Ul Proofs.Csn1Fields Proofs.Csn1Msgs Proofs.MsClassP.
Open Scope Z_scope.

Section Read.
Variable msg : list Z.
Hypothesis OCT : octets msg.
Notation v := (bit_of msg).
Notation n := (8 * Z.of_nat (length msg)).
Notation fl := (fld v n).
Notation go := (run v n (dec v n)).
Notation dc := (dec v n).

Lemma there_fl q : 0 <= q < n -> there msg q = negb (fl q 1 =? 0).
Proof. intro Q. unfold there. now rewrite (fl_is msg OCT) by lia. Qed.

Lemma ne_f k off cap r base w s s' q E : at_ msg s q E -> go 0%nat (NextExist false k off cap :: r) base w s = Go s' ->
  forallb may_be_null (firstn k r) = false ->
  q < E /\ exists s1, at_ msg s1 (q + 1) E /\ mem s1 = upd (mem s) (base + off) (Z.b2z (there msg q)) /\ go (if there msg q then O else k) r base w s1 = Go s'.
Proof.
  intros A H N. pose proof A as (A1 & A2 & A3 & A4). destruct (Z.lt_ge_cases q E) as [L|L].
  - split; [exact L|]. apply (ne_go _ _ _ _ _ _ _ _ _ _ _ _ _ _ (at_st _ _ _ _ A)) in H; [|lia]. destruct H as (x & s1 & X & RX & H). cbv zeta in H.
    rewrite there_fl by lia. replace (Z.min q E) with q in * by lia.
    assert (EE : (if x =? 0 then false else if E - q =? 1 then negb (forallb may_be_null (firstn k r)) else true) = negb (fl q 1 =? 0)).
    { rewrite X, N. destruct (fl q 1 =? 0); [reflexivity|]. now destruct (E - q =? 1). }
    rewrite EE in H. destruct H as [(S1 & S2 & S3) H]. exists s1. split; [unfold at_; lia|]. split; [|exact H].
    rewrite S1. cbn [stm]. unfold upd. now destruct (negb _).
  - exfalso. cbn [Csn1.run] in H. unfold dec_next_exist in H. cbn [andb] in H. unfold take in H. cbv zeta in H.
    match type of H with (if rem ?x <? 0 then _ else _) = _ => assert (R : rem x = rem s - 1) by reflexivity; destruct (Z.ltb_spec (rem x) 0); [discriminate H|lia] end.
Qed.

Lemma skip1' e r base w s s' : go 1%nat (e :: r) base w s = Go s' -> go 0%nat r base w s = Go s'.
Proof. now intro. Qed.

(** An optional field. *)
Lemma opt_f b o1 c1 o2 c2 r base w s s' q E : 0 < b <= 8 -> at_ msg s q E ->
  go 0%nat (NextExist false 1 o1 c1 :: Uint false b o2 c2 :: r) base w s = Go s' ->
  q < E /\ exists s1, at_ msg s1 (if there msg q then q + 1 + b else q + 1) E /\
    mem s1 = (if there msg q then upd (upd (mem s) (base + o1) 1) (base + o2) (field msg (q + 1) b) else upd (mem s) (base + o1) 0) /\
    go 0%nat r base w s1 = Go s'.
Proof.
  intros B A H. apply (ne_f _ _ _ _ _ _ _ _ q E A) in H; [|reflexivity]. destruct H as (Q & s1 & A1 & M1 & H). split; [exact Q|]. destruct (there msg q).
  - apply run_go in H; [|reflexivity]. destruct H as (s2 & D & _ & H). destruct (uintf msg OCT _ _ _ _ _ _ _ _ _ B A1 D) as (_ & A2 & M2).
    exists s2. split; [exact A2|]. split; [|exact H]. now rewrite M2, M1.
  - apply skip1' in H. exists s1. auto.
Qed.

(** Eight times an optional field of 4 bits. *)
Fixpoint pairs (k : nat) (o : Z) : list entry :=
  match k with O => [] | S j => NextExist false 1 o 1 :: Uint false 4 (o + 1) 1 :: pairs j (o + 2) end.
Lemma pairs_go r base w E k : forall o q s s', at_ msg s q E -> go 0%nat (pairs k o ++ r) base w s = Go s' ->
  exists s1, at_ msg s1 (slot_pos msg q k) E /\ go 0%nat r base w s1 = Go s' /\
    (forall a, a < base + o -> mem s1 a = mem s a) /\
    forall i, (i < k)%nat -> mem s1 (base + o + 2 * Z.of_nat i) = Z.b2z (there msg (slot_pos msg q i)) /\
      (there msg (slot_pos msg q i) = true -> mem s1 (base + o + 2 * Z.of_nat i + 1) = field msg (slot_pos msg q i + 1) 4).
Proof.
  induction k; intros o q s s' A H; cbn [pairs app] in H.
  - exists s. split; [exact A|]. split; [exact H|]. split; [reflexivity|]. intros i I. lia.
  - apply (opt_f 4 _ _ _ _ _ _ _ _ _ _ _ ltac:(lia) A) in H. destruct H as (Q & s1 & A1 & M1 & H).
    assert (A1' : at_ msg s1 (if there msg q then q + 5 else q + 1) E) by (destruct (there msg q); [now replace (q + 5) with (q + 1 + 4) by lia|exact A1]).
    destruct (IHk _ _ _ _ A1' H) as (s2 & A2 & H2 & K & F). exists s2. split; [exact A2|]. split; [exact H2|]. split.
    + intros a L. rewrite K by lia. rewrite M1. unfold upd. destruct (there msg q);
        repeat match goal with |- context [a =? ?x] => replace (a =? x) with false by (symmetry; apply Z.eqb_neq; lia) end; reflexivity.
    + intros [|i] I.
      * cbn [slot_pos]. rewrite !K by lia. rewrite M1. unfold upd. destruct (there msg q); cbn [Z.b2z].
        -- split; [|intros _].
           ++ replace (_ =? base + (o + 1)) with false by (symmetry; apply Z.eqb_neq; lia). now replace (_ =? base + o) with true by (symmetry; apply Z.eqb_eq; lia).
           ++ now replace (_ =? base + (o + 1)) with true by (symmetry; apply Z.eqb_eq; lia).
        -- split; [now replace (_ =? base + o) with true by (symmetry; apply Z.eqb_eq; lia)|discriminate].
      * cbn [slot_pos]. specialize (F i ltac:(lia)).
        replace (base + o + 2 * Z.of_nat (S i)) with (base + (o + 2) + 2 * Z.of_nat i) by lia. exact F.
Qed.

Lemma crd_go base w s s1 f i r : st s f i r -> go 0%nat T_Channel_Request_Description_t base w s = Go s1 -> exists g, st s1 g (i + 24) (r - 24).
Proof.
  intros S G. unfold T_Channel_Request_Description_t in G.
  uint G S x1 X1 R1. uint G S x2 X2 R2. uint G S x3 X3 R3. uint G S x4 X4 R4. uint G S x5 X5 R5. apply run_nil_go in G. subst s1.
  replace (i + 4 + 2 + 1 + 1 + 16) with (i + 24) in S by lia. replace (r - 4 - 2 - 1 - 1 - 16) with (r - 24) in S by lia. eexists. exact S.
Qed.

(** The eight levels as an array of structures. *)
Lemma reports_go w E (k : nat) : forall o q s s', at_ msg s q E ->
  repeat_table (fun o => table v n (dec v n) T_InterferenceMeasurementReport_t o w) k 8 o s = Go s' ->
  at_ msg s' (slot_pos msg q k) E /\
    (forall a, a < o -> mem s' a = mem s a) /\
    forall i, (i < k)%nat -> mem s' (o + 8 * Z.of_nat i) = Z.b2z (there msg (slot_pos msg q i)) /\
      (forall j, 1 <= j < 4 -> mem s' (o + 8 * Z.of_nat i + j) = mem s (o + 8 * Z.of_nat i + j)) /\
      (there msg (slot_pos msg q i) = true -> mem s' (o + 8 * Z.of_nat i + 4) = field msg (slot_pos msg q i + 1) 4).
Proof.
  induction k; intros o q s s' A H; cbn [repeat_table] in H.
  - apply Go_inj in H. subst s'. split; [exact A|]. split; [reflexivity|]. intros i I. lia.
  - destruct (table v n dc T_InterferenceMeasurementReport_t o w s) as [s1|c s1|s1] eqn:T; try discriminate H. apply table_go in T.
    unfold T_InterferenceMeasurementReport_t in T. apply (opt_f 4 _ _ _ _ _ _ _ _ _ _ _ ltac:(lia) A) in T.
    destruct T as (Q & s2 & A1 & M1 & T). apply run_nil_go in T. subst s2.
    assert (A1' : at_ msg s1 (if there msg q then q + 5 else q + 1) E) by (destruct (there msg q); [now replace (q + 5) with (q + 1 + 4) by lia|exact A1]).
    destruct (IHk _ _ _ _ A1' H) as (A2 & K & F). split; [exact A2|]. 
    assert (M2 : forall a, mem s1 a = if (a =? o + 4) && there msg q then field msg (q + 1) 4 else if a =? o + 0 then Z.b2z (there msg q) else mem s a).
    { intro a. rewrite M1. unfold upd. destruct (there msg q); [|now rewrite andb_false_r]. rewrite andb_true_r. reflexivity. }
    clear M1. split.
    + intros a L. rewrite K by lia. rewrite M2. 
      replace (a =? o + 4) with false by (symmetry; apply Z.eqb_neq; lia). now replace (a =? o + 0) with false by (symmetry; apply Z.eqb_neq; lia).
    + intros [|i] I.
      * cbn [slot_pos]. change (8 * Z.of_nat 0) with 0. split; [|split].
        -- rewrite K by lia. rewrite M2. replace (o + 0 =? o + 4) with false by (symmetry; apply Z.eqb_neq; lia). now rewrite Z.eqb_refl.
        -- intros j J. rewrite K by lia. rewrite M2. 
           replace (o + 0 + j =? o + 4) with false by (symmetry; apply Z.eqb_neq; lia). now replace (o + 0 + j =? o + 0) with false by (symmetry; apply Z.eqb_neq; lia).
        -- intro X. rewrite K by lia. rewrite M2, X. now replace (o + 0 + 4 =? o + 4) with true by (symmetry; apply Z.eqb_eq; lia).
      * cbn [slot_pos]. specialize (F i ltac:(lia)). destruct F as (F1 & F2 & F3).
        replace (o + 8 * Z.of_nat (S i)) with (o + 8 + 8 * Z.of_nat i) by lia. split; [exact F1|]. split; [|exact F3].
        intros j J. rewrite F2 by exact J. rewrite M2.
        replace (_ =? o + 4) with false by (symmetry; apply Z.eqb_neq; lia). now replace (_ =? o + 0) with false by (symmetry; apply Z.eqb_neq; lia).
Qed.

Lemma small_field p len : 0 <= len <= 8 -> field msg p len mod 256 = field msg p len.
Proof.
  intro L. apply Z.mod_small. unfold field. pose proof (Z.mod_pos_bound (number msg / 2 ^ (8 * Z.of_nat (length msg) - p - len)) (2 ^ len) ltac:(lia)) as B.
  assert (2 ^ len <= 2 ^ 8) by (apply Z.pow_le_mono_r; lia). change (2 ^ 8) with 256 in *. lia.
Qed.
Lemma small_bool (b : bool) : Z.b2z b mod 256 = Z.b2z b.
Proof. now destruct b. Qed.

Hypothesis L : (23 <= length msg)%nat.

(** The channel quality report of a PACKET DOWNLINK ACK/NACK. *)
Lemma ack_read s : decode_ul msg = Go s -> message_type msg = DOWNLINK_ACK_NACK ->
  let p := if there msg 91 then 116 else 92 in
  cqr_c_value s = field msg p 6 /\ cqr_rxqual s = field msg (p + 6) 3 /\ cqr_sign_var s = field msg (p + 9) 6 /\
  forall i, (i < 8)%nat -> cqr_exist s i = Z.b2z (there msg (slot_pos msg (p + 15) i)) /\
    (there msg (slot_pos msg (p + 15) i) = true -> cqr_level s i = field msg (slot_pos msg (p + 15) i + 1) 4).
Proof.
  intros D M p. destruct (start_of msg OCT L s 2 _ _ D M eq_refl) as (s0 & S & G). unfold T_Packet_Downlink_Ack_Nack_t in G.
  uint G S x1 X1 R1. uint G S x2 X2 R2. uint G S x3 X3 R3. uint G S x4 X4 R4. uint G S x5 X5 R5.
  apply run_go in G; [|reflexivity]. destruct G as (q6 & D6 & _ & G). apply typ_go in D6. unfold T_Ack_Nack_Description_t in D6.
  uint D6 S x6 X6 R6. uint D6 S x7 X7 R7.
  apply run_go in D6; [|reflexivity]. destruct D6 as (q8 & B & _ & D6). apply run_nil_go in D6. subst q8.
  apply (bitmap64_go _ _ _ _ _ _ _ _ _ _ _ S) in B. destruct B as [_ (_ & B1 & B2)].
  assert (A : at_ msg q6 91 184) by (unfold at_; lia). clear - OCT L A G.
  apply (ne_f _ _ _ _ _ _ _ _ 91 184 A) in G; [|reflexivity]. destruct G as (_ & q7 & A7 & _ & G).
  assert (X : exists q8, at_ msg q8 p 184 /\ go 0%nat [Typ false 22 19 T_Channel_Quality_Report_t; NextExist true 1 44 4; Typ false 48 8 T_PD_AckNack_AdditionsR99_t; Padding] 0 (0, 56) q8 = Go s).
  { subst p. destruct (there msg 91).
    - apply run_go in G; [|reflexivity]. destruct G as (q8 & D8 & _ & G). apply typ_go in D8.
      apply (crd_go _ _ _ _ _ _ _ (at_st _ _ _ _ A7)) in D8. destruct D8 as (g & S1 & S2 & S3). exists q8. split; [unfold at_; lia|exact G].
    - apply skip1' in G. exists q7. split; [exact A7|exact G]. }
  clear G A7 A. destruct X as (q8 & A & G). assert (P : 92 <= p <= 116) by (subst p; destruct (there msg 91); lia). clearbody p.
  apply run_go in G; [|reflexivity]. destruct G as (q9 & D & _ & G). apply typ_go in D.
  change T_Channel_Quality_Report_t with (Uint false 6 0 1 :: Uint false 3 1 1 :: Uint false 6 2 1 :: pairs 8 3 ++ []) in D.
  apply run_go in D; [|reflexivity]. destruct D as (t1 & D1 & _ & D). destruct (uintf msg OCT 6 _ _ _ _ _ _ _ _ ltac:(lia) A D1) as (_ & A1 & M1).
  apply run_go in D; [|reflexivity]. destruct D as (t2 & D2 & _ & D). destruct (uintf msg OCT 3 _ _ _ _ _ _ _ _ ltac:(lia) A1 D2) as (_ & A2 & M2).
  apply run_go in D; [|reflexivity]. destruct D as (t3 & D3 & _ & D). destruct (uintf msg OCT 6 _ _ _ _ _ _ _ _ ltac:(lia) A2 D3) as (_ & A3 & M3).
  apply (pairs_go _ _ _ _ _ _ _ _ _ A3) in D. destruct D as (t4 & A4 & D & K4 & F). apply run_nil_go in D. subst t4.
  keeps G 44 K. unfold cqr_c_value, cqr_rxqual, cqr_sign_var, cqr_exist, cqr_level, u8, get8.
  replace (p + 6 + 3 + 6) with (p + 15) in F by lia. replace (p + 9) with (p + 6 + 3) by lia.
  split; [|split; [|split]].
  1-3: rewrite K, K4 by lia; rewrite M3, ?M2, ?M1; unfold upd; cbn [Z.eqb Z.add Pos.eqb Pos.add Pos.succ]; apply small_field; lia.
  intros i I. destruct (F i I) as [F1 F2]. split.
  - rewrite K by lia. replace (25 + 2 * Z.of_nat i) with (0 + 22 + 3 + 2 * Z.of_nat i) by lia. rewrite F1. apply small_bool.
  - intro T. rewrite K by lia. replace (26 + 2 * Z.of_nat i) with (0 + 22 + 3 + 2 * Z.of_nat i + 1) by lia. rewrite (F2 T). apply small_field; lia.
Qed.
End Read.
