(** What decoding the access capabilities leaves. *)
From Coq Require Import ZArith List Bool Lia.
Import ListNotations.
From Verif Require Import Model.Csn1 Model.Csn1Tables Model.MsClass Spec.UlControlSpec Spec.MsClassSpec
  Proofs.Csn1Check Proofs.Csn1Ul Proofs.Csn1Fields.
Open Scope Z_scope.

Section Where.
Variable msg : list Z.
Hypothesis OCT : octets msg.
Notation v := (bit_of msg).
Notation n := (8 * Z.of_nat (length msg)).
Notation fl := (fld v n).
Notation go := (run v n (dec v n)).
Notation dc := (dec v n).

Lemma fl_is i k : 0 <= i -> 0 <= k -> i + k <= n -> fl i k = field msg i k.
Proof. intros. unfold fld. now apply rfield_field. Qed.
Lemma fl_flag i : 0 <= i < n -> flag_at msg i = negb (fl i 1 =? 0).
Proof.
  intro I. unfold flag_at. rewrite <- fl_is by lia. pose proof (rfield_range v n 1 i) as R. change (0 <= fl i 1 < 2) in R.
  destruct (Z.eqb_spec (fl i 1) 0), (Z.eqb_spec (fl i 1) 1); try reflexivity; lia.
Qed.

(** At [q] of a part that ends at [E]; what lies behind the end is not read. *)
Definition at_ (s : state) (q E : Z) : Prop := rd s = Z.min q E /\ rem s = E - Z.min q E /\ 0 <= q /\ 0 <= E <= n.
Lemma at_st s q E : at_ s q E -> st s (mem s) (Z.min q E) (E - Z.min q E).
Proof. intros (A & B & _). unfold st. auto. Qed.
Definition upd (f : Z -> Z) (a x : Z) : Z -> Z := fun b => if b =? a then x else f b.
Definition pres (q E : Z) : bool := (q <? E) && flag_at msg q.

Lemma ne_null k off cap r base w s s' q E : at_ s q E -> go 0%nat (NextExist true k off cap :: r) base w s = Go s' ->
  (pres q E = true -> q + 1 < E \/ forallb may_be_null (firstn k r) = false) ->
  exists s1, at_ s1 (q + 1) E /\ mem s1 = upd (mem s) (base + off) (Z.b2z (pres q E)) /\ go (if pres q E then O else k) r base w s1 = Go s'.
Proof.
  intros A H N. pose proof A as (A1 & A2 & A3 & A4). unfold pres in *. destruct (Z.ltb_spec q E) as [L|L]; cbn [andb] in *.
  - apply (ne_go _ _ _ _ _ _ _ _ _ _ _ _ _ _ (at_st _ _ _ A)) in H; [|lia]. destruct H as (x & s1 & X & RX & H). cbv zeta in H.
    rewrite (fl_flag q) in * by lia. replace (Z.min q E) with q in * by lia.
    assert (EE : (if x =? 0 then false else if E - q =? 1 then negb (forallb may_be_null (firstn k r)) else true) = negb (fl q 1 =? 0)).
    { rewrite X. destruct (fl q 1 =? 0); [reflexivity|]. destruct (Z.eqb_spec (E - q) 1); [|reflexivity]. destruct (N eq_refl) as [Q|Q]; [lia|]. now rewrite Q. }
    rewrite EE in H. destruct H as [(S1 & S2 & S3) H]. exists s1. split; [unfold at_; lia|]. split; [|exact H].
    rewrite S1. cbn [stm]. unfold upd. now destruct (negb _).
  - cbn [Csn1.run] in H. unfold dec_next_exist in H. replace (rem s =? 0) with true in H by (symmetry; apply Z.eqb_eq; lia). cbn [andb] in H.
    match type of H with (if rem ?x <? 0 then _ else _) = _ => set (s1 := x) in * end.
    destruct (rem s1 <? 0); [discriminate H|]. exists s1.
    pose proof (put8_st (inter w (base + off) (base + off + cap)) s (base + off) 0 _ _ _ (at_st _ _ _ A)) as (S1 & S2 & S3). fold s1 in S1, S2, S3.
    split; [unfold at_; lia|]. split; [|exact H]. rewrite S1. reflexivity.
Qed.

Lemma null1 off cap base w s s1 q E : at_ s q E -> dc (Uint true 1 off cap) base w s = Go s1 ->
  at_ s1 (q + 1) E /\ exists x, mem s1 = upd (mem s) (base + off) x.
Proof.
  intros A H. pose proof A as (A1 & A2 & A3 & A4). cbn [Csn1.dec] in H. unfold dec_uint in H.
  destruct (Z.leb_spec 1 (rem s)).
  - change (1 <=? 32) with true in H. unfold take in H. cbv iota in H. change (uint_bytes 1) with 1%nat in H.
    assert (S0 : st (skip_bits s 1) (mem s) (q + 1) (E - q)) by (unfold st; cbn; repeat split; lia).
    pose proof (less_st _ 1 _ _ _ (put_st (inter w (base + off) (base + off + cap)) 1 _ (base + off) (rfield v n (Z.to_nat 1) (rd s)) _ _ _ S0)) as (S1 & S2 & S3).
    apply Go_inj in H. rewrite H in S1, S2, S3. split; [unfold at_; lia|]. eexists. rewrite S1. reflexivity.
  - change (1 <=? 32) with true in H. cbv iota in H. change (uint_bytes 1) with 1%nat in H.
    pose proof (put_st (inter w (base + off) (base + off + cap)) 1 _ (base + off) 0 _ _ _ (at_st _ _ _ A)) as (S1 & S2 & S3).
    apply Go_inj in H. rewrite H in S1, S2, S3. split; [unfold at_; lia|]. eexists. rewrite S1. reflexivity.
Qed.

Lemma uintf b off cap base w s s1 q E : 0 < b <= 8 -> at_ s q E -> dc (Uint false b off cap) base w s = Go s1 ->
  q + b <= E /\ at_ s1 (q + b) E /\ mem s1 = upd (mem s) (base + off) (field msg q b).
Proof.
  intros B A H. pose proof A as (A1 & A2 & A3 & A4). apply (uint_go _ _ _ _ _ _ _ _ _ _ _ _ (at_st _ _ _ A)) in H; [|lia].
  destruct H as (x & X & RX & K & (S1 & S2 & S3)). assert (Q : q + b <= E) by lia. replace (Z.min q E) with q in * by lia.
  split; [exact Q|]. split; [unfold at_; lia|]. rewrite S1. unfold uint_bytes. replace (b <=? 8) with true by (symmetry; apply Z.leb_le; lia).
  cbn [stm]. rewrite <- fl_is by lia. rewrite <- X.
  assert (M : x mod 256 = x). { apply Z.mod_small. assert (2 ^ b <= 2 ^ 8) by (apply Z.pow_le_mono_r; lia). change (2 ^ 8) with 256 in *. lia. }
  unfold upd. now rewrite M.
Qed.

(** A nullable field of 7 bits that is there. *)
Lemma null7 off cap base w s s1 q E : at_ s q E -> q + 7 <= E -> dc (Uint true 7 off cap) base w s = Go s1 ->
  at_ s1 (q + 7) E /\ exists x, mem s1 = upd (mem s) (base + off) x.
Proof.
  intros A L H. pose proof A as (A1 & A2 & A3 & A4). cbn [Csn1.dec] in H. unfold dec_uint in H.
  replace (7 <=? rem s) with true in H by (symmetry; apply Z.leb_le; lia).
  change (7 <=? 32) with true in H. unfold take in H. cbv iota in H. change (uint_bytes 7) with 1%nat in H.
  assert (S0 : st (skip_bits s 7) (mem s) (q + 7) (E - q)) by (unfold st; cbn; repeat split; lia).
  pose proof (less_st _ 7 _ _ _ (put_st (inter w (base + off) (base + off + cap)) 1 _ (base + off) (rfield v n (Z.to_nat 7) (rd s)) _ _ _ S0)) as (S1 & S2 & S3).
  apply Go_inj in H. rewrite H in S1, S2, S3. split; [unfold at_; lia|]. eexists. rewrite S1. reflexivity.
Qed.

Lemma skip1 e r base w s s' : go 1%nat (e :: r) base w s = Go s' -> go 0%nat r base w s = Go s'.
Proof. now intro. Qed.
Lemma skip2 e e' r base w s s' : go 2%nat (e :: e' :: r) base w s = Go s' -> go 0%nat r base w s = Go s'.
Proof. now intro. Qed.

(** Optional fields of the multislot capability: one of 5 bits; two. *)
Lemma opt1 b o1 c1 o2 c2 r base w s s' q E : 0 < b <= 8 -> at_ s q E -> go 0%nat (NextExist true 1 o1 c1 :: Uint false b o2 c2 :: r) base w s = Go s' ->
  exists s1, at_ s1 (if pres q E then q + 1 + b else q + 1) E /\
    (mem s1 = if pres q E then upd (upd (mem s) (base + o1) 1) (base + o2) (field msg (q + 1) b) else upd (mem s) (base + o1) 0) /\
    go 0%nat r base w s1 = Go s'.
Proof.
  intros B A H. apply (ne_null _ _ _ _ _ _ _ _ q E A) in H; [|intro; now right]. destruct H as (s1 & A1 & M1 & H). destruct (pres q E).
  - apply run_go in H; [|reflexivity]. destruct H as (s2 & D & _ & H). destruct (uintf _ _ _ _ _ _ _ _ _ B A1 D) as (_ & A2 & M2).
    exists s2. split; [exact A2|]. split; [|exact H]. now rewrite M2, M1.
  - apply skip1 in H. exists s1. auto.
Qed.
Lemma opt2 b b' o1 c1 o2 c2 o3 c3 r base w s s' q E : 0 < b <= 8 -> 0 < b' <= 8 -> at_ s q E ->
  go 0%nat (NextExist true 2 o1 c1 :: Uint false b o2 c2 :: Uint false b' o3 c3 :: r) base w s = Go s' ->
  exists s1, at_ s1 (if pres q E then q + 1 + (b + b') else q + 1) E /\
    (mem s1 = if pres q E then upd (upd (upd (mem s) (base + o1) 1) (base + o2) (field msg (q + 1) b)) (base + o3) (field msg (q + 1 + b) b')
              else upd (mem s) (base + o1) 0) /\
    go 0%nat r base w s1 = Go s'.
Proof.
  intros B B' A H. apply (ne_null _ _ _ _ _ _ _ _ q E A) in H; [|intro; now right]. destruct H as (s1 & A1 & M1 & H). destruct (pres q E).
  - apply run_go in H; [|reflexivity]. destruct H as (s2 & D & _ & H). destruct (uintf _ _ _ _ _ _ _ _ _ B A1 D) as (_ & A2 & M2).
    apply run_go in H; [|reflexivity]. destruct H as (s3 & D3 & _ & H). destruct (uintf _ _ _ _ _ _ _ _ _ B' A2 D3) as (_ & A3 & M3).
    exists s3. split; [now replace (q + 1 + (b + b')) with (q + 1 + b + b') by lia|]. split; [|exact H]. now rewrite M3, M2, M1.
  - apply skip2 in H. exists s1. auto.
Qed.
End Where.
