(** The multislot classes in the decoded structure. *)
From Coq Require Import ZArith List Bool Lia.
Import ListNotations.
From Verif Require Import Model.Csn1 Model.Csn1Tables Model.MsClass Spec.UlControlSpec Spec.MsClassSpec
  Proofs.Csn1Check Proofs.Csn1Ul Proofs.Csn1Fields Proofs.MsClassP.
Open Scope Z_scope.

Definition leaves (lo : Z) (l : list entry) (base : Z) (w : Z * Z) : bool :=
  chk_run lo UL_SIZE false (fun _ => 255) (chk lo UL_SIZE false (fun _ => 255)) None l base w.
Definition ms_tail : list entry := skipn 13 T_Multislot_capability_t.
Definition content_tail : list entry := skipn 9 T_Content_t.

Section Content.
Variable msg : list Z.
Hypothesis OCT : octets msg.
Notation v := (bit_of msg).
Notation n := (8 * Z.of_nat (length msg)).
Notation go := (run v n (dec v n)).
Notation dc := (dec v n).

Lemma upd_at f a x : upd f a x a = x.
Proof. unfold upd. now rewrite Z.eqb_refl. Qed.
Lemma upd_other f a x b : b <> a -> upd f a x b = f b.
Proof. intro N. unfold upd. now rewrite (proj2 (Z.eqb_neq b a) N). Qed.


Lemma pres_present t q : pres msg q (t_to t) = present msg t q.
Proof. reflexivity. Qed.

Ltac look := repeat first [rewrite upd_at | rewrite upd_other by lia].

Lemma multi_go t base w s s' q : leaves (base + 13) ms_tail base w = true -> at_ msg s q (t_to t) -> go 0%nat T_Multislot_capability_t base w s = Go s' ->
  let g := behind msg t 5 q in let x := behind msg t 5 (behind msg t 8 (behind msg t 6 g)) in
  mem s' (base + 2) = Z.b2z (present msg t g) /\ (present msg t g = true -> mem s' (base + 3) = field msg (g + 1) 5) /\
  mem s' (base + 10) = Z.b2z (present msg t x) /\ (present msg t x = true -> mem s' (base + 11) = field msg (x + 1) 5) /\
  (forall a, a < base -> mem s' a = mem s a).
Proof.
  intros C A H g x.
  apply (opt1 msg OCT 5 _ _ _ _ _ _ _ _ _ q (t_to t) ltac:(lia) A) in H. destruct H as (s1 & A1 & M1 & H). rewrite pres_present in *. fold (behind msg t 5 q) in A1. fold g in A1.
  apply (opt2 msg OCT 5 1 _ _ _ _ _ _ _ _ _ _ _ g (t_to t) ltac:(lia) ltac:(lia) A1) in H. destruct H as (s2 & A2 & M2 & H). rewrite pres_present in *. change (5 + 1) with 6 in A2. fold (behind msg t 6 g) in A2.
  apply (opt2 msg OCT 4 4 _ _ _ _ _ _ _ _ _ _ _ _ (t_to t) ltac:(lia) ltac:(lia) A2) in H. destruct H as (s3 & A3 & M3 & H). rewrite pres_present in *. change (4 + 4) with 8 in A3. fold (behind msg t 8 (behind msg t 6 g)) in A3.
  apply (opt1 msg OCT 5 _ _ _ _ _ _ _ _ _ _ (t_to t) ltac:(lia) A3) in H. destruct H as (s4 & A4 & M4 & H). rewrite pres_present in *. fold (behind msg t 5 (behind msg t 8 (behind msg t 6 g))) in A4. fold x in A4.
  apply (opt2 msg OCT 5 1 _ _ _ _ _ _ _ _ _ _ _ x (t_to t) ltac:(lia) ltac:(lia) A4) in H. destruct H as (s5 & A5 & M5 & H). rewrite pres_present in *.
  pose proof (keeps_at v n (base + 13) ms_tail base w s5 s' C H) as K.
  assert (B1 : forall a, a < base \/ base + 1 < a -> mem s1 a = mem s a). { intros a D. rewrite M1. destruct (present msg t q); look; reflexivity. }
  assert (B2 : forall a, a < base + 2 \/ base + 4 < a -> mem s2 a = mem s1 a). { intros a D. rewrite M2. destruct (present msg t g); look; reflexivity. }
  assert (B3 : forall a, a < base + 5 \/ base + 7 < a -> mem s3 a = mem s2 a). { intros a D. rewrite M3. match goal with |- context [if ?c then _ else _] => destruct c end; look; reflexivity. }
  assert (B4 : forall a, a < base + 8 \/ base + 9 < a -> mem s4 a = mem s3 a). { intros a D. rewrite M4. match goal with |- context [if ?c then _ else _] => destruct c end; look; reflexivity. }
  assert (B5 : forall a, a < base + 10 \/ base + 12 < a -> mem s5 a = mem s4 a). { intros a D. rewrite M5. destruct (present msg t x); look; reflexivity. }
  split. { rewrite K, B5, B4, B3, M2 by lia. destruct (present msg t g); look; reflexivity. }
  split. { intro P. rewrite K, B5, B4, B3, M2, P by lia. look. reflexivity. }
  split. { rewrite K, M5 by lia. destruct (present msg t x); look; reflexivity. }
  split. { intro P. rewrite K, M5, P by lia. look. reflexivity. }
  intros a L. rewrite K, B5, B4, B3, B2, B1 by lia. reflexivity.
Qed.

(** The classes of an element whose content is at [base]. *)
Definition shows (s : state) (base : Z) (t : tech) : Prop :=
  mem s (base + 7) = Z.b2z (present msg t (multislot_at msg t)) /\
  (present msg t (multislot_at msg t) = true ->
   mem s (base + 8 + 2) = Z.b2z (present msg t (gprs_at msg t)) /\ (present msg t (gprs_at msg t) = true -> mem s (base + 8 + 3) = field msg (gprs_at msg t + 1) 5) /\
   mem s (base + 8 + 10) = Z.b2z (present msg t (egprs_at msg t)) /\ (present msg t (egprs_at msg t) = true -> mem s (base + 8 + 11) = field msg (egprs_at msg t + 1) 5)).

Lemma content_go t base w s s' : leaves (base + 26) content_tail base w = true ->
  leaves (base + 8 + 13) ms_tail (base + 8) (inter w (base + 8) (base + 8 + 18)) = true ->
  long_form msg t -> at_ msg s (t_from t) (t_to t) -> go 0%nat T_Content_t base w s = Go s' ->
  shows s' base t /\ (forall a, a < base -> mem s' a = mem s a).
Proof.
  intros C1 C2 (_ & L3 & LA) A H.
  apply run_go in H; [|reflexivity]. destruct H as (s1 & D & _ & H). destruct (uintf msg OCT 3 _ _ _ _ _ _ _ _ ltac:(lia) A D) as (_ & A1 & M1). clear D. fold (a5_at t) in A1.
  apply (ne_null msg OCT _ _ _ _ _ _ _ _ _ _ A1) in H; [|rewrite pres_present; intro P; specialize (LA P); left; lia]. rewrite pres_present in H.
  destruct H as (s2 & A2 & M2 & H).
  assert (X : exists s3, at_ msg s3 (behind msg t 7 (a5_at t)) (t_to t) /\ (forall a, a < base -> mem s3 a = mem s2 a) /\
    go 0%nat (skipn 3 T_Content_t) base w s3 = Go s').
  { unfold behind. destruct (present msg t (a5_at t)) eqn:P.
    - apply run_go in H; [|reflexivity]. destruct H as (s3 & D & _ & H). specialize (LA eq_refl).
      destruct (null7 msg _ _ _ _ _ _ _ _ A2 ltac:(lia) D) as (A3 & y & M3). exists s3. split; [exact A3|]. split; [|exact H].
      intros a La. rewrite M3. look. reflexivity.
    - apply skip1 in H. exists s2. auto. }
  destruct X as (s3 & A3 & B3 & X). clear H. change (skipn 3 T_Content_t) with (Uint true 1 3 1 :: Uint true 1 4 1 :: Uint true 1 5 1 :: Uint true 1 6 1 :: skipn 7 T_Content_t) in X.
  apply run_go in X; [|reflexivity]. destruct X as (s4 & D & _ & X). destruct (null1 msg _ _ _ _ _ _ _ _ A3 D) as (A4 & y4 & M4). clear D.
  apply run_go in X; [|reflexivity]. destruct X as (s5 & D & _ & X). destruct (null1 msg _ _ _ _ _ _ _ _ A4 D) as (A5 & y5 & M5). clear D.
  apply run_go in X; [|reflexivity]. destruct X as (s6 & D & _ & X). destruct (null1 msg _ _ _ _ _ _ _ _ A5 D) as (A6 & y6 & M6). clear D.
  apply run_go in X; [|reflexivity]. destruct X as (s7 & D & _ & X). destruct (null1 msg _ _ _ _ _ _ _ _ A6 D) as (A7 & y7 & M7). clear D.
  replace (behind msg t 7 (a5_at t) + 1 + 1 + 1 + 1) with (multislot_at msg t) in A7 by (unfold multislot_at; lia).
  change (skipn 7 T_Content_t) with (NextExist true 1 7 1 :: Typ false 8 18 T_Multislot_capability_t :: content_tail) in X.
  apply (ne_null msg OCT _ _ _ _ _ _ _ _ _ _ A7) in X; [|intro; now right]. rewrite pres_present in X. destruct X as (s8 & A8 & M8 & X).
  assert (B : forall a, a < base -> mem s8 a = mem s a).
  { intros a La. rewrite M8. look. rewrite M7. look. rewrite M6. look. rewrite M5. look. rewrite M4. look. rewrite B3 by exact La. rewrite M2. look. rewrite M1. look. reflexivity. }
  unfold shows. destruct (present msg t (multislot_at msg t)) eqn:P.
  - apply run_go in X; [|reflexivity]. destruct X as (s9 & D & _ & X). apply typ_go in D.
    pose proof (multi_go t _ _ _ _ _ C2 A8 D) as G. cbv zeta in G. fold (gprs_at msg t) in G. fold (egprs_at msg t) in G. destruct G as (G1 & G2 & G3 & G4 & G5).
    pose proof (keeps_at v n (base + 26) content_tail base w s9 s' C1 X) as K.
    split; [split|].
    + rewrite K, G5, M8 by lia. apply upd_at.
    + intros _. rewrite !K by lia. auto.
    + intros a La. rewrite K, G5 by lia. now apply B.
  - apply skip1 in X. pose proof (keeps_at v n (base + 26) content_tail base w s8 s' C1 X) as K. split; [split|].
    + rewrite K, M8 by lia. apply upd_at.
    + discriminate.
    + intros a La. rewrite K by lia. now apply B.
Qed.
End Content.
