(** Arithmetic on sequence numbers: masks, remainders and cyclic intervals. *)
From Coq Require Import ZArith Znumtheory List Lia Bool.
Import ListNotations.
Local Open Scope Z_scope.

(** The sequence number spaces [set_sns] accepts: powers of two, 128..2048. *)
Definition sns_ok (n : Z) : Prop :=
  n = 128 \/ n = 256 \/ n = 512 \/ n = 1024 \/ n = 2048.

Lemma land_mask_mod : forall x n, sns_ok n -> Z.land x (n - 1) = x mod n.
Proof.
  intros x n [H|[H|[H|[H|H]]]]; subst n.
  - change (128 - 1) with (Z.ones 7). rewrite Z.land_ones by lia. reflexivity.
  - change (256 - 1) with (Z.ones 8). rewrite Z.land_ones by lia. reflexivity.
  - change (512 - 1) with (Z.ones 9). rewrite Z.land_ones by lia. reflexivity.
  - change (1024 - 1) with (Z.ones 10). rewrite Z.land_ones by lia. reflexivity.
  - change (2048 - 1) with (Z.ones 11). rewrite Z.land_ones by lia. reflexivity.
Qed.

Lemma land_1023 : forall x, Z.land x 1023 = x mod 1024.
Proof. intro x. change 1023 with (Z.ones 10). rewrite Z.land_ones by lia. reflexivity. Qed.

Lemma sns_pos : forall n, sns_ok n -> 0 < n.
Proof. intros n H; unfold sns_ok in H; lia. Qed.

Lemma sns_le : forall n, sns_ok n -> 128 <= n <= 2048.
Proof. intros n H; unfold sns_ok in H; lia. Qed.

Lemma sns_div_65536 : forall n, sns_ok n -> (n | 65536).
Proof.
  intros n [H|[H|[H|[H|H]]]]; subst n.
  - exists 512; reflexivity.
  - exists 256; reflexivity.
  - exists 128; reflexivity.
  - exists 64; reflexivity.
  - exists 32; reflexivity.
Qed.

Lemma mod16_mod_sns : forall x n, sns_ok n -> (x mod 65536) mod n = x mod n.
Proof.
  intros x n H. symmetry. apply Zmod_div_mod.
  - now apply sns_pos.
  - lia.
  - now apply sns_div_65536.
Qed.

(** Index of a block in the 1024-entry state arrays. *)
Definition slot (n i : Z) : Z := (i mod n) mod 1024.

Lemma slot_min : forall n i, sns_ok n -> slot n i = i mod (Z.min n 1024).
Proof.
  intros n i H. unfold slot.
  assert (Hc : n <= 1024 \/ n = 2048) by (unfold sns_ok in H; lia).
  destruct Hc as [Hc|Hc].
  - rewrite Z.min_l by lia. apply Z.mod_small.
    pose proof (sns_pos n H). pose proof (Z.mod_pos_bound i n). lia.
  - subst n. change (Z.min 2048 1024) with 1024.
    symmetry. apply Zmod_div_mod; try lia. exists 2; reflexivity.
Qed.

Lemma mod_inj_range : forall m i j,
  0 < m -> i mod m = j mod m -> Z.abs (i - j) < m -> i = j.
Proof.
  intros m i j Hm He Hd.
  pose proof (Z.div_mod i m ltac:(lia)) as Hi.
  pose proof (Z.div_mod j m ltac:(lia)) as Hj.
  rewrite He in Hi.
  assert (i - j = m * (i / m - j / m)) by lia.
  assert (i / m - j / m = 0) by nia.
  lia.
Qed.

Lemma slot_inj : forall n i j,
  sns_ok n -> Z.abs (i - j) < Z.min n 1024 -> slot n i = slot n j -> i = j.
Proof.
  intros n i j H Hd He. rewrite !slot_min in He by assumption.
  apply mod_inj_range with (m := Z.min n 1024); auto.
  pose proof (sns_pos n H); lia.
Qed.

Lemma slot_mod : forall n i, sns_ok n -> slot n (i mod n) = slot n i.
Proof.
  intros n i H. unfold slot. rewrite Zmod_mod. reflexivity.
Qed.

(** Equality of residues of two numbers less than one period apart. *)
Lemma mod_neq_lt : forall n a b, 0 < n -> a < b < a + n -> a mod n <> b mod n.
Proof.
  intros n a b Hn Hr He.
  apply mod_inj_range in He; lia.
Qed.

Lemma mod_sub_dist : forall n a b, 0 < n -> 0 <= b - a < n ->
  (b mod n - a mod n) mod n = b - a.
Proof.
  intros n a b Hn Hr. rewrite <- Zminus_mod. apply Z.mod_small. lia.
Qed.

Lemma mod_add_l : forall n a k, 0 < n -> (a mod n + k) mod n = (a + k) mod n.
Proof. intros. rewrite Zplus_mod_idemp_l. reflexivity. Qed.

Lemma mod_sub_l : forall n a k, 0 < n -> (a mod n - k) mod n = (a - k) mod n.
Proof. intros. rewrite Zminus_mod_idemp_l. reflexivity. Qed.

Lemma mod_add_r : forall n a k, 0 < n -> (k + a mod n) mod n = (k + a) mod n.
Proof. intros. rewrite Zplus_mod_idemp_r. reflexivity. Qed.

Lemma mod_sub_r : forall n a k, 0 < n -> (k - a mod n) mod n = (k - a) mod n.
Proof. intros. rewrite Zminus_mod_idemp_r. reflexivity. Qed.

(** Point update of a total map. *)
Definition upd {A} (f : Z -> A) (k : Z) (v : A) : Z -> A :=
  fun i => if Z.eqb i k then v else f i.

Lemma upd_same : forall A (f : Z -> A) k v, upd f k v k = v.
Proof. intros. unfold upd. rewrite Z.eqb_refl. reflexivity. Qed.

Lemma upd_diff : forall A (f : Z -> A) k v i, i <> k -> upd f k v i = f i.
Proof.
  intros. unfold upd. destruct (Z.eqb_spec i k); congruence.
Qed.

(** Split conjunctions only (never records). *)
Ltac splits := repeat match goal with |- _ /\ _ => split end.
