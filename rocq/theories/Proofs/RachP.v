(** Lemmas for C56. *)
From Coq Require Import ZArith List Bool Lia.
From Verif Require Import Base.Arith Model.Rach Spec.RachSpec.
Import ListNotations.
Local Open Scope Z_scope.

Fixpoint all_bits (n : nat) : list (list bool) :=
  match n with O => [[]] | S k => map (cons false) (all_bits k) ++ map (cons true) (all_bits k) end.
Lemma in_all_bits n l : length l = n -> In l (all_bits n).
Proof.
  revert l. induction n as [|n IH]; intros [|b l] L; try discriminate L; [left; reflexivity|].
  cbn [all_bits]. apply in_or_app. injection L as L. specialize (IH l L). destruct b; [right|left]; apply in_map; exact IH.
Qed.
Definition beq (b : burst) : nat := match b with BNone => 0 | BAccess0 => 1 | BAccess1 => 2 | BAccess2 => 3 | BOther _ => 4 end%nat.
Definition aeqb (x y : answer) : bool :=
  match x, y with
  | ImmAssTbf a, ImmAssTbf b => a =? b
  | ImmAssSingle, ImmAssSingle | ImmAssReject, ImmAssReject => true
  | _, _ => false
  end.
Lemma aeqb_eq x y : aeqb x y = true -> x = y.
Proof. destruct x, y; cbn; try discriminate; try reflexivity. intro H. apply Z.eqb_eq in H. congruence. Qed.
Definition good (l : list bool) (is11 : bool) (f s t : bool) (b : burst) : bool :=
  match meaning b l with Some a => aeqb (rcv_rach f s t b is11 (num l)) (answer_to f s t a) | None => true end.
Definition every (n : nat) (is11 : bool) : bool :=
  forallb (fun b => forallb (fun f => forallb (fun s => forallb (fun t => forallb (fun l => good l is11 f s t b) (all_bits n))
    [true; false]) [true; false]) [true; false]) [BNone; BAccess0; BAccess1; BAccess2].
Lemma every_ok n is11 : every n is11 = true -> (n = 8 \/ n = 11)%nat -> forall b f s t l, length l = n -> good l is11 f s t b = true.
Proof.
  intros E N b f s t l L. destruct b as [| | | |x].
  5: reflexivity.
  all: unfold every in E; rewrite forallb_forall in E.
  1: specialize (E BNone ltac:(cbn; tauto)). 2: specialize (E BAccess0 ltac:(cbn; tauto)).
  3: specialize (E BAccess1 ltac:(cbn; tauto)). 4: specialize (E BAccess2 ltac:(cbn; tauto)).
  all: cbv beta in E; rewrite forallb_forall in E; specialize (E f ltac:(destruct f; cbn; tauto));
    cbv beta in E; rewrite forallb_forall in E; specialize (E s ltac:(destruct s; cbn; tauto));
    cbv beta in E; rewrite forallb_forall in E; specialize (E t ltac:(destruct t; cbn; tauto));
    cbv beta in E; rewrite forallb_forall in E; apply E; apply in_all_bits; exact L.
Qed.
Lemma rach8 b l f s t a : length l = 8%nat -> meaning b l = Some a -> rcv_rach f s t b false (num l) = answer_to f s t a.
Proof.
  intros L M. assert (E : every 8 false = true) by (vm_compute; reflexivity).
  pose proof (every_ok 8 false E (or_introl eq_refl) b f s t l L) as G. unfold good in G. rewrite M in G. apply aeqb_eq, G.
Qed.
Lemma rach11 b l f s t a : length l = 11%nat -> meaning b l = Some a -> rcv_rach f s t b true (num l) = answer_to f s t a.
Proof.
  intros L M. assert (E : every 11 true = true) by (vm_compute; reflexivity).
  pose proof (every_ok 11 true E (or_intror eq_refl) b f s t l L) as G. unfold good in G. rewrite M in G. apply aeqb_eq, G.
Qed.
Lemma octets_mod ra : octets ra = octets (ra mod 2048).
Proof.
  unfold octets. change 7 with (Z.ones 3). rewrite !Z.land_ones by lia. rewrite !Z.shiftr_div_pow2 by lia.
  change (2 ^ 3) with 8. f_equal; [f_equal|f_equal; f_equal]; Z.div_mod_to_equations; lia.
Qed.
(** Any value at all: no uninitialised field is used. *)
Lemma total b is11 ra f s t : rcv_rach f s t b is11 ra <> Undefined.
Proof.
  unfold rcv_rach.
  assert (P : parse_rach_ind b is11 ra <> Uninit).
  { unfold parse_rach_ind. destruct b, is11; cbn [negb]; try discriminate.
    all: unfold parse_egprs; rewrite octets_mod;
      pose proof (Z.mod_pos_bound ra 2048 ltac:(lia)) as R; set (x := ra mod 2048) in *; clearbody x;
      assert (E : forallb (fun n => match parse_egprs (Z.of_nat n) with Uninit => false | _ => true end) (seq 0 2048) = true) by (vm_compute; reflexivity);
      rewrite forallb_forall in E; specialize (E (Z.to_nat x) ltac:(apply in_seq; lia)); cbv beta in E; rewrite Z2Nat.id in E by lia;
      intro Q; unfold parse_egprs in E; rewrite Q in E; discriminate E. }
  destruct (parse_rach_ind b is11 ra) as [c| |]; [|discriminate|congruence].
  destruct (r_single c || f); [destruct s; discriminate|destruct t; discriminate].
Qed.
