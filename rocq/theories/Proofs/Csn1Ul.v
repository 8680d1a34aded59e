(** The uplink control messages: memory safety. *)
From Coq Require Import ZArith List Bool Lia.
Import ListNotations.
From Verif Require Import Model.Csn1 Model.Csn1Tables Proofs.Csn1Check.
Open Scope Z_scope.

Fixpoint bound (l : list (Z * Z)) (a : Z) : Z :=
  match l with [] => 255 | (x, y) :: r => if a =? x then y else bound r a end.

(** Bounds of length fields: 64 bits of extension info, 127 bits of CRBB; the count of reporting quantities is never written. *)
Definition hints (mt : Z) : list (Z * Z) :=
  match mt with 8 => [(192, 64); (220, 127)] | 10 => [(67, 0)] | _ => [] end.

Definition checks (strict : bool) (mt : Z) : bool :=
  match ul_message mt with
  | Some (t, sz) => chk_run 0 UL_SIZE strict (bound (hints mt)) (chk 0 UL_SIZE strict (bound (hints mt))) None t 0 (0, sz)
  | None => true
  end.

(** The messages all of whose accesses stay in their members. *)
Definition clean (mt : Z) : bool := negb (existsb (Z.eqb mt) [4; 9; 12]).

Lemma ul_message_range mt t sz : ul_message mt = Some (t, sz) -> In mt [0;1;2;3;4;5;6;7;8;9;10;11;12;13].
Proof.
  destruct mt as [|p|p]; cbn; [now left| |discriminate].
  do 4 (destruct p as [p|p|]; cbn; try discriminate; try (intros _; tauto)).
Qed.

Lemma checks_all mt t sz : ul_message mt = Some (t, sz) -> checks (clean mt) mt = true.
Proof.
  intro H. apply ul_message_range in H.
  assert (F : forallb (fun mt => checks (clean mt) mt) [0;1;2;3;4;5;6;7;8;9;10;11;12;13] = true) by (vm_compute; reflexivity).
  exact (proj1 (forallb_forall _ _) F _ H).
Qed.

Lemma hints_above mt a : bound (hints mt) a = 255 \/ (a = 192 \/ a = 220 \/ a = 67).
Proof.
  assert (E : forall l, (forall x y, In (x, y) l -> x = 192 \/ x = 220 \/ x = 67) ->
     bound l a = 255 \/ (a = 192 \/ a = 220 \/ a = 67)).
  { induction l as [|[x y] l IH]; intro H; cbn; [now left|]. destruct (a =? x) eqn:E.
    - apply Z.eqb_eq in E. subst. right. apply (H x y). now left.
    - apply IH. intros u z I. apply (H u z). now right. }
  apply E. intros x y. unfold hints.
  destruct mt as [|p|p]; cbn; try tauto.
  do 4 (destruct p as [p|p|]; cbn; try tauto); intuition congruence.
Qed.

Lemma bound_pos mt a : 0 <= bound (hints mt) a.
Proof.
  assert (E : forall l, (forall x y, In (x, y) l -> 0 <= y) -> 0 <= bound l a).
  { induction l as [|[x y] l IH]; intro H; cbn; [lia|]. destruct (a =? x).
    - apply (H x y). now left.
    - apply IH. intros u z I. apply (H u z). now right. }
  apply E. intros x y. unfold hints.
  destruct mt as [|p|p]; cbn; try tauto.
  do 4 (destruct p as [p|p|]; cbn; try tauto); intros [[= <- <-]|H]; try lia; destruct H as [[= <- <-]|[]]; lia.
Qed.

Lemma decode_fine msg :
  fine 0 UL_SIZE (clean (rfield (bit_of msg) (8 * Z.of_nat (length msg)) 6 8)) (fun _ => 255) (fun _ => 0) [] (decode_ul msg).
Proof.
  unfold decode_ul. set (v := bit_of msg). set (n := 8 * Z.of_nat (length msg)).
  set (mt := rfield v n 6 8).
  assert (I0 : forall b, (forall a, 0 <= b a) -> inv 0 UL_SIZE (clean mt) b (fun _ => 0) [] (start 184)).
  { intros b B. split; [intro a; apply B|split; [exists []; split; [reflexivity|constructor]|reflexivity]]. }
  destruct (_ || _); [split; [apply I0; intro; lia|reflexivity]|].
  assert (M : 0 <= mt < 64) by apply (rfield_range v n 6).
  assert (I1 : inv 0 UL_SIZE (clean mt) (bound (hints mt)) (fun _ => 0) [] (put8 (0, 1) (put (1376, 1378) 2 (start 184) 1376 184) 0 mt)).
  { assert (H0 : bound (hints mt) 0 = 255) by (destruct (hints_above mt 0); [assumption|lia]).
    assert (H1 : bound (hints mt) 1376 = 255) by (destruct (hints_above mt 1376); [assumption|lia]).
    assert (H2 : bound (hints mt) 1377 = 255) by (destruct (hints_above mt 1377); [assumption|lia]).
    apply inv_put8 with (y := 255); [| |rewrite Z.mod_small; lia].
    - apply inv_put; [apply I0; apply bound_pos|]. unfold okn, ok. cbn [any]. change (1376 + 1) with 1377. rewrite H1, H2. now destruct (clean mt).
    - unfold okb, ok. rewrite H0. now destruct (clean mt). }
  assert (W : forall r, fine 0 UL_SIZE (clean mt) (bound (hints mt)) (fun _ => 0) [] r -> fine 0 UL_SIZE (clean mt) (fun _ => 255) (fun _ => 0) [] r).
  { intros [s|c s|s]; cbn [fine]; try tauto; [intros (A & B)|intros ((A & B) & C); split; [|exact C]]; (split; [|exact B]); intro a; pose proof (Z.mod_pos_bound (mem s a) 256); lia. }
  destruct (ul_message mt) as [[t sz]|] eqn:E.
  - apply W. apply table_sound; [|exact I1].
    pose proof (checks_all mt t sz E) as C. unfold checks in C. rewrite E in C. exact C.
  - apply W. split; [exact I1|reflexivity].
Qed.

Lemma racap_fine msg : fine 0 RACAP_SIZE true (fun _ => 255) (fun _ => 0) [] (decode_racap msg).
Proof.
  unfold decode_racap. apply table_sound.
  - vm_compute. reflexivity.
  - split; [intro a; cbn; lia|split; [exists []; split; [reflexivity|constructor]|reflexivity]].
Qed.
