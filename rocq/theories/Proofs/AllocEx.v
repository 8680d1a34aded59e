(** Histories that break the multislot property. *)
From Coq Require Import ZArith List Bool Lia.
From Verif Require Import Base.Arith Model.Mslot Model.Alloc Model.Cell Spec.AllocSpec Spec.MslotSpec Proofs.AllocP.
Import ListNotations.
Local Open Scope Z_scope.

(** Histories for the examples: timeslots switched on, mobiles put on a timeslot. *)
Definition rg (a : Z) (n : nat) : list Z := map (fun i => a + Z.of_nat i) (seq 0 n).
Definition en (l : list Z) : list cop := map (fun ts => Enable 0 ts 7) l.
Definition put_on (d : dir) (ts : Z) (l : list Z) : list cop := flat_map (fun m => [Reject m 0 ts; New AlgA m m d true (-1) false]) l.
Definition seen {A} (o : option cell) (f : cell -> A) : option A := option_map f o.
Definition cell_of (os : list cop) : option cell := crun 12 (rg 0 50) os init_cell.


Lemma seen_ok : forall A os (f : cell -> A) x, seen (cell_of os) f = Some x -> exists c, cell_of os = Some c /\ f c = x.
Proof. intros A os f x H. unfold seen in H. destruct (cell_of os) as [c|]; [ | discriminate ]. exists c. inversion H. auto. Qed.

Definition busy_cell : list cop :=
  en [0; 1; 2; 3] ++ put_on UL 2 (rg 1 7) ++ put_on DL 0 (rg 11 5) ++ put_on DL 3 (rg 21 6) ++ put_on DL 1 (rg 31 9).
Definition busy_history : list cop :=
  busy_cell ++ [SetClass 8 12; New AlgB 8 8 UL true (-1) false; New AlgB 9 8 DL false (-1) false].
Definition class_history : list cop :=
  en [0; 1; 2; 3] ++ [New AlgB 8 8 UL false (-1) false; SetClass 8 1; New AlgB 9 8 DL false (-1) false].
Definition apart_history : list cop :=
  en [2; 3] ++ [SetClass 8 10; New AlgB 8 8 DL true (-1) false] ++ put_on UL 2 (rg 1 7) ++ [New AlgB 9 8 UL false (-1) false].
Definition look (c : cell) := (v_class (c_ms c 8), in_use c 8 UL, in_use c 8 DL).
Lemma busy_seen : seen (cell_of busy_history) look = Some (12, 3, 15).
Proof. vm_compute. reflexivity. Qed.
Lemma class_seen : seen (cell_of class_history) look = Some (1, 4, 15).
Proof. vm_compute. reflexivity. Qed.
Lemma apart_seen : seen (cell_of apart_history) look = Some (10, 8, 4).
Proof. vm_compute. reflexivity. Qed.

Lemma single_refuted : exists os c a, cell_of os = Some c /\
  (forall m cl, In (SetClass m cl) os -> m = 8 /\ cl = 12) /\
  ability_of (known_class 12 (v_class (c_ms c 8))) = Some a /\ ~ can_serve a (in_use c 8 UL) (in_use c 8 DL).
Proof.
  destruct (seen_ok _ _ _ _ busy_seen) as (c & E & F). unfold look in F. injection F as F1 F2 F3.
  exists busy_history, c, (mk_ab 4 4 (Some 5) (Some (2, 1, 2, 1))). rewrite F1, F2, F3.
  split; [ exact E | ]. split.
  - intros m cl I. unfold busy_history in I. apply in_app_or in I. destruct I as [I|I].
    + exfalso. assert (B : forallb (fun o => match o with SetClass _ _ => false | _ => true end) busy_cell = true) by (vm_compute; reflexivity).
      rewrite forallb_forall in B. specialize (B _ I). discriminate.
    + cbn [In] in I. destruct I as [I|[I|[I|[]]]]; inversion I; auto.
  - split; [ reflexivity | ]. intros [_ [_ [S _]]]. vm_compute in S. apply S. reflexivity.
Qed.
Lemma class_refuted : exists c a, cell_of class_history = Some c /\
  ability_of (known_class 12 (v_class (c_ms c 8))) = Some a /\ ~ can_serve a (in_use c 8 UL) (in_use c 8 DL).
Proof.
  destruct (seen_ok _ _ _ _ class_seen) as (c & E & F). unfold look in F. injection F as F1 F2 F3.
  exists c, (mk_ab 1 1 (Some 2) (Some (3, 2, 4, 2))). rewrite F1, F2, F3.
  split; [ exact E | ]. split; [ reflexivity | ]. intros [_ [S _]]. vm_compute in S. apply S. reflexivity.
Qed.
Lemma common_refuted : exists os c, cell_of os = Some c /\
  in_use c 8 UL <> 0 /\ in_use c 8 DL <> 0 /\ ~ shares (in_use c 8 UL) (in_use c 8 DL).
Proof.
  destruct (seen_ok _ _ _ _ apart_seen) as (c & E & F). unfold look in F. injection F as F1 F2 F3.
  exists apart_history, c. rewrite F2, F3. split; [ exact E | ]. splits; [ discriminate | discriminate | ].
  intros [ts [O1 O2]]. apply (on_nonzero (Z.land 8 4) ts); [ | reflexivity ]. apply on_land. auto.
Qed.
