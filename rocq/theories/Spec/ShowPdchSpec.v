(** Numerals as a user writes them. *)
From Coq Require Import ZArith List Bool.
From Verif Require Import Model.Mslot Model.Alloc Model.Cell Spec.AllocSpec.
Import ListNotations.
Local Open Scope Z_scope.

(** The number of TBFs of a direction that use a timeslot. *)
Definition tbfs_on (c : cell) (n ts : Z) (d : dir) : Z :=
  Z.of_nat (length (filter (fun t => usesb n ts t && dir_eqb (t_dir t) d) (c_tbfs c))).

(** The character [c] (0-9, A-F or a-f) is the digit [d]. *)
Definition hexchar (c d : Z) : Prop :=
  (0 <= d <= 9 /\ c = 48 + d) \/ (10 <= d <= 15 /\ (c = 55 + d \/ c = 87 + d)).
(** Places and their weights. *)
Fixpoint weigh (ds : list Z) : Z :=
  match ds with [] => 0 | d :: r => d * 16 ^ Z.of_nat (length r) + weigh r end.
Definition blank (c : Z) : Prop := c = 32 \/ 9 <= c <= 13.
(** [s] is a numeral of [v] to the base 16: blanks, a sign, "0x" or "0X", and digits, where all but
    the digits can be absent; only zero can have a minus sign. *)
Definition numeral_of (s : list Z) (v : Z) : Prop :=
  exists sp sg pre cs ds, s = sp ++ sg ++ pre ++ cs /\ Forall blank sp /\
    (sg = [] \/ sg = [43] \/ (sg = [45] /\ v = 0)) /\ (pre = [] \/ pre = [48; 120] \/ pre = [48; 88]) /\
    Forall2 hexchar cs ds /\ ds <> [] /\ weigh ds = v.
