(** Bit strings in octets, least significant bit first. *)
From Coq Require Import ZArith List Bool.
Import ListNotations.
Local Open Scope Z_scope.

Definition bit (l : list Z) (i : Z) : bool := Z.testbit (nth (Z.to_nat (i / 8)) l 0) (i mod 8).
(** Octets that a field of [n] octets at the bit offset [offs] touches. *)
Definition needs (offs : Z) (n : nat) : Z := (offs + 8 * Z.of_nat n + 7) / 8.
(** Fields, as bit offset and octets, that follow each other from bit [o] on and end within
    [size] octets. *)
Fixpoint fields_ok (size o : Z) (l : list (Z * Z)) : Prop :=
  match l with
  | [] => True
  | (p, n) :: r => o <= p /\ 0 <= n /\ needs p (Z.to_nat n) <= size /\ fields_ok size (p + 8 * n) r
  end.
