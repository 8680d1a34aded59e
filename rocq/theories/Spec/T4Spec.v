(** The run length code of 3GPP TS 44.060, 9.1.10: a bitmap is a sequence of runs of
    alternating colour, each written as a make-up word for its multiple of 64, if that is not
    zero, and a terminating word for the rest. *)
From Coq Require Import ZArith Ascii String List Bool.
From Verif Require Import Model.T4.
Import ListNotations.
Local Open Scope Z_scope.

(** The 79 code words of a colour: runs 0 to 63, then 64, 128, ... 960. *)
Definition word (start : bool) (idx : nat) : list bool := bits_of_string (nth idx (code_list start) ""%string).
Definition prefix (a b : list bool) : Prop := exists c, b = a ++ c.
Definition makeup (start : bool) (r : nat) : list bool := if (64 <=? r)%nat then word start (63 + r / 64) else [].
Definition run_code (start : bool) (r : nat) : list bool := makeup start r ++ word start (r mod 64).
Fixpoint code_runs (start : bool) (rs : list nat) : list bool :=
  match rs with [] => [] | r :: rs' => run_code start r ++ code_runs (negb start) rs' end.
(** The bitmap. *)
Fixpoint paint (start : bool) (rs : list nat) : list bool :=
  match rs with [] => [] | r :: rs' => repeat start r ++ paint (negb start) rs' end.
Definition runs_ok (rs : list nat) : Prop := Forall (fun r => (r <= 1023)%nat) rs.
Definition proper (rs : list nat) : Prop := Forall (fun r => (1 <= r <= 1023)%nat) rs.
