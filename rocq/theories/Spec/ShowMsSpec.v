(** What identifies a mobile. *)
From Coq Require Import ZArith List.
From Verif Require Import Model.MsTlli.
Import ListNotations.
Local Open Scope Z_scope.

(** [x] is a TLLI of the mobile: the one agreed, or a new one that one side has used. *)
Definition has_tlli (c : ctx) (x : Z) : Prop :=
  x <> RES /\ (x = tlli (c_tl c) \/ x = new_ul (c_tl c) \/ x = new_dl (c_tl c)).
