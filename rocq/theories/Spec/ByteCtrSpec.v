(** What the counters of octets should say. *)
From Coq Require Import ZArith List.
Import ListNotations.
Local Open Scope Z_scope.

(** The octets in some frames. *)
Definition octets_in (frames : list (list Z)) : Z := Z.of_nat (length (concat frames)).
