(** A send window over unbounded block numbers (used by the proofs). *)
From Coq Require Import ZArith List Bool.
Local Open Scope Z_scope.

Inductive status := Unacked | Nacked | Acked | Resend.

(** Blocks [sA .. sS - 1] are outstanding; [sst i] is the status of block [i]. *)
Record swin := mk_swin { sA : Z; sS : Z; sst : Z -> status }.

Definition needs_resend (s : status) : Prop := s = Nacked \/ s = Resend.

Definition oldest_resend (a : swin) (i : Z) : Prop :=
  sA a <= i < sS a /\ needs_resend (sst a i) /\
  forall j, sA a <= j < i -> ~ needs_resend (sst a j).

Definition none_to_resend (a : swin) : Prop :=
  forall j, sA a <= j < sS a -> ~ needs_resend (sst a j).

(** The status of block [i] after a report whose bit [k] is about block [sA + k]. *)
Definition after_report (a : swin) (bits : list bool) (i : Z) : status :=
  match nth_error bits (Z.to_nat (i - sA a)) with
  | Some true => Acked
  | Some false => Nacked
  | None => sst a i
  end.
