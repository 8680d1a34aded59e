(** What is expected of a cache with a keep time, in terms of the history of its use. *)
From Coq Require Import ZArith List Bool.
From Verif Require Import Model.NeighCache.
Import ListNotations.
Open Scope Z_scope.

Section S.
Context {K V : Type}.
(** A possible event: time does not run backwards, the keep time is an unsigned number. *)
Definition sane (o : cop K V) : Prop :=
  match o with Wait d => 0 <= d | SetKeep s => 0 <= s | _ => True end.
(** [k] is not stored in this part of the history. *)
Definition not_stored (k : K) (ops : list (cop K V)) : Prop := forall v, ~ In (Add k v) ops.
(** The time that passes in it. *)
Fixpoint elapsed (ops : list (cop K V)) : Z :=
  match ops with [] => 0 | Wait d :: ops => d + elapsed ops | _ :: ops => elapsed ops end.
(** The keep time in force after it, in seconds; no keep time below [n] is configured in it. *)
Fixpoint keep_after (s : Z) (ops : list (cop K V)) : Z :=
  match ops with [] => s | SetKeep s' :: ops => keep_after s' ops | _ :: ops => keep_after s ops end.
Definition keep_at_least (n : Z) (ops : list (cop K V)) : Prop := forall s, In (SetKeep s) ops -> n <= s.
End S.
