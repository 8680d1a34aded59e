(** Who uses a context. *)
From Coq Require Import ZArith List.
From Verif Require Import Model.MsRef.
Import ListNotations.
Open Scope Z_scope.

(** The TBFs attached, the functions that hold it. *)
Definition tbfs (m : ms) : list Z :=
  (match m_ul m with Some t => [t] | None => [] end) ++
  (match m_dl m with Some t => [t] | None => [] end) ++ m_old m.
Definition users (m : ms) : Z := Z.of_nat (length (tbfs m)) + Z.of_nat (length (m_holds m)).

Definition sane (o : rop) : Prop := match o with RDelay d => 0 <= d | RTime dt => 0 <= dt | _ => True end.

(** What happened to a context after it was created. *)
Definition reached (m : ms) : Prop :=
  exists h now d ops, 0 <= d /\ r_run (ms_alloc h now d) ops = Run m /\
    Forall sane ops.

(** The program's way of calling: a TBF is attached once, uses are given back by who took
    them, a context is reset under a use, and none of its old TBFs has a timer pending. *)
Definition allowed (m : ms) (o : rop) : Prop :=
  match o with
  | RAttach _ t => ~ In t (tbfs m)
  | RUnhold h => In h (m_holds m)
  | RReset pend => m_holds m <> [] /\ (forall t, In t (m_old m) -> ~ In t pend)
  | _ => True
  end.

(** Timers are looked at when no function runs that holds the context. *)
Definition outside (m : ms) (o : rop) : Prop := o = RTimer -> m_holds m = [].
