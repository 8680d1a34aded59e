(** What "show tbf" and "show ms" should display. *)
From Coq Require Import ZArith List Bool.
From Verif Require Import Model.TbfFsm Spec.AllocSpec.
Import ListNotations.
Local Open Scope Z_scope.

(** A TBF that exists: it came about by some history, was not released, and an assignment was
    sent. *)
Definition ul_exists (f : fsm) : Prop :=
  exists c t ops, ul_run c (fsm_new t) ops = Some f /\ f_dead f = None /\ f_st f <> NEW.
Definition dl_exists (f : fsm) : Prop :=
  exists c t ops, dl_run c (fsm_new t) ops = Some f /\ f_dead f = None /\ f_st f <> NEW.
(** Not yet acknowledged as a whole, and not given up. *)
Definition in_use (f : fsm) : Prop := f_st f = ASSIGN \/ f_st f = FLOW \/ f_st f = FINISHED.

(** The lowest timeslot of a set. *)
Definition lowest (mask ts : Z) : Prop := on mask ts /\ forall k, on mask k -> ts <= k.

(** The assignment of a TBF, on the CCCH or on the PACCH. *)
Definition is_add (e : tev) : Prop := e = ADD_CCCH \/ e = ADD_PACCH.

(** The mobile has been told its timeslots: the assignment is over, or it is one of a downlink TBF on
    the CCCH, which is not confirmed. *)
Definition established (is_dl : bool) (f : fsm) : Prop :=
  f_st f <> NEW /\ (f_st f = ASSIGN -> is_dl = true /\ f_ccch f = true).
