(** Timing advance, for C53 and C58. *)
From Coq Require Import ZArith List Bool.
From Verif Require Import Base.Arith Model.UlController Model.Ta.
Import ListNotations.
Local Open Scope Z_scope.

(** Known and in range, or unknown. *)
Definition ta_legal (ta : Z) : Prop := 0 <= ta <= 63 \/ ta = TA_INVALID.
Definition clamp63 (x : Z) : Z := Z.max 0 (Z.min 63 x).
(** [ms] was polled at frame [fn] with an uplink TBF. *)
Definition polled (t : tree) (tb : tbfs) (fn ms : Z) : Prop :=
  exists b r, In (mk_item fn (OPoll b r)) (inorder t) /\ tb b = Some (true, ms).
(** The adjustment for a burst [qta] quarter symbols late (or early): none within 2 quarters,
    as pcu_l1_if.h:54 has it; outside that whole symbols, and one more. *)
Definition adjustment (qta : Z) : Z :=
  Z.sgn qta * (Z.min 63 (Z.abs qta / 4) + (if Z.abs qta <=? 2 then 0 else 1)).

(** * C58 *)
(** Octet [i] of the PTCCH message. *)
Definition entry (l : list Z) (i : Z) : option Z := nth_error l (Z.to_nat i).
(** Who holds which index: filled when an index is answered, emptied when released. *)
Definition held := list Z.
Definition held_step (o : taiop) (ans : option Z) (h : held) : held :=
  match o, ans with
  | Reserve _, Some i => if i <? 16 then i :: h else h
  | Release i, _ => filter (fun x => negb (x =? i)) h
  | _, _ => h
  end.
Fixpoint tai_run (os : list taiop) (l : list Z) (h : held) : option (list Z * held) :=
  match os with
  | [] => Some (l, h)
  | o :: r => match tai_step o l with
              | Some (l', a) => tai_run r l' (held_step o a h)
              | None => None
              end
  end.
(** Calls that keep the interface: timing advances in range, indices in range. *)
Definition tai_ok (o : taiop) : Prop :=
  match o with
  | Reserve ta => 0 <= ta <= 63
  | Release i => 0 <= i < 16
  | Burst _ rfn _ => 0 <= rfn
  end.
(** The sub-slot a frame belongs to. *)
Definition subslot_of (rfn ss : Z) : Prop := 0 <= ss < 16 /\ rfn mod 416 = 12 + 26 * ss.
(** No burst for an index nobody holds, along a run. *)
Fixpoint no_stray (os : list taiop) (l : list Z) (h : held) : Prop :=
  match os with
  | [] => True
  | o :: r =>
    match o with Burst true rfn _ => forall ss, subslot_of rfn ss -> In ss h | _ => True end /\
    match tai_step o l with Some (l', a) => no_stray r l' (held_step o a h) | None => True end
  end.
