(** When a context is found under a TLLI. *)
From Coq Require Import ZArith List.
From Verif Require Import Model.MsTlli.
Import ListNotations.
Open Scope Z_scope.

Definition of_use (u : use) : Z := match u with Ul x | Dl x => x end.

(** No change of the TLLI is under way. *)
Definition agreed (x : Z) (t : tl) : Prop := tlli t = x /\ new_ul t = RES /\ new_dl t = RES.

(** The mobile, the SGSN, both have used [x]. *)
Definition by_mobile (x : Z) (l : list use) : Prop := In (Ul x) l.
Definition by_sgsn (x : Z) (l : list use) : Prop := In (Dl x) l.
Definition by_both (x : Z) (l : list use) : Prop := by_mobile x l /\ by_sgsn x l.

(** The uses of a change from [a] to [b]. *)
Definition change (a b : Z) (l : list use) : Prop :=
  forall u, In u l -> of_use u <> RES /\ (of_use u = a \/ of_use u = b).

(** Looking [x] up in the store gives context number [i]. *)
Definition found (s : store) (x i : Z) : Prop :=
  exists c, get_ms x RES 0 s = Some c /\ c_id c = i.

(** TLLIs that exist: local, foreign, random and auxiliary ones (3GPP TS 23.003, 2.6). *)
Definition real (x : Z) : Prop := 1879048192 <= x < RES.
Definition real_op (o : mop) : Prop :=
  match o with
  | MAnnounce _ x => x = RES \/ real x
  | MDown x _ ie _ => real x /\ (forall t, ie = Some t -> real t)
  | MNamed x => real x
  | MAccess | MFree _ => True
  end.
