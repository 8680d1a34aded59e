(** What is expected of the uplink frames of a timeslot and of the blocks received
    in them, independent of how the program routes them. *)
From Coq Require Import ZArith List Bool.
From Verif Require Import Model.TbfFsm Model.TbfSub Spec.TbfSubSpec Model.Route.
Import ListNotations.
Open Scope Z_scope.

(** A state of the timeslot after some history. *)
Definition reachable (c : tconf) (s : rst) : Prop := exists ops, r_run c r_init ops = Ok s.

(** The frame is reserved for the answer of TBF [id] to a poll with the reason [r];
    for uplink data of TBF [id]. *)
Definition polled (s : rst) (fn id : Z) (r : reason) : Prop := In (fn, NPoll id r) (s_nodes s).
Definition granted (s : rst) (fn id : Z) : Prop := In (fn, NUsf id) (s_nodes s).

(** How many frames are reserved so. *)
Definition reason_eqb (a b : reason) : bool :=
  match a, b with
  | P_UL_ASS, P_UL_ASS | P_DL_ASS, P_DL_ASS | P_UL_ACK, P_UL_ACK | P_DL_ACK, P_DL_ACK => true
  | _, _ => false
  end.
Definition poll_of (id : Z) (r : reason) (p : Z * node) : bool :=
  match snd p with NPoll i q => (i =? id) && reason_eqb q r | _ => false end.
Definition grant_of (id : Z) (p : Z * node) : bool :=
  match snd p with NUsf i => i =? id | _ => false end.
Definition polls_of (s : rst) (id : Z) (r : reason) : nat := length (filter (poll_of id r) (s_nodes s)).
Definition grants_of (s : rst) (id : Z) : nat := length (filter (grant_of id) (s_nodes s)).

(** The machines of the TBF are those of a TBF that was created and then had some
    history of its own: all of C33 and C34 holds of it. *)
Definition born (c : tconf) (t : tbf) : Prop :=
  exists d w now l1 l3 l5 t0 ops outs,
    sub_new c d w now l1 l3 l5 = Some t0 /\ sub_run c t0 ops = Some (t, outs).

(** The message takes the frame of a poll without being the answer: a measurement
    report, or a cell change notification. *)
Definition taken (s : rst) (o : rop) : bool :=
  match o with
  | RBlock fn (MMeas | MCellChange _ _) =>
      match node_at fn s with Some (NPoll _ _) => true | _ => false end
  | _ => false
  end.
Fixpoint none_taken (c : tconf) (s : rst) (ops : list rop) : Prop :=
  match ops with
  | [] => True
  | o :: ops => taken s o = false /\ match r_step c s o with Ok s => none_taken c s ops | _ => True end
  end.

(** No downlink TBF is upgraded to more timeslots. *)
Definition no_upgrade (ops : list rop) : Prop :=
  forall id fn, ~ In (RDo id (SLife (LDl (DTimer UpgradeOk))) fn) ops.

(** The mobiles that a block at this frame is about: the one whose TBF the frame is
    reserved for, and the one that the block names. *)
Definition expected_from (s : rst) (fn m : Z) : Prop :=
  exists n id x, In (fn, n) (s_nodes s) /\ owner n = Some id /\ In x (s_tbfs s) /\ r_id x = id /\ r_ms x = m.
Definition names (s : rst) (msg : msg) (m : Z) : Prop :=
  match msg with
  | MRequest (ByTlli m') => m = m'
  | MRequest (ByDlTfi tfi) => exists x, In x (s_tbfs s) /\ r_dir x = DL /\ r_tfi x = tfi /\ r_ms x = m
  | MRequest (ByUlTfi tfi) | MData tfi => exists x, In x (s_tbfs s) /\ r_dir x = UL /\ r_tfi x = tfi /\ r_ms x = m
  | _ => False
  end.

(** The frame is reserved by a single block allocation; how many frames are. *)
Definition is_sba (p : Z * node) : bool := match snd p with NSba => true | _ => false end.
Definition sba_frames (s : rst) : nat := length (filter is_sba (s_nodes s)).

(** A cell change notification takes the frame of a single block allocation. *)
Definition takes_sba (s : rst) (o : rop) : bool :=
  match o with
  | RBlock fn (MCellChange d tfi) => match by_tfi d tfi s, node_at fn s with Some _, Some NSba => true | _, _ => false end
  | _ => false
  end.
Fixpoint sba_taken (c : tconf) (s : rst) (ops : list rop) : nat :=
  match ops with
  | [] => 0
  | o :: ops => (if takes_sba s o then 1 else 0) + match r_step c s o with Ok s => sba_taken c s ops | _ => 0 end
  end.

(** Anything but: the TBF [id] is freed by hand; its mobile [m] sends a request, or
    is given a further uplink TBF on the PACCH of this one. *)
Definition calm (id m : Z) (o : rop) : Prop :=
  match o with
  | RFree i => i <> id
  | RDo i (SUaSched | SUaRej) _ => i <> id
  | RBlock _ (MRequest (ByTlli k)) => k <> m
  | RBlock _ (MRequest _) => False
  | _ => True
  end.
