(** 3GPP TS 45.002 Annex B.1: what a mobile of a multislot class can do. *)
From Coq Require Import ZArith List Bool.
From Verif Require Import Model.Mslot Model.Alloc Model.Cell Spec.AllocSpec.
Import ListNotations.
Local Open Scope Z_scope.

(** Limits: Rx, Tx, their sum (None: no limit), and for type 1 the turn-around times Tta, Ttb,
    Tra, Trb in timeslots (None for type 2, which receives and sends at the same time).
    Without frequency hopping changes between Rx and Tx take one timeslot; the 31 symbols of
    classes 35-45 come from the timing advance offset. *)
Record ability := mk_ab { ab_rx : Z; ab_tx : Z; ab_sum : option Z; ab_gaps : option (Z * Z * Z * Z) }.
Definition ability_of (cl : Z) : option ability :=
  nth (Z.to_nat cl) [
    None;
    Some (mk_ab 1 1 (Some 2) (Some (3, 2, 4, 2)));
    Some (mk_ab 2 1 (Some 3) (Some (3, 2, 3, 1)));
    Some (mk_ab 2 2 (Some 3) (Some (3, 2, 3, 1)));
    Some (mk_ab 3 1 (Some 4) (Some (3, 1, 3, 1)));
    Some (mk_ab 2 2 (Some 4) (Some (3, 1, 3, 1)));
    Some (mk_ab 3 2 (Some 4) (Some (3, 1, 3, 1)));
    Some (mk_ab 3 3 (Some 4) (Some (3, 1, 3, 1)));
    Some (mk_ab 4 1 (Some 5) (Some (3, 1, 2, 1)));
    Some (mk_ab 3 2 (Some 5) (Some (3, 1, 2, 1)));
    Some (mk_ab 4 2 (Some 5) (Some (3, 1, 2, 1)));
    Some (mk_ab 4 3 (Some 5) (Some (3, 1, 2, 1)));
    Some (mk_ab 4 4 (Some 5) (Some (2, 1, 2, 1)));
    Some (mk_ab 3 3 None None);
    Some (mk_ab 4 4 None None);
    Some (mk_ab 5 5 None None);
    Some (mk_ab 6 6 None None);
    Some (mk_ab 7 7 None None);
    Some (mk_ab 8 8 None None);
    Some (mk_ab 6 2 None (Some (3, 1, 2, 1)));
    Some (mk_ab 6 3 None (Some (3, 1, 2, 1)));
    Some (mk_ab 6 4 None (Some (3, 1, 2, 1)));
    Some (mk_ab 6 4 None (Some (2, 1, 2, 1)));
    Some (mk_ab 6 6 None (Some (2, 1, 2, 1)));
    Some (mk_ab 8 2 None (Some (3, 1, 2, 1)));
    Some (mk_ab 8 3 None (Some (3, 1, 2, 1)));
    Some (mk_ab 8 4 None (Some (3, 1, 2, 1)));
    Some (mk_ab 8 4 None (Some (2, 1, 2, 1)));
    Some (mk_ab 8 6 None (Some (2, 1, 2, 1)));
    Some (mk_ab 8 8 None (Some (2, 1, 2, 1)));
    Some (mk_ab 5 1 (Some 6) (Some (2, 1, 1, 1)));
    Some (mk_ab 5 2 (Some 6) (Some (2, 1, 1, 1)));
    Some (mk_ab 5 3 (Some 6) (Some (2, 1, 1, 1)));
    Some (mk_ab 5 4 (Some 6) (Some (2, 1, 1, 1)));
    Some (mk_ab 5 5 (Some 6) (Some (2, 1, 1, 1)));
    Some (mk_ab 5 1 (Some 6) (Some (2, 1, 1, 1)));
    Some (mk_ab 5 2 (Some 6) (Some (2, 1, 1, 1)));
    Some (mk_ab 5 3 (Some 6) (Some (2, 1, 1, 1)));
    Some (mk_ab 5 4 (Some 6) (Some (2, 1, 1, 1)));
    Some (mk_ab 5 5 (Some 6) (Some (2, 1, 1, 1)));
    Some (mk_ab 6 1 (Some 7) (Some (1, 1, 1, 0)));
    Some (mk_ab 6 2 (Some 7) (Some (1, 1, 1, 0)));
    Some (mk_ab 6 3 (Some 7) (Some (1, 1, 1, 0)));
    Some (mk_ab 6 4 (Some 7) (Some (1, 1, 1, 0)));
    Some (mk_ab 6 5 (Some 7) (Some (1, 1, 1, 0)));
    Some (mk_ab 6 6 (Some 7) (Some (1, 1, 1, 0))) ] None.

(** The number of timeslots in a set. *)
Definition size (mask : Z) : Z := Z.of_nat (length (filter (fun i => Z.testbit mask (Z.of_nat i)) (seq 0 8))).

(** The uplink timeslot [u] is sent three timeslots after the downlink timeslot [u]. So
    [after u d] timeslots lie between sending in [u] and the next receiving in [d] if it is
    not negative, and [7 - 1 - after u d] between receiving in [d] and the next sending in
    [u]. [after] is -1 if both happen at the same time. *)
Definition after (u d : Z) : Z := (d - u - 3) mod 8 - 1.
(** Gaps of at least [rx] timeslots before receiving and [tx] before sending. *)
Definition gaps_ok (ul dl rx tx : Z) : Prop :=
  forall u d, on ul u -> on dl d -> rx <= after u d /\ tx <= 6 - after u d /\ 0 <= after u d.

(** The mobile can serve these timeslots: it measures neighbour cells either before sending
    or before receiving. *)
Definition can_serve (a : ability) (ul dl : Z) : Prop :=
  size ul <= ab_tx a /\ size dl <= ab_rx a /\
  match ab_sum a with Some s => size ul + size dl <= s | None => True end /\
  match ab_gaps a with
  | Some (tta, ttb, tra, trb) => gaps_ok ul dl trb tta \/ gaps_ok ul dl tra ttb
  | None => True
  end.
(** The class that the allocation goes by: the default one if it is not known. *)
Definition known_class (def cl : Z) : Z := if cl =? 0 then def else cl.

Definition shares (ul dl : Z) : Prop := exists ts, on ul ts /\ on dl ts.
(** The timeslots reserved for a mobile are right for its class. *)
Definition serves (def : Z) (v : msv) (ul dl : Z) : Prop :=
  (forall a, ability_of (known_class def (v_class v)) = Some a -> can_serve a ul dl) /\ shares ul dl.

(** The timeslots in use by a mobile's TBFs. *)
Definition in_use (c : cell) (m : Z) (d : dir) : Z :=
  fold_left (fun x t => if (t_ms t =? m) && dir_eqb (t_dir t) d then Z.lor x (t_slots t) else x) (c_tbfs c) 0.
