(** Radio measurements: what the BTS measures of a block, what a mobile reports (3GPP TS 44.060, 11.2.6, 11.2.16, 12.x; TS 45.008). *)
From Coq Require Import ZArith List Bool.
Import ListNotations.
From Verif Require Import Spec.UlControlSpec Spec.MsClassSpec.
Open Scope Z_scope.

(** What the BTS says of a block: level in dBm, bit errors in 0.01 %, timing in quarter bits, quality in centibel. *)
Record radio := mk_radio { b_rssi : Z; b_ber10k : Z; b_timing : Z; b_quality : Z }.

(** What a mobile says of the downlink, as coded on the air.  The interference levels are by timeslot. *)
Record quality := mk_quality { q_c : Z; q_rxqual : option Z; q_var : option Z; q_level : nat -> option Z }.

Section Message.
Variable m : list Z.
Definition there (p : Z) : bool := negb (field m p 1 =? 0).
Definition optional (p len : Z) : option Z := if there p then Some (field m (p + 1) len) else None.
(** Eight interference levels of 4 bits, each behind a bit that tells whether it is there. *)
Fixpoint slot_pos (p : Z) (i : nat) : Z :=
  match i with O => p | S j => slot_pos (if there p then p + 5 else p + 1) j end.
Definition levels_at (p : Z) (i : nat) : option Z := if (i <? 8)%nat then optional (slot_pos p i) 4 else None.

(** PACKET DOWNLINK ACK/NACK: header (8), type (6), TFI (5), acknowledgement (72); an optional channel request (24);
    then the channel quality report: C (6), RXQUAL (3), SIGN_VAR (6), levels. *)
Definition ack_quality : quality :=
  let p := if there 91 then 116 else 92 in
  mk_quality (field m p 6) (Some (field m (p + 6) 3)) (Some (field m (p + 9) 6)) (levels_at (p + 15)).

(** PACKET RESOURCE REQUEST: header (8), type (6), optional access type (2), identity (TLLI of 32 bits or TFI of 1 + 5),
    optional radio access capability, channel request (24), optional change mark (2), C (6), optional SIGN_VAR (6), levels. *)
Definition request_identity : Z := if there 14 then 17 else 15.
Definition request_capability : Z := request_identity + (if there request_identity then 33 else 7).
(** The technologies of the capability (none: no capability), and where the channel request starts behind them. *)
Definition request_techs (l : list tech) : Prop :=
  match l with [] => there request_capability = false | _ => there request_capability = true /\ techs_at m (request_capability + 1) l end.
Definition request_body (l : list tech) : Z :=
  match l with [] => request_capability + 1 | t :: _ => t_to (last l t) + 1 end.
Definition request_quality (l : list tech) : quality :=
  let mark := request_body l + 24 in
  let c := if there mark then mark + 3 else mark + 1 in
  let var := c + 6 in
  mk_quality (field m c 6) None (optional var 6) (levels_at (if there var then var + 7 else var + 1)).
End Message.

(** RXQUAL: the value assumed for each class, in 0.01 % (TS 45.008, 8.2.4). *)
Definition rxqual_value (code : Z) : Z := nth (Z.to_nat code) [14; 28; 57; 113; 226; 453; 905; 1810] 0.
(** [r] is [x]/[unit] to the nearest whole number. *)
Definition nearest (unit x r : Z) : Prop := 2 * Z.abs (unit * r - x) <= unit.

(** The last of what the members of a history say. *)
Fixpoint last_said {A B} (f : A -> option B) (h : list A) : option B :=
  match h with
  | [] => None
  | x :: r => match last_said f r with Some y => Some y | None => f x end
  end.
