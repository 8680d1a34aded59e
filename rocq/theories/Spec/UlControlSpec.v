(** Uplink RLC/MAC control blocks as 3GPP TS 44.060, 11.2 lays them out. *)
From Coq Require Import ZArith List.
Import ListNotations.
Open Scope Z_scope.

Definition octets (m : list Z) : Prop := Forall (fun x => 0 <= x < 256) m.
(** The block read as one binary number, first octet first. *)
Definition number (m : list Z) : Z := fold_left (fun a x => 256 * a + x) m 0.
(** The field of [len] bits that starts after [pos] bits. *)
Definition field (m : list Z) (pos len : Z) : Z :=
  (number m / 2 ^ (8 * Z.of_nat (length m) - pos - len)) mod 2 ^ len.

(** MAC header: payload type (2 bits), spare (5), R (1).  Then the message type. *)
Definition payload_type (m : list Z) : Z := field m 0 2.
Definition message_type (m : list Z) : Z := field m 8 6.

(** Message types, TS 44.060 table 11.2.0.2. *)
Definition CELL_CHANGE_FAILURE : Z := 0.
Definition CONTROL_ACKNOWLEDGEMENT : Z := 1.
Definition DOWNLINK_ACK_NACK : Z := 2.
Definition UPLINK_DUMMY : Z := 3.
Definition MEASUREMENT_REPORT : Z := 4.
Definition RESOURCE_REQUEST : Z := 5.
Definition EGPRS_DOWNLINK_ACK_NACK : Z := 8.
Definition PAUSE : Z := 9.
Definition CELL_CHANGE_NOTIFICATION : Z := 12.
