(** What is told of a mobile over its history, and what the measurements kept for it are to be. *)
From Coq Require Import ZArith List Bool.
Import ListNotations.
From Verif Require Import Model.Csn1 Model.Csn1Tables Model.L1Meas Spec.UlControlSpec Spec.MsClassSpec Spec.MeasSpec.
Open Scope Z_scope.

(** What is kept is what was said, in whole units. *)
Definition in_units (unit : Z) (f : Z -> Z) (said got : option Z) : Prop :=
  match said, got with Some c, Some r => nearest unit (f c) r | None, None => True | _, _ => False end.
Definition any_level (q : quality) : bool := existsb (fun i => match q_level q i with Some _ => true | None => false end) (seq 0 8).
(** What a block of the mobile tells: the radio measurement of the BTS and, in the messages that have one, the
    mobile's channel quality.  Of the other messages (and of those not understood) nothing is taken. *)
Inductive tells : radio * heard -> option (radio * option quality) -> Prop :=
| tells_data r : tells (r, HData) (Some (r, None))
| tells_change r msg s : octets msg -> length msg = 23%nat -> decode_ul msg = Go s -> message_type msg = CELL_CHANGE_NOTIFICATION ->
    tells (r, HControl msg) (Some (r, None))
| tells_ack r msg s : octets msg -> length msg = 23%nat -> decode_ul msg = Go s -> message_type msg = DOWNLINK_ACK_NACK ->
    tells (r, HControl msg) (Some (r, Some (ack_quality msg)))
| tells_request r msg s l : octets msg -> length msg = 23%nat -> decode_ul msg = Go s -> message_type msg = RESOURCE_REQUEST ->
    request_techs msg l -> Forall (long_form msg) l -> tells (r, HControl msg) (Some (r, Some (request_quality msg l)))
| tells_nothing r msg : octets msg -> length msg = 23%nat -> message_type msg <> PAUSE -> message_type msg <> CELL_CHANGE_NOTIFICATION ->
    message_type msg <> DOWNLINK_ACK_NACK -> message_type msg <> RESOURCE_REQUEST -> tells (r, HControl msg) None
| tells_lost r msg : (forall s, decode_ul msg <> Go s) -> tells (r, HControl msg) None.

(** The history as the PCU sees it. *)
Definition indication (r : radio) : l1_meas := l1_of_ind (b_rssi r) (b_ber10k r) (b_timing r) (b_quality r).
Definition kept (h : list (radio * heard)) : l1_meas := fold_left (fun ms x => ms_hear ms (indication (fst x)) (snd x)) h l1_none.

(** What was told last. *)
Definition by_bts {B} (f : radio -> B) (o : option (radio * option quality)) : option B := option_map (fun x => f (fst x)) o.
Definition by_ms {B} (f : quality -> option B) (o : option (radio * option quality)) : option B :=
  match o with Some (_, Some q) => f q | _ => None end.
(** A message without any level does not speak of the levels. *)
Definition levels (q : quality) : option (nat -> option Z) := if any_level q then Some (q_level q) else None.

(** Kept: level, bit errors (whole per cent), timing, quality (whole decibel) of the last block; the mobile's C value,
    RXQUAL (per cent), SIGN_VAR (decibel; told in quarters) and interference levels (told in steps of -2 dB) as it last told them. *)
Definition agree (k : l1_meas) (Q : list (option (radio * option quality))) : Prop :=
  rssi k = last_said (by_bts b_rssi) Q /\
  ber k = last_said (by_bts (fun r => b_ber10k r / 100)) Q /\
  bto k = last_said (by_bts b_timing) Q /\
  link_qual k = last_said (by_bts (fun r => Z.quot (b_quality r) 10)) Q /\
  ms_c_value k = last_said (by_ms (fun q => Some (q_c q))) Q /\
  in_units 100 rxqual_value (last_said (by_ms q_rxqual) Q) (ms_rx_qual k) /\
  in_units 4 (fun c => c) (last_said (by_ms q_var) Q) (ms_sign_var k) /\
  forall i, (i < 8)%nat -> ts k i = match last_said (by_ms levels) Q with Some f => option_map (Z.mul (-2)) (f i) | None => None end.

