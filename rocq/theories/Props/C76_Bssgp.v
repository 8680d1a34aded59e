(** C76: the messages of the SGSN are understood, answered and harmless. *)
From Coq Require Import ZArith List Bool Lia.
From Verif Require Import Model.Bssgp Spec.BssgpSpec Proofs.BssgpP Proofs.BssgpQ Proofs.BssgpR.
Import ListNotations.
Local Open Scope Z_scope.

(** Downlink data.  Whatever the elements of the message and their order, what is handed on or
    answered is what 48.018 says, for messages without a second TLLI.  The lengths of two elements are kept in eight
    bits. *)
Theorem C76_data_partial : forall c k tlli qos l, c_bvci c <> 0 -> c_bvci c <> 1 ->
  0 <= tlli < 4294967296 -> length qos = 3%nat -> Forall elem_ok l ->
  (forall v, first IE_LIFETIME l = Some v -> (length v < 256)%nat) -> (forall v, first IE_RAC l = Some v -> (length v < 256)%nat) ->
  first IE_TLLI l = None ->
  rcvmsg c k false (c_bvci c) (c_nsei c) (dl_unitdata tlli qos l) = Done k [down c tlli RESERVED l].
Proof.
  exact (fun c k tlli qos l B0 B1 T Q F LL LR LT =>
           dl_ud c k (c_nsei c) eq_refl B0 B1 tlli qos l RESERVED [] T Q F LL LR (or_introl (conj LT eq_refl))).
Qed.
Print Assumptions C76_data_partial.
Example C76_data_example : Forall elem_ok (els_ex false) /\ first IE_TLLI (els_ex false) = None /\
  rcvmsg cfg_ex up_ex false 1234 7 (dl_unitdata 3221225472 [0; 80; 32] (els_ex false)) =
    Done up_ex [ADown 3221225472 RESERVED (Some 262011234567890) (10, 12) 1000 [65; 3; 1; 2; 3]].
Proof. exact (conj (els_ok false) (conj eq_refl dl_ex)). Qed.

(** Missing for the full property: the old TLLI.  A mobile with the TLLIs C0000000 and C0000001 becomes one with
    the old TLLI 0000C000. *)
Theorem C76_old_tlli_refuted : exists c k tlli old qos l,
  0 <= tlli < 4294967296 /\ length qos = 3%nat /\ Forall elem_ok l /\ first IE_TLLI l = Some (oct4 old) /\
  rcvmsg c k false (c_bvci c) (c_nsei c) (dl_unitdata tlli qos l) <> Done k [down c tlli old l] /\
  rcvmsg c k false (c_bvci c) (c_nsei c) (dl_unitdata tlli qos l) = Done k [down c tlli (old / 65536) l].
Proof. exact old_refuted. Qed.
Print Assumptions C76_old_tlli_refuted.

(** Paging, on either BVC, reaches every cell with what the message says. *)
Theorem C76_page_cs : forall c k bvci l imsi v, c_bvci c <> 0 -> c_bvci c <> 1 -> Forall elem_ok l -> bvci = 0 \/ bvci = c_bvci c ->
  first IE_IMSI l = Some v -> c_mi c v = Some (MImsi imsi) ->
  (forall t, first IE_TMSI l = Some t -> length t = 4%nat) -> (forall t, first IE_TLLI l = Some t -> length t = 4%nat) ->
  (forall t, first IE_CHAN l = Some t -> length t = 1%nat) ->
  rcvmsg c k false bvci (c_nsei c) (message PAGING_CS l) =
    Done k (map (fun b => APageCs b (match first IE_CHAN l with Some t => number t | None => 0 end) imsi
                           (option_map number (first IE_TMSI l))
                           (match first IE_TLLI l with Some t => number t | None => RESERVED end)) (c_bts c)).
Proof. exact (fun c k bvci l imsi v B0 B1 => page_cs c k (c_nsei c) eq_refl B0 B1 bvci l imsi v). Qed.
Print Assumptions C76_page_cs.
Theorem C76_page_ps : forall c k bvci l imsi v, c_bvci c <> 0 -> c_bvci c <> 1 -> Forall elem_ok l -> bvci = 0 \/ bvci = c_bvci c ->
  first IE_IMSI l = Some v -> c_mi c v = Some (MImsi imsi) -> (forall t, first IE_TMSI l = Some t -> length t = 4%nat) ->
  rcvmsg c k false bvci (c_nsei c) (message PAGING_PS l) =
    Done k (map (fun b => APagePs b imsi (match first IE_TMSI l with Some t => MTmsi (number t) | None => MImsi imsi end)) (c_bts c)).
Proof. exact (fun c k bvci l imsi v B0 B1 => page_ps c k (c_nsei c) eq_refl B0 B1 bvci l imsi v). Qed.
Print Assumptions C76_page_ps.
Example C76_page_example : Forall elem_ok page_ex /\
  rcvmsg cfg_ex up_ex false 0 7 (message PAGING_CS page_ex) =
    Done up_ex [APageCs 0 2 262011234567890 (Some 305419896) 3221225473; APageCs 1 2 262011234567890 (Some 305419896) 3221225473] /\
  rcvmsg cfg_ex up_ex false 1234 7 (message PAGING_PS page_ex) =
    Done up_ex [APagePs 0 262011234567890 (MTmsi 305419896); APagePs 1 262011234567890 (MTmsi 305419896)].
Proof. exact (conj page_ok (conj eq_refl eq_refl)). Qed.

(** A reset by the SGSN is taken if it is for the signalling BVC or the cell, and refused otherwise. *)
Theorem C76_reset : forall c k b n l x, Forall elem_ok l -> 0 <= x < 65536 -> first IE_BVCI l = Some (oct2 x) ->
  rcvmsg c k b 0 n (message BVC_RESET l) = Done k [if (x =? 0) || (x =? c_bvci c) then ALib else AStatus UnknownBvci].
Proof. exact reset_msg. Qed.
Print Assumptions C76_reset.
Example C76_reset_example : rcvmsg cfg_ex up_ex false 0 7 (message BVC_RESET [El IE_CAUSE false [8]; El IE_BVCI false (oct2 1235)]) = Done up_ex [AStatus UnknownBvci].
Proof. reflexivity. Qed.

(** A message that ends inside an element is refused, whatever its type, and has no other effect. *)
Theorem C76_cut_off : forall c k b v n ty head l e i, ~ In ty [STATUS; 112; 113; 114; 115; 116] ->
  length head = (if (ty =? UL_UNITDATA) || (ty =? DL_UNITDATA) then 7%nat else 0%nat) ->
  Forall elem_ok l -> elem_ok e -> (0 < i < length (enc_elem e))%nat ->
  rcvmsg c k b v n (ty :: head ++ enc l ++ firstn i (enc_elem e)) = Done k [AStatus InvMandInf].
Proof. exact cut_off. Qed.
Print Assumptions C76_cut_off.
Example C76_cut_off_example : rcvmsg cfg_ex up_ex false 0 7 [PAGING_PS; IE_IMSI; 131; 41; 98] = Done up_ex [AStatus InvMandInf].
Proof. reflexivity. Qed.

(** Data is handed on only if it came in a DL-UNITDATA for the cell, while the cell is not blocked; it is a part of that
    message, unaltered, and not longer than a mobile may be sent. *)
Theorem C76_only_data : forall c k b v n m k' a tlli old imsi cls life llc,
  rcvmsg c k b v n m = Done k' a -> In (ADown tlli old imsi cls life llc) a ->
  hd 0 m = DL_UNITDATA /\ v = c_bvci c /\ n = c_nsei c /\ v <> 0 /\ b = false /\ k' = k /\ a = [ADown tlli old imsi cls life llc] /\
  (length llc <= 1543)%nat /\ exists p q, m = p ++ llc ++ q.
Proof. exact handed. Qed.
Print Assumptions C76_only_data.

(** No message makes the program fail an assertion. *)
Theorem C76_no_abort : forall c k b v n m, rcvmsg c k b v n m <> Halt.
Proof. exact no_halt. Qed.
Print Assumptions C76_no_abort.

(** Nor read octets it has not received, unless the message is shorter than the numbers in it.  For those
    messages the property fails. *)
Theorem C76_memory_partial : forall c k b v n m, Forall oct m -> ~ cut_short m -> rcvmsg c k b v n m <> Fault.
Proof. exact no_fault_msg. Qed.
Print Assumptions C76_memory_partial.
Theorem C76_memory_refuted : map (fun m => rcvmsg cfg_ex up_ex false (if hd 0 m =? DL_UNITDATA then 1234 else 0) 7 m) short_ex = [Fault; Fault; Fault; Fault; Fault].
Proof. exact short_fault. Qed.
Print Assumptions C76_memory_refuted.
(** A TLLI element of two octets is taken for a TLLI of four, two of them those of the element that follows. *)
Theorem C76_tlli_length_refuted : exists l, Forall elem_ok l /\ first IE_TLLI l = Some [192; 0] /\
  rcvmsg cfg_ex up_ex false 0 7 (message PAGING_CS l) =
    Done up_ex [APageCs 0 2 262011234567890 None 3221227905; APageCs 1 2 262011234567890 None 3221227905].
Proof. exact mixed. Qed.
Print Assumptions C76_tlli_length_refuted.
Example C76_memory_example : ~ cut_short (message PAGING_CS page_ex).
Proof. exact page_long. Qed.
