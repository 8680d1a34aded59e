(** C65: a mobile that reads a PACKET UPLINK ASSIGNMENT or PACKET DOWNLINK ASSIGNMENT finds there what the PCU has
    assigned to it, and every assignment is told. *)
From Coq Require Import ZArith List Bool.
From Verif.Model Require Import CodingScheme Assign.
From Verif.Spec Require Import AssignSpec AssignTold.
From Verif.Proofs Require Import AssignEx.
Import ListNotations.
Open Scope Z_scope.

(** A GPRS uplink assignment that is sent tells everything. *)
Theorem C65_uplink_gprs : forall junk d tlli t p alpha gamma rrbp b c,
  tbf_ok t p -> cell_ok d alpha gamma rrbp -> 0 <= tlli < 2 ^ 32 -> d_egprs d = false -> code_of (t_cs t) = Some c ->
  create_packet_ul_assign junk d tlli t alpha gamma rrbp = Sent b ->
  length b = 184%nat /\ reads r_uplink b = Some (uplink_told d tlli t p alpha gamma rrbp c).
Proof. exact up_gprs. Qed.
Print Assumptions C65_uplink_gprs.

(** Full statement for EGPRS: the mobile reads [Egprs n true (t_window t)].  Proved: all of it except the window,
    which is always read as 64. *)
Theorem C65_uplink_egprs_partial : forall junk d tlli t p alpha gamma rrbp b n,
  tbf_ok t p -> cell_ok d alpha gamma rrbp -> 0 <= tlli < 2 ^ 32 -> d_egprs d = true ->
  egprs_code_of (t_cs t) = Some n -> window_ok (t_window t) ->
  create_packet_ul_assign junk d tlli t alpha gamma rrbp = Sent b ->
  length b = 184%nat /\ reads r_uplink b = Some (uplink_told d tlli t p alpha gamma rrbp (Egprs n true 64)).
Proof. exact up_egprs. Qed.
Print Assumptions C65_uplink_egprs_partial.

(** The window is not told: encoding.cpp:647 stores the number of blocks where the code belongs. *)
Theorem C65_uplink_window_refuted : exists junk d tlli t p alpha gamma rrbp b n,
  tbf_ok t p /\ cell_ok d alpha gamma rrbp /\ d_egprs d = true /\ egprs_code_of (t_cs t) = Some n /\ window_ok (t_window t) /\
  create_packet_ul_assign junk d tlli t alpha gamma rrbp = Sent b /\
  reads r_uplink b <> Some (uplink_told d tlli t p alpha gamma rrbp (Egprs n true (t_window t))).
Proof.
  exists (fun _ => 0), (x_sender true false), 3456789012, (x_tbf MCS6 192 4 x_slot), x_slot, 10, 3, 2.
  eexists. exists 5.
  split; [apply x_tbf_ok; [exact x_slot_ok|split; repeat constructor]|].
  split; [apply x_cell_ok|]. split; [reflexivity|]. split; [reflexivity|]. split; [exact x_window|].
  split; [vm_compute; reflexivity|]. vm_compute. intros H. discriminate H.
Qed.
Print Assumptions C65_uplink_window_refuted.

(** Full statement: every uplink assignment is sent.  Proved: without frequency hopping, with at most seven timeslots. *)
Theorem C65_uplink_sent_partial : forall junk d tlli t p alpha gamma rrbp,
  tbf_ok t p -> cell_ok d alpha gamma rrbp -> 0 <= tlli < 2 ^ 32 ->
  (if d_egprs d then egprs_code_of (t_cs t) <> None /\ window_ok (t_window t) else code_of (t_cs t) <> None) ->
  s_hop p = None -> slot_count (t_slots t) <= 7 ->
  exists b, create_packet_ul_assign junk d tlli t alpha gamma rrbp = Sent b.
Proof. exact up_sent. Qed.
Print Assumptions C65_uplink_sent_partial.

(** With eight timeslots, TLLI, timing advance and power control an EGPRS assignment is one bit too long. *)
Theorem C65_uplink_sent_refuted : exists d tlli t p alpha gamma rrbp,
  tbf_ok t p /\ cell_ok d alpha gamma rrbp /\ 0 <= tlli < 2 ^ 32 /\ s_hop p = None /\
  egprs_code_of (t_cs t) <> None /\ window_ok (t_window t) /\
  create_packet_ul_assign (fun _ => 0) d tlli t alpha gamma rrbp = NotSent.
Proof.
  exists (x_sender true false), 3456789012, (x_tbf MCS6 192 8 x_slot), x_slot, 10, 3, 2.
  split; [apply x_tbf_ok; [exact x_slot_ok|split; repeat constructor]|].
  split; [apply x_cell_ok|]. split; [split; [discriminate|reflexivity]|]. split; [reflexivity|].
  split; [discriminate|]. split; [exact x_window|]. vm_compute. reflexivity.
Qed.
Print Assumptions C65_uplink_sent_refuted.

(** With a mobile allocation of 24 bits four timeslots are too many. *)
Theorem C65_hopping_sent_refuted : exists d tlli t p alpha gamma rrbp,
  tbf_ok t p /\ cell_ok d alpha gamma rrbp /\ 0 <= tlli < 2 ^ 32 /\ slot_count (t_slots t) = 4 /\
  egprs_code_of (t_cs t) <> None /\ window_ok (t_window t) /\
  create_packet_ul_assign (fun _ => 0) d tlli t alpha gamma rrbp = NotSent.
Proof.
  exists (x_sender true false), 3456789012, (x_tbf MCS6 192 4 (x_hop 24 [129; 2; 67])), (x_hop 24 [129; 2; 67]), 10, 3, 2.
  split; [apply x_tbf_ok; [exact x_hop_ok|split; repeat constructor]|].
  split; [apply x_cell_ok|]. split; [split; [discriminate|reflexivity]|]. split; [reflexivity|].
  split; [discriminate|]. split; [exact x_window|]. vm_compute. reflexivity.
Qed.
Print Assumptions C65_hopping_sent_refuted.

(** A GPRS downlink assignment that is sent tells everything. *)
Theorem C65_downlink_gprs : forall junk d t p alpha gamma rrbp b,
  tbf_ok t p -> cell_ok d alpha gamma rrbp -> d_egprs d = false ->
  create_packet_dl_assign junk d t alpha gamma rrbp = Sent b ->
  length b = 184%nat /\ reads r_downlink b = Some (downlink_told d t p alpha gamma rrbp None).
Proof. exact down_gprs. Qed.
Print Assumptions C65_downlink_gprs.

(** Full statement for EGPRS: the window is always told.  Proved: it is, or the carrier hops and the mobile is told the
    same assignment without the EGPRS parameters. *)
Theorem C65_downlink_egprs_partial : forall junk d t p alpha gamma rrbp b,
  tbf_ok t p -> cell_ok d alpha gamma rrbp -> d_egprs d = true -> window_ok (t_window t) ->
  create_packet_dl_assign junk d t alpha gamma rrbp = Sent b ->
  length b = 184%nat /\
  (reads r_downlink b = Some (downlink_told d t p alpha gamma rrbp (Some (t_window t))) \/
   (s_hop p <> None /\ reads r_downlink b = Some (downlink_told d t p alpha gamma rrbp None))).
Proof. exact down_egprs. Qed.
Print Assumptions C65_downlink_egprs_partial.

(** An EGPRS TBF on eight hopping timeslots with a mobile allocation of 24 bits is told to the mobile as a GPRS TBF:
    the message is full before the additions of release 99, and the encoder then leaves them out. *)
Theorem C65_downlink_egprs_refuted : exists junk d t p alpha gamma rrbp b,
  tbf_ok t p /\ cell_ok d alpha gamma rrbp /\ d_egprs d = true /\ window_ok (t_window t) /\
  create_packet_dl_assign junk d t alpha gamma rrbp = Sent b /\
  reads r_downlink b = Some (downlink_told d t p alpha gamma rrbp None).
Proof.
  exists (fun _ => 0), (x_sender true false), (x_tbf MCS6 192 8 (x_hop 24 [129; 2; 67])), (x_hop 24 [129; 2; 67]), 10, 3, 2.
  eexists. split; [apply x_tbf_ok; [exact x_hop_ok|split; repeat constructor]|].
  split; [apply x_cell_ok|]. split; [reflexivity|]. split; [exact x_window|]. split; [vm_compute; reflexivity|].
  vm_compute. reflexivity.
Qed.
Print Assumptions C65_downlink_egprs_refuted.

(** Full statement: every downlink assignment is sent to a mobile that can be addressed.  Proved: without frequency
    hopping, for a mobile with a TLLI. *)
Theorem C65_downlink_sent_partial : forall junk d t p alpha gamma rrbp,
  tbf_ok t p -> cell_ok d alpha gamma rrbp -> (d_egprs d = true -> window_ok (t_window t)) ->
  s_hop p = None -> t_tlli t <> RESERVED_TLLI ->
  exists b, create_packet_dl_assign junk d t alpha gamma rrbp = Sent b.
Proof. exact down_sent. Qed.
Print Assumptions C65_downlink_sent_partial.

(** Without a TLLI the test of tbf_dl_ass_fsm.c:86 is the wrong way round.  A mobile that knows the TFI of its TBF, and
    could be addressed by it, is told nothing. *)
Theorem C65_downlink_known_refuted : exists d t p alpha gamma rrbp,
  tbf_ok t p /\ cell_ok d alpha gamma rrbp /\ d_known d = true /\ s_hop p = None /\
  create_packet_dl_assign (fun _ => 0) d t alpha gamma rrbp = NotSent.
Proof.
  exists (x_sender false true), (mk_tbf 21 9 64 CS2 RESERVED_TLLI [None; None; None; None; Some x_slot; Some x_slot; None; None] [0; 0; 0; 0; 0; 0; 0; 0]), x_slot, 10, 3, 2.
  split. 2: { split; [apply x_cell_ok|]. split; [reflexivity|]. split; [reflexivity|]. vm_compute. reflexivity. }
  unfold tbf_ok. cbn [t_tfi t_ta t_tlli t_slots t_usf length In]. unfold RESERVED_TLLI.
  repeat match goal with |- _ /\ _ => split end; try reflexivity; try discriminate; try exact x_slot_ok; try (intros u U; decompose [or] U; subst; try split; try discriminate; try reflexivity; try contradiction; congruence).
  do 4 right. now left.
Qed.
Print Assumptions C65_downlink_known_refuted.

(** One that does not know it is sent a message addressed to the reserved TLLI 0xffffffff. *)
Theorem C65_downlink_unknown_refuted : exists d t alpha gamma rrbp b w,
  d_known d = false /\ t_tlli t = RESERVED_TLLI /\
  create_packet_dl_assign (fun _ => 0) d t alpha gamma rrbp = Sent b /\ reads r_downlink b = Some w /\ w_to w = ByTlli RESERVED_TLLI.
Proof.
  exists (x_sender false false), (mk_tbf 21 9 64 CS2 RESERVED_TLLI [None; None; None; None; Some x_slot; Some x_slot; None; None] [0; 0; 0; 0; 0; 0; 0; 0]), 10, 3, 2.
  eexists. eexists. split; [reflexivity|]. split; [reflexivity|]. split; [vm_compute; reflexivity|]. split; [vm_compute; reflexivity|]. reflexivity.
Qed.
Print Assumptions C65_downlink_unknown_refuted.

(** Full statement: the training sequence and the carrier of a timeslot are those of the last INFO.ind of the BTS.
    Proved: if that says that the timeslot hops, or it did not hop before. *)
Theorem C65_info_partial : forall arfcn i p q,
  info_ok i -> rx_info_ts arfcn i p = Some q -> i_hopping i = true \/ s_hop p = None ->
  frequency_of q = info_frequency arfcn i.
Proof. exact info_told. Qed.
Print Assumptions C65_info_partial.

(** Hopping that the BTS has switched off goes on being told. *)
Theorem C65_info_refuted : exists arfcn i p q,
  info_ok i /\ i_hopping i = false /\ rx_info_ts arfcn i p = Some q /\ frequency_of q <> info_frequency arfcn i.
Proof.
  exists 871, (mk_info 7 false 0 0 1 [0; 0; 0; 0; 0; 0; 0; 0]), (x_hop 24 [129; 2; 67]). eexists.
  split; [split; [reflexivity|discriminate]|]. split; [reflexivity|]. split; [reflexivity|]. vm_compute. discriminate.
Qed.
Print Assumptions C65_info_refuted.

(** ** Concrete cases *)
Example C65_ex_uplink : tbf_ok (x_tbf CS3 64 2 (x_hop 24 [129; 2; 67])) (x_hop 24 [129; 2; 67]) /\
  exists b, create_packet_ul_assign (fun a => a) (x_sender false false) 3456789012 (x_tbf CS3 64 2 (x_hop 24 [129; 2; 67])) 10 3 2 = Sent b.
Proof. split; [apply x_tbf_ok; [exact x_hop_ok|split; repeat constructor]|]. eexists. vm_compute. reflexivity. Qed.
Example C65_ex_told : reads r_uplink
    (match create_packet_ul_assign (fun a => a) (x_sender false false) RESERVED_TLLI (x_tbf CS3 64 2 x_slot) 0 0 2 with Sent b => b | _ => [] end) =
  Some (mk_uplink (Some 2) (ByTfi true 5) (Gprs 2) true (mk_advance (Some 9) None) (Some (mk_frequency 7 (Arfcn 871)))
          (mk_dynamic 21 None [None; None; None; None; None; None; Some (mk_share 6 None); Some (mk_share 0 None)])).
Proof. vm_compute. reflexivity. Qed.
Example C65_ex_downlink : reads r_downlink
    (match create_packet_dl_assign (fun a => a) (x_sender true true) (x_tbf MCS6 192 1 (x_hop 12 [5; 67])) 10 3 2 with Sent b => b | _ => [] end) =
  Some (mk_downlink (Some 2) (ByTfi true 5) true false [false; false; false; false; false; false; false; true]
          (mk_advance (Some 9) None)
          (Some (mk_frequency 2 (Hopping 3 17 [false; true; false; true; false; true; false; false; false; false; true; true])))
          (Some 21) (Some (10, [None; None; None; None; None; None; None; Some 3])) (Some 192)).
Proof. vm_compute. reflexivity. Qed.
Example C65_ex_info : exists q, rx_info_ts 871 (mk_info 7 true 17 3 12 [0; 0; 0; 0; 0; 0; 5; 67]) x_slot = Some q /\ info_ok (mk_info 7 true 17 3 12 [0; 0; 0; 0; 0; 0; 5; 67]).
Proof. eexists. split; [reflexivity|split; [reflexivity|discriminate]]. Qed.
