(** C63 and C64: decoding of uplink control blocks and of the radio access capability. *)
From Coq Require Import ZArith List Bool.
From Verif Require Import Model.Csn1 Model.Csn1Tables Model.EgprsReport Spec.UlControlSpec Spec.EgprsReportSpec
  Proofs.Csn1Msgs Proofs.Csn1Ex Proofs.EgprsReportQ Proofs.EgprsReportX.
Import ListNotations.
Open Scope Z_scope.

(** C63. Whatever a mobile sends, of whatever length: decoding ends with a message or a negative code, and
    touches no byte outside the structure for the decoded message (1380 bytes). *)
Theorem C63_inside : forall msg, exists s,
  (decode_ul msg = Go s \/ exists c, c < 0 /\ decode_ul msg = Stop c s) /\
  Forall (fun a => 0 <= a_off a /\ a_off a + a_len a <= 1380) (acc s) /\
  (forall a, ~ 0 <= a < 1380 -> mem s a = 0).
Proof. exact inside. Qed.
Print Assumptions C63_inside.

(** Nor any byte outside the member, or the array, it means to fill; full statement: for every message.
    Missing: the three types of [C63_members_refuted]. *)
Theorem C63_members_partial : forall msg s, octets msg -> (2 <= length msg)%nat ->
  ~ In (message_type msg) [MEASUREMENT_REPORT; PAUSE; CELL_CHANGE_NOTIFICATION] ->
  (decode_ul msg = Go s \/ exists c, decode_ul msg = Stop c s) ->
  Forall (fun a => a_lo a <= a_off a /\ a_off a + a_len a <= a_hi a) (acc s).
Proof. exact members. Qed.
Print Assumptions C63_members_partial.

(** A measurement report, a pause or a cell change notification can write behind the end of an array. *)
Theorem C63_members_refuted : forall mt, In mt [MEASUREMENT_REPORT; PAUSE; CELL_CHANGE_NOTIFICATION] ->
  exists msg s, octets msg /\ length msg = 23%nat /\ message_type msg = mt /\ decode_ul msg = Go s /\
    Exists (fun a => a_hi a < a_off a + a_len a) (acc s).
Proof. exact members_refuted. Qed.
Print Assumptions C63_members_refuted.

(** The radio access capability that the SGSN sends, of any length. *)
Theorem C63_racap : forall msg, exists s,
  (decode_racap msg = Go s \/ exists c, c < 0 /\ decode_racap msg = Stop c s) /\
  Forall (fun a => 0 <= a_off a /\ a_off a + a_len a <= 760 /\ a_lo a <= a_off a /\ a_off a + a_len a <= a_hi a) (acc s) /\
  (forall a, ~ 0 <= a < 760 -> mem s a = 0).
Proof. exact racap. Qed.
Print Assumptions C63_racap.

(** C64. A decoded block goes to the procedure for the message its header names.  Full statement: for
    every message type.  Missing: PACKET PAUSE, see [C64_pause_refuted]. *)
Theorem C64_procedure_partial : forall msg h s, octets msg -> (23 <= length msg)%nat -> rcv_control_block msg = Some (h, s) ->
  message_type msg <> PAUSE ->
  (message_type msg = CONTROL_ACKNOWLEDGEMENT <-> h = OnControlAck) /\
  (message_type msg = DOWNLINK_ACK_NACK <-> h = OnDlAckNack) /\
  (message_type msg = EGPRS_DOWNLINK_ACK_NACK <-> h = OnEgprsDlAckNack) /\
  (message_type msg = RESOURCE_REQUEST <-> h = OnResourceRequest) /\
  (message_type msg = MEASUREMENT_REPORT <-> h = OnMeasurementReport) /\
  (message_type msg = UPLINK_DUMMY <-> h = OnDummy) /\
  (message_type msg = CELL_CHANGE_NOTIFICATION <-> h = OnCellChangeNotification).
Proof. exact who. Qed.
Print Assumptions C64_procedure_partial.

(** A PACKET PAUSE is taken for a PACKET CONTROL ACKNOWLEDGEMENT, with a wrong TLLI. *)
Theorem C64_pause_refuted : exists msg s, octets msg /\ length msg = 23%nat /\ message_type msg = PAUSE /\
  rcv_control_block msg = Some (OnControlAck, s) /\ pca_tlli s <> field msg 14 32.
Proof. exact pause_refuted. Qed.
Print Assumptions C64_pause_refuted.

(** The members the procedures look at hold the fields of the message. *)
Theorem C64_control_ack : forall msg, octets msg -> (23 <= length msg)%nat -> forall s, decode_ul msg = Go s ->
  message_type msg = CONTROL_ACKNOWLEDGEMENT ->
  pca_tlli s = field msg 14 32 /\ pca_ctrl_ack s = field msg 46 2.
Proof. exact control_ack. Qed.
Print Assumptions C64_control_ack.

Theorem C64_dl_ack_nack : forall msg, octets msg -> (23 <= length msg)%nat -> forall s, decode_ul msg = Go s ->
  message_type msg = DOWNLINK_ACK_NACK ->
  pda_tfi s = field msg 14 5 /\ pda_final s = field msg 19 1 /\ pda_ssn s = field msg 20 7 /\
  forall k, 0 <= k < 8 -> pda_rbb s k = field msg (27 + 8 * k) 8.
Proof. exact dl_ack_nack. Qed.
Print Assumptions C64_dl_ack_nack.

(** The identity follows an optional access type of 2 bits, [id_at]. *)
Theorem C64_resource_request : forall msg, octets msg -> (23 <= length msg)%nat -> forall s, decode_ul msg = Go s ->
  message_type msg = RESOURCE_REQUEST ->
  let id_at := if field msg 14 1 =? 0 then 15 else 17 in
  prr_id_type s = field msg id_at 1 /\
  (field msg id_at 1 = 1 -> prr_tlli s = field msg (id_at + 1) 32) /\
  (field msg id_at 1 = 0 -> prr_tfi_type s = field msg (id_at + 1) 1 /\ prr_tfi s = field msg (id_at + 2) 5).
Proof. exact resource_request. Qed.
Print Assumptions C64_resource_request.

Theorem C64_measurement_report : forall msg, octets msg -> (23 <= length msg)%nat -> forall s, decode_ul msg = Go s ->
  message_type msg = MEASUREMENT_REPORT -> pmr_tlli s = field msg 14 32.
Proof. exact measurement_report. Qed.
Print Assumptions C64_measurement_report.

Theorem C64_cell_change_notification : forall msg, octets msg -> (23 <= length msg)%nat -> forall s, decode_ul msg = Go s ->
  message_type msg = CELL_CHANGE_NOTIFICATION ->
  ccn_tfi_type s = field msg 14 1 /\ ccn_tfi s = field msg 15 5 /\ ccn_target_type s = field msg 20 1 /\
  (field msg 20 1 = 0 -> ccn_arfcn s = field msg 21 10 /\ ccn_bsic s = field msg 31 6).
Proof. exact cell_change_notification. Qed.
Print Assumptions C64_cell_change_notification.

(** With any of the parts that may come before the acknowledgement description, with or without its length, with
    or without a compressed bitmap ([report_of], whose positions are [desc_from] and [urbb_from]).  The last octet
    of a bitmap has the odd bits in its low end. *)
Theorem C64_egprs_ack_nack : forall msg, octets msg -> (23 <= length msg)%nat -> forall s, decode_ul msg = Go s ->
  message_type msg = EGPRS_DOWNLINK_ACK_NACK ->
  epda_tfi s = field msg 14 5 /\
  forall r, report_of msg = Some r ->
  epda_final s = Z.b2z (r_final r) /\ epda_bow s = Z.b2z (r_bow r) /\ epda_eow s = Z.b2z (r_eow r) /\ epda_ssn s = r_ssn r /\
  epda_exist_crbb s = (match r_crbb r with Some _ => 1 | None => 0 end) /\
  (forall c z, r_crbb r = Some (c, z) -> epda_crbb_colour s = Z.b2z c /\ epda_crbb_length s = Z.of_nat (length z) /\
     forall k, 0 <= k -> 8 * k < Z.of_nat (length z) ->
       epda_crbb s k = field msg (desc_from msg + 23 + 8 * k) (Z.min 8 (Z.of_nat (length z) - 8 * k))) /\
  epda_urbb_length s = Z.of_nat (length (r_urbb r)) /\
  forall k, 0 <= k -> 8 * k < Z.of_nat (length (r_urbb r)) ->
    epda_urbb s k = field msg (urbb_from msg + 8 * k) (Z.min 8 (Z.of_nat (length (r_urbb r)) - 8 * k)).
Proof. exact egprs_ack_nack_full. Qed.
Print Assumptions C64_egprs_ack_nack.

(** Messages of 23 octets that are decoded and handled, one of each kind, with the identity they carry. *)
Example C64_ack : rcv_control_block ACK = Some (OnControlAck, end_state ACK) /\ octets ACK /\ length ACK = 23%nat /\
  message_type ACK = CONTROL_ACKNOWLEDGEMENT /\ field ACK 14 32 = 0xC1234567 /\ field ACK 46 2 = 3.
Proof. split; [apply handled; vm_compute; reflexivity|]. split; [apply octets_dec; reflexivity|]. now vm_compute. Qed.
Example C64_dl_ack : rcv_control_block DLACK = Some (OnDlAckNack, end_state DLACK) /\ octets DLACK /\
  message_type DLACK = DOWNLINK_ACK_NACK /\ field DLACK 14 5 = 13 /\ field DLACK 20 7 = 85 /\ field DLACK 83 8 = 200.
Proof. split; [apply handled; vm_compute; reflexivity|]. split; [apply octets_dec; reflexivity|]. now vm_compute. Qed.
Example C64_request : rcv_control_block REQ = Some (OnResourceRequest, end_state REQ) /\ octets REQ /\
  message_type REQ = RESOURCE_REQUEST /\ field REQ 17 1 = 1 /\ field REQ 18 32 = 0xC1234567.
Proof. split; [apply handled; vm_compute; reflexivity|]. split; [apply octets_dec; reflexivity|]. now vm_compute. Qed.
Example C64_request_tfi : rcv_control_block REQ_TFI = Some (OnResourceRequest, end_state REQ_TFI) /\ octets REQ_TFI /\
  message_type REQ_TFI = RESOURCE_REQUEST /\ field REQ_TFI 15 1 = 0 /\ field REQ_TFI 16 1 = 1 /\ field REQ_TFI 17 5 = 23.
Proof. split; [apply handled; vm_compute; reflexivity|]. split; [apply octets_dec; reflexivity|]. now vm_compute. Qed.
Example C64_report : rcv_control_block MR_NC7 = Some (OnMeasurementReport, end_state MR_NC7) /\ octets MR_NC7 /\
  message_type MR_NC7 = MEASUREMENT_REPORT /\ field MR_NC7 14 32 = 0xC1234567.
Proof. split; [apply handled; vm_compute; reflexivity|]. split; [apply octets_dec; reflexivity|]. now vm_compute. Qed.
Example C64_notification : rcv_control_block CCN_NC7 = Some (OnCellChangeNotification, end_state CCN_NC7) /\ octets CCN_NC7 /\
  message_type CCN_NC7 = CELL_CHANGE_NOTIFICATION /\ field CCN_NC7 20 1 = 0 /\ field CCN_NC7 21 10 = 513 /\ field CCN_NC7 31 6 = 21.
Proof. split; [apply handled; vm_compute; reflexivity|]. split; [apply octets_dec; reflexivity|]. now vm_compute. Qed.
Example C64_egprs : rcv_control_block EGPRS_ACK = Some (OnEgprsDlAckNack, end_state EGPRS_ACK) /\ octets EGPRS_ACK /\
  message_type EGPRS_ACK = EGPRS_DOWNLINK_ACK_NACK /\ desc_from EGPRS_ACK = 25 /\ urbb_from EGPRS_ACK = 40 /\
  option_map r_ssn (report_of EGPRS_ACK) = Some 1027 /\ epda_urbb (end_state EGPRS_ACK) 17 = 33.
Proof. split; [apply handled; vm_compute; reflexivity|]. split; [apply octets_dec; reflexivity|]. now vm_compute. Qed.
(** One with a channel quality report, a PFI, an extension, a length and both bitmaps. *)
Example C64_egprs_full : rcv_control_block FULL = Some (OnEgprsDlAckNack, end_state FULL) /\ octets FULL /\
  message_type FULL = EGPRS_DOWNLINK_ACK_NACK /\ report_of FULL = Some R_FULL /\ desc_from FULL = 80 /\ urbb_from FULL = 111.
Proof. split; [apply handled; vm_compute; reflexivity|]. split; [apply octets_dec; reflexivity|]. now vm_compute. Qed.
(** Noise is refused; a message leaves a log of accesses to speak about. *)
Example C63_noise : exists s, decode_ul (repeat 85 23) = Stop (-1) s.
Proof. exists (end_state (repeat 85 23)). vm_compute. reflexivity. Qed.
Example C63_accesses : length (acc (end_state EGPRS_ACK)) = 37%nat.
Proof. vm_compute. reflexivity. Qed.
