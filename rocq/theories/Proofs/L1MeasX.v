(** Concrete histories for C86, and a request with a capability for C84. *)
From Coq Require Import ZArith List Bool Lia.
Import ListNotations.
From Verif Require Import Model.Csn1 Model.Csn1Tables Model.MsClass Model.L1Meas Spec.UlControlSpec Spec.MsClassSpec Spec.MeasSpec Spec.MeasHistSpec
  Proofs.Csn1Ex Proofs.L1MeasR.
Open Scope Z_scope.

(** C 40, RXQUAL 4, SIGN_VAR 22, levels 5 and 9 on the timeslots 1 and 4. *)
Definition ACK : list Z := [64; 8; 161; 63; 255; 255; 255; 255; 255; 255; 255; 234; 34; 202; 153; 11; 43; 43; 43; 43; 43; 43; 43].
(** With a channel request; C 21, RXQUAL 6, SIGN_VAR 3, no levels. *)
Definition ACK2 : list Z := [64; 8; 161; 63; 255; 255; 255; 255; 255; 255; 255; 240; 0; 0; 5; 112; 96; 11; 43; 43; 43; 43; 43].
(** TLLI, capability (GPRS class 10), change mark, C 33, SIGN_VAR 9, level 3 on timeslot 0. *)
Definition REQ : list Z := [64; 21; 192; 222; 18; 52; 137; 82; 170; 168; 0; 0; 0; 52; 50; 102; 1; 43; 43; 43; 43; 43; 43].
(** TFI, no capability, C 30, level 7 on the timeslots 2 to 7. *)
Definition REQ2 : list Z := [64; 22; 135; 0; 0; 0; 30; 23; 189; 239; 123; 171; 43; 43; 43; 43; 43; 43; 43; 43; 43; 43; 43].
(** EGPRS PACKET DOWNLINK ACK/NACK with a channel quality report: C 40. *)
Definition EG : list Z := [64; 32; 169; 64; 34; 200; 0; 191; 43; 43; 43; 43; 43; 43; 43; 43; 43; 43; 43; 43; 43; 43; 43].
Definition REQ_TECHS : list tech := [tech_at REQ 49].

Ltac oct := apply octets_dec; reflexivity.
Lemma req_techs : request_techs REQ REQ_TECHS /\ Forall (long_form REQ) REQ_TECHS.
Proof.
  split.
  - split; [vm_compute; reflexivity|]. change (request_capability REQ + 1) with 49. apply techs_last; vm_compute; reflexivity.
  - apply Forall_cons; [|apply Forall_nil]. split; [vm_compute; discriminate|]. split; [vm_compute; discriminate|]. vm_compute. discriminate.
Qed.
Definition R (x : Z) : radio := mk_radio (- x) 250 3 155.
Definition HIST : list (radio * heard) := [(R 70, HData); (R 71, HControl ACK); (R 72, HControl ACK2); (R 73, HControl REQ); (R 74, HControl EG)].
Definition TOLD : list (option (radio * option quality)) :=
  [Some (R 70, None); Some (R 71, Some (ack_quality ACK)); Some (R 72, Some (ack_quality ACK2)); Some (R 73, Some (request_quality REQ REQ_TECHS)); None].
Lemma hist_told : Forall2 tells HIST TOLD.
Proof.
  apply Forall2_cons; [apply tells_data|].
  apply Forall2_cons; [apply (tells_ack _ _ (end_state ACK)); [oct|reflexivity|apply go_end; vm_compute; reflexivity|vm_compute; reflexivity]|].
  apply Forall2_cons; [apply (tells_ack _ _ (end_state ACK2)); [oct|reflexivity|apply go_end; vm_compute; reflexivity|vm_compute; reflexivity]|].
  apply Forall2_cons; [apply (tells_request _ _ (end_state REQ)); [oct|reflexivity|apply go_end; vm_compute; reflexivity|vm_compute; reflexivity|apply req_techs|apply req_techs]|].
  apply Forall2_cons; [|apply Forall2_nil].
  apply tells_nothing; [oct|reflexivity|vm_compute; discriminate|vm_compute; discriminate|vm_compute; discriminate|vm_compute; discriminate].
Qed.
Lemma hist_ber : Forall (fun x => 0 <= b_ber10k (fst x) <= 10000) HIST.
Proof. repeat (apply Forall_cons; [cbn; lia|]). apply Forall_nil. Qed.
Lemma hist_kept : rssi (kept HIST) = Some (-73) /\ ber (kept HIST) = Some 2 /\ link_qual (kept HIST) = Some 15 /\ ms_c_value (kept HIST) = Some 33 /\
  ms_rx_qual (kept HIST) = Some 9 /\ ms_sign_var (kept HIST) = Some 2 /\ map (ts (kept HIST)) (seq 0 8) = [Some (-6); None; None; None; None; None; None; None].
Proof. vm_compute. repeat split. Qed.

Lemma egprs_lost : exists r msg s, octets msg /\ length msg = 23%nat /\ decode_ul msg = Go s /\ message_type msg = EGPRS_DOWNLINK_ACK_NACK /\
  field msg 20 1 = 1 /\ field msg 21 2 = 0 /\ field msg 23 6 = 40 /\ kept [(r, HControl msg)] = l1_none.
Proof.
  exists (R 60), EG, (end_state EG). split; [oct|]. split; [reflexivity|]. split; [apply go_end; vm_compute; reflexivity|]. repeat (split; [vm_compute; reflexivity|]).
  vm_compute. reflexivity.
Qed.

Lemma req_nonvacuous : octets REQ /\ length REQ = 23%nat /\ decode_ul REQ = Go (end_state REQ) /\ message_type REQ = RESOURCE_REQUEST /\
  request_techs REQ REQ_TECHS /\ Forall (long_form REQ) REQ_TECHS /\ request_classes (end_state REQ) (3, 4) = (10, 4).
Proof.
  split; [oct|]. split; [reflexivity|]. split; [apply go_end; vm_compute; reflexivity|]. split; [vm_compute; reflexivity|]. split; [apply req_techs|]. split; [apply req_techs|]. vm_compute. reflexivity.
Qed.
