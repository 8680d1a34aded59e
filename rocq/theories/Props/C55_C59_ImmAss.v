(** C55: the TLLI in an echoed Immediate Assignment. C59: what Immediate Assignments say. *)
From Coq Require Import ZArith List Bool Lia.
From Verif Require Import Model.CodingScheme Model.BtsConf Model.ImmAss Spec.ImmAssSpec Proofs.ImmAssP Proofs.ImmAssQ.
Import ListNotations.
Local Open Scope Z_scope.

(** * C55 *)
(** Whatever the timeslot, hopping list, TBF and other fields: if a downlink assignment is
    sent, the TLLI found in the echo of the sent block is the one written. *)
Theorem C55_echo : forall p tlli tfi e ws q plen vec, pdch_ok p -> q_down q = true -> fits 32 tlli ->
  write_immediate_assignment p (DlTbf tlli tfi e ws) q = IaSent plen vec ->
  tlli_from_imm_ass (l1_block plen vec) = Tlli tlli.
Proof. exact tlli_echo. Qed.
Print Assumptions C55_echo.
Definition ex_pdch : ia_pdch := mk_iap 6 7 871 (Some (5, 63, [0xab; 0xcd])).
Definition ex_block (r : ia_res) : list Z := match r with IaSent n v => l1_block n v | _ => [] end.
Example C55_ex_echo : pdch_ok ex_pdch /\
  tlli_from_imm_ass (ex_block (write_immediate_assignment ex_pdch (DlTbf 0xdeadbeef 13 true 192) (dl_par 1000 220 5 3))) = Tlli 0xdeadbeef.
Proof.
  split; [|vm_compute; reflexivity]. unfold pdch_ok, fits. cbn [ex_pdch ip_ts ip_tsc ip_arfcn ip_fh length].
  repeat split; try lia; try reflexivity; destruct H as [<-|[<-|[]]]; lia || reflexivity.
Qed.
(** The confirmation then looks up that TLLI, by either method; the reserved value alone
    cannot be looked up. *)
Theorem C55_lookup : forall p tlli tfi e ws q plen vec, pdch_ok p -> q_down q = true -> fits 32 tlli ->
  write_immediate_assignment p (DlTbf tlli tfi e ws) q = IaSent plen vec -> tlli <> 0xffffffff ->
  imm_ass_cnf_tlli (Some (l1_block plen vec)) 0xffffffff = Some tlli /\ imm_ass_cnf_tlli None tlli = Some tlli.
Proof.
  exact (fun p tlli tfi e ws q plen vec P D F W N => cnf_lookup (l1_block plen vec) tlli (tlli_echo p tlli tfi e ws q plen vec P D F W) N).
Qed.
Print Assumptions C55_lookup.
Example C55_ex_lookup : imm_ass_cnf_tlli (Some (ex_block (write_immediate_assignment ex_pdch (DlTbf 0x80000001 0 false 64) (dl_par 5 9 0 0)))) 0xffffffff = Some 0x80000001.
Proof. vm_compute. reflexivity. Qed.
(** No uplink assignment is taken for a downlink one. *)
Theorem C55_uplink_refused : forall p t q plen vec, pdch_ok p -> q_down q = false ->
  write_immediate_assignment p t q = IaSent plen vec -> tlli_from_imm_ass (l1_block plen vec) = Refused.
Proof. exact uplink_refused. Qed.
Print Assumptions C55_uplink_refused.
Example C55_ex_refused : tlli_from_imm_ass (ex_block (write_immediate_assignment ex_pdch NoTbf (mk_par false 0x163 7 5 7 false 1000 3 0 (-1) true))) = Refused.
Proof. vm_compute. reflexivity. Qed.
(** A downlink assignment is sent whenever the hopping list has at most two octets. *)
Theorem C55_room : forall p tlli tfi e ws last ta alpha gamma, (length (ma_of p) <= 2)%nat ->
  exists plen vec, write_immediate_assignment p (DlTbf tlli tfi e ws) (dl_par last ta alpha gamma) = IaSent plen vec.
Proof. exact dl_room. Qed.
Print Assumptions C55_room.
Example C55_ex_room : (length (ma_of ex_pdch) <= 2)%nat.
Proof. cbn. lia. Qed.
(** With more than 16 hopping frequencies it may not fit: then nothing is sent and nothing
    will be confirmed. *)
Theorem C55_room_refuted :
  write_immediate_assignment (mk_iap 6 7 871 (Some (5, 63, [1; 2; 3]))) (DlTbf 0xdeadbeef 13 true 192) (dl_par 1000 10 5 3) = IaFail /\
  write_immediate_assignment (mk_iap 6 7 871 (Some (5, 63, [1; 2; 3; 4]))) (DlTbf 0xdeadbeef 13 false 64) (dl_par 1000 10 5 3) = IaFail.
Proof. split; vm_compute; reflexivity. Qed.
Print Assumptions C55_room_refuted.

(** * C59 *)
(** Every uplink assignment sent, for a TBF or a single block, to an 8-bit or an 11-bit
    access, is read by the mobile as what it was made from. *)
Theorem C59_uplink : forall p t q plen vec, pdch_ok p -> par_ok q -> q_down q = false -> ul_ok t q ->
  write_immediate_assignment p t q = IaSent plen vec ->
  plen = 11 + Z.of_nat (length (ma_of p)) /\ mobile_reads (l1_block plen vec) = Some (plen, message_for p q (RUp (uplink_for t q))).
Proof. exact read_uplink. Qed.
Print Assumptions C59_uplink.
Example C59_ex_uplink :
  mobile_reads (ex_block (write_immediate_assignment ex_pdch (UlTbf 0xffffffff 9 false 64 CS3) (mk_par false 0x7d 42431 33 5 false 0 3 17 (-1) false))) =
  Some (13, mk_msg false 6 7 (Hopping 5 63) (mk_request 0x7d (mk_time 31 50 25)) 33 [0xab; 0xcd]
    (RUp (UpTbf (mk_dyn 9 false 5 false None) 2 true (mk_power (Some 3) 17) None None))).
Proof. vm_compute. reflexivity. Qed.
Theorem C59_uplink_room : forall p t q, q_down q = false -> ~ aborts t q -> (length (ma_of p) <= 4)%nat ->
  exists plen vec, write_immediate_assignment p t q = IaSent plen vec.
Proof. exact ul_room. Qed.
Print Assumptions C59_uplink_room.
Example C59_ex_uplink_room : ~ aborts (UlTbf 0xffffffff 9 true 192 MCS3) (mk_par false 0x163 7 5 2 false 0 3 0 (-1) true).
Proof. cbn. intros [H _]. discriminate H. Qed.
(** So is every downlink assignment of a GPRS TBF. *)
Theorem C59_downlink : forall p tlli tfi ws q plen vec, pdch_ok p -> par_ok q -> q_down q = true -> fits 32 tlli -> fits 5 tfi ->
  write_immediate_assignment p (DlTbf tlli tfi false ws) q = IaSent plen vec ->
  plen = 11 + Z.of_nat (length (ma_of p)) /\ mobile_reads (l1_block plen vec) = Some (plen, message_for p q (downlink_for tlli tfi q None)).
Proof. exact read_downlink. Qed.
Print Assumptions C59_downlink.
Example C59_ex_downlink :
  mobile_reads (ex_block (write_immediate_assignment (mk_iap 3 2 1023 None) (DlTbf 0xc0ffee11 30 false 64) (dl_par 2715647 17 0 31))) =
  Some (11, mk_msg true 3 2 (Arfcn 1023) (mk_request 125 (mk_time 15 50 25)) 17 []
    (RDown (mk_dl 0xc0ffee11 30 false (mk_power None 31) false true None None None None))).
Proof. vm_compute. reflexivity. Qed.
(** The request reference of a downlink assignment is never that of an access burst received
    within 97 seconds before or after (half the period of such references). *)
Theorem C59_reference : forall last fn ta alpha gamma, 0 <= last < 2715648 -> 0 <= fn < 2715648 -> near last fn ->
  time_of (q_rfn (dl_par last ta alpha gamma)) <> time_of (fn mod 42432).
Proof. exact reference_distinct. Qed.
Print Assumptions C59_reference.
Example C59_ex_reference : near 5 2715640 /\ near 2715640 5 /\ time_of (q_rfn (dl_par 5 0 0 0)) = mk_time 16 5 5.
Proof. split; [left|split; [right|]]; vm_compute; try split; reflexivity. Qed.
(** Full claim for EGPRS: the same with the window size, measurement mode 0 and no
    BEP_PERIOD2. Proved: all but the last; the mobile is told that there is a BEP_PERIOD2 and
    takes four bits of padding for it. *)
Theorem C59_downlink_egprs_partial : forall p tlli tfi ws q plen vec,
  pdch_ok p -> par_ok q -> q_down q = true -> fits 32 tlli -> fits 5 tfi -> ws_ok ws ->
  (length (ma_of p) <= 1)%nat -> q_poll q = false -> q_tai q < 0 ->
  write_immediate_assignment p (DlTbf tlli tfi true ws) q = IaSent plen vec ->
  exists bep, mobile_reads (l1_block plen vec) = Some (plen, message_for p q (downlink_for tlli tfi q (Some ((ws - 64) / 32, 0, Some bep)))).
Proof. exact read_downlink_egprs. Qed.
Print Assumptions C59_downlink_egprs_partial.
Theorem C59_bep_refuted :
  mobile_reads (ex_block (write_immediate_assignment (mk_iap 3 2 871 None) (DlTbf 0xc0ffee11 30 true 192) (dl_par 1000 17 5 3))) =
  Some (11, mk_msg true 3 2 (Arfcn 871) (mk_request 125 (mk_time 16 31 12)) 17 []
    (RDown (mk_dl 0xc0ffee11 30 false (mk_power (Some 5) 3) false true None None None (Some (4, 0, Some 5))))).
Proof. vm_compute. reflexivity. Qed.
Print Assumptions C59_bep_refuted.
(** Full claim for rejects: four times the request and its wait indication; for an 11-bit
    access, its low bits once, and nothing else. Proved: the rest octets name a second
    mobile, one with the low bits 2. (For an 8-bit access they name one, too, but it does not
    count, as the request reference is not that of an 11-bit access.) *)
Theorem C59_reject_partial : forall ra rfn ext t3142, 0 <= rfn < 65536 -> (ext = false -> fits 8 ra) -> fits 8 t3142 ->
  exists plen vec, write_immediate_assignment_reject ra rfn ext t3142 = IaSent plen vec /\
  mobile_reads_reject (l1_block plen vec) = Some (19, (repeat (mk_request (if ext then 127 else ra) (time_of rfn), t3142) 4,
    if ext then [Some (ra mod 32); Some 2; None; None] else [None; None; Some 11; None])).
Proof. exact reject_read. Qed.
Print Assumptions C59_reject_partial.
Theorem C59_reject_refuted :
  mobile_reads_reject (ex_block (write_immediate_assignment_reject 0x163 1234 true 10)) =
  Some (19, (repeat (mk_request 127 (mk_time 0 10 12), 10) 4, [Some 3; Some 2; None; None])).
Proof. vm_compute. reflexivity. Qed.
Print Assumptions C59_reject_refuted.
