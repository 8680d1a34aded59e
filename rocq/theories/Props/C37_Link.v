(** C37, C50 and C51: coding schemes chosen for a mobile, EGPRS window sizes, and which schemes
    the cell may use. *)
From Coq Require Import ZArith List Bool Lia.
From Verif Require Import Base.Arith Model.CodingScheme Model.BtsConf Model.LinkAdapt Spec.CodingSpec Spec.LinkSpec
  Proofs.LinkP Proofs.LinkQ.
Import ListNotations.
Local Open Scope Z_scope.

(** * C37 *)
(** With a sound configuration that stays, any history of error rates, measurements and EGPRS
    classes runs without a failed assertion and leaves both schemes on the ladder of the mode
    and not above the maximum. *)
Theorem C37_within_limits_partial : forall q y b now os, sound b -> conf_fixed os ->
  exists m, la_run q os ((y, b), ms_alloc b now) = Some ((y, b), m) /\ within b m.
Proof. exact (fun q y b now os S F => la_fixed q y b os (ms_alloc b now) S F (alloc_ok b now S)). Qed.
Print Assumptions C37_within_limits_partial.
Example C37_ex_run : seen_la (la_from [MaxMcs (mk2 6 3); Info 15 511 4 2]
  [ErrRate 500 5; ErrRate 1500 5; EClass 12; Meas (Some 20); Meas (Some 20); Meas (Some 20); ErrRate 3000 0; ErrRate 4100 0; ErrRate 5300 0;
   ErrRate 6500 0; ErrRate 7800 0]) = Some (EGPRS, MCS6, MCS3).
Proof. vm_compute. reflexivity. Qed.

(** Whatever limits the operator has set and whatever the BTS announces when it connects, the
    configuration is sound unless the operator forces initial schemes. *)
Theorem C37_startup : forall os cs mcs ics imcs,
  (forall o, In o os -> conf_ok o /\ unforced o) -> 0 <= ics -> 0 <= imcs ->
  sound (snd (conf_run (os ++ [Info cs mcs ics imcs]))).
Proof. exact startup. Qed.
Print Assumptions C37_startup.
Example C37_ex_startup : snd (conf_run [MaxCs (mk2 3 2); MaxMcs (mk2 6 3); NoIniCs; Info 5 0x1b 4 4]) =
  mk_bc 5 0x1b (mk2 3 1) (mk2 5 2) (mk2 3 1) (mk2 4 2) 4 4.
Proof. vm_compute. reflexivity. Qed.

(** Each error rate moves the downlink scheme by exactly one or not at all: down when above
    the upper threshold, up when below the lower one and nothing else happened for a second. *)
Theorem C37_error_rate : forall q b now rate m m', sound b -> within b m ->
  update_error_rate q b now rate m = Some m' ->
  s_mode m' = s_mode m /\ s_cs_ul m' = s_cs_ul m /\
  let tp := top (s_mode m) (p_dl (b_max_cs b)) (p_dl (b_max_mcs b)) in
  number (s_cs_dl m') =
    if rate <? 0 then number (s_cs_dl m)
    else if l_upper q <? rate then Z.max 1 (number (s_cs_dl m) - 1)
    else if (rate <? l_lower q) && (1000 <? now - s_notlow m) then Z.min tp (number (s_cs_dl m) + 1)
    else number (s_cs_dl m).
Proof. exact rate_effect. Qed.
Print Assumptions C37_error_rate.
Example C37_ex_rate : seen_la (la_from [Info 15 511 3 2] [ErrRate 500 34; ErrRate 900 33; ErrRate 1900 9; ErrRate 1901 9; ErrRate 2800 9]) =
  Some (GPRS, CS3, CS3).
Proof. vm_compute. reflexivity. Qed.

(** No second step up within a second of the last step or of a rate that was not low. *)
Theorem C37_one_step_per_second : forall q y b t os m m', sound b -> within b m -> t <= s_notlow m ->
  (forall o, In o os -> exists now r, o = ErrRate now r /\ t <= now <= t + 1000) ->
  la_run q os ((y, b), m) = Some ((y, b), m') -> number (s_cs_dl m') <= number (s_cs_dl m).
Proof. exact no_rise_before. Qed.
Print Assumptions C37_one_step_per_second.
Example C37_ex_second : seen_la (la_from [Info 15 511 1 2] [ErrRate 1001 0; ErrRate 1500 0; ErrRate 2001 0]) = Some (GPRS, CS2, CS1).
Proof. vm_compute. reflexivity. Qed.

(** The scheme used for the next downlink block: of the mode without restriction, at most
    MCS-4 when restricted to GMSK. *)
Theorem C37_block : forall q b oct m, sound b -> within b m ->
  (exists c, current_cs_dl q b oct EGPRS m = Some c /\ fits (s_mode m) (p_dl (b_max_cs b)) (p_dl (b_max_mcs b)) c) /\
  (exists c, current_cs_dl q b oct EGPRS_GMSK m = Some c /\
     fits (match s_mode m with GPRS => GPRS | _ => EGPRS_GMSK end) (p_dl (b_max_cs b)) (p_dl (b_max_mcs b)) c).
Proof. exact (fun q b oct m S W => conj (cur_any q b oct m S W) (cur_gmsk q b oct m S W)). Qed.
Print Assumptions C37_block.
Example C37_ex_block : option_map (fun p => map (fun k => current_cs_dl lq0 (snd (fst p)) 300 k (snd p)) [EGPRS; EGPRS_GMSK; GPRS])
  (la_from [Info 15 503 1 9] [EClass 12]) = Some [Some MCS9; Some MCS3; Some CS4].
Proof. vm_compute. reflexivity. Qed.

(** Full claim for blocks restricted to GPRS: CS-1 up to the maximum. Proved: no assertion,
    a GPRS scheme, within the maximum for a GPRS mobile, at most one above it for an EGPRS
    mobile. *)
Theorem C37_gprs_block_partial : forall q b oct m, sound b -> within b m -> Z.testbit (b_cs_mask b) 0 = true ->
  exists c, current_cs_dl q b oct GPRS m = Some c /\ In c (ladder GPRS) /\
    (s_mode m = GPRS -> fits GPRS (p_dl (b_max_cs b)) 0 c) /\ (s_mode m <> GPRS -> number c <= p_dl (b_max_cs b) + 1).
Proof. exact cur_gprs. Qed.
Print Assumptions C37_gprs_block_partial.
(** That one above really happens: maximum CS-2, block sent in CS-3. *)
Theorem C37_gprs_block_refuted : exists b m, sound b /\ within b m /\ Z.testbit (b_cs_mask b) 0 = true /\
  p_dl (b_max_cs b) = 2 /\ current_cs_dl lq0 b 300 GPRS m = Some CS3.
Proof.
  exists (snd (conf_run [MaxCs (mk2 2 2); Info 15 511 1 9])),
    (set_egprs_class (snd (conf_run [MaxCs (mk2 2 2); Info 15 511 1 9])) 12 (ms_alloc (snd (conf_run [MaxCs (mk2 2 2); Info 15 511 1 9])) 0)).
  split; [vm_compute; intuition discriminate|]. split; [vm_compute; intuition discriminate|].
  split; [vm_compute; reflexivity|]. split; vm_compute; reflexivity.
Qed.
Print Assumptions C37_gprs_block_refuted.

(** An initial scheme forced above the maximum is used: maximum CS-2, mobile starts in CS-4;
    and a GMSK-only mobile starts in MCS-9, outside the ladder of its mode. *)
Theorem C37_forced_refuted :
  seen_la (la_from [MaxCs (mk2 2 2); IniCs (mk2 4 4); Info 15 511 1 1] []) = Some (GPRS, CS4, CS4) /\
  seen_la (la_from [MaxMcs (mk2 4 4); IniMcs (mk2 9 9); Info 15 511 1 1] [EClass 12; Meas (Some 0)]) = Some (EGPRS_GMSK, MCS9, MCS9).
Proof. split; vm_compute; reflexivity. Qed.
Print Assumptions C37_forced_refuted.
(** Lowering the maximum does not lower a mobile that is above it. *)
Theorem C37_lowered_refuted :
  seen_la (la_from [Info 15 511 4 1] [Conf (MaxCs (mk2 1 1)); ErrRate 5000 0; Meas (Some 100)]) = Some (GPRS, CS4, CS4).
Proof. vm_compute. reflexivity. Qed.
Print Assumptions C37_lowered_refuted.
(** Disabling EGPRS while an EGPRS mobile is served makes the next error rate fail the
    assertion: the process aborts. Both by the operator and by the BTS. *)
Theorem C37_disable_mcs_refuted :
  la_from [Info 15 511 4 1] [EClass 12; Conf NoMaxMcs; ErrRate 5000 0] = None /\
  la_from [Info 15 511 4 1] [EClass 12; Conf (Info 15 0 4 1); ErrRate 5000 0] = None.
Proof. split; vm_compute; reflexivity. Qed.
Print Assumptions C37_disable_mcs_refuted.

(** * C50 *)
Theorem C50_size : forall base pdch mask, ws_conf base pdch -> 1 <= mask < 256 ->
  let w := egprs_window_size base pdch mask in
  w mod 32 = 0 /\ 64 <= w <= ws_limit (slot_count mask) /\ ws_limit (slot_count mask) <= 1024.
Proof. exact ws_legal. Qed.
Print Assumptions C50_size.
Example C50_ex_size : map (egprs_window_size 100 70) [1; 3; 7; 255] = [160; 224; 288; 640].
Proof. vm_compute. reflexivity. Qed.
(** Downlink assignments, on the PACCH and by Immediate Assignment, and the Immediate
    Assignment of an EGPRS uplink tell the mobile exactly this size. *)
Theorem C50_announced : forall base pdch mask, ws_conf base pdch -> 1 <= mask < 256 ->
  let w := egprs_window_size base pdch mask in
  ws_meaning (ws_field_dl w) = Some w /\ ws_meaning (ws_field_ia w) = Some w.
Proof. exact ws_announced. Qed.
Print Assumptions C50_announced.
Example C50_ex_announced : ws_field_dl (egprs_window_size 1024 256 255) = 30.
Proof. vm_compute. reflexivity. Qed.
(** Full claim for Packet Uplink Assignments: the same. Proved: they always announce 64,
    whatever the size; so they are right only for that size. *)
Theorem C50_uplink_partial : forall base pdch mask, ws_conf base pdch -> 1 <= mask < 256 ->
  let w := egprs_window_size base pdch mask in ws_meaning (ws_field_ul w) = Some 64.
Proof. exact ws_uplink. Qed.
Print Assumptions C50_uplink_partial.
Theorem C50_uplink_refuted : exists base pdch mask, ws_conf base pdch /\ 1 <= mask < 256 /\
  let w := egprs_window_size base pdch mask in w = 192 /\ ws_meaning (ws_field_ul w) = Some 64.
Proof. exists 192, 0, 1. vm_compute. intuition discriminate. Qed.
Print Assumptions C50_uplink_refuted.
(** More timeslots never give a smaller window, as an existing TBF's window cannot shrink. *)
Theorem C50_window_monotone : forall base pdch a b, ws_conf base pdch -> 1 <= a < 256 -> 1 <= b < 256 ->
  (slot_count a <= slot_count b)%nat -> egprs_window_size base pdch a <= egprs_window_size base pdch b.
Proof. exact ws_mono. Qed.
Print Assumptions C50_window_monotone.
Example C50_ex_monotone : slot_count 5 = 2%nat /\ slot_count 0x70 = 3%nat /\ egprs_window_size 512 0 5 = 256 /\ egprs_window_size 512 0 0x70 = 384.
Proof. vm_compute. repeat split; reflexivity. Qed.

(** * C51 *)
(** The maxima in force are the highest announced schemes not above what the operator last
    allowed, after any history of commands and BTS messages. *)
Theorem C51_maxima : forall os, (forall o, In o os -> conf_ok o) -> told os = true ->
  let b := snd (conf_run os) in
  let ann := announced (fst (last_flags os (0, 0))) (snd (last_flags os (0, 0))) in
  highest_number ann [CS1; CS2; CS3; CS4] (p_dl (limit_cs os)) (p_dl (b_max_cs b)) /\
  highest_number ann [CS1; CS2; CS3; CS4] (p_ul (limit_cs os)) (p_ul (b_max_cs b)) /\
  highest_number ann all_mcs (p_dl (limit_mcs os)) (p_dl (b_max_mcs b)) /\
  highest_number ann all_mcs (p_ul (limit_mcs os)) (p_ul (b_max_mcs b)).
Proof. exact maxima. Qed.
Print Assumptions C51_maxima.
Example C51_ex_maxima : let b := snd (conf_run [Info 15 511 1 1; MaxCs (mk2 3 1); Info 0x5 0x4f 1 1; MaxMcs (mk2 6 8)]) in
  (b_max_cs b, b_max_mcs b) = (mk2 3 1, mk2 4 7).
Proof. vm_compute. reflexivity. Qed.
(** Full claim: supported if and only if announced and [number c <= mx]. Proved: the answer
    is given for every scheme without a failed assertion, and it is that claim with the
    maximum taken one too high. *)
Theorem C51_supported_partial : forall os c, (forall o, In o os -> conf_ok o) -> told os = true -> c <> UNKNOWN ->
  let b := snd (conf_run os) in
  let mx := if is_cs c then p_dl (b_max_cs b) else p_dl (b_max_mcs b) in
  exists r, cs_dl_is_supported b c = Some r /\
  (r = true <-> announced (fst (last_flags os (0, 0))) (snd (last_flags os (0, 0))) c /\ number c <= mx + 1).
Proof. exact supported. Qed.
Print Assumptions C51_supported_partial.
Example C51_ex_supported : map (cs_dl_is_supported (snd (conf_run [MaxCs (mk2 2 2); MaxMcs (mk2 3 3); Info 0xf 0x1f5 1 1])))
  [CS1; CS2; CS4; MCS1; MCS2; MCS3; MCS5] = [Some true; Some true; Some false; Some true; Some false; Some true; Some false].
Proof. vm_compute. reflexivity. Qed.
Theorem C51_supported_refuted : exists os, (forall o, In o os -> conf_ok o) /\ told os = true /\
  p_dl (limit_cs os) = 2 /\ cs_dl_is_supported (snd (conf_run os)) CS3 = Some true.
Proof.
  exists [MaxCs (mk2 2 2); Info 15 511 1 1].
  split; [intros o [<-|[<-|[]]]; vm_compute; intuition discriminate|]. split; [reflexivity|]. split; vm_compute; reflexivity.
Qed.
Print Assumptions C51_supported_refuted.
(** CS-1 is always available. *)
Theorem C51_cs1 : forall os, (forall o, In o os -> conf_ok o) -> told os = true ->
  cs_dl_is_supported (snd (conf_run os)) CS1 = Some true.
Proof. exact cs1_supported. Qed.
Print Assumptions C51_cs1.
Example C51_ex_cs1 : cs_dl_is_supported (snd (conf_run [NoMaxCs; Info 0 0 0 0])) CS1 = Some true.
Proof. vm_compute. reflexivity. Qed.
(** Link adaptation walks over gaps: the BTS announces CS-1, CS-2 and CS-4, the mobile is
    moved to CS-3. *)
Theorem C51_gap_refuted : ~ announced 11 0 CS3 /\
  seen_la (la_from [Info 11 0 2 0] [ErrRate 1001 0; Meas (Some 20)]) = Some (GPRS, CS3, CS3).
Proof. split; [intros [_ [H|H]]; discriminate H|vm_compute; reflexivity]. Qed.
Print Assumptions C51_gap_refuted.
