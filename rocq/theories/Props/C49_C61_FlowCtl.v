(** C49, C61: flow control towards the SGSN. *)
From Coq Require Import ZArith List Bool Lia.
From Verif Require Import Model.CodingScheme Model.BtsConf Model.FlowCtl Spec.CodingSpec Spec.FlowCtlSpec Proofs.FlowCtlP.
Import ListNotations.
Open Scope Z_scope.

(** C49.  Whatever is configured and counted, the bucket sizes announced are positive and at most the
    protocol's maximum, and so are the leak rates. *)
Theorem C49_bounds : forall h f out, hist_ok h -> f_run fcount0 [] h = Some (f, out) ->
  Forall (fun p => 1 <= u_bucket p <= 6553500 /\ 1 <= u_ms_bucket p <= 6553500 /\ 0 <= u_leak p <= 6553500 / 8 /\ 0 <= u_ms_leak p <= 6553500 / 8) out.
Proof. exact bounds. Qed.
Print Assumptions C49_bounds.

(** Without a configured rate and without acknowledgements to measure, the rate is the raw capacity of
    the timeslots of the cell, and that of a mobile the capacity of the slots it can use. *)
Theorem C49_capacity : forall h f out c l, no_bytes h -> f_run fcount0 [] h = Some (f, out) -> cell_ok l ->
  exists p f', f_run f out [FReport c l] = Some (f', out ++ [p]) /\
  (c_bvc_leak c = 0 -> u_leak p = Z.min (6553500 / 8) (capacity (max_scheme c (l_conf l)) (l_pdch l))) /\
  (c_ms_leak c = 0 -> u_ms_leak p = Z.min (6553500 / 8) (capacity (max_scheme c (l_conf l)) (Z.min (l_pdch l) (Z.min (l_slots l) 4)))).
Proof. exact unmeasured. Qed.
Print Assumptions C49_capacity.

(** With acknowledgements, the rate lies between the measured one and the capacity, if no more blocks
    were acknowledged than sent and the counters are small enough.  See below for what is missing. *)
Theorem C49_estimate_partial : forall c l f, cell_ok l -> c_bvc_leak c = 0 -> 0 < f_sent f -> 0 < f_frames f <= f_sent f -> 0 <= f_bytes f ->
  f_sent f * 1000 < 2 ^ 32 -> f_bytes f * 1000 * 64 < 2 ^ 32 -> f_bytes f <= 148 * f_frames f ->
  let rate := f_bytes f * 1000 * l_pdch l / (20 * f_frames f) in
  let cap := capacity (max_scheme c (l_conf l)) (l_pdch l) in
  0 < rate ->
  exists p f', report c l f = Some (p, f') /\ f_sent f' = 0 /\ f_bytes f' = 0 /\ f_frames f' = 0 /\
  (u_leak p = cap \/ Z.min rate cap <= u_leak p <= Z.max rate cap).
Proof. exact estimate. Qed.
Print Assumptions C49_estimate_partial.

(** The capacity is that of a scheme the cell may use, after the BTS described itself, with the
    adaptation of schemes on, if the limit leaves one of the EGPRS schemes that the BTS offers. *)
Theorem C49_scheme_partial : forall c y b cs mcs ics imcs, c_adj c = true -> 1 <= p_dl (y_max_cs y) <= 4 -> 0 <= p_dl (y_max_mcs y) <= 9 ->
  let b' := info_ind y cs mcs ics imcs b in
  Z.land mcs 511 = 0 \/ 0 < highest (Z.land mcs 511) (Z.to_nat (p_dl (y_max_mcs y))) ->
  usable y b' (max_scheme c b').
Proof. exact scheme_usable. Qed.
Print Assumptions C49_scheme_partial.

Definition conf : fconf := Fc 0 0 0 0 0 0 true.
Definition egprs : bconf := info_ind vty0 15 511 1 1 bconf0.
Definition cell5 : fcell := Cell 5 egprs 4.
Example C49_ex : f_run fcount0 [] [FSent; FReport conf cell5] = Some (Cnt 1 0 0 0 0 0, [Pdu 370000 37000 296000 29600 0]) /\
  capacity MCS9 5 = 37000 /\ max_scheme conf egprs = MCS9.
Proof. vm_compute. repeat split. Qed.
Example C49_ex_hist : hist_ok [FSent; FReport conf cell5; FBytes 400 10; FReport (Fc 0 65535 0 0 0 0 false) (Cell 0 bconf0 1)].
Proof. unfold hist_ok. repeat constructor; unfold conf_ok, cell_ok, forced; cbn; lia. Qed.
(** 5 timeslots for one second, 100 of 250 blocks acknowledged with 30 octets each. *)
Example C49_ex_estimate : exists f', report conf cell5 (Cnt 250 3000 100 0 0 0) = Some (Pdu 252000 25200 296000 29600 0, f').
Proof. eexists. vm_compute. reflexivity. Qed.

(** A radio block of MCS-7 to MCS-9 counts once when it is sent and twice when it is acknowledged.  A
    busy cell with 5 timeslots, 250 radio blocks in a second, two data blocks of 74 octets in each,
    480 of the 500 received: the unsigned sum wraps and the maximum is announced, 22 times the capacity. *)
Theorem C49_two_blocks_refuted : exists h f p, hist_ok h /\ f_run fcount0 [] h = Some (f, [p]) /\
  h = repeat FSent 250 ++ [FBytes (480 * 74) 500; FReport conf cell5] /\
  u_leak p = 819187 /\ capacity (max_scheme conf egprs) 5 = 37000.
Proof.
  exists (repeat FSent 250 ++ [FBytes (480 * 74) 500; FReport conf cell5]). eexists. eexists. split.
  { unfold hist_ok. apply Forall_app. split; [apply Forall_forall; intros o I; apply repeat_spec in I; subst o; exact Logic.I|].
    repeat constructor; unfold conf_ok, cell_ok, forced; cbn; lia. }
  split; [vm_compute; reflexivity|]. vm_compute. repeat split.
Qed.
Print Assumptions C49_two_blocks_refuted.

(** The number of octets times 1000 times the number of timeslots wraps.  32 timeslots, 4000 blocks sent
    and acknowledged since the last report, 150000 octets in them: the rate is 60000 octets per second,
    and about a tenth of it is announced. *)
Theorem C49_wrap_refuted : exists f p f', f = Cnt 4000 150000 4000 0 0 0 /\ report conf (Cell 32 egprs 4) f = Some (p, f') /\
  150000 * 1000 * 32 / (20 * 4000) = 60000 /\ u_leak p < 6400.
Proof. eexists. eexists. eexists. split; [reflexivity|]. split; [vm_compute; reflexivity|]. vm_compute. repeat split. Qed.
Print Assumptions C49_wrap_refuted.

(** A BTS with MCS-5 to MCS-9, limited to MCS-4 by the configuration: no EGPRS scheme is usable, yet
    the capacity of MCS-9 is announced, three times that of the best scheme the cell may use. *)
Theorem C49_scheme_refuted : exists y b, b = info_ind y 15 0x1f0 1 1 bconf0 /\ p_dl (y_max_mcs y) = 4 /\
  max_scheme conf b = MCS9 /\ ~ usable y b MCS9 /\ usable y b CS4.
Proof.
  exists (mk_vty (mk2 4 4) (mk2 4 4) None None). eexists. split; [reflexivity|]. split; [reflexivity|]. split; [vm_compute; reflexivity|]. split.
  - intros (n & [(E & R & _ & L)|(E & R & _ & _)]).
    + cbn [y_max_mcs p_dl] in L. assert (C : n = 1 \/ n = 2 \/ n = 3 \/ n = 4) by lia. destruct C as [->|[->|[->| ->]]]; vm_compute in E; discriminate.
    + assert (C : n = 1 \/ n = 2 \/ n = 3 \/ n = 4) by lia. destruct C as [->|[->|[->| ->]]]; vm_compute in E; discriminate.
  - exists 4. right. repeat split; try lia; vm_compute; discriminate.
Qed.
Print Assumptions C49_scheme_refuted.

(** The command that forces a leak rate says bit/s; the value is announced as octets per second. *)
Theorem C49_unit_refuted : exists p f', report (Fc 0 0 0 8000 0 0 true) cell5 fcount0 = Some (p, f') /\ 8 * u_leak p <> 8000.
Proof. eexists. eexists. split; [vm_compute; reflexivity|]. vm_compute. discriminate. Qed.
Print Assumptions C49_unit_refuted.

(** C61.  What is reported as mean delay: the whole seconds of the sum, divided by the number of frames.
    Missing: the part of the sum below a second, which the code divides by 10^9 instead of 10^6. *)
Theorem C61_mean_partial : forall h f out c l p f', hist_ok h -> f_run fcount0 [] h = Some (f, out) -> report c l f = Some (p, f') ->
  let d := delays [] h in d <> [] -> Z.of_nat (length d) < 2 ^ 32 -> total d < 4294967 * 1000000000 ->
  u_delay p = (total d / 1000000000 * 1000) / Z.of_nat (length d).
Proof. exact mean_delay. Qed.
Print Assumptions C61_mean_partial.
Definition frames (k : nat) (ms : Z) : list fop := repeat (FDelay (ms * 1000000)) k.
Example C61_ex : match f_run fcount0 [] (frames 3 700 ++ [FReport conf cell5; FReport conf cell5]) with
  | Some (_, [p; q]) => u_delay p = 666 /\ u_delay q = 0 | _ => False end.
Proof. vm_compute. split; reflexivity. Qed.
(** Ten frames that waited 90 ms each: a mean of 0 is reported. *)
Theorem C61_mean_refuted : exists h f p, hist_ok h /\ f_run fcount0 [] (h ++ [FReport conf cell5]) = Some (f, [p]) /\
  total (delays [] h) / Z.of_nat (length (delays [] h)) = 90 * 1000000 /\ u_delay p = 0.
Proof.
  exists (frames 10 90). eexists. eexists. split; [apply Forall_forall; intros o I; apply repeat_spec in I; subst o; lia|].
  split; [vm_compute; reflexivity|]. vm_compute. split; reflexivity.
Qed.
Print Assumptions C61_mean_refuted.
