(** C38-C42: the scheduler of a timeslot. *)
From Coq Require Import ZArith List Bool.
From Verif Require Import Base.Arith Model.FrameNo Model.UlController Model.CodingScheme Model.Sched Model.DlBlockTx
  Spec.FrameSpec Spec.SchedSpec
  Proofs.SchedP Proofs.SchedQ Proofs.SchedEx.
Import ListNotations.
Local Open Scope Z_scope.

(** *** C38: uplink scheduling *)

(** Only a TBF in data transfer is invited, the first one round from the current position;
    the position moves on behind it. *)
Theorem C38_choice : forall ul g next t u next', tfi_ok next ->
  select_uplink ul g next = (Some (t, u), next') ->
  invitable ul g t /\ ul t = Some u /\ next' = (t + 1) mod 32 /\
  forall t', invitable ul g t' -> dist next t <= dist next t'.
Proof. exact select_uplink_some. Qed.
Print Assumptions C38_choice.
(** None only if there is none. *)
Theorem C38_none : forall ul g next, tfi_ok next ->
  (fst (select_uplink ul g next) = None <-> forall t, ~ invitable ul g t).
Proof. exact select_uplink_none. Qed.
Print Assumptions C38_none.
Example C38_ex_choice :
  option_map fst (fst (select_uplink (ul_at uls) false 4)) = Some 7 /\
  option_map fst (fst (select_uplink (ul_at uls) false 31)) = Some 3 /\
  option_map fst (fst (select_uplink (ul_at uls) true 4)) = Some 3 /\
  fst (select_uplink (ul_at []) false 4) = None.
Proof. vm_compute. auto. Qed.

(** A TBF that can be invited in 32 rounds running is invited in one of them, whatever
    the other TBFs do. *)
Theorem C38_fair : forall t l next, tfi_ok next -> tfi_ok t -> length l = 32%nat ->
  (forall ul g, In (ul, g) l -> invitable ul g t) -> In (Some t) (ul_rounds l next).
Proof. exact ul_fair32. Qed.
Print Assumptions C38_fair.
(** More exactly: in as many rounds as there are TBFs taking part (seven, as there are
    seven USF values). *)
Theorem C38_fair_set : forall S t l next, tfi_ok next -> tfi_ok t -> Forall tfi_ok S ->
  (forall ul g, In (ul, g) l -> invitable ul g t) ->
  (forall ul g t', In (ul, g) l -> invitable ul g t' -> In t' S) ->
  (length S <= length l)%nat -> In t S -> In (Some t) (ul_rounds l next).
Proof. exact ul_fair. Qed.
Print Assumptions C38_fair_set.
Example C38_ex_fair : ul_rounds (repeat (ul_at uls, false) 3) 12 = [Some 30; Some 3; Some 7].
Proof. vm_compute. reflexivity. Qed.
(** In requests of the physical layer: the position is kept when the block is taken, else
    there is one round, and the USF is the one of the TBF chosen. *)
Theorem C38_request : forall bal e s fn bn s' o, rts_step bal e s fn bn = (s', o) ->
  let pfn := rts_next_fn fn bn in
  (get_sba (p_ulc s) pfn <> None \/ get_tbf_poll (p_ulc s) pfn <> None -> p_ul s' = p_ul s) /\
  (get_sba (p_ulc s) pfn = None -> get_tbf_poll (p_ulc s) pfn = None ->
   let '(x, next) := select_uplink (e_ul e) (p_cs14 s =? 17) (p_ul s) in
   p_ul s' = next /\ o_usf o = match x with Some (_, u) => u_usf u | None => 7 end).
Proof. exact rts_ul_round. Qed.
Print Assumptions C38_request.
(** Being in data transfer is not enough for an EGPRS TBF: rounds that come in
    synchronisation blocks pass it over, and still move the position. *)
Theorem C38_sync_refuted : forall n, exists l t, length l = n /\ tfi_ok t /\
  (forall ul g, In (ul, g) l -> exists u, ul t = Some u /\ u_flow u = true) /\ ~ In (Some t) (ul_rounds l 0).
Proof. exact sync_starves. Qed.
Print Assumptions C38_sync_refuted.

(** *** C39: one mobile per uplink block *)

(** After a request for a block, at most one mobile may send in the uplink block after
    it, and the reservation table says which; reservations made before stand. The last
    premise says that this block was not asked for before (see below). *)
Theorem C39_one : forall bal frees e s fn ts s' o, keeps_order bal -> ulc_reach bal frees (p_ulc s) ts ->
  in_hyper fn -> block_start fn -> usf_ok e -> tfi_ok (p_ul s) ->
  ahead (ts_now ts) (fn_next_block fn) < HYP / 2 ->
  (forall b, ts_m ts (fn_next_block fn) <> Some (OUsf b)) ->
  rts_step bal e s fn (fn2bn fn) = (s', o) ->
  exists m', (forall x, get_node (p_ulc s') x = option_map (mk_item x) (m' x)) /\
    (forall x, x <> fn_next_block fn -> m' x = ts_m ts x) /\
    (ts_m ts (fn_next_block fn) <> None -> m' (fn_next_block fn) = ts_m ts (fn_next_block fn)) /\
    (forall a b, may_send m' e (fn_next_block fn) (o_usf o) a -> may_send m' e (fn_next_block fn) (o_usf o) b -> a = b) /\
    (forall b, may_send m' e (fn_next_block fn) (o_usf o) (ByTbf b) ->
       m' (fn_next_block fn) = Some (OUsf b) \/ exists r, m' (fn_next_block fn) = Some (OPoll b r)).
Proof. exact one_mobile. Qed.
Print Assumptions C39_one.
Example C39_ex_one :
  let t1 := fst (reserve same Leaf 4 (OSba 9)) in
  let t2 := fst (reserve same Leaf 4 (OPoll 107 PollUlAck)) in
  let t3 := fst (reserve same Leaf 4 (OPoll 205 PollDlAck)) in
  map (fun t => o_usf (snd (rts_step same (env0 dls) (mk_ps 0 0 0 0 t) 0 0))) [Leaf; t1; t2; t3] = [0; 7; 1; 7].
Proof. vm_compute. reflexivity. Qed.
(** Requests for different blocks concern different uplink blocks. *)
Theorem C39_distinct : forall a b, in_hyper a -> in_hyper b -> block_start a -> block_start b ->
  fn_next_block a = fn_next_block b -> a = b.
Proof. exact next_block_inj. Qed.
Print Assumptions C39_distinct.
(** A second request for the same block invites a second mobile, as the failure of the
    reservation is not regarded. *)
Theorem C39_repeated_refuted : exists e s s' o s'' o' b,
  rts_step same e s 0 0 = (s', o) /\ rts_step same e s' 0 0 = (s'', o') /\
  get_node (p_ulc s') 4 = Some (mk_item 4 (OUsf b)) /\ get_node (p_ulc s'') 4 = Some (mk_item 4 (OUsf b)) /\
  o_usf o <> o_usf o' /\ o_usf o' <> 7.
Proof. exact repeated_bad. Qed.
Print Assumptions C39_repeated_refuted.

(** *** C40: downlink data *)

(** The TBF chosen has the highest rank of all that can send and is the first of them
    round from the current position, which moves on behind it. *)
Theorem C40_choice : forall c dl fn req next t d p next', tfi_ok next ->
  select_dl c dl fn req next = (Some (t, d, p), next') ->
  sendable c dl fn req t p /\ dl t = Some d /\ next' = (t + 1) mod 32 /\
  forall t' p', sendable c dl fn req t' p' -> p' < p \/ (p' = p /\ dist next t <= dist next t').
Proof. exact select_dl_some. Qed.
Print Assumptions C40_choice.
Theorem C40_none : forall c dl fn req next, tfi_ok next ->
  (fst (select_dl c dl fn req next) = None <-> forall t p, ~ sendable c dl fn req t p).
Proof. exact select_dl_none. Qed.
Print Assumptions C40_none.
Example C40_ex_choice :
  let ch req n := option_map (fun x => fst (fst x)) (fst (select_dl conf0 (dl_at dls) 40 req n)) in
  ch EGPRS 0 = Some 5 /\ ch EGPRS_GMSK 0 = Some 5 /\ ch GPRS 0 = Some 9 /\
  map (fun n => option_map (fun x => fst (fst x)) (fst (select_dl conf0 (dl_at [(2, d_new); (8, d_new)]) 40 EGPRS n))) [2; 3; 9]
    = [Some 2; Some 8; Some 2].
Proof. vm_compute. auto. Qed.
(** Ties are broken round robin: a TBF that is of the highest rank in as many rounds
    running as there are TBFs taking part is served in one of them. *)
Theorem C40_fair : forall S t l next, tfi_ok next -> tfi_ok t -> Forall tfi_ok S ->
  (forall r, In r l -> top r t) ->
  (forall r t', In r l -> top r t' -> In t' S) ->
  (length S <= length l)%nat -> In t S -> In (Some t) (dl_rounds l next).
Proof. exact dl_fair. Qed.
Print Assumptions C40_fair.
Example C40_ex_fair : dl_rounds (repeat (mk_dr conf0 (dl_at [(2, d_new); (8, d_new); (9, d_sent)]) 40 EGPRS) 3) 0 = [Some 2; Some 8; Some 2].
Proof. vm_compute. reflexivity. Qed.
(** The age that enters the rank is the number of frames since the last poll, also over
    the end of the hyperframe. *)
Theorem C40_age : forall last fn a, in_hyper last -> age_is last fn a -> frames_since_last last fn = a.
Proof. exact age_ok. Qed.
Print Assumptions C40_age.
Example C40_ex_age : frames_since_last 2715640 4 = 12 /\ frames_since_last (-1) 4 = -1 /\ age_is 2715640 4 12.
Proof. vm_compute. repeat split; discriminate. Qed.

(** *** C41: control messages *)

(** Full claim: each kind pending is sent after some rounds, each message made is sent.
    Proved: a message of the rotation (assignments in the other direction, rejects,
    acknowledgements, neighbour cell messages) for a TBF waiting for nothing that comes
    first is sent within four rounds, whatever else there is. Missing: Packet Application
    Information in between, two kinds for one TBF (both refuted below). *)
Theorem C41_rotation_partial : forall kd t l prio, 0 <= prio < 4 -> length l = 4%nat ->
  (forall r, In r l -> no_app r /\ due r kd t /\ first_for r kd t) ->
  In (Some (mk_cmsg kd (Some (t_id t)))) (ctrl_rounds l prio).
Proof. exact ctrl_rotation. Qed.
Print Assumptions C41_rotation_partial.
Example C41_ex_rotation :
  let k := candidates [mk_ct 1 true true false false false false false; mk_ct 2 true false true false false false false]
                      [mk_ct 3 false false false true false false false; mk_ct 4 false false false false true false false] in
  ctrl_rounds (repeat (mk_cr (fun _ _ => true) false true k) 4) 2 =
    map Some [mk_cmsg KUlAck (Some 1); mk_cmsg KNacc (Some 4); mk_cmsg KUlAss (Some 3); mk_cmsg KDlAss (Some 2)].
Proof. vm_compute. reflexivity. Qed.
(** An acknowledgement and a neighbour cell message for the same TBF: the latter is not
    sent while the former is pending, not even in its own turn. *)
Theorem C41_same_tbf_refuted : forall n, exists l, length l = n /\
  Forall (fun r => no_app r /\ due r KNacc t_both) l /\
  (forall prio m, 0 <= prio < 4 -> In (Some m) (ctrl_rounds l prio) -> m_kind m <> KNacc).
Proof. exact nacc_starves. Qed.
Print Assumptions C41_same_tbf_refuted.
(** Assignments in the same direction: while one can be made, something is sent. *)
Theorem C41_busy : forall r prio t, no_app r ->
  (k_dl_ass (cr_cands r) = Some t /\ cr_make r KDlAss (t_id t) = true) \/
  (k_dl_ass (cr_cands r) = None /\ k_ul_ass (cr_cands r) = Some t /\ cr_make r KUlAss (t_id t) = true) ->
  r_sent (cr_run r prio) <> None.
Proof. exact ctrl_busy. Qed.
Print Assumptions C41_busy.
(** What is made is sent, unless it is Packet Application Information. *)
Theorem C41_sent_partial : forall r prio, no_app r -> r_sent (cr_run r prio) = r_made (cr_run r prio).
Proof. exact ctrl_sent. Qed.
Print Assumptions C41_sent_partial.
(** Packet Application Information (emergency warnings) is never sent: it is made, thrown
    away, and counted as delivered. *)
Theorem C41_app_info_refuted : exists r prio,
  r_made (cr_run r prio) <> None /\ r_sent (cr_run r prio) = None /\ r_cleared (cr_run r prio) = true.
Proof. exact app_bad. Qed.
Print Assumptions C41_app_info_refuted.
Theorem C41_app_info_lost : forall r prio t, k_dl_ass (cr_cands r) = Some t -> t_app t = true -> cr_stored r = true ->
  r_made (cr_run r prio) = Some (mk_cmsg KApp None) /\ r_sent (cr_run r prio) = None /\ r_cleared (cr_run r prio) = true.
Proof. exact app_lost. Qed.
Print Assumptions C41_app_info_lost.
(** Among the TBFs of a TRX the last one waiting is the candidate, downlink TBFs before
    uplink ones. *)
Theorem C41_candidates : forall ul dl,
  let both f := match last_with f dl with Some t => Some t | None => last_with f ul end in
  candidates ul dl = mk_cands (both t_ul_ass) (both t_dl_ass) (both t_nacc) (last_with t_ul_ack ul).
Proof. exact candidates_are. Qed.
Print Assumptions C41_candidates.
(** As a TBF goes to the front when it gets a message, and new ones come in at the front,
    each TBF of a list has its turn, after at most as many messages as there were TBFs. *)
Theorem C41_turn : forall f id t l rounds, In t l -> t_id t = id -> f t = true ->
  (forall es, In es rounds -> Forall (lev_keeps f id) es) -> length rounds = length l ->
  In (Some id) (list_rounds f rounds l).
Proof. exact turn. Qed.
Print Assumptions C41_turn.
Example C41_ex_turn :
  let w i := mk_ct i true true false false false false false in
  list_rounds t_ul_ack [[]; [LAdd (w 4)]; [LOther 2; LDel 9]] [w 1; w 2; w 3] = [Some 3; Some 2; Some 1].
Proof. vm_compute. reflexivity. Qed.

(** *** C42: synchronisation of GPRS mobiles *)

(** While a GPRS TBF is attached, there are never 18 blocks of EGPRS data in a row,
    whatever happened before. *)
Theorem C42_sync : forall bal l1 l2, length l2 = 18%nat -> Forall (fun q => e_gprs (q_env q) = true) l2 ->
  let os := snd (rts_run bal (l1 ++ l2) ps_init) in
  ~ Forall undecodable (skipn (length l1) os).
Proof. exact sync_ok. Qed.
Print Assumptions C42_sync.
Example C42_ex_sync : length run18 = 18%nat /\ forallb (fun q => e_gprs (q_env q)) run18 = true /\
  map (fun o => match o_block o with SbData _ true _ _ => true | _ => false end) (snd (rts_run same run18 ps_init))
  = repeat true 17 ++ [false].
Proof. vm_compute. auto. Qed.

(** Full claim: a block that carries the USF of a mobile not in EGPRS mode is in GMSK.
    Proved: it is a control block, a block of a GPRS TBF, or it was made under the
    restriction to GMSK by an EGPRS TBF that must be polled or has no block to resend. *)
Theorem C42_usf_partial : forall bal e s fn bn s' o u nul t req, tfi_ok (p_dl s) ->
  rts_step bal e s fn bn = (s', o) -> rts_uplink bal e s fn bn = (Some u, nul, t, req) ->
  u_mode u <> EGPRS ->
  match o_block o with
  | SbData tfi true rq p => rq = EGPRS_GMSK /\ (p = 5 \/ (p = 3 /\
      exists d, e_dl e tfi = Some d /\ d_resend d = false))
  | _ => True
  end.
Proof. exact usf_block. Qed.
Print Assumptions C42_usf_partial.
(** A new block under this restriction is in GMSK by C37_block; a block sent before is
    too, if splitting is on and it was not first sent in MCS-8. *)
Theorem C42_resend_partial : forall i c, In i [MCS1; MCS2; MCS3; MCS4; MCS5; MCS6; MCS7; MCS8; MCS9] ->
  In c [MCS1; MCS2; MCS3; MCS4] -> i <> MCS8 ->
  exists x, retx_scheme i c true = Some x /\ In x [MCS1; MCS2; MCS3; MCS4].
Proof. exact retx_gmsk. Qed.
Print Assumptions C42_resend_partial.
(** In the other cases it is not: the restriction lets through a TBF that must be polled
    and resends a block, in MCS-8, or in MCS-6 without splitting. *)
Theorem C42_usf_refuted : exists e s fn bn s' o u nul t tfi d,
  rts_step same e s fn bn = (s', o) /\ rts_uplink same e s fn bn = (Some u, nul, t, EGPRS_GMSK) /\
  u_mode u = GPRS /\ o_usf o = u_usf u /\ e_dl e tfi = Some d /\
  o_block o = SbData tfi true EGPRS_GMSK 5 /\ resends (e_conf e) d = true /\
  retx_scheme MCS8 MCS1 true = Some MCS8 /\ retx_scheme MCS9 MCS1 false = Some MCS6.
Proof. exact usf_bad. Qed.
Print Assumptions C42_usf_refuted.
(** Likewise a TBF with new data whose window is full. *)
Theorem C42_usf_stalled_refuted : exists e s fn bn s' o u nul t tfi d,
  rts_step same e s fn bn = (s', o) /\ rts_uplink same e s fn bn = (Some u, nul, t, EGPRS_GMSK) /\
  u_mode u = GPRS /\ o_usf o = u_usf u /\ e_dl e tfi = Some d /\ d_resend d = false /\
  o_block o = SbData tfi true EGPRS_GMSK 3 /\ resends (e_conf e) d = true.
Proof. exact usf_bad_stalled. Qed.
Print Assumptions C42_usf_stalled_refuted.
