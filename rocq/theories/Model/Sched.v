(** The scheduler of a PDCH: /repo/src/gprs_rlcmac_sched.cpp. *)
From Coq Require Import ZArith List Bool.
From Verif Require Import Model.FrameNo Model.UlController Model.CodingScheme.
Import ListNotations.
Local Open Scope Z_scope.

(** USF_INVALID, tbf_ul.h:58; USF_UNUSED, pdch.h:40; MS_RESYNC_NUM_FRAMES, pdch.h:42. *)
Definition USF_INVALID : Z := 255.
Definition USF_UNUSED : Z := 7.
Definition MS_RESYNC_NUM_FRAMES : Z := 18.

(** What the scheduler reads of an uplink TBF: whether it is in TBF_ST_FLOW, whether it
    is an EGPRS TBF, m_usf on this timeslot, the mode of its mobile. TBFs are identified
    by a number in place of the pointer. *)
Record ultbf := mk_ul { u_id : Z; u_flow : bool; u_egprs : bool; u_usf : Z; u_mode : mkind }.

(** What the scheduler reads of a downlink TBF (tbf_dl.cpp:1162-1219). [d_state] is
    0 for TBF_ST_FLOW, 1 for TBF_ST_FINISHED, 2 for any other state. [d_lost],
    [d_tx], [d_req] are m_last_dl_poll_ack_lost, m_tx_counter, m_dl_ack_requested;
    [d_resend] is resend_needed() >= 0, [d_empty] is window_empty(), [d_stalled] is
    dl_window_stalled(). *)
Record dltbf := mk_dl {
  d_id : Z; d_state : Z; d_egprs : bool; d_ctrl_ts : bool;
  d_lost : bool; d_tx : Z; d_req : bool;
  d_have_data : bool; d_resend : bool; d_empty : bool; d_stalled : bool;
  d_last_poll : Z; d_last_drain : Z }.

(** T3190 and X2031 in milliseconds (the_pcu->T_defs), and
    vty.dl_tbf_preemptive_retransmission. *)
Record sconf := mk_sconf { c_t3190 : Z; c_idle : Z; c_preemptive : bool }.

(** sched_select_uplink, gprs_rlcmac_sched.cpp:77-108: the loop, [n] steps left. *)
Fixpoint select_ul_loop (n : nat) (ul : Z -> option ultbf) (gprs_only : bool) (tfi : Z)
  : option (Z * ultbf) :=
  match n with
  | O => None
  | S k =>
    let next := select_ul_loop k ul gprs_only (Z.land (tfi + 1) 31) in
    match ul tfi with
    | None => next
    | Some u =>
      if negb (u_flow u) then next
      else if gprs_only && u_egprs u then next
      else Some (tfi, u)
    end
  end.
(** The TBF chosen with its TFI, and next_ul_tfi afterwards. *)
Definition select_uplink (ul : Z -> option ultbf) (gprs_only : bool) (next : Z)
  : option (Z * ultbf) * Z :=
  match select_ul_loop 32 ul gprs_only next with
  | Some (tfi, u) => (Some (tfi, u), Z.land (tfi + 1) 31)
  | None => (None, next)
  end.

(** POLL_ACK_AFTER_FRAMES, tbf_dl.cpp:54. *)
Definition POLL_ACK_AFTER_FRAMES : Z := 20.
(** need_poll_for_dl_ack_nack, tbf_dl.cpp:1162-1169. *)
Definition need_poll (d : dltbf) : bool :=
  d_lost d || (POLL_ACK_AFTER_FRAMES <=? d_tx d) || d_req d.

(** msecs_to_frames, pcu_utils.h:28-30. The product does not overflow an int for less than
    9 700 000 ms; larger values are not considered. *)
Definition msecs_to_frames (ms : Z) : Z := Z.quot (ms * (1024 * 1000 / 4615)) 1024.

(** frames_since_last, tbf_dl.cpp:1177-1188: arithmetic is modulo 2^32 until the result is
    returned as an int. *)
Definition frames_since_last (last fn : Z) : Z :=
  let wrapped := ((fn + HYP - last) mod 4294967296) mod HYP in
  if last <? 0 then -1
  else if wrapped <? HYP / 2 then wrapped
  else wrapped - HYP.

(** keep_open, tbf_dl.cpp:1200-1219. *)
Definition keep_open (c : sconf) (d : dltbf) (fn : Z) : bool :=
  if c_idle c =? 0 then false
  else frames_since_last (d_last_drain d) fn <=? msecs_to_frames (c_idle c).

(** enum tbf_dl_prio, tbf_dl.h:37-44. *)
Definition PRIO_NONE : Z := 0.
Definition PRIO_SENT_DATA : Z := 1.
Definition PRIO_LOW_AGE : Z := 2.
Definition PRIO_NEW_DATA : Z := 3.
Definition PRIO_HIGH_AGE : Z := 4.
Definition PRIO_CONTROL : Z := 5.

(** tbf_compute_priority, gprs_rlcmac_sched.cpp:225-255. *)
Definition compute_priority (c : sconf) (d : dltbf) (fn age : Z) : Z :=
  let t1 := msecs_to_frames 200 in
  let t2 := msecs_to_frames (Z.min (c_t3190 c / 2) (c_idle c)) in
  if d_ctrl_ts d && need_poll d then PRIO_CONTROL
  else if d_ctrl_ts d && (t2 <? age) && (0 <? t2) then PRIO_HIGH_AGE
  else if (d_state d =? 0) && d_have_data d || d_resend d then PRIO_NEW_DATA
  else if d_ctrl_ts d && (t1 <? age) && keep_open c d fn then PRIO_LOW_AGE
  else if negb (d_empty d) then PRIO_SENT_DATA
  else PRIO_NONE.

(** can_produce_gmsk_data_block_next, gprs_rlcmac_sched.cpp:257-283. *)
Definition can_produce_gmsk (d : dltbf) (prio : Z) : bool :=
  if negb (d_egprs d) then true
  else if prio =? PRIO_CONTROL then true
  else if prio =? PRIO_NEW_DATA then negb (d_resend d)
  else false.

Definition keqb (a b : mkind) : bool :=
  match a, b with GPRS, GPRS => true | EGPRS_GMSK, EGPRS_GMSK => true | EGPRS, EGPRS => true
  | _, _ => false end.

(** sched_select_dl_data_msg, gprs_rlcmac_sched.cpp:285-341: the loop. [best] holds
    prio_tfi, prio_tbf and max_prio. *)
Definition best_prio (best : option (Z * dltbf * Z)) : Z :=
  match best with Some (_, _, p) => p | None => PRIO_NONE end.
Fixpoint select_dl_loop (n : nat) (c : sconf) (dl : Z -> option dltbf) (fn : Z) (req : mkind)
  (tfi : Z) (best : option (Z * dltbf * Z)) : option (Z * dltbf * Z) :=
  match n with
  | O => best
  | S k =>
    let next := select_dl_loop k c dl fn req (Z.land (tfi + 1) 31) in
    match dl tfi with
    | None => next best
    | Some d =>
      if negb (d_state d =? 0) && negb (d_state d =? 1) then next best
      else if keqb req GPRS && d_egprs d then next best
      else
        let prio := compute_priority c d fn (frames_since_last (d_last_poll d) fn) in
        if prio =? PRIO_NONE then next best
        else if keqb req EGPRS_GMSK && negb (can_produce_gmsk d prio) then next best
        else if best_prio best <? prio then next (Some (tfi, d, prio))
        else next best
    end
  end.
Definition select_dl (c : sconf) (dl : Z -> option dltbf) (fn : Z) (req : mkind) (next : Z)
  : option (Z * dltbf * Z) * Z :=
  match select_dl_loop 32 c dl fn req next None with
  | Some (tfi, d, p) => (Some (tfi, d, p), Z.land (tfi + 1) 31)
  | None => (None, next)
  end.

(** ** Control messages *)

(** What the scheduler reads of a TBF for control messages: direction, the answers of
    tbf_ul_ack_rts (uplink TBFs only), tbf_dl_ass_rts, tbf_ul_ass_rts, tbf_nacc_rts for
    this PDCH, whether the uplink assignment is a reject, and app_info_pending of its
    mobile. *)
Record ctbf := mk_ct {
  t_id : Z; t_up : bool;
  t_ul_ack : bool; t_dl_ass : bool; t_ul_ass : bool; t_nacc : bool;
  t_reject : bool; t_app : bool }.

(** struct tbf_sched_candidates, gprs_rlcmac_sched.cpp:35-40. *)
Record cands := mk_cands {
  k_ul_ass : option ctbf; k_dl_ass : option ctbf; k_nacc : option ctbf; k_ul_ack : option ctbf }.

(** get_ctrl_msg_tbf_candidates, gprs_rlcmac_sched.cpp:42-75: the TBFs of the TRX in list
    order; the last one wins. *)
Definition cand_ul (k : cands) (t : ctbf) : cands :=
  mk_cands (if t_ul_ass t then Some t else k_ul_ass k)
           (if t_dl_ass t then Some t else k_dl_ass k)
           (if t_nacc t then Some t else k_nacc k)
           (if t_ul_ack t then Some t else k_ul_ack k).
Definition cand_dl (k : cands) (t : ctbf) : cands :=
  mk_cands (if t_ul_ass t then Some t else k_ul_ass k)
           (if t_dl_ass t then Some t else k_dl_ass k)
           (if t_nacc t then Some t else k_nacc k)
           (k_ul_ack k).
Definition candidates (ul dl : list ctbf) : cands :=
  fold_left cand_dl dl (fold_left cand_ul ul (mk_cands None None None None)).

(** The control messages: the four of the rotation, Packet Application Information,
    Packet Paging Request. *)
Inductive ckind : Set := KUlAss | KDlAss | KUlAck | KNacc | KApp | KPaging.
(** A message with the TBF it belongs to ([None]: none). *)
Record cmsg := mk_cmsg { m_kind : ckind; m_tbf : option Z }.

Definition opt_is (o : option ctbf) (t : ctbf) : bool :=
  match o with Some x => t_id x =? t_id t | None => false end.

(** One step of the rotation, gprs_rlcmac_sched.cpp:162-176: the message to create for
    candidate [t]. *)
Definition rot_kind (k : cands) (t : ctbf) : option ckind :=
  if opt_is (k_ul_ass k) t && t_reject t then Some KUlAss
  else if opt_is (k_ul_ass k) t && negb (t_up t) then Some KUlAss
  else if opt_is (k_dl_ass k) t && t_up t then Some KDlAss
  else if opt_is (k_ul_ack k) t then Some KUlAck
  else if opt_is (k_nacc k) t then Some KNacc
  else None.

(** next_list, gprs_rlcmac_sched.cpp:144-147. *)
Definition next_list (k : cands) (i : Z) : option ctbf :=
  if i =? 0 then k_ul_ass k else if i =? 1 then k_dl_ass k
  else if i =? 2 then k_ul_ack k else k_nacc k.

(** The loop, gprs_rlcmac_sched.cpp:153-180; [make kind tbf] says whether the creating
    function returns a message. *)
Fixpoint rot_loop (n : nat) (make : ckind -> Z -> bool) (k : cands) (i : Z) : option cmsg :=
  match n with
  | O => None
  | S j =>
    let next := rot_loop j make k ((i + 1) mod 4) in
    match next_list k i with
    | None => next
    | Some t =>
      match rot_kind k t with
      | None => next
      | Some kd => if make kd (t_id t) then Some (mk_cmsg kd (Some (t_id t))) else next
      end
    end
  end.

(** What a call of sched_select_ctrl_msg does: next_ctrl_prio afterwards, the message
    handed over for transmission, the message created, whether app_info_pending of the
    mobile of the downlink assignment candidate was cleared. *)
Record cres := mk_cres { r_prio : Z; r_sent : option cmsg; r_made : option cmsg; r_cleared : bool }.

(** sched_select_ctrl_msg with sched_app_info, gprs_rlcmac_sched.cpp:110-223. [stored]:
    bts->app_info is present; [paging]: packet_paging_request returns a message. *)
Definition select_ctrl (make : ckind -> Z -> bool) (stored paging : bool) (k : cands) (prio : Z) : cres :=
  let pending := match k_dl_ass k with Some t => t_app t | None => false end in
  if pending && stored then
    (* msg is set, tbf is NULL: the message is freed *)
    mk_cres prio None (Some (mk_cmsg KApp None)) true
  else
    match rot_loop 4 make k (prio mod 4) with
    | Some m => mk_cres ((prio + 1) mod 4) (Some m) (Some m) pending
    | None =>
      let late :=
        match k_dl_ass k with
        | Some t => if make KDlAss (t_id t) then Some (mk_cmsg KDlAss (Some (t_id t))) else None
        | None =>
          match k_ul_ass k with
          | Some t => if make KUlAss (t_id t) then Some (mk_cmsg KUlAss (Some (t_id t))) else None
          | None => None
          end
        end in
      match late with
      | Some m => mk_cres prio (Some m) (Some m) pending
      | None =>
        if paging then mk_cres prio (Some (mk_cmsg KPaging None)) (Some (mk_cmsg KPaging None)) pending
        else mk_cres prio None None pending
      end
    end.

(** rotate_in_list, tbf.cpp:637-644: to the front of its list. *)
Definition rotate_in_list (id : Z) (l : list ctbf) : list ctbf :=
  filter (fun t => t_id t =? id) l ++ filter (fun t => negb (t_id t =? id)) l.

(** ** The request of the physical layer *)

(** The scheduler's state of a PDCH, pdch.h:89-97: next_ul_tfi, next_dl_tfi,
    next_ctrl_prio, fn_without_cs14, and the uplink controller. *)
Record pstate := mk_ps { p_ul : Z; p_dl : Z; p_ctrl : Z; p_cs14 : Z; p_ulc : tree }.
(** A PDCH at start: the structure is allocated with zeros. *)
Definition ps_init : pstate := mk_ps 0 0 0 0 Leaf.

(** The surroundings at the time of a request: the TBFs of this PDCH by TFI; the uplink
    TBF with a given number, if there is one (for the TBF being polled); the TBFs of the
    TRX; the creating functions; whether create_dl_acked_block returns a message for a
    given TFI; has_gprs_only_tbf_attached; num_tbfs of both directions; TRX number;
    gen_idle_blocks_C0. *)
Record senv := mk_env {
  e_conf : sconf; e_ul : Z -> option ultbf; e_dl : Z -> option dltbf;
  e_by_id : Z -> option ultbf;
  e_ul_list : list ctbf; e_dl_list : list ctbf;
  e_make : ckind -> Z -> bool; e_stored : bool; e_paging : bool;
  e_block : Z -> bool; e_gprs : bool; e_num : Z; e_trx : Z; e_idle_c0 : bool }.

(** The block handed to the physical layer: a control message, a data block of the TBF
    with a TFI and the restriction it was made under, the dummy control block, or
    nothing. *)
Inductive sblock : Set :=
| SbCtrl (m : cmsg)
| SbData (tfi : Z) (egprs : bool) (req : mkind) (prio : Z)
| SbDummy
| SbNothing.
(** The result of a request: the block and the USF in it (of no meaning for
    [SbNothing]). *)
Record sout := mk_out { o_block : sblock; o_usf : Z }.

(** gprs_rlcmac_rcv_rts_block, gprs_rlcmac_sched.cpp:391-528, for a valid and enabled PDCH:
    first the uplink part, 424-473. Result: the TBF whose USF is used, next_ul_tfi, the
    uplink controller, the restriction for downlink data. *)
Definition rts_uplink (bal : tree -> tree) (e : senv) (s : pstate) (fn bn : Z)
  : option ultbf * Z * tree * mkind :=
  let gprs_only := p_cs14 s =? MS_RESYNC_NUM_FRAMES - 1 in
  let req0 := if gprs_only then GPRS else EGPRS in
  let pfn := rts_next_fn fn bn in
  let '(u, nul, t) :=
    match get_sba (p_ulc s) pfn with
    | Some _ => (None, p_ul s, p_ulc s)
    | None =>
      match get_tbf_poll (p_ulc s) pfn with
      | Some b =>
        (match e_by_id e b with
         | Some u => if u_usf u =? USF_INVALID then None else Some u
         | None => None
         end, p_ul s, p_ulc s)
      | None =>
        match select_uplink (e_ul e) gprs_only (p_ul s) with
        | (Some (_, u), nul) => (Some u, nul, fst (reserve bal (p_ulc s) pfn (OUsf (u_id u))))
        | (None, nul) => (None, nul, p_ulc s)
        end
      end
    end in
  let req := match u with
             | Some x => if keqb req0 EGPRS && negb (keqb (u_mode x) EGPRS) then EGPRS_GMSK else req0
             | None => req0
             end in
  (u, nul, t, req).

(** The block, 475-500: the block, tx_is_egprs, next_dl_tfi. *)
Definition rts_block (e : senv) (s : pstate) (fn : Z) (req : mkind) (c : cres) : sblock * bool * Z :=
  let dummy := if (e_num e =? 0) && negb (e_idle_c0 e && (e_trx e =? 0)) then SbNothing else SbDummy in
  match r_sent c with
  | Some m => (SbCtrl m, false, p_dl s)
  | None =>
    match select_dl (e_conf e) (e_dl e) fn req (p_dl s) with
    | (Some (tfi, d, p), ndl) =>
      (if e_block e tfi then SbData tfi (d_egprs d) req p else dummy, d_egprs d, ndl)
    | (None, ndl) => (dummy, false, ndl)
    end
  end.
(** The whole, 391-528. *)
Definition rts_step (bal : tree -> tree) (e : senv) (s : pstate) (fn bn : Z) : pstate * sout :=
  let '(u, nul, t, req) := rts_uplink bal e s fn bn in
  let c := select_ctrl (e_make e) (e_stored e) (e_paging e) (candidates (e_ul_list e) (e_dl_list e)) (p_ctrl s) in
  let '(blk, egprs, ndl) := rts_block e s fn req c in
  let n := if egprs && e_gprs e then (p_cs14 s + 1) mod 4294967296 else 0 in
  (mk_ps nul ndl (r_prio c) n t,
   mk_out blk (match u with Some x => u_usf x | None => USF_UNUSED end)).

(** A sequence of requests. *)
Record rts := mk_rts { q_env : senv; q_fn : Z; q_bn : Z }.
Fixpoint rts_run (bal : tree -> tree) (l : list rts) (s : pstate) : pstate * list sout :=
  match l with
  | [] => (s, [])
  | q :: r =>
    let '(s1, o) := rts_step bal (q_env q) s (q_fn q) (q_bn q) in
    let '(s2, os) := rts_run bal r s1 in
    (s2, o :: os)
  end.

(** ** The scheme of a data block under a restriction *)

(** take_next_bsn, tbf_dl.cpp:265-390, for the first block of a radio block: whether a
    block already sent goes out again. *)
Definition resends (c : sconf) (d : dltbf) : bool :=
  if d_resend d then true
  else if d_state d =? 1 then true
  else if d_stalled d then true
  else if d_have_data d then false
  else if c_preemptive c && negb (d_empty d) then true
  else false.
