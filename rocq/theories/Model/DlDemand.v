(** When a downlink TBF is set up for data queued for one mobile: what the arrival of data, the two TBFs of the mobile
    and their timers do about it. Time, radio resources and the frames of the polls are abstracted: any running timer
    can run out at any time, an allocation succeeds or not as the operation says, the polls of the uplink TBF are
    answered or missed in the order in which they were sent. *)
From Coq Require Import List Arith Bool.
Import ListNotations.

(** State of a downlink assignment message: tbf_dl_ass_fsm.c:153-260, without NONE. *)
Inductive ass := Send | Sent.

(** State of the current downlink TBF: tbf_dl_fsm.c:106-380, enum tbf_fsm_states (tbf_fsm.h). ASSIGN is split by
    the way the assignment is made. NEW is k as soon as the TBF is made. *)
Inductive dst :=
| DPch (cnf : bool)     (* ASSIGN, on the paging channel; the BTS has confirmed it and X2002 runs *)
| DSelf (a : ass)       (* ASSIGN, on its own PACCH for more timeslots *)
| DPacch                (* ASSIGN, on the PACCH of another TBF; X2001 runs *)
| DFlow (first : bool)  (* FLOW; assigned on the paging channel and nothing heard since *)
| DFin                  (* FINISHED *)
| DRel                  (* WAIT_RELEASE, T3192 runs *)
| DReuse                (* WAIT_REUSE_TFI, T3193 runs *)
| DOff.                 (* RELEASING, T3195 runs *)

(** State of the current uplink TBF: tbf_ul_fsm.c:103-290. *)
Inductive ust := UAssign | UFlow | UFin | UOff.
(** Its acknowledgement, tbf_ul_ack_fsm.c:98-190. *)
Inductive uack := ANone | ASched | AWait.
(** What the mobile has been asked to answer on it (enum pdch_ulc_tbf_poll_reason, pdch_ul_controller.h). *)
Inductive upoll := PAck | PAss.
(** [u_left]: blocks the mobile has still to send. [u_cr]: m_contention_resolution_done, tbf_ul.h:104. *)
Record ult := mk_ul {
  u_st : ust; u_cr : bool; u_left : nat; u_ack : uack; u_ass : option ass; u_polls : list upoll }.

(** The mobile: length of its LLC queue, the current TBFs (gprs_ms.h ul_tbf, dl_tbf) and, of the former downlink
    TBFs, what one of them has still to send of an assignment. *)
Record mob := mk_mob { m_q : nat; m_dl : option dst; m_ul : option ult; m_old : option ass }.

Definition mob0 : mob := mk_mob 0 None None None.

Definition set_dl (s : mob) (d : option dst) : mob := mk_mob (m_q s) d (m_ul s) (m_old s).
Definition set_ul (s : mob) (u : option ult) : mob := mk_mob (m_q s) (m_dl s) u (m_old s).
Definition set_old (s : mob) (o : option ass) : mob := mk_mob (m_q s) (m_dl s) (m_ul s) o.
Definition set_q (s : mob) (q : nat) : mob := mk_mob q (m_dl s) (m_ul s) (m_old s).
Definition set_ass (u : ult) (a : option ass) : ult := mk_ul (u_st u) (u_cr u) (u_left u) (u_ack u) a (u_polls u).
Definition set_polls (u : ult) (p : list upoll) : ult := mk_ul (u_st u) (u_cr u) (u_left u) (u_ack u) (u_ass u) p.
Definition set_ack (u : ult) (a : uack) : ult := mk_ul (u_st u) (u_cr u) (u_left u) a (u_ass u) (u_polls u).
Definition set_st (u : ult) (x : ust) : ult := mk_ul x (u_cr u) (u_left u) (u_ack u) (u_ass u) (u_polls u).

(** ms_need_dl_tbf, gprs_ms.h:164-186. *)
Definition need (s : mob) : bool :=
  match m_dl s with
  | None | Some DReuse | Some DOff => 0 <? m_q s
  | Some _ => false
  end.

(** ms_is_reachable_for_dl_ass, gprs_ms.c:1094-1126, with an uplink TBF. *)
Definition reachable (u : ult) : bool :=
  u_cr u && negb (match u_ack u with AWait => true | _ => false end) && negb (match u_st u with UOff => true | _ => false end).

(** TBF_DL_ASS_EV_SCHED_ASS, tbf_dl_ass_fsm.c:145-160: refused unless in NONE. *)
Definition sched (a : option ass) : option ass := match a with None => Some Send | Some x => Some x end.

(** ms_new_dl_tbf_assigned_on_pch, gprs_ms.c:1318-1361; [ok]: resources were found. *)
Definition by_pch (ok : bool) (s : mob) : mob := if ok then set_dl s (Some (DPch false)) else s.
(** ms_new_dl_tbf_assigned_on_pacch, gprs_ms.c:1268-1311, and dl_tbf_trigger_ass_on_pacch, tbf_dl.cpp:464-477: with
    the uplink TBF, and with the current downlink TBF, which thereby becomes a former one (ms_attach_dl_tbf). *)
Definition by_ul (ok : bool) (u : ult) (s : mob) : mob :=
  if ok then set_ul (set_dl s (Some DPacch)) (Some (set_ass u (sched (u_ass u)))) else s.
Definition by_dl (ok : bool) (s : mob) : mob :=
  if ok then set_old (set_dl s (Some DPacch)) (Some Send) else s.

(** ms_append_llc_dl_data, gprs_ms.c:1364-1410. *)
Definition data (ok : bool) (s : mob) : mob :=
  let s := set_q s (S (m_q s)) in
  match m_dl s with
  | Some DRel => by_dl ok s
  | None | Some DReuse =>
    match m_ul s with
    | None => by_pch ok s
    | Some u => if reachable u then by_ul ok u s else s
    end
  | Some _ => s
  end.

(** TBF_EV_ASSIGN_ACK_PACCH at the current downlink TBF: tbf_dl_fsm.c:157-168, 442-560 (refused after ASSIGN). *)
Definition assigned (d : option dst) : option dst :=
  match d with
  | Some (DPch _) | Some (DSelf _) | Some DPacch => Some (DFlow false)
  | d => d
  end.

(** A new uplink TBF assigned on the PACCH, ms_new_ul_tbf_assigned_pacch, gprs_ms.c:1134-1179; its contention
    resolution counts as done (tbf_ul.cpp:131). *)
Definition new_ul (k : nat) : ult := mk_ul UAssign true (S k) ANone None [].

(** After a block of uplink data: tbf_ul.cpp:395-411 (all received: FINISHED), maybe_schedule_uplink_acknack,
    tbf_ul.cpp:420-457. *)
Definition after_block (u : ult) (k : nat) (want : bool) : ult :=
  match k with
  | O => mk_ul UFin (u_cr u) O (match u_ack u with AWait => AWait | _ => ASched end) (u_ass u) (u_polls u)
  | S _ => mk_ul UFlow (u_cr u) k
             (if want then match u_ack u with AWait => AWait | _ => ASched end else u_ack u) (u_ass u) (u_polls u)
  end.

Inductive op :=
(* from the SGSN and from the mobile *)
| Data (ok : bool)
| Access (back k : nat)
| Request (ok : bool) (k : nat)
| Change (ok : bool) (k : nat)
| AnswerReq (ok : bool) (k : nat)
(* the uplink TBF *)
| UlAssigned (ok : bool)
| UlBlock (want : bool)
| SendAck (ok : bool)
| SendAss
| Answer (ok : bool)
| Missed
| N3103
| N3101
| UlTimeout
(* the downlink TBF *)
| Cnf
| X2002 (up : option bool)
| SelfSend
| SelfAnswer
| SelfMissed
| OldSend
| OldAnswer
| OldMissed
| OldGone
| Push
| DlAck
| DlMiss
| DlLast
| DlFinal (ok : bool)
| N3105
| T3191
| T3192
| T3193
| T3195
| X2001.

(** One event; [None]: it cannot happen in this state. *)
Definition step (s : mob) (o : op) : option mob :=
  match o with
  | Data ok => Some (data ok s)
  (* The first block of an uplink TBF assigned on CCCH, with the TLLI. Until now it belonged to an unknown mobile:
     ms_merge_and_clear_ms, gprs_ms.c:456-489, moves the queue and puts [back] the frames not acknowledged, then frees
     the TBFs of the mobile (ms_reset); FIRST_UL_DATA_RECVD, tbf_ul_fsm.c:190-211. *)
  | Access back k =>
      Some (mk_mob (back + m_q s) None (Some (after_block (mk_ul UFlow false k ANone None []) k true)) None)
  (* Packet Resource Request in a single block allocation, pdch.cpp:716-743, 787-811. *)
  | Request ok k =>
      Some (mk_mob (m_q s) None (if ok then Some (new_ul k) else None) (m_old s))
  (* Packet Resource Request in a block of the uplink TBF, pdch.cpp:686-715, 787-811. *)
  | Change ok k =>
      match m_ul s with
      | Some (mk_ul UFlow _ _ _ _ _) => Some (set_ul s (if ok then Some (new_ul k) else None))
      | _ => None
      end
  (* Packet Resource Request as answer to the final acknowledgement, pdch.cpp:744-777, 787-811; tbf_ul_fsm.c:233-258. *)
  | AnswerReq ok k =>
      match m_ul s with
      | Some (mk_ul UFin _ _ AWait _ (PAck :: _)) => Some (set_ul s (if ok then Some (new_ul k) else None))
      | _ => None
      end
  (* Packet Control Acknowledgement of an uplink assignment, pdch.cpp:385-416; tbf_ul_fsm.c:160-172. *)
  | UlAssigned ok =>
      match m_ul s with
      | Some u =>
        match u_st u with
        | UAssign => let u := set_st u UFlow in
                     let s := set_ul s (Some u) in
                     Some (if need s then by_ul ok u s else s)
        | _ => None
        end
      | None => None
      end
  | UlBlock want =>
      match m_ul s with
      | Some u => match u_st u, u_left u with
                  | UFlow, S k => Some (set_ul s (Some (after_block u k want)))
                  | _, _ => None
                  end
      | None => None
      end
  (* st_sched_ul_ack, tbf_ul_ack_fsm.c:109-155; contention_resolution_success, tbf_ul.cpp:223-243 (refused in
     RELEASING). *)
  | SendAck ok =>
      match m_ul s with
      | Some u =>
        match u_ack u with
        | ASched =>
          let u := match u_st u with
                   | UFin => set_polls (set_ack u AWait) (u_polls u ++ [PAck])
                   | _ => set_ack u ANone
                   end in
          match u_cr u, u_st u with
          | false, UFlow | false, UFin =>
            let u := mk_ul (u_st u) true (u_left u) (u_ack u) (u_ass u) (u_polls u) in
            let s := set_ul s (Some u) in
            Some (if need s && negb (match u_ack u with AWait => true | _ => false end) then by_ul ok u s else s)
          | _, _ => Some (set_ul s (Some u))
          end
        | _ => None
        end
      | None => None
      end
  (* tbf_dl_ass_rts, tbf_dl_ass_fsm.c:301-330; create_packet_dl_assign, 59-140: nothing to assign: back to NONE. *)
  | SendAss =>
      match m_ul s with
      | Some u =>
        match u_ass u, u_cr u with
        | Some Send, true =>
          match m_dl s with
          | None => Some (set_ul s (Some (set_ass u None)))
          | Some _ => Some (set_ul s (Some (set_polls (set_ass u (Some Sent)) (u_polls u ++ [PAss]))))
          end
        | _, _ => None
        end
      | None => None
      end
  (* rcv_control_ack, pdch.cpp:336-450; tbf_ul_fsm.c:233-258; the polls of a TBF go with it. *)
  | Answer ok =>
      match m_ul s with
      | Some u =>
        match u_polls u with
        | PAck :: ps =>
          match u_ack u, u_st u with
          | AWait, UFin => let s := set_ul s None in Some (if need s then by_pch ok s else s)
          | AWait, _ => Some (set_ul s (Some (set_polls (set_ack u ANone) ps)))
          | _, _ => Some (set_ul s (Some (set_polls u ps)))
          end
        | PAss :: ps =>
          match u_ass u with
          | Some Sent => Some (set_ul (set_dl s (assigned (m_dl s))) (Some (set_polls (set_ass u None) ps)))
          | _ => Some (set_ul s (Some (set_polls u ps)))
          end
        | [] => None
        end
      | None => None
      end
  (* poll_timeout, tbf.cpp:482-580: the message is sent again; N3103 reached: the TBF is given up. *)
  | Missed =>
      match m_ul s with
      | Some u =>
        match u_polls u with
        | PAck :: ps => Some (set_ul s (Some (set_polls (match u_ack u with AWait => set_ack u ASched | _ => u end) ps)))
        | PAss :: ps => Some (set_ul s (Some (set_polls (match u_ass u with Some Sent => set_ass u (Some Send) | _ => u end) ps)))
        | [] => None
        end
      | None => None
      end
  | N3103 =>
      match m_ul s with
      | Some u => match u_st u, u_ack u, u_polls u with
                  | UFin, AWait, PAck :: ps => Some (set_ul s (Some (set_polls (set_st u UOff) ps)))
                  | _, _, _ => None
                  end
      | None => None
      end
  (* tbf_ul_fsm.c:219-221. *)
  | N3101 =>
      match m_ul s with
      | Some u => match u_st u with UFlow => Some (set_ul s (Some (set_st u UOff))) | _ => None end
      | None => None
      end
  (* T3168 and T3169, tbf_ul_fsm.c:286-305; T3141, tbf.cpp:405-430: the TBF is freed. *)
  | UlTimeout =>
      match m_ul s with
      | Some u => match u_st u, u_cr u with
                  | UAssign, _ | UOff, _ | _, false => Some (set_ul s None)
                  | _, true => None
                  end
      | None => None
      end
  (* TBF_EV_ASSIGN_PCUIF_CNF, tbf_dl_fsm.c:169-199. A second one only restarts X2002. *)
  | Cnf => match m_dl s with Some (DPch false) => Some (set_dl s (Some (DPch true))) | _ => None end
  (* handle_timeout_X2002, tbf_dl_fsm.c:380-411; dl_tbf_upgrade_to_multislot, tbf_dl.cpp:494-537. *)
  | X2002 up =>
      match m_dl s with
      | Some (DPch true) =>
        Some (set_dl s (match up with
                        | None => Some (DFlow true)
                        | Some true => Some (DSelf Send)
                        | Some false => None
                        end))
      | _ => None
      end
  | SelfSend => match m_dl s with Some (DSelf Send) => Some (set_dl s (Some (DSelf Sent))) | _ => None end
  | SelfAnswer => match m_dl s with Some (DSelf Sent) => Some (set_dl s (Some (DFlow false))) | _ => None end
  | SelfMissed => match m_dl s with Some (DSelf Sent) => Some (set_dl s (Some (DSelf Send))) | _ => None end
  (* The same on a former downlink TBF. *)
  | OldSend =>
      match m_old s with
      | Some Send => Some (set_old s (match m_dl s with None => None | Some _ => Some Sent end))
      | _ => None
      end
  | OldAnswer =>
      match m_old s with
      | Some Sent => Some (set_old (set_dl s (assigned (m_dl s))) None)
      | _ => None
      end
  | OldMissed => match m_old s with Some Sent => Some (set_old s (Some Send)) | _ => None end
  | OldGone => match m_old s with Some _ => Some (set_old s None) | None => None end
  (* A frame is taken from the queue, in FLOW only: tbf_dl.cpp:575-700. *)
  | Push => match m_dl s, m_q s with Some (DFlow _), S q => Some (set_q s q) | _, _ => None end
  | DlAck => match m_dl s with Some (DFlow true) => Some (set_dl s (Some (DFlow false))) | _ => None end
  (* TBF_EV_DL_ACKNACK_MISS, tbf_dl_fsm.c:231-243: assigned again on the paging channel. *)
  | DlMiss => match m_dl s with Some (DFlow true) => Some (set_dl s (Some (DPch false))) | _ => None end
  | DlLast => match m_dl s, m_q s with Some (DFlow _), O => Some (set_dl s (Some DFin)) | _, _ => None end
  (* st_finished, st_wait_release_on_enter, tbf_dl_fsm.c:256-305. *)
  | DlFinal ok =>
      match m_dl s with
      | Some DFin => let s := set_dl s (Some DRel) in Some (if 0 <? m_q s then by_dl ok s else s)
      | _ => None
      end
  | N3105 =>
      match m_dl s with
      | Some (DFlow _) | Some DFin | Some DRel | Some (DSelf Sent) => Some (set_dl s (Some DOff))
      | _ => None
      end
  (* cb_T3191, tbf.cpp:405-425; started with the last block, tbf_dl.cpp:885-892. *)
  | T3191 => match m_dl s with Some DFin => Some (set_dl s None) | _ => None end
  (* tbf_dl_fsm_timer_cb, tbf_dl_fsm.c:413-448. *)
  | T3192 => match m_dl s with Some DRel => Some (set_dl s (Some DReuse)) | _ => None end
  | T3193 => match m_dl s with Some DReuse => Some (set_dl s None) | _ => None end
  | T3195 => match m_dl s with Some DOff => Some (set_dl s None) | _ => None end
  | X2001 =>
      match m_dl s with
      | Some DPacch => Some (set_ul (set_dl s None) (option_map (fun u => set_ass u None) (m_ul s)))
      | _ => None
      end
  end.

Fixpoint run (s : mob) (os : list op) : option mob :=
  match os with
  | [] => Some s
  | o :: os => match step s o with Some s' => run s' os | None => None end
  end.
