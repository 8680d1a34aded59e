(** One TBF with its sub-machines: uplink assignment, downlink assignment and
    uplink acknowledgement, its polls, and its counters N3101, N3103 and N3105.

    Models src/tbf_ul_ass_fsm.c, src/tbf_dl_ass_fsm.c, src/tbf_ul_ack_fsm.c,
    poll_timeout, n_inc and n_reset of src/tbf.cpp, usf_timeout of
    src/tbf_ul.cpp, and the poll answers of src/pdch.cpp.

    A poll is known by its reason only: how it is placed in the uplink
    controller is in Model/UlController.v.  The contents of the messages are not
    modelled; whether a message can be made is an input.  [None] is a failed
    assertion. *)
From Coq Require Import ZArith List Bool.
From Verif Require Import Model.TbfFsm.
Import ListNotations.
Open Scope Z_scope.

Inductive dir := DL | UL.

(** src/tbf_ul_ass_fsm.h:35-40. *)
Inductive uast := UA_NONE | UA_SEND | UA_REJ | UA_WAIT.
(** src/tbf_dl_ass_fsm.h:34-38. *)
Inductive dast := DA_NONE | DA_SEND | DA_WAIT.
(** src/tbf_ul_ack_fsm.h:34-38. *)
Inductive ukst := UK_NONE | UK_SCHED | UK_WAIT.

(** src/tbf.h [enum tbf_counters]. *)
Inductive counter := N3101 | N3103 | N3105.

(** Poll reasons, src/pdch_ul_controller.h:47-53 (without cell change). *)
Inductive reason := P_UL_ASS | P_DL_ASS | P_UL_ACK | P_DL_ACK.

(** The number of outstanding polls of each reason. *)
Record polls := Polls { p_ua : nat; p_da : nat; p_uk : nat; p_dk : nat }.

Record tbf := Tbf {
  t_dir : dir;
  t_f : fsm;                                  (* state_fi *)
  t_ua : uast; t_uaT : Z; t_uatm : option Z;  (* ul_ass_fsm with its timer *)
  t_da : dast;                                (* dl_ass_fsm *)
  t_uk : ukst;                                (* ul_ack_fsm, uplink only *)
  t_n1 : Z; t_n3 : Z; t_n5 : Z;               (* Narr *)
  t_p : polls;
  t_usf : nat;                                (* USF granted and not yet used *)
  t_l1 : Z; t_l3 : Z; t_l5 : Z }.             (* bts->n3101, n3103, n3105 *)

Definition set_f f t := Tbf (t_dir t) f (t_ua t) (t_uaT t) (t_uatm t) (t_da t) (t_uk t) (t_n1 t) (t_n3 t) (t_n5 t) (t_p t) (t_usf t) (t_l1 t) (t_l3 t) (t_l5 t).
Definition set_ua s T x t := Tbf (t_dir t) (t_f t) s T x (t_da t) (t_uk t) (t_n1 t) (t_n3 t) (t_n5 t) (t_p t) (t_usf t) (t_l1 t) (t_l3 t) (t_l5 t).
Definition set_da s t := Tbf (t_dir t) (t_f t) (t_ua t) (t_uaT t) (t_uatm t) s (t_uk t) (t_n1 t) (t_n3 t) (t_n5 t) (t_p t) (t_usf t) (t_l1 t) (t_l3 t) (t_l5 t).
Definition set_uk s t := Tbf (t_dir t) (t_f t) (t_ua t) (t_uaT t) (t_uatm t) (t_da t) s (t_n1 t) (t_n3 t) (t_n5 t) (t_p t) (t_usf t) (t_l1 t) (t_l3 t) (t_l5 t).
Definition set_n a b c t := Tbf (t_dir t) (t_f t) (t_ua t) (t_uaT t) (t_uatm t) (t_da t) (t_uk t) a b c (t_p t) (t_usf t) (t_l1 t) (t_l3 t) (t_l5 t).
Definition set_p p t := Tbf (t_dir t) (t_f t) (t_ua t) (t_uaT t) (t_uatm t) (t_da t) (t_uk t) (t_n1 t) (t_n3 t) (t_n5 t) p (t_usf t) (t_l1 t) (t_l3 t) (t_l5 t).
Definition set_usf n t := Tbf (t_dir t) (t_f t) (t_ua t) (t_uaT t) (t_uatm t) (t_da t) (t_uk t) (t_n1 t) (t_n3 t) (t_n5 t) (t_p t) n (t_l1 t) (t_l3 t) (t_l5 t).
Definition set_l a b c t := Tbf (t_dir t) (t_f t) (t_ua t) (t_uaT t) (t_uatm t) (t_da t) (t_uk t) (t_n1 t) (t_n3 t) (t_n5 t) (t_p t) (t_usf t) a b c.

(** Reserves a poll (tbf_set_polling, src/tbf.cpp:434-480) or removes one. *)
Definition more_polls r t :=
  let p := t_p t in
  set_p (match r with
         | P_UL_ASS => Polls (S (p_ua p)) (p_da p) (p_uk p) (p_dk p)
         | P_DL_ASS => Polls (p_ua p) (S (p_da p)) (p_uk p) (p_dk p)
         | P_UL_ACK => Polls (p_ua p) (p_da p) (S (p_uk p)) (p_dk p)
         | P_DL_ACK => Polls (p_ua p) (p_da p) (p_uk p) (S (p_dk p))
         end) t.
Definition less_polls r t :=
  let p := t_p t in
  set_p (match r with
         | P_UL_ASS => Polls (pred (p_ua p)) (p_da p) (p_uk p) (p_dk p)
         | P_DL_ASS => Polls (p_ua p) (pred (p_da p)) (p_uk p) (p_dk p)
         | P_UL_ACK => Polls (p_ua p) (p_da p) (pred (p_uk p)) (p_dk p)
         | P_DL_ACK => Polls (p_ua p) (p_da p) (p_uk p) (pred (p_dk p))
         end) t.
Definition outstanding r t : nat :=
  let p := t_p t in
  match r with P_UL_ASS => p_ua p | P_DL_ASS => p_da p | P_UL_ACK => p_uk p | P_DL_ACK => p_dk p end.

(** What can be seen from outside: a counter has reached its limit; a message was made. *)
Inductive sout := Lost (n : counter) | Msg (r : reason) | MsgReject.

(** tbf_free from outside of the life-cycle machine. *)
Definition kill w t := set_f (free w (t_f t)) t.

(** ** Uplink assignment, src/tbf_ul_ass_fsm.c *)

(** State change to NONE (lines 155-185): the timer is deleted; X2000 starts when
    the assignment of an uplink TBF was rejected on its own PACCH. *)
Definition ua_none (c : tconf) t :=
  match t_ua t, t_dir t with
  | UA_REJ, UL => set_ua UA_NONE (-2000) (Some (f_now (t_f t) + c_x2000 c)) t
  | _, _ => set_ua UA_NONE 0 None t
  end.

(** TBF_UL_ASS_EV_SCHED_ASS: lines 187-203, 205-232.  Refused but in NONE. *)
Definition ua_sched (c : tconf) t :=
  match t_ua t with
  | UA_NONE => set_ua UA_SEND 3168 (Some (f_now (t_f t) + 4 * c_t3168 c)) t
  | _ => t
  end.

(** TBF_UL_ASS_EV_SCHED_ASS_REJ: lines 187-203. *)
Definition ua_rej t :=
  match t_ua t with UA_NONE => set_ua UA_REJ 0 None t | _ => t end.

(** TBF_UL_ASS_EV_ABORT: lines 187-203, 234-255, 257-278, 280-312. *)
Definition ua_abort (c : tconf) t :=
  match t_ua t with
  | UA_NONE | UA_WAIT => t
  | UA_SEND | UA_REJ => ua_none c t
  end.

(** A slot of the scheduler for the uplink assignment (tbf_ul_ass_rts, lines
    402-413, then tbf_ul_ass_create_rlcmac_msg with lines 82-153, 234-278):
    [ctrl] it is the control timeslot, [poll] a poll can be placed, [peer] the
    mobile has an uplink TBF, [enc] the message can be encoded. *)
Definition ua_rts (c : tconf) (ctrl poll peer enc : bool) t : option (tbf * list sout) :=
  if negb ctrl then Some (t, [])
  else match t_ua t with
  | UA_SEND =>
      if negb poll then Some (t, [])
      else if negb peer then Some (ua_none c t, [])
      else if negb enc then Some (t, [])
      else Some (more_polls P_UL_ASS (set_ua UA_WAIT (t_uaT t) (t_uatm t) t), [Msg P_UL_ASS])
  | UA_REJ => Some (ua_none c t, [MsgReject])
  | _ => Some (t, [])
  end.

(** TBF_UL_ASS_EV_RX_ASS_CTRL_ACK and ASS_POLL_TIMEOUT: lines 280-312.  The timer
    keeps running when the state goes back to SEND_ASS. *)
Definition ua_ack (c : tconf) t :=
  match t_ua t with UA_WAIT => ua_none c t | _ => t end.
Definition ua_timeout (c : tconf) t :=
  match t_ua t with
  | UA_WAIT => if tst_eqb (f_st (t_f t)) ASSIGN then set_ua UA_SEND (t_uaT t) (t_uatm t) t else ua_none c t
  | _ => t
  end.

(** tbf_ul_ass_fsm_timer_cb: lines 314-327. *)
Definition ua_timer t : option (tbf * list sout) :=
  if due (t_uatm t) (f_now (t_f t)) then
    if t_uaT t =? -2000 then Some (kill ByUlAss2000 t, [])
    else if t_uaT t =? 3168 then Some (kill ByUlAss3168 t, [])
    else None
  else Some (t, []).

(** ** Downlink assignment, src/tbf_dl_ass_fsm.c *)
Definition da_sched t := match t_da t with DA_NONE => set_da DA_SEND t | _ => t end.
Definition da_abort t := match t_da t with DA_NONE => t | _ => set_da DA_NONE t end.
Definition da_ack t := match t_da t with DA_WAIT => set_da DA_NONE t | _ => t end.
Definition da_timeout t := match t_da t with DA_WAIT => set_da DA_SEND t | _ => t end.

(** tbf_dl_ass_rts (lines 284-316) and then tbf_dl_ass_create_rlcmac_msg with
    create_packet_dl_assign (lines 58-141) and st_send_ass (159-181).
    [resolved]: the contention resolution of an uplink TBF is done; [peer]: the
    mobile has a downlink TBF; [tlli]: it has a TLLI, or the TFI of this TBF is
    not assigned (the test in the program is the wrong way round). *)
Definition da_rts (ctrl resolved poll peer tlli enc : bool) t : option (tbf * list sout) :=
  if negb ctrl then Some (t, [])
  else match t_da t, t_ua t with
  | DA_SEND, UA_WAIT => Some (t, [])
  | DA_SEND, _ =>
      if (match t_dir t with UL => negb resolved | DL => false end) then Some (t, [])
      else if negb ctrl then None  (* OSMO_ASSERT(tbf_is_control_ts) *)
      else if negb poll then Some (t, [])
      else if negb peer then Some (set_da DA_NONE t, [])
      else if negb tlli then Some (set_da DA_NONE t, [])
      else if negb enc then Some (t, [])
      else Some (more_polls P_DL_ASS (set_da DA_WAIT t), [Msg P_DL_ASS])
  | _, _ => Some (t, [])
  end.

(** ** The life-cycle machine and its effects on the sub-machines *)
Inductive lifeop := LDl (o : dlop) | LUl (o : ulop).

(** Effects on this TBF: src/tbf_dl_fsm.c:187-195 (abort of the uplink
    assignment) and src/tbf_dl.cpp:462-477 (upgrade: assignment on own PACCH). *)
Fixpoint apply_effs (c : tconf) (l : list teff) t : tbf :=
  match l with
  | [] => t
  | EAbortUlAss :: l => apply_effs c l (ua_abort c t)
  | EUpgrade :: l => apply_effs c l (da_sched t)
  | _ :: l => apply_effs c l t
  end.

Definition life (c : tconf) (o : lifeop) t : option tbf :=
  match t_dir t, o with
  | DL, LDl o => option_map (fun r => apply_effs c (snd r) (set_f (fst r) t)) (dl_op c o (t_f t))
  | UL, LUl o => option_map (fun r => apply_effs c (snd r) (set_f (fst r) t)) (ul_op c o (t_f t))
  | _, _ => Some t
  end.

(** ** Uplink acknowledgement, src/tbf_ul_ack_fsm.c *)
Definition uk_sched t := match t_uk t with UK_NONE => set_uk UK_SCHED t | _ => t end.
Definition uk_ack t := match t_uk t with UK_WAIT => set_uk UK_NONE t | _ => t end.
Definition uk_timeout t := match t_uk t with UK_WAIT => set_uk UK_SCHED t | _ => t end.

(** tbf_ul_ack_rts (lines 226-235) and st_sched_ul_ack with create_ul_ack_nack
    (60-110, 112-160).  [tlli]: the mobile has a TLLI and the contention
    resolution is not done yet. *)
Definition uk_rts (c : tconf) (ctrl poll tlli : bool) t : option (tbf * list sout) :=
  if negb ctrl then Some (t, [])
  else match t_uk t with
  | UK_SCHED =>
      let final := tst_eqb (f_st (t_f t)) FINISHED in
      if final && negb poll then Some (t, [])
      else
        let t := if final then more_polls P_UL_ACK (set_uk UK_WAIT t) else set_uk UK_NONE t in
        if tlli then option_map (fun t => (t, [Msg P_UL_ACK])) (life c (LUl (UEv CONT_RES_SUCCESS)) t)
        else Some (t, [Msg P_UL_ACK])
  | _ => Some (t, [])
  end.

(** ** Counters, src/tbf.cpp:308-366 *)

(** A counter belongs to one direction. *)
Definition right_dir n t : bool :=
  match n, t_dir t with
  | N3101, UL | N3103, UL | N3105, DL => true
  | _, _ => false
  end.

Definition n_reset n t : option tbf :=
  if right_dir n t then
    Some (match n with
          | N3101 => set_n 0 (t_n3 t) (t_n5 t) t
          | N3103 => set_n (t_n1 t) 0 (t_n5 t) t
          | N3105 => set_n (t_n1 t) (t_n3 t) 0 t
          end)
  else None.

(** uint8_t counters; the limit is compared for equality. *)
Definition n_inc n t : option (tbf * bool) :=
  if right_dir n t then
    Some (match n with
          | N3101 => let x := (t_n1 t + 1) mod 256 in (set_n x (t_n3 t) (t_n5 t) t, x =? t_l1 t)
          | N3103 => let x := (t_n3 t + 1) mod 256 in (set_n (t_n1 t) x (t_n5 t) t, x =? t_l3 t)
          | N3105 => let x := (t_n5 t + 1) mod 256 in (set_n (t_n1 t) (t_n3 t) x t, x =? t_l5 t)
          end)
  else None.

(** Counts in the given direction; at the limit the event [e] goes to the
    life-cycle machine, otherwise [k] is done. *)
Definition count (c : tconf) n e (k : tbf -> option (tbf * list sout)) t : option (tbf * list sout) :=
  match n_inc n t with
  | None => None
  | Some (t, true) => option_map (fun t => (t, [Lost n])) (life c e t)
  | Some (t, false) => k t
  end.

Definition ret (t : tbf) : option (tbf * list sout) := Some (t, []).

(** ** Poll timeouts: gprs_rlcmac_tbf::poll_timeout, src/tbf.cpp:482-590. *)
Definition poll_timeout (c : tconf) r t : option (tbf * list sout) :=
  match r with
  | P_UL_ACK =>
      match t_dir t, t_uk t with
      | DL, _ => None  (* OSMO_ASSERT(ul_tbf) *)
      | UL, UK_WAIT =>
          if tst_eqb (f_st (t_f t)) FINISHED
          then count c N3103 (LUl (UEv MAX_N3103)) (fun t => ret (uk_timeout t)) t
          else ret (uk_timeout t)
      | UL, _ => ret t
      end
  | P_UL_ASS =>
      match t_ua t, t_dir t with
      | UA_WAIT, DL => count c N3105 (LDl (DEv MAX_N3105)) (fun t => ret (ua_timeout c t)) t
      | UA_WAIT, UL => ret (ua_timeout c t)
      | _, _ => ret t
      end
  | P_DL_ASS =>
      match t_da t, t_dir t with
      | DA_WAIT, DL => count c N3105 (LDl (DEv MAX_N3105)) (fun t => ret (da_timeout t)) t
      | DA_WAIT, UL => ret (da_timeout t)
      | _, _ => ret t
      end
  | P_DL_ACK =>
      match t_dir t with
      | UL => None  (* OSMO_ASSERT(dl_tbf) *)
      | DL => count c N3105 (LDl (DEv MAX_N3105))
                (fun t => option_map (fun t => (t, [])) (life c (LDl (DEv ACKNACK_MISS)) t)) t
      end
  end.

(** ** Answers with a Packet Control Acknowledgement: rcv_control_ack,
    src/pdch.cpp:336-468.  [new]: after a downlink assignment, the mobile has
    another TBF of the same direction. *)
Definition n_reset_dl t : option tbf := match t_dir t with DL => n_reset N3105 t | UL => Some t end.

Definition poll_answer (c : tconf) r (new : bool) t : option (tbf * list sout) :=
  match r with
  | P_UL_ACK =>
      match t_dir t, t_uk t with
      | DL, _ => None
      | UL, UK_WAIT =>
          let t := uk_ack (less_polls r t) in
          if tst_eqb (f_st (t_f t)) FINISHED
          then option_map (fun t => (t, [])) (life c (LUl (UEv FINAL_UL_ACK)) t)
          else ret t
      | UL, _ => ret t
      end
  | P_UL_ASS =>
      match t_ua t with
      | UA_WAIT => option_map (fun t => (ua_ack c t, [])) (n_reset_dl (less_polls r t))
      | _ => ret t
      end
  | P_DL_ASS =>
      match t_da t with
      | DA_WAIT =>
          option_map (fun t =>
            let t := da_ack t in
            match f_st (t_f t) with
            | WAIT_RELEASE | WAIT_REUSE => if new then (kill ByReplaced t, []) else (t, [])
            | _ => (t, [])
            end) (n_reset_dl (less_polls r t))
      | _ => ret t
      end
  | P_DL_ACK => ret t
  end.

(** ** Everything that can happen *)
Inductive sop :=
| SLife (o : lifeop)                    (* events, time and timers of the life-cycle machine *)
| SLimits (a b c : Z)                   (* INFO.ind: src/pcu_l1_if.cpp:895-897 *)
| SUaSched | SUaRej | SUaAbort | SUaRts (ctrl poll peer enc : bool) | SUaTimer
| SDaSched | SDaAbort | SDaRts (ctrl resolved poll peer tlli enc : bool)
| SUkSched | SUkRts (ctrl poll tlli : bool)
| SDlPoll                               (* downlink data with a poll: src/tbf_dl.cpp:855-892 *)
| SDlAck (final : bool)                 (* Packet Downlink Ack/Nack: src/tbf_dl.cpp:1081-1112 *)
| SUsf | SUsfTimeout                    (* src/gprs_rlcmac_sched.cpp:109-147, src/tbf_ul.cpp:728-732 *)
| SUlData                               (* src/pdch.cpp:1076-1079 *)
| SUlStray                              (* the same at a frame that was not granted to the TBF: src/pdch.cpp:1044-1079 *)
| SUsfUsed                              (* a measurement report in place of data: src/pdch.cpp:848-851 *)
| SUlLast                               (* src/tbf_ul.cpp:398-411 *)
| SAnswer (r : reason) (new : bool)
| SUnanswered (r : reason)
| SResReq.                              (* Packet Resource Request in place of the final answer: src/pdch.cpp:745-783 *)

(** Inputs of the life-cycle machine that only come with other operations. *)
Definition life_ok (o : lifeop) : bool :=
  match o with
  | LDl (DEv (MAX_N3105 | ACKNACK_MISS | FINAL_ACK)) | LDl (DAckNack _) => false
  | LUl (UEv (MAX_N3101 | MAX_N3103 | LAST_UL_DATA | FINAL_UL_ACK | CONT_RES_SUCCESS)) => false
  | _ => true
  end.

Definition u8 (x : Z) : Z := x mod 256.

Definition sop_step (c : tconf) (o : sop) t : option (tbf * list sout) :=
  match o with
  | SLife o => if life_ok o then option_map (fun t => (t, [])) (life c o t) else ret t
  | SLimits a b d => ret (set_l (u8 a) (u8 b) (u8 d) t)
  | SUaSched => ret (ua_sched c t)
  | SUaRej => ret (ua_rej t)
  | SUaAbort => ret (ua_abort c t)
  | SUaRts ctrl poll peer enc => ua_rts c ctrl poll peer enc t
  | SUaTimer => ua_timer t
  | SDaSched => ret (da_sched t)
  | SDaAbort => ret (da_abort t)
  | SDaRts ctrl resolved poll peer tlli enc => da_rts ctrl resolved poll peer tlli enc t
  | SUkSched => match t_dir t with UL => ret (uk_sched t) | DL => ret t end
  | SUkRts ctrl poll tlli => match t_dir t with UL => uk_rts c ctrl poll tlli t | DL => ret t end
  | SDlPoll => match t_dir t with DL => ret (more_polls P_DL_ACK t) | UL => ret t end
  | SDlAck final =>
      match t_dir t with
      | DL => match n_reset N3105 (less_polls P_DL_ACK t) with
              | Some t => option_map (fun t => (t, [])) (life c (LDl (DAckNack final)) t)
              | None => None
              end
      | UL => ret t
      end
  | SUsf =>
      match t_dir t, f_st (t_f t) with
      | UL, FLOW => ret (set_usf (S (t_usf t)) t)
      | _, _ => ret t
      end
  | SUsfTimeout =>
      match t_usf t with
      | O => ret t
      | S n => count c N3101 (LUl (UEv MAX_N3101)) ret (set_usf n t)
      end
  | SUlData =>
      match t_dir t with
      | UL => option_map (fun t => (t, [])) (n_reset N3101 (set_usf (pred (t_usf t)) t))
      | DL => ret t
      end
  | SUlStray =>
      match t_dir t with
      | UL => option_map (fun t => (t, [])) (n_reset N3101 t)
      | DL => ret t
      end
  | SUsfUsed => ret (set_usf (pred (t_usf t)) t)
  | SUlLast =>
      match t_dir t, f_st (t_f t) with
      | UL, FLOW =>
          match life c (LUl (UEv LAST_UL_DATA)) t with
          | Some t => option_map (fun t => (t, [])) (n_reset N3103 t)
          | None => None
          end
      | _, _ => ret t
      end
  | SAnswer r new =>
      match outstanding r t with O => ret t | S _ => poll_answer c r new t end
  | SUnanswered r =>
      match outstanding r t with O => ret t | S _ => poll_timeout c r (less_polls r t) end
  | SResReq =>
      match t_dir t, outstanding P_UL_ACK t with
      | UL, S _ =>
          match n_reset N3103 t with
          | Some t =>
              let t := less_polls P_UL_ACK t in
              if tst_eqb (f_st (t_f t)) FINISHED
              then option_map (fun t => (t, [])) (life c (LUl (UEv FINAL_UL_ACK)) t)
              else ret (kill ByRequest t)
          | None => None
          end
      | _, _ => ret t
      end
  end.

Definition sub_step (c : tconf) (t : tbf) (o : sop) : option (tbf * list sout) :=
  match f_dead (t_f t) with
  | Some _ => ret t
  | None => sop_step c o t
  end.

(** A run with everything it put out. *)
Fixpoint sub_run (c : tconf) (t : tbf) (ops : list sop) : option (tbf * list sout) :=
  match ops with
  | [] => ret t
  | o :: ops =>
      match sub_step c t o with
      | None => None
      | Some (t, l) =>
          match sub_run c t ops with
          | None => None
          | Some (t, m) => Some (t, l ++ m)
          end
      end
  end.

(** A TBF as its creator leaves it: created and its assignment begun at once
    (src/gprs_ms.c:1134-1364, src/tbf_dl.cpp:462-490). *)
Inductive on_channel := OnCcch | OnPacch.
Definition first_event (w : on_channel) : tev := match w with OnCcch => ADD_CCCH | OnPacch => ADD_PACCH end.

Definition sub_blank (d : dir) (now l1 l3 l5 : Z) : tbf :=
  Tbf d (fsm_new now) UA_NONE 0 None DA_NONE UK_NONE 0 0 0 (Polls 0 0 0 0) 0 (u8 l1) (u8 l3) (u8 l5).

Definition sub_new (c : tconf) (d : dir) (w : on_channel) (now l1 l3 l5 : Z) : option tbf :=
  life c (match d with DL => LDl (DEv (first_event w)) | UL => LUl (UEv (first_event w)) end)
       (sub_blank d now l1 l3 l5).
