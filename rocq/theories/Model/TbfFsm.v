(** The life-cycle state machines of a TBF.

    Models src/tbf_fsm.h, src/tbf_dl_fsm.c, src/tbf_ul_fsm.c and the T3141 and
    T3191 timers of src/tbf.cpp.  The osmo_fsm engine of libosmocore is assumed
    to behave as documented there:
    - an event that is not in the state's [in_event_mask] is logged and refused,
      the action function is not called and the dispatch returns an error;
    - a state change to a state that is not in the [out_state_mask] is logged
      and refused;
    - a state change deletes the running timer, sets [fi->T] to the timer number
      of the new state, starts that timer unless its value is 0, and then calls
      the [onenter] function of the new state.

    One machine is the object of one TBF.  [None] as a result means that the
    program aborts in an assertion.  Times are in milliseconds. *)
From Coq Require Import ZArith List Bool.
Import ListNotations.
Open Scope Z_scope.

(** src/tbf_fsm.h:49-57 [enum tbf_fsm_states]. *)
Inductive tst :=
| NEW | ASSIGN | FLOW | FINISHED | WAIT_RELEASE | WAIT_REUSE | RELEASING.

(** src/tbf_fsm.h:24-45 [enum tbf_fsm_event]. *)
Inductive tev :=
| ADD_CCCH | ADD_PACCH | ACK_PACCH | MAX_N3105
| READY_CCCH | PCUIF_CNF | ACKNACK_MISS | LAST_DL_DATA | FINAL_ACK
| FIRST_UL_DATA | CONT_RES_SUCCESS | LAST_UL_DATA | FINAL_UL_ACK
| MAX_N3101 | MAX_N3103.

Definition tst_eqb (a b : tst) : bool :=
  match a, b with
  | NEW, NEW | ASSIGN, ASSIGN | FLOW, FLOW | FINISHED, FINISHED
  | WAIT_RELEASE, WAIT_RELEASE | WAIT_REUSE, WAIT_REUSE | RELEASING, RELEASING => true
  | _, _ => false
  end.

(** The timers, in ms.  src/bts.cpp:78-85, src/gprs_pcu.c:32-48. *)
Record tconf := TConf {
  c_x2001 : Z; c_x2002 : Z;
  c_t3192 : Z; c_t3193 : Z; c_t3195 : Z; c_t3191 : Z;
  c_t3168 : Z; c_t3169 : Z; c_t3141 : Z; c_x2000 : Z }.

(** Why the TBF object was freed (tbf_free). *)
Inductive cause :=
| By3193 | By3195 | By2001 | ByUpgrade | By3191
| ByFinalUlAck | By3169 | By3168 | By3141
| ByUlAss3168 | ByUlAss2000 | ByReplaced | ByRequest.

(** What the state machine does to the rest of the program. *)
Inductive teff :=
| EImmAss        (* bts_snd_dl_ass: Immediate Assignment on CCCH *)
| EAbortUlAss    (* TBF_UL_ASS_EV_ABORT to the TBF's own uplink assignment machine *)
| ENewDl         (* WAIT_RELEASE entered: a new downlink TBF may be assigned *)
| EContRes       (* contention resolution done *)
| EKillDl        (* first uplink data: pending downlink TBF of the mobile is dropped *)
| EUpgrade       (* TBF_DL_ASS_EV_SCHED_ASS to the TBF's own downlink assignment machine *)
| EAbortPeer.    (* TBF_DL_ASS_EV_ABORT to the mobile's uplink TBF *)

(** struct osmo_fsm_inst + struct tbf_dl_fsm_ctx / tbf_ul_fsm_ctx
    (src/tbf_dl_fsm.h, src/tbf_ul_fsm.h): state, [fi->T], expiry of [fi->timer] if
    it is pending, the two assignment flags, expiry of T3191 (downlink) or T3141
    (uplink), the current time, and how the TBF was freed, if it was. *)
Record fsm := Fsm {
  f_st : tst; f_T : Z; f_tm : option Z;
  f_ccch : bool; f_pacch : bool;
  f_t31 : option Z; f_first : bool;
  f_now : Z; f_dead : option cause }.

Definition set_st s f := Fsm s (f_T f) (f_tm f) (f_ccch f) (f_pacch f) (f_t31 f) (f_first f) (f_now f) (f_dead f).
Definition set_timer T x f := Fsm (f_st f) T x (f_ccch f) (f_pacch f) (f_t31 f) (f_first f) (f_now f) (f_dead f).
Definition set_ccch b f := Fsm (f_st f) (f_T f) (f_tm f) b (f_pacch f) (f_t31 f) (f_first f) (f_now f) (f_dead f).
Definition set_pacch b f := Fsm (f_st f) (f_T f) (f_tm f) (f_ccch f) b (f_t31 f) (f_first f) (f_now f) (f_dead f).
Definition set_t31 x f := Fsm (f_st f) (f_T f) (f_tm f) (f_ccch f) (f_pacch f) x (f_first f) (f_now f) (f_dead f).
Definition set_first b f := Fsm (f_st f) (f_T f) (f_tm f) (f_ccch f) (f_pacch f) (f_t31 f) b (f_now f) (f_dead f).
Definition set_now t f := Fsm (f_st f) (f_T f) (f_tm f) (f_ccch f) (f_pacch f) (f_t31 f) (f_first f) t (f_dead f).
(** tbf_free, src/tbf.cpp:246-281: the object and its timers are gone. *)
Definition free w f := Fsm (f_st f) (f_T f) None (f_ccch f) (f_pacch f) None (f_first f) (f_now f) (Some w).

(** osmo_timer_schedule with a value in ms, setting [fi->T] by hand. *)
Definition start T d f := set_timer T (Some (f_now f + d)) f.

(** A TBF that was just created at time [t]. *)
Definition fsm_new (t : Z) : fsm := Fsm NEW 0 None false false None false t None.

(** A pending timer is due. *)
Definition due (x : option Z) (t : Z) : bool :=
  match x with Some e => e <=? t | None => false end.

(** A run of a machine; [None] as soon as an assertion fails. *)
Fixpoint runs {S O : Type} (step : S -> O -> option S) (s : S) (ops : list O) : option S :=
  match ops with
  | [] => Some s
  | o :: ops => match step s o with Some s => runs step s ops | None => None end
  end.

(** * Downlink *)

(** src/tbf_dl_fsm.c:445-526, the [in_event_mask] fields. *)
Definition dl_in (s : tst) (e : tev) : bool :=
  match s, e with
  | NEW, (ADD_CCCH | ADD_PACCH) => true
  | ASSIGN, (ADD_CCCH | ADD_PACCH | ACK_PACCH | PCUIF_CNF | READY_CCCH | MAX_N3105) => true
  | FLOW, (PCUIF_CNF | ACKNACK_MISS | LAST_DL_DATA | MAX_N3105) => true
  | FINISHED, (ACKNACK_MISS | FINAL_ACK | MAX_N3105) => true
  | WAIT_RELEASE, (ACKNACK_MISS | FINAL_ACK | MAX_N3105) => true
  | WAIT_REUSE, (ACKNACK_MISS | FINAL_ACK) => true
  | RELEASING, ACKNACK_MISS => true
  | _, _ => false
  end.

(** src/tbf_dl_fsm.c:445-526, the [out_state_mask] fields. *)
Definition dl_out (s s' : tst) : bool :=
  match s, s' with
  | NEW, ASSIGN => true
  | ASSIGN, (FLOW | FINISHED | RELEASING) => true
  | FLOW, (ASSIGN | FINISHED | RELEASING) => true
  | FINISHED, (WAIT_RELEASE | RELEASING) => true
  | WAIT_RELEASE, (WAIT_REUSE | RELEASING) => true
  | WAIT_REUSE, RELEASING => true
  | _, _ => false
  end.

(** src/tbf_dl_fsm.c:32-40 [tbf_dl_fsm_timeouts]: timer number and value, as
    osmo_tdef_fsm_inst_state_chg sets them. *)
Definition dl_timeout (c : tconf) (s : tst) : Z * Z :=
  match s with
  | WAIT_RELEASE => (3192, c_t3192 c)
  | RELEASING => (3195, c_t3195 c)
  | _ => (0, 0)
  end.

(** The timer part of a state change: a value of 0 means "no timer". *)
Definition enter (tv : Z * Z) (s : tst) (f : fsm) : fsm :=
  set_timer (fst tv) (if snd tv =? 0 then None else Some (f_now f + snd tv)) (set_st s f).

(** The [onenter] functions: src/tbf_dl_fsm.c:105-136 st_assign_on_enter,
    274-295 st_wait_release_on_enter, 321-341 st_wait_reuse_tfi_on_enter,
    360-366 st_releasing_on_enter.  Asking for a new downlink TBF in
    WAIT_RELEASE (when data is queued) is an effect on other objects. *)
Definition dl_onenter (c : tconf) (f : fsm) : option (fsm * list teff) :=
  match f_st f with
  | ASSIGN =>
      if f_pacch f then Some (start (-2001) (c_x2001 c) f, [])
      else if f_ccch f then Some (f, [EImmAss]) else None
  | WAIT_RELEASE => Some (set_ccch false f, [ENewDl])
  | WAIT_REUSE =>
      let res := if c_t3192 c <=? c_t3193 c then c_t3193 c - c_t3192 c else 0 in
      Some (start 3193 res f, [])
  | _ => Some (f, [])
  end.

(** tbf_dl_fsm_state_chg, src/tbf_dl_fsm.c:45-49. *)
Definition dl_chg (c : tconf) (s : tst) (f : fsm) : option (fsm * list teff) :=
  if dl_out (f_st f) s then dl_onenter c (enter (dl_timeout c s) s f)
  else Some (f, []).

(** Adds the effects [l] in front. *)
Definition effs (l : list teff) (r : option (fsm * list teff)) : option (fsm * list teff) :=
  match r with Some (f, m) => Some (f, l ++ m) | None => None end.

(** The action functions: src/tbf_dl_fsm.c:88-103 st_new, 138-209 st_assign,
    211-252 st_flow, 254-272 st_finished, 297-319 st_wait_release,
    343-358 st_wait_reuse_tfi, 368-378 st_releasing. *)
Definition dl_action (c : tconf) (e : tev) (f : fsm) : option (fsm * list teff) :=
  match f_st f with
  | NEW =>
      match e with
      | ADD_CCCH => dl_chg c ASSIGN (set_ccch true f)
      | ADD_PACCH => dl_chg c ASSIGN (set_pacch true f)
      | _ => None
      end
  | ASSIGN =>
      match e with
      | ADD_CCCH => Some (set_ccch true f, [EImmAss])
      | ADD_PACCH => Some (set_pacch true f, [])
      | ACK_PACCH =>
          let f := if f_ccch f then set_pacch true (set_ccch false f) else f in
          dl_chg c FLOW f
      | PCUIF_CNF => if f_ccch f then Some (start (-2002) (c_x2002 c) f, []) else Some (f, [])
      | READY_CCCH => dl_chg c FLOW f
      | MAX_N3105 => effs [EAbortUlAss] (dl_chg c RELEASING f)
      | _ => None
      end
  | FLOW =>
      match e with
      | PCUIF_CNF => Some (f, [])
      | ACKNACK_MISS =>
          if f_ccch f && negb (f_first f) then dl_chg c ASSIGN f else Some (f, [])
      | LAST_DL_DATA => dl_chg c FINISHED f
      | MAX_N3105 => dl_chg c RELEASING f
      | _ => None
      end
  | FINISHED =>
      match e with
      | ACKNACK_MISS => Some (f, [])
      | FINAL_ACK => dl_chg c WAIT_RELEASE f
      | MAX_N3105 => dl_chg c RELEASING f
      | _ => None
      end
  | WAIT_RELEASE =>
      match e with
      | FINAL_ACK | ACKNACK_MISS => Some (f, [])
      | MAX_N3105 => dl_chg c RELEASING f
      | _ => None
      end
  | WAIT_REUSE =>
      match e with
      | FINAL_ACK | ACKNACK_MISS => Some (f, [])
      | _ => None
      end
  | RELEASING =>
      match e with
      | ACKNACK_MISS => Some (f, [])
      | _ => None
      end
  end.

(** osmo_fsm_inst_dispatch on the downlink machine. *)
Definition dl_dispatch (c : tconf) (e : tev) (f : fsm) : option (fsm * list teff) :=
  if dl_in (f_st f) e then dl_action c e f else Some (f, []).

(** What the program finds when X2002 expires: the TBF cannot be upgraded to
    more timeslots; it can, and the allocation succeeds; it can, and the
    allocation fails. *)
Inductive upgrade := NoUpgrade | UpgradeOk | UpgradeFail.

(** src/tbf_dl_fsm.c:380-409 handle_timeout_X2002 with
    src/tbf_dl.cpp:492-545 dl_tbf_upgrade_to_multislot and 462-477
    dl_tbf_trigger_ass_on_pacch (which stops T3191 and dispatches ADD_PACCH). *)
Definition dl_x2002 (c : tconf) (u : upgrade) (f : fsm) : option (fsm * list teff) :=
  match f_st f with
  | ASSIGN =>
      match u with
      | NoUpgrade => dl_dispatch c READY_CCCH f
      | UpgradeOk =>
          effs [EUpgrade] (dl_dispatch c ADD_PACCH (set_t31 None (set_pacch false (set_ccch false f))))
      | UpgradeFail => Some (free ByUpgrade (set_pacch false (set_ccch false f)), [])
      end
  | _ => Some (f, [])
  end.

(** src/tbf_dl_fsm.c:411-443 tbf_dl_fsm_timer_cb; the timer is no longer pending
    when the callback runs. *)
Definition dl_timer_cb (c : tconf) (u : upgrade) (f : fsm) : option (fsm * list teff) :=
  let f := set_timer (f_T f) None f in
  if f_T f =? -2002 then dl_x2002 c u f
  else if f_T f =? 3192 then dl_chg c WAIT_REUSE f
  else if f_T f =? -2001 then Some (free By2001 f, [EAbortPeer])
  else if f_T f =? 3193 then Some (free By3193 f, [])
  else if f_T f =? 3195 then Some (free By3195 f, [])
  else None.

(** What can happen to a downlink TBF: any event is dispatched to its state
    machine; an acknowledgement arrives (src/tbf_dl.cpp:1081-1112 rcvd_dl_ack and
    1064-1079 rcvd_dl_final_ack, the parts about the state machine and T3191); a
    final block with a poll is sent (src/tbf_dl.cpp:888-890); time passes; the
    event loop serves the timer of the state machine or T3191
    (src/tbf.cpp:405-425), if it is due. *)
Inductive dlop :=
| DEv (e : tev) | DAckNack (final : bool) | DFinalBlock
| DTime (d : Z) | DTimer (u : upgrade) | DT3191.

Definition dl_op (c : tconf) (o : dlop) (f : fsm) : option (fsm * list teff) :=
  match o with
  | DEv e => dl_dispatch c e f
  | DAckNack final =>
      let f := set_t31 None (set_first true f) in
      if final then dl_dispatch c FINAL_ACK f else Some (f, [])
  | DFinalBlock => Some (set_t31 (Some (f_now f + c_t3191 c)) f, [])
  | DTime d => Some (set_now (f_now f + Z.max 0 d) f, [])
  | DTimer u => if due (f_tm f) (f_now f) then dl_timer_cb c u f else Some (f, [])
  | DT3191 => if due (f_t31 f) (f_now f) then Some (free By3191 f, []) else Some (f, [])
  end.

Definition dl_step (c : tconf) (f : fsm) (o : dlop) : option fsm :=
  match f_dead f with
  | Some _ => Some f
  | None => option_map fst (dl_op c o f)
  end.

Definition dl_run (c : tconf) : fsm -> list dlop -> option fsm := runs (dl_step c).

(** * Uplink *)

(** src/tbf_ul_fsm.c:297-351, the [in_event_mask] fields. *)
Definition ul_in (s : tst) (e : tev) : bool :=
  match s, e with
  | NEW, (ADD_CCCH | ADD_PACCH) => true
  | ASSIGN, (ADD_CCCH | ADD_PACCH | ACK_PACCH | READY_CCCH) => true
  | FLOW, (FIRST_UL_DATA | CONT_RES_SUCCESS | LAST_UL_DATA | MAX_N3101) => true
  | FINISHED, (CONT_RES_SUCCESS | FINAL_UL_ACK | MAX_N3103) => true
  | _, _ => false
  end.

(** src/tbf_ul_fsm.c:297-351, the [out_state_mask] fields. *)
Definition ul_out (s s' : tst) : bool :=
  match s, s' with
  | NEW, (ASSIGN | FLOW) => true
  | ASSIGN, (FLOW | FINISHED) => true
  | FLOW, (ASSIGN | FINISHED | RELEASING) => true
  | FINISHED, RELEASING => true
  | _, _ => false
  end.

(** src/tbf_ul_fsm.c:32-38 [tbf_ul_fsm_timeouts]. *)
Definition ul_timeout (c : tconf) (s : tst) : Z * Z :=
  match s with
  | RELEASING => (3169, c_t3169 c)
  | _ => (0, 0)
  end.

(** src/tbf_ul_fsm.c:104-146 st_assign_on_enter, 262-268 st_releasing_on_enter. *)
Definition ul_onenter (c : tconf) (f : fsm) : fsm :=
  match f_st f with
  | ASSIGN =>
      if f_pacch f then start 3168 (c_t3168 c * 4) f
      else if f_ccch f then start (-2002) (c_x2002 c) f else f
  | _ => f
  end.

(** tbf_ul_fsm_state_chg, src/tbf_ul_fsm.c:43-47. *)
Definition ul_chg (c : tconf) (s : tst) (f : fsm) : fsm :=
  if ul_out (f_st f) s then ul_onenter c (enter (ul_timeout c s) s f) else f.

(** src/tbf_ul_fsm.c:86-102 st_new, 148-178 st_assign, 180-218 st_flow,
    220-260 st_finished, 270-276 st_releasing; with src/tbf_ul.cpp:207-222
    contention_resolution_start (T3141 starts) and 223-243
    contention_resolution_success (T3141 stops). *)
Definition ul_action (c : tconf) (e : tev) (f : fsm) : option (fsm * list teff) :=
  match f_st f with
  | NEW =>
      match e with
      | ADD_CCCH =>
          let f := ul_chg c ASSIGN (set_ccch true f) in
          Some (set_t31 (Some (f_now f + c_t3141 c)) f, [])
      | ADD_PACCH => Some (ul_chg c ASSIGN (set_pacch true f), [])
      | _ => None
      end
  | ASSIGN =>
      match e with
      | ADD_CCCH => Some (set_ccch true f, [])
      | ADD_PACCH => Some (set_pacch true f, [])
      | ACK_PACCH =>
          let f := if f_ccch f then set_pacch true (set_ccch false f) else f in
          Some (ul_chg c FLOW f, [])
      | READY_CCCH => Some (ul_chg c FLOW f, [])
      | _ => None
      end
  | FLOW =>
      match e with
      | FIRST_UL_DATA => Some (f, [EKillDl])
      | CONT_RES_SUCCESS => Some (set_t31 None f, [EContRes])
      | LAST_UL_DATA => Some (ul_chg c FINISHED f, [])
      | MAX_N3101 => Some (ul_chg c RELEASING f, [])
      | _ => None
      end
  | FINISHED =>
      match e with
      | CONT_RES_SUCCESS => Some (set_t31 None f, [EContRes])
      | FINAL_UL_ACK => Some (free ByFinalUlAck f, [])
      | MAX_N3103 => Some (ul_chg c RELEASING f, [])
      | _ => None
      end
  | _ => None
  end.

Definition ul_dispatch (c : tconf) (e : tev) (f : fsm) : option (fsm * list teff) :=
  if ul_in (f_st f) e then ul_action c e f else Some (f, []).

(** src/tbf_ul_fsm.c:278-295 tbf_ul_fsm_timer_cb. *)
Definition ul_timer_cb (c : tconf) (f : fsm) : option (fsm * list teff) :=
  let f := set_timer (f_T f) None f in
  if f_T f =? -2002 then ul_dispatch c READY_CCCH f
  else if f_T f =? 3168 then Some (free By3168 f, [])
  else if f_T f =? 3169 then Some (free By3169 f, [])
  else None.

(** What can happen to an uplink TBF; T3141: src/tbf.cpp:405-424. *)
Inductive ulop := UEv (e : tev) | UTime (d : Z) | UTimer | UT3141.

Definition ul_op (c : tconf) (o : ulop) (f : fsm) : option (fsm * list teff) :=
  match o with
  | UEv e => ul_dispatch c e f
  | UTime d => Some (set_now (f_now f + Z.max 0 d) f, [])
  | UTimer => if due (f_tm f) (f_now f) then ul_timer_cb c f else Some (f, [])
  | UT3141 => if due (f_t31 f) (f_now f) then Some (free By3141 f, []) else Some (f, [])
  end.

Definition ul_step (c : tconf) (f : fsm) (o : ulop) : option fsm :=
  match f_dead f with
  | Some _ => Some f
  | None => option_map fst (ul_op c o f)
  end.

Definition ul_run (c : tconf) : fsm -> list ulop -> option fsm := runs (ul_step c).
