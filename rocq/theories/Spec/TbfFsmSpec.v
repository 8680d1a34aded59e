(** What is expected of the life cycle of a TBF (3GPP TS 44.060, 8.1, 9.3.2,
    9.3.3 and 13; TS 44.018, 11.1.2), independent of how the state machines are
    written. *)
From Coq Require Import ZArith List Bool.
From Verif Require Import Model.TbfFsm.
Import ListNotations.
Open Scope Z_scope.

(** The order of states of a downlink TBF.  The mobile is assigned, data flows,
    the last data is sent, the final acknowledgement arrives, the mobile stops
    listening (T3192), the TFI may be reused (T3193).  A TBF that got lost goes
    to RELEASING.  A TBF assigned on CCCH of which the mobile never sent a sign is
    assigned again. *)
Inductive dl_next : tst -> tst -> Prop :=
| DN_assign : dl_next NEW ASSIGN
| DN_flow : dl_next ASSIGN FLOW
| DN_again : dl_next FLOW ASSIGN
| DN_finished : dl_next FLOW FINISHED
| DN_final : dl_next FINISHED WAIT_RELEASE
| DN_reuse : dl_next WAIT_RELEASE WAIT_REUSE
| DN_lost s : In s [ASSIGN; FLOW; FINISHED; WAIT_RELEASE] -> dl_next s RELEASING.

(** The order of states of an uplink TBF. *)
Inductive ul_next : tst -> tst -> Prop :=
| UN_assign : ul_next NEW ASSIGN
| UN_flow : ul_next ASSIGN FLOW
| UN_finished : ul_next FLOW FINISHED
| UN_lost s : In s [FLOW; FINISHED] -> ul_next s RELEASING.

(** Something that happened in a run: in state [f] the input [o] led to state
    [f'], and [b] are the inputs that came after it. *)
Definition past {O} (step : fsm -> O -> option fsm) (f0 : fsm) (ops : list O)
  (P : fsm -> O -> fsm -> list O -> Prop) : Prop :=
  exists a o b f f',
    ops = a ++ o :: b /\ runs step f0 a = Some f /\ step f o = Some f' /\ P f o f' b.

(** The machine stays in state [s] while it receives [b]. *)
Definition stays {O} (step : fsm -> O -> option fsm) (s : tst) (f : fsm) (b : list O) : Prop :=
  forall b1 b2 g, b = b1 ++ b2 -> runs step f b1 = Some g -> f_st g = s.

Section Downlink.
Variable c : tconf.
Variable f0 : fsm.
Variable ops : list dlop.
Variable now : Z.

(** The final acknowledgement was received, and at least T3193 has passed since. *)
Definition final_ack_guard : Prop :=
  past (dl_step c) f0 ops (fun f o f' _ =>
    (o = DEv FINAL_ACK \/ o = DAckNack true) /\ f_st f = FINISHED /\ f_st f' = WAIT_RELEASE /\
    f_now f + Z.max (c_t3192 c) (c_t3193 c) <= now).

(** The TBF was declared lost, and at least T3195 has passed since. *)
Definition lost_guard : Prop :=
  past (dl_step c) f0 ops (fun f o f' b =>
    o = DEv MAX_N3105 /\ f_st f <> RELEASING /\ f_st f' = RELEASING /\
    stays (dl_step c) RELEASING f' b /\ f_now f + c_t3195 c <= now).

(** A final block was sent, no acknowledgement arrived and at least T3191 has passed since. *)
Definition final_block_guard : Prop :=
  past (dl_step c) f0 ops (fun f o f' b =>
    o = DFinalBlock /\ (forall x, ~ In (DAckNack x) b) /\ f_now f + c_t3191 c <= now).

(** The assignment on PACCH was begun at least X2001 ago and was never
    acknowledged: the TBF has not carried data since. *)
Definition assign_guard : Prop :=
  past (dl_step c) f0 ops (fun f o f' b =>
    f_st f <> ASSIGN /\ f_pacch f' = true /\ stays (dl_step c) ASSIGN f' b /\
    f_now f + c_x2001 c <= now).

(** The BTS confirmed the Immediate Assignment at least X2002 ago. *)
Definition ccch_confirmed : Prop :=
  past (dl_step c) f0 ops (fun f o f' b =>
    o = DEv PCUIF_CNF /\ f_st f = ASSIGN /\ stays (dl_step c) ASSIGN f' b /\
    f_now f + c_x2002 c <= now).
End Downlink.

Section Uplink.
Variable c : tconf.
Variable f0 : fsm.
Variable ops : list ulop.
Variable now : Z.

(** The TBF was declared lost, and at least T3169 has passed since. *)
Definition ul_lost_guard : Prop :=
  past (ul_step c) f0 ops (fun f o f' b =>
    (o = UEv MAX_N3101 \/ o = UEv MAX_N3103) /\ f_st f <> RELEASING /\ f_st f' = RELEASING /\
    stays (ul_step c) RELEASING f' b /\ f_now f + c_t3169 c <= now).

(** The assignment on PACCH was begun at least four times T3168 ago and never acknowledged. *)
Definition ul_assign_guard : Prop :=
  past (ul_step c) f0 ops (fun f o f' b =>
    f_st f = NEW /\ f_pacch f' = true /\ stays (ul_step c) ASSIGN f' b /\
    f_now f + 4 * c_t3168 c <= now).

(** The TBF was assigned on CCCH at least T3141 ago, and the contention was never resolved. *)
Definition contention_guard : Prop :=
  past (ul_step c) f0 ops (fun f o f' b =>
    o = UEv ADD_CCCH /\ f_st f = NEW /\ f_now f + c_t3141 c <= now) /\
  ~ past (ul_step c) f0 ops (fun f o f' b =>
    o = UEv CONT_RES_SUCCESS /\ (f_st f = FLOW \/ f_st f = FINISHED)).
End Uplink.

(** All timers are positive, as they are by default. *)
Definition timers_positive (c : tconf) : Prop :=
  0 < c_x2001 c /\ 0 < c_x2002 c /\ 0 < c_t3192 c /\ 0 < c_t3193 c /\ 0 < c_t3195 c /\
  0 < c_t3191 c /\ 0 < c_t3168 c /\ 0 < c_t3169 c /\ 0 < c_t3141 c /\ 0 <= c_x2000 c.
