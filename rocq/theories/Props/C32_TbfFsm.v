(** C32: the life cycle of a TBF.

    A downlink or uplink TBF goes through its life-cycle states in the standard's
    order; its TFI is released only after the final acknowledgement plus guard
    time or after the corresponding radio-failure timer, and no accepted event
    sequence drives the state machine into an assertion.

    Every theorem is about the machine of a new TBF and every sequence of events,
    also unexpected ones, time steps and timer expirations ([dlop], [ulop]), for
    every choice of timer values.  The order and the guards are in
    Spec/TbfFsmSpec.v. *)
From Coq Require Import ZArith List Bool.
From Verif Require Import Model.TbfFsm Spec.TbfFsmSpec Proofs.TbfFsmP Proofs.TbfFsmQ.
Import ListNotations.
Open Scope Z_scope.

(** ** No assertion *)
Theorem C32_dl_no_assertion : forall c t ops, dl_run c (fsm_new t) ops <> None.
Proof. exact dl_no_assert. Qed.
Print Assumptions C32_dl_no_assertion.

Theorem C32_ul_no_assertion : forall c t ops, ul_run c (fsm_new t) ops <> None.
Proof. exact ul_no_assert. Qed.
Print Assumptions C32_ul_no_assertion.

(** ** The order of states *)
Theorem C32_dl_order : forall c t ops f o f',
  dl_run c (fsm_new t) ops = Some f -> dl_step c f o = Some f' ->
  f_st f' = f_st f \/ dl_next (f_st f) (f_st f').
Proof. exact dl_order. Qed.
Print Assumptions C32_dl_order.

(** A TBF is assigned again only if it was assigned on CCCH and its mobile never answered. *)
Theorem C32_dl_assigned_again : forall c t ops f o f',
  dl_run c (fsm_new t) ops = Some f -> dl_step c f o = Some f' ->
  f_st f = FLOW -> f_st f' = ASSIGN ->
  o = DEv ACKNACK_MISS /\ f_ccch f = true /\ (forall x, ~ In (DAckNack x) ops).
Proof. exact dl_assigned_again. Qed.
Print Assumptions C32_dl_assigned_again.

Theorem C32_ul_order : forall c t ops f o f',
  ul_run c (fsm_new t) ops = Some f -> ul_step c f o = Some f' ->
  f_st f' = f_st f \/ ul_next (f_st f) (f_st f').
Proof. exact ul_order. Qed.
Print Assumptions C32_ul_order.

(** ** The TFI is released only after a guard time *)

(** What must have happened before a downlink TBF is freed, for each way of
    freeing it.  Missing from the full property: after a failed upgrade to more
    timeslots ([ByUpgrade]) there is no guard time, see
    [C32_dl_upgrade_refuted]; and the machine of uplink assignments and other
    procedures can free the TBF from outside (see C33). *)
Theorem C32_dl_release_partial : forall c t ops f o f' w,
  dl_run c (fsm_new t) ops = Some f -> f_dead f = None -> dl_step c f o = Some f' ->
  f_dead f' = Some w ->
  match w with
  | By3193 => f_st f = WAIT_REUSE /\ final_ack_guard c (fsm_new t) ops (f_now f)
  | By3195 => f_st f = RELEASING /\ lost_guard c (fsm_new t) ops (f_now f)
  | By3191 => final_block_guard c (fsm_new t) ops (f_now f)
  | By2001 => f_st f = ASSIGN /\ assign_guard c (fsm_new t) ops (f_now f)
  | ByUpgrade => f_st f = ASSIGN /\ o = DTimer UpgradeFail /\ ccch_confirmed c (fsm_new t) ops (f_now f)
  | _ => False
  end.
Proof. exact dl_release. Qed.
Print Assumptions C32_dl_release_partial.

Theorem C32_dl_upgrade_refuted : exists f f',
  dl_run conf_default (fsm_new 0) upgrade_fails = Some f /\ f_dead f = None /\
  dl_step conf_default f (DTimer UpgradeFail) = Some f' /\ f_dead f' <> None /\
  f_now f = 250 /\ f_now f < c_t3191 conf_default /\ f_now f < c_t3193 conf_default /\
  f_now f < c_t3195 conf_default /\ f_now f < c_x2001 conf_default.
Proof. exact upgrade_unguarded. Qed.
Print Assumptions C32_dl_upgrade_refuted.

(** An uplink TBF needs no guard time after its final acknowledgement: the mobile
    has confirmed that it received it. *)
Theorem C32_ul_release : forall c t ops f o f' w,
  ul_run c (fsm_new t) ops = Some f -> f_dead f = None -> ul_step c f o = Some f' ->
  f_dead f' = Some w ->
  match w with
  | ByFinalUlAck => o = UEv FINAL_UL_ACK /\ f_st f = FINISHED
  | By3169 => f_st f = RELEASING /\ ul_lost_guard c (fsm_new t) ops (f_now f)
  | By3168 => f_st f = ASSIGN /\ ul_assign_guard c (fsm_new t) ops (f_now f)
  | By3141 => contention_guard c (fsm_new t) ops (f_now f)
  | _ => False
  end.
Proof. exact ul_release. Qed.
Print Assumptions C32_ul_release.

(** ** and it is released *)
Theorem C32_dl_released_after_final_ack : forall c t ops f u1 u2,
  0 < c_t3192 c -> c_t3195 c <> 0 ->
  dl_run c (fsm_new t) ops = Some f -> f_dead f = None -> f_st f = WAIT_RELEASE ->
  exists f', dl_run c f [DTime (c_t3192 c); DTimer u1; DTime (c_t3193 c - c_t3192 c); DTimer u2] = Some f' /\
             f_dead f' = Some By3193.
Proof. exact dl_freed_final. Qed.
Print Assumptions C32_dl_released_after_final_ack.

Theorem C32_dl_released_after_loss : forall c t ops f u,
  c_t3192 c <> 0 -> 0 < c_t3195 c ->
  dl_run c (fsm_new t) ops = Some f -> f_dead f = None -> f_st f = RELEASING ->
  exists f', dl_run c f [DTime (c_t3195 c); DTimer u] = Some f' /\ f_dead f' = Some By3195.
Proof. exact dl_freed_lost. Qed.
Print Assumptions C32_dl_released_after_loss.

Theorem C32_ul_released_after_loss : forall c t ops f,
  0 < c_t3169 c ->
  ul_run c (fsm_new t) ops = Some f -> f_dead f = None -> f_st f = RELEASING ->
  exists f', ul_run c f [UTime (c_t3169 c); UTimer] = Some f' /\ f_dead f' = Some By3169.
Proof. exact ul_freed_lost. Qed.
Print Assumptions C32_ul_released_after_loss.

(** An uplink TBF does not wait for its assignment for ever. *)
Theorem C32_ul_assigned_in_time : forall c t ops f,
  0 < c_t3169 c -> 0 <= c_t3168 c ->
  ul_run c (fsm_new t) ops = Some f -> f_dead f = None -> f_st f = ASSIGN ->
  exists f', ul_run c f [UTime (Z.max (4 * c_t3168 c) (c_x2002 c)); UTimer] = Some f' /\
    (f_dead f' = Some By3168 \/ (f_dead f' = None /\ f_st f' = FLOW)).
Proof. exact ul_assigned. Qed.
Print Assumptions C32_ul_assigned_in_time.

(** With T3192 = 0, a value that SI13 may announce, no timer is started: after the
    final acknowledgement the TBF keeps its TFI whatever time passes and whatever
    else arrives, unless it counts unanswered polls or sends another final block. *)
Theorem C32_dl_t3192_zero_refuted : exists f,
  dl_run conf_t3192_0 (fsm_new 0) life = Some f /\
  (forall more, ~ In (DEv MAX_N3105) more -> ~ In DFinalBlock more ->
     exists f', dl_run conf_t3192_0 f more = Some f' /\ f_dead f' = None /\ f_st f' = WAIT_RELEASE).
Proof. exact t3192_zero. Qed.
Print Assumptions C32_dl_t3192_zero_refuted.

(** ** Non-vacuity *)
Example C32_ex_life : exists f f',
  dl_run conf_default (fsm_new 0) (life ++ [DTime 1500; DTimer NoUpgrade; DTime 100]) = Some f /\
  f_dead f = None /\ f_st f = WAIT_REUSE /\
  dl_step conf_default f (DTimer NoUpgrade) = Some f' /\ f_dead f' = Some By3193 /\ f_now f = 1900.
Proof.
  do 2 eexists. split; [vm_compute; reflexivity|]. split; [reflexivity|]. split; [reflexivity|].
  split; [vm_compute; reflexivity|]. split; reflexivity.
Qed.

Example C32_ex_again : exists f f',
  dl_run conf_default (fsm_new 0) [DEv ADD_CCCH; DEv PCUIF_CNF; DTime 200; DTimer NoUpgrade] = Some f /\
  f_st f = FLOW /\ dl_step conf_default f (DEv ACKNACK_MISS) = Some f' /\ f_st f' = ASSIGN.
Proof.
  do 2 eexists. split; [vm_compute; reflexivity|]. split; [reflexivity|].
  split; [vm_compute; reflexivity|]. reflexivity.
Qed.

Example C32_ex_ul : exists f f' f'',
  ul_run conf_default (fsm_new 0) [UEv ADD_CCCH; UTime 200; UTimer; UEv FIRST_UL_DATA;
    UEv CONT_RES_SUCCESS; UEv LAST_UL_DATA] = Some f /\ f_dead f = None /\
  ul_step conf_default f (UEv FINAL_UL_ACK) = Some f' /\ f_dead f' = Some ByFinalUlAck /\
  ul_run conf_default f [UEv MAX_N3103; UTime 5000; UTimer] = Some f'' /\ f_dead f'' = Some By3169.
Proof.
  do 3 eexists. split; [vm_compute; reflexivity|]. split; [reflexivity|].
  split; [vm_compute; reflexivity|]. split; [reflexivity|].
  split; [vm_compute; reflexivity|]. reflexivity.
Qed.
