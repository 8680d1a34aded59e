(** C33: the assignment and acknowledgement machines of a TBF, and their polls.
    C34: the counters of unanswered polls and of unused USFs.

    A TBF is made by [sub_new] with the limits [l1], [l3], [l5] (N3101, N3103,
    N3105), and then receives any list of operations. *)
From Coq Require Import ZArith List Bool.
From Verif Require Import Model.TbfFsm Proofs.TbfFsmQ Model.TbfSub Spec.TbfSubSpec
  Proofs.TbfSubQ Proofs.TbfSubR Proofs.TbfSubEx.
Import ListNotations.
Open Scope Z_scope.

(** ** C33 *)

(** No sequence of operations leads to a failed assertion. *)
Theorem C33_no_assertion : forall c d w now l1 l3 l5, exists t,
  sub_new c d w now l1 l3 l5 = Some t /\ forall ops, sub_run c t ops <> None.
Proof. exact no_assert. Qed.
Print Assumptions C33_no_assertion.

(** At most one poll for an uplink assignment and one for an uplink
    acknowledgement is outstanding. *)
Theorem C33_one_poll : forall c d w now l1 l3 l5 t ops t' outs,
  sub_new c d w now l1 l3 l5 = Some t -> sub_run c t ops = Some (t', outs) -> alive t' ->
  (outstanding P_UL_ASS t' <= 1)%nat /\ (outstanding P_UL_ACK t' <= 1)%nat.
Proof. exact one_poll. Qed.
Print Assumptions C33_one_poll.

(** A poll is outstanding only if its answer is waited for. *)
Theorem C33_poll_waits : forall c d w now l1 l3 l5 t ops t' outs,
  sub_new c d w now l1 l3 l5 = Some t -> sub_run c t ops = Some (t', outs) -> alive t' ->
  forall r, r = P_UL_ASS \/ r = P_UL_ACK -> outstanding r t' = 1%nat -> waits r t' = true.
Proof. exact poll_waits. Qed.
Print Assumptions C33_poll_waits.

(** Who waits has a poll, unless the TBF was lost or is about to be reused. *)
Theorem C33_waits_poll : forall c d w now l1 l3 l5 t ops t' outs,
  sub_new c d w now l1 l3 l5 = Some t -> sub_run c t ops = Some (t', outs) -> alive t' ->
  forall r, r = P_UL_ASS \/ r = P_UL_ACK -> waits r t' = true ->
  outstanding r t' = 1%nat \/ state t' = RELEASING \/ (t_dir t' = DL /\ state t' = WAIT_REUSE).
Proof. exact waits_poll. Qed.
Print Assumptions C33_waits_poll.

(** The same for downlink assignments, as long as none is aborted.  Missing: runs
    with an abort, for which it is false (below). *)
Theorem C33_dl_ass_poll_partial : forall c d w now l1 l3 l5 t ops t' outs,
  sub_new c d w now l1 l3 l5 = Some t -> ~ In SDaAbort ops -> sub_run c t ops = Some (t', outs) ->
  (outstanding P_DL_ASS t' <= 1)%nat /\
  (outstanding P_DL_ASS t' = 1%nat -> waits P_DL_ASS t' = true) /\
  (waits P_DL_ASS t' = true -> outstanding P_DL_ASS t' = 1%nat \/ state t' = RELEASING \/
     (t_dir t' = DL /\ state t' = WAIT_REUSE)).
Proof. exact dl_ass_polls. Qed.
Print Assumptions C33_dl_ass_poll_partial.

(** An abort while the answer is awaited leaves the poll reserved: the next
    assignment reserves a second one. *)
Theorem C33_dl_ass_abort_refuted : exists t t' outs,
  sub_new conf_default DL OnPacch 0 10 4 8 = Some t /\ sub_run conf_default t aborted = Some (t', outs) /\
  alive t' /\ state t' = ASSIGN /\ outstanding P_DL_ASS t' = 2%nat.
Proof. exact two_polls. Qed.
Print Assumptions C33_dl_ass_abort_refuted.

(** Every answer that is waited for makes the machine idle and uses up the poll. *)
Theorem C33_answer : forall c t' , alive t' -> forall r new t'' l,
  outstanding r t' <> 0%nat -> waits r t' = true ->
  sub_step c t' (SAnswer r new) = Some (t'', l) ->
  idle r t'' /\ (r <> P_DL_ACK -> S (outstanding r t'') = outstanding r t').
Proof. exact answer_idle. Qed.
Print Assumptions C33_answer.

(** Every poll that is not answered in time makes the machine send again, except
    for an uplink assignment on a TBF that is past its own assignment, where it
    is given up; or the TBF is declared lost. *)
Theorem C33_timeout : forall c d w now l1 l3 l5 t ops t' outs,
  sub_new c d w now l1 l3 l5 = Some t -> sub_run c t ops = Some (t', outs) -> alive t' ->
  forall r t'' l, r <> P_DL_ACK -> outstanding r t' <> 0%nat -> waits r t' = true ->
  sub_step c t' (SUnanswered r) = Some (t'', l) ->
  S (outstanding r t'') = outstanding r t' /\
  ((exists n, In (Lost n) l /\ (state t'' = RELEASING \/ state t'' = WAIT_REUSE)) \/
   (l = [] /\ match r with
              | P_UL_ASS => if tst_eqb (state t') ASSIGN then retries r t'' else idle r t''
              | _ => retries r t''
              end)).
Proof. exact timeout_retries. Qed.
Print Assumptions C33_timeout.

(** The timer of the uplink assignment frees the whole TBF.  A lost downlink TBF is
    so freed before the guard time T3195 has passed ... *)
Theorem C33_guard_cut_short_refuted : exists t t' outs t'' l,
  sub_new conf_t3168 DL OnPacch 0 10 4 1 = Some t /\
  sub_run conf_t3168 t (flowing ++ [SUaSched; SUaRts true true true true; SUnanswered P_UL_ASS]) = Some (t', outs) /\
  alive t' /\ state t' = RELEASING /\ f_tm (t_f t') = Some (f_now (t_f t') + c_t3195 conf_t3168) /\
  sub_run conf_t3168 t' [SLife (LDl (DTime 2000)); SUaTimer] = Some (t'', l) /\
  f_dead (t_f t'') = Some ByUlAss3168 /\ f_now (t_f t'') < f_now (t_f t') + c_t3195 conf_t3168.
Proof. exact guard_cut_short. Qed.
Print Assumptions C33_guard_cut_short_refuted.

(** ... and so is one that is in use and has answered every poll. *)
Theorem C33_in_use_freed_refuted : exists t t' outs t'' l,
  sub_new conf_t3168 DL OnPacch 0 10 4 8 = Some t /\
  sub_run conf_t3168 t (flowing ++ [SUaSched; SLife (LDl (DTime 2000))]) = Some (t', outs) /\
  alive t' /\ state t' = FLOW /\ value N3105 t' = 0 /\
  sub_step conf_t3168 t' SUaTimer = Some (t'', l) /\ f_dead (t_f t'') = Some ByUlAss3168.
Proof. exact flow_cut_short. Qed.
Print Assumptions C33_in_use_freed_refuted.

(** ** C34 *)

(** A TBF is declared lost exactly when a block is missed and, with it, the number
    missed in a row is the limit now in force, modulo 256. *)
Theorem C34_lost_exactly : forall c d w now l1 l3 l5 t ops t' outs o t'' l n,
  sub_new c d w now l1 l3 l5 = Some t -> sub_run c t ops = Some (t', outs) -> alive t' ->
  sub_step c t' o = Some (t'', l) ->
  (In (Lost n) l <-> missed n t' o = true /\ (missed_in_a_row c n t ops 0 + 1) mod 256 = limit n t').
Proof. exact lost_exactly. Qed.
Print Assumptions C34_lost_exactly.

(** With a limit of 1..255 that is not changed: it is lost when the number missed in
    a row reaches the limit, and then it is being released.  Missing: a limit
    that is changed while the TBF lives (below). *)
Theorem C34_lost_at_limit_partial : forall c d w now l1 l3 l5 t ops t' outs o t'' l n,
  sub_new c d w now l1 l3 l5 = Some t -> no_reconfiguration ops ->
  1 <= configured n l1 l3 l5 <= 255 ->
  sub_run c t ops = Some (t', outs) -> alive t' -> counting n (state t') = true ->
  sub_step c t' o = Some (t'', l) ->
  (In (Lost n) l <-> missed n t' o = true /\ missed_in_a_row c n t ops 0 + 1 = configured n l1 l3 l5) /\
  (In (Lost n) l -> state t'' = RELEASING).
Proof. exact lost_at_limit. Qed.
Print Assumptions C34_lost_at_limit_partial.

(** It never goes on beyond the limit. *)
Theorem C34_never_beyond_partial : forall c d w now l1 l3 l5 t ops t' outs n,
  sub_new c d w now l1 l3 l5 = Some t -> no_reconfiguration ops ->
  1 <= configured n l1 l3 l5 <= 255 ->
  sub_run c t ops = Some (t', outs) -> counting n (state t') = true ->
  missed_in_a_row c n t ops 0 < configured n l1 l3 l5.
Proof. exact never_beyond. Qed.
Print Assumptions C34_never_beyond_partial.

(** When the limit is lowered below the count, the count passes it by: here 205
    polls in a row are not answered though the limit is 3. *)
Theorem C34_lowered_limit_refuted : exists t t' outs,
  sub_new conf_default DL OnPacch 0 10 4 8 = Some t /\ sub_run conf_default t (lowered 200) = Some (t', outs) /\
  alive t' /\ counting N3105 (state t') = true /\ limit N3105 t' = 3 /\
  missed_in_a_row conf_default N3105 t (lowered 200) 0 = 205.
Proof. exact lowered_limit. Qed.
Print Assumptions C34_lowered_limit_refuted.

(** A limit of 0 means 256, not "at once" or "never". *)
Theorem C34_zero_limit : exists t t' outs,
  sub_new conf_default DL OnPacch 0 10 4 0 = Some t /\ sub_run conf_default t (flowing ++ silent 255) = Some (t', outs) /\
  alive t' /\ state t' = FLOW.
Proof. exact zero_limit. Qed.
Print Assumptions C34_zero_limit.

(** ** Non-vacuity *)
Example C33_C34_ex_ul : exists t t' outs t'' l,
  sub_new conf_default UL OnPacch 0 3 2 8 = Some t /\ no_reconfiguration ul_life /\
  sub_run conf_default t ul_life = Some (t', outs) /\ alive t' /\ state t' = FINISHED /\
  outs = [Msg P_UL_ASS; Msg P_UL_ASS; Msg P_UL_ACK; Msg P_UL_ACK] /\
  outstanding P_UL_ACK t' = 1%nat /\ waits P_UL_ACK t' = true /\
  missed_in_a_row conf_default N3103 t ul_life 0 = 1 /\ counting N3103 (state t') = true /\
  missed N3103 t' (SUnanswered P_UL_ACK) = true /\
  sub_step conf_default t' (SUnanswered P_UL_ACK) = Some (t'', l) /\ l = [Lost N3103] /\ state t'' = RELEASING.
Proof. exact ul_run_ex. Qed.

Example C34_ex_dl : exists t t' outs t'' l,
  sub_new conf_default DL OnPacch 0 3 2 4 = Some t /\
  no_reconfiguration (flowing ++ silent 2 ++ [SDlPoll; SDlAck false] ++ silent 3 ++ [SDlPoll]) /\
  sub_run conf_default t (flowing ++ silent 2 ++ [SDlPoll; SDlAck false] ++ silent 3 ++ [SDlPoll]) = Some (t', outs) /\
  alive t' /\ state t' = FLOW /\
  missed_in_a_row conf_default N3105 t (flowing ++ silent 2 ++ [SDlPoll; SDlAck false] ++ silent 3 ++ [SDlPoll]) 0 = 3 /\
  sub_step conf_default t' (SUnanswered P_DL_ACK) = Some (t'', l) /\ l = [Lost N3105] /\ state t'' = RELEASING.
Proof. exact dl_run_ex. Qed.
