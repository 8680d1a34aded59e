(** C78: data queued for a mobile is sent. *)
From Coq Require Import List Arith Bool Lia.
From Verif Require Import Model.DlDemand Spec.DlDemandSpec Proofs.DlDemandP Proofs.DlDemandQ.
Import ListNotations.

(** Full statement: [forall os s, run mob0 os = Some s -> delivered s]. It is false; see the theorems below. *)
(** After any history in which resources are found, at most single answers are missing and no uplink TBF is ended before
    it has sent the downlink assignment it has to send, the queue runs empty by itself, in whatever order the scheduler,
    the timers, the BTS and the mobile act. *)
Theorem C78_delivered_partial : forall s, history s -> delivered s.
Proof. exact history_delivered. Qed.
Print Assumptions C78_delivered_partial.

(** Without any loss: the final acknowledgement of the uplink TBF is sent before the downlink assignment on it. The TBF
    ends with the answer to the former; the answer to the latter is not waited for any more, nothing is assigned in its
    place and the data is forgotten. *)
Theorem C78_race_refuted : exists os s, forallb (fun o => quiet o || wish o) os = true /\ run mob0 os = Some s /\ forgotten s.
Proof. exact race. Qed.
Print Assumptions C78_race_refuted.
(** The same when the assignment has been sent in time but its answer does not arrive. *)
Theorem C78_missed_refuted : exists s1 s2 s3, history s1 /\ step s1 Missed = Some s2 /\ step s2 (Answer true) = Some s3 /\
  forgotten s3.
Proof. exact missed. Qed.
Print Assumptions C78_missed_refuted.
(** One event of any of these kinds is enough: an uplink or downlink TBF given up, its timer run out, no resources. *)
Theorem C78_losses_refuted : Forall (fun o => exists os s, story o mob0 os s /\ forgotten s)
  [N3101; N3103; N3105; T3191; X2001; UlTimeout; Data false; Request false 0; AnswerReq false 0; Answer false; DlFinal false;
   X2002 (Some false)].
Proof. exact losses. Qed.
Print Assumptions C78_losses_refuted.
(** And if the BTS does not confirm an assignment on the paging channel, more data does not help either. *)
Theorem C78_unconfirmed_refuted : exists s, history s /\ m_q s = 1 /\ forall os s',
  Forall (fun o => match o with Cnf | Access _ _ | Request _ _ => False | _ => True end) os ->
  run s os = Some s' -> m_dl s' = m_dl s /\ m_q s' >= m_q s.
Proof. exact unconfirmed. Qed.
Print Assumptions C78_unconfirmed_refuted.

(** Data that has to wait for the end of an uplink TBF of one block; then the paging channel. *)
Example C78_ex_pch : exists s, run mob0 [Access 0 0; Data true; Data true; SendAck true; Answer true; Cnf; X2002 (Some true);
    SelfSend; SelfAnswer; Push; Push; DlLast; DlFinal true] = Some s /\ s = mk_mob 0 (Some DRel) None None.
Proof. eexists. split; [vm_compute; reflexivity | reflexivity]. Qed.
(** Data that arrives before the mobile has heard of its uplink TBF; then on that TBF. *)
Example C78_ex_pacch : exists s, run mob0 [Access 0 2; Data true; SendAck true; SendAss; Missed; SendAss; UlBlock true; Answer true; Push] = Some s /\
  m_q s = 0 /\ m_dl s = Some (DFlow false).
Proof. eexists. split; [vm_compute; reflexivity | split; reflexivity]. Qed.
Example C78_ex_history : history (mk_mob 1 None (Some (mk_ul UFin true 0 AWait None [PAck])) None).
Proof.
  apply (history_step (mk_mob 1 None (Some (mk_ul UFin false 0 ASched None [])) None) (SendAck true)); [|reflexivity|cbn; congruence|reflexivity].
  apply (history_step (mk_mob 0 None (Some (mk_ul UFin false 0 ASched None [])) None) (Data true)); [|reflexivity|exact I|reflexivity].
  apply (history_step mob0 (Access 0 0)); [constructor|reflexivity|exact I|reflexivity].
Qed.
