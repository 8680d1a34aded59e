(** Runs of a TBF with its sub-machines. *)
From Coq Require Import ZArith Lia List Bool.
From Verif Require Import Base.Arith Model.TbfFsm Proofs.TbfFsmQ Model.TbfSub Spec.TbfSubSpec.
Import ListNotations.
Open Scope Z_scope.

Definition run_new c d w now l1 l3 l5 ops : option (tbf * list sout) :=
  match sub_new c d w now l1 l3 l5 with Some t => sub_run c t ops | None => None end.

Lemma run_new_split : forall c d w now l1 l3 l5 ops r, run_new c d w now l1 l3 l5 ops = Some r ->
  exists t, sub_new c d w now l1 l3 l5 = Some t /\ sub_run c t ops = Some r.
Proof. intros. unfold run_new in H. destruct (sub_new _ _ _ _ _ _ _); [eauto | discriminate]. Qed.

(** A downlink assignment is sent, aborted while its answer is awaited, and sent again. *)
Definition aborted : list sop :=
  [SDaSched; SDaRts true true true true true true; SDaAbort; SDaSched; SDaRts true true true true true true].

Lemma two_polls : exists t t' outs,
  sub_new conf_default DL OnPacch 0 10 4 8 = Some t /\ sub_run conf_default t aborted = Some (t', outs) /\
  alive t' /\ state t' = ASSIGN /\ outstanding P_DL_ASS t' = 2%nat.
Proof.
  do 3 eexists. split; [vm_compute; reflexivity|]. split; [vm_compute; reflexivity|]. splits; reflexivity.
Qed.

(** Downlink data is polled for and never acknowledged. *)
Definition silent (n : nat) : list sop := concat (repeat [SDlPoll; SUnanswered P_DL_ACK] n).
Definition flowing : list sop := [SDaSched; SDaRts true true true true true true; SAnswer P_DL_ASS false; SLife (LDl (DEv ACK_PACCH))].
Definition lowered (n : nat) : list sop := flowing ++ silent 5 ++ [SLimits 10 4 3] ++ silent n.

Lemma lowered_limit : exists t t' outs,
  sub_new conf_default DL OnPacch 0 10 4 8 = Some t /\ sub_run conf_default t (lowered 200) = Some (t', outs) /\
  alive t' /\ counting N3105 (state t') = true /\ limit N3105 t' = 3 /\
  missed_in_a_row conf_default N3105 t (lowered 200) 0 = 205.
Proof.
  do 3 eexists. split; [vm_compute; reflexivity|]. split; [vm_compute; reflexivity|].
  splits; try reflexivity.
Qed.

Lemma zero_limit : exists t t' outs,
  sub_new conf_default DL OnPacch 0 10 4 0 = Some t /\ sub_run conf_default t (flowing ++ silent 255) = Some (t', outs) /\
  alive t' /\ state t' = FLOW.
Proof.
  do 3 eexists. split; [vm_compute; reflexivity|]. split; [vm_compute; reflexivity|].
  split; reflexivity.
Qed.

(** T3168 = 500 ms: the uplink assignment may take 2 s. *)
Definition conf_t3168 : tconf := TConf 2000 200 1500 1600 5000 5000 500 5000 10000 0.
Definition cut_short : list sop :=
  flowing ++ [SUaSched; SUaRts true true true true; SUnanswered P_UL_ASS; SLife (LDl (DTime 2000))].

Lemma guard_cut_short : exists t t' outs t'' l,
  sub_new conf_t3168 DL OnPacch 0 10 4 1 = Some t /\
  sub_run conf_t3168 t (flowing ++ [SUaSched; SUaRts true true true true; SUnanswered P_UL_ASS]) = Some (t', outs) /\
  alive t' /\ state t' = RELEASING /\ f_tm (t_f t') = Some (f_now (t_f t') + c_t3195 conf_t3168) /\
  sub_run conf_t3168 t' [SLife (LDl (DTime 2000)); SUaTimer] = Some (t'', l) /\
  f_dead (t_f t'') = Some ByUlAss3168 /\ f_now (t_f t'') < f_now (t_f t') + c_t3195 conf_t3168.
Proof.
  do 5 eexists. split; [vm_compute; reflexivity|]. split; [vm_compute; reflexivity|].
  split; [reflexivity|]. split; [reflexivity|]. split; [vm_compute; reflexivity|].
  split; [vm_compute; reflexivity|]. split; [reflexivity | vm_compute; reflexivity].
Qed.

(** A live TBF in FLOW loses its uplink assignment timer. *)
Lemma flow_cut_short : exists t t' outs t'' l,
  sub_new conf_t3168 DL OnPacch 0 10 4 8 = Some t /\
  sub_run conf_t3168 t (flowing ++ [SUaSched; SLife (LDl (DTime 2000))]) = Some (t', outs) /\
  alive t' /\ state t' = FLOW /\ value N3105 t' = 0 /\
  sub_step conf_t3168 t' SUaTimer = Some (t'', l) /\ f_dead (t_f t'') = Some ByUlAss3168.
Proof.
  do 5 eexists. split; [vm_compute; reflexivity|]. split; [vm_compute; reflexivity|].
  split; [reflexivity|]. split; [reflexivity|]. split; [reflexivity|].
  split; [vm_compute; reflexivity|]. reflexivity.
Qed.

Lemma no_limits_dec : forall ops,
  forallb (fun o => match o with SLimits _ _ _ => false | _ => true end) ops = true -> no_reconfiguration ops.
Proof. intros ops H a b c I. rewrite forallb_forall in H. discriminate (H _ I). Qed.

(** An uplink TBF: USFs are not used, then one is; the final acknowledgement is not
    confirmed twice. *)
Definition ul_life : list sop :=
  [SUaSched; SUaRts true true true true; SUnanswered P_UL_ASS; SUaRts true true true true; SAnswer P_UL_ASS false;
   SLife (LUl (UEv ACK_PACCH)); SUsf; SUsfTimeout; SUsf; SUsf; SUsfTimeout; SUlData; SUlLast;
   SUkSched; SUkRts true true false; SUnanswered P_UL_ACK; SUkRts true true false].

Lemma ul_run_ex : exists t t' outs t'' l,
  sub_new conf_default UL OnPacch 0 3 2 8 = Some t /\ no_reconfiguration ul_life /\
  sub_run conf_default t ul_life = Some (t', outs) /\ alive t' /\ state t' = FINISHED /\
  outs = [Msg P_UL_ASS; Msg P_UL_ASS; Msg P_UL_ACK; Msg P_UL_ACK] /\
  outstanding P_UL_ACK t' = 1%nat /\ waits P_UL_ACK t' = true /\
  missed_in_a_row conf_default N3103 t ul_life 0 = 1 /\ counting N3103 (state t') = true /\
  missed N3103 t' (SUnanswered P_UL_ACK) = true /\
  sub_step conf_default t' (SUnanswered P_UL_ACK) = Some (t'', l) /\ l = [Lost N3103] /\ state t'' = RELEASING.
Proof.
  do 5 eexists. split; [vm_compute; reflexivity|]. split; [apply no_limits_dec; reflexivity|].
  split; [vm_compute; reflexivity|]. split; [reflexivity|]. split; [reflexivity|]. split; [reflexivity|].
  split; [reflexivity|]. split; [reflexivity|]. split; [vm_compute; reflexivity|]. split; [reflexivity|].
  split; [reflexivity|]. split; [vm_compute; reflexivity|]. split; reflexivity.
Qed.

Lemma dl_run_ex : exists t t' outs t'' l,
  sub_new conf_default DL OnPacch 0 3 2 4 = Some t /\ no_reconfiguration (flowing ++ silent 2 ++ [SDlPoll; SDlAck false] ++ silent 3 ++ [SDlPoll]) /\
  sub_run conf_default t (flowing ++ silent 2 ++ [SDlPoll; SDlAck false] ++ silent 3 ++ [SDlPoll]) = Some (t', outs) /\
  alive t' /\ state t' = FLOW /\
  missed_in_a_row conf_default N3105 t (flowing ++ silent 2 ++ [SDlPoll; SDlAck false] ++ silent 3 ++ [SDlPoll]) 0 = 3 /\
  sub_step conf_default t' (SUnanswered P_DL_ACK) = Some (t'', l) /\ l = [Lost N3105] /\ state t'' = RELEASING.
Proof.
  do 5 eexists. split; [vm_compute; reflexivity|]. split; [apply no_limits_dec; reflexivity|].
  split; [vm_compute; reflexivity|]. split; [reflexivity|]. split; [reflexivity|].
  split; [vm_compute; reflexivity|]. split; [vm_compute; reflexivity|]. split; reflexivity.
Qed.
