(** What is expected of polls and of the counters of lost answers (3GPP TS
    44.060, 9.3.2.4, 9.3.3.3, 9.5 and 13.4), independent of the state machines. *)
From Coq Require Import ZArith List Bool.
From Verif Require Import Model.TbfFsm Model.TbfSub.
Import ListNotations.
Open Scope Z_scope.

Definition alive (t : tbf) : Prop := f_dead (t_f t) = None.
Definition state (t : tbf) : tst := f_st (t_f t).

(** The TBF still waits for the answer to a poll with this reason. *)
Definition waits (r : reason) (t : tbf) : bool :=
  match r with
  | P_UL_ASS => match t_ua t with UA_WAIT => true | _ => false end
  | P_DL_ASS => match t_da t with DA_WAIT => true | _ => false end
  | P_UL_ACK => match t_uk t with UK_WAIT => true | _ => false end
  | P_DL_ACK => true
  end.

(** The input is a block that the mobile should have sent, and did not:
    - N3101: it was granted the uplink with a USF;
    - N3103: it was asked to confirm the final Packet Uplink Ack/Nack;
    - N3105: it was polled on its downlink TBF. *)
Definition missed (n : counter) (t : tbf) (o : sop) : bool :=
  match n, t_dir t, o with
  | N3101, UL, SUsfTimeout => match t_usf t with O => false | _ => true end
  | N3103, UL, SUnanswered P_UL_ACK =>
      match outstanding P_UL_ACK t with O => false | _ => waits P_UL_ACK t && tst_eqb (state t) FINISHED end
  | N3105, DL, SUnanswered r =>
      match r with
      | P_UL_ACK => false
      | _ => match outstanding r t with O => false | _ => waits r t end
      end
  | _, _, _ => false
  end.

(** The input is the answer, or a data block, that was waited for. *)
Definition answered (n : counter) (t : tbf) (o : sop) : bool :=
  match n, t_dir t, o with
  | N3101, UL, (SUlData | SUlStray) => true
  | N3103, UL, SUlLast => tst_eqb (state t) FLOW
  | N3103, UL, SResReq => match outstanding P_UL_ACK t with O => false | _ => true end
  | N3105, DL, SDlAck _ => true
  | N3105, DL, SAnswer r _ =>
      match r with
      | P_UL_ASS | P_DL_ASS => match outstanding r t with O => false | _ => waits r t end
      | _ => false
      end
  | _, _, _ => false
  end.

(** How many blocks were missed in a row, at the end of a run. *)
Definition tally (n : counter) (t : tbf) (o : sop) (k : Z) : Z :=
  if missed n t o then k + 1 else if answered n t o then 0 else k.

Fixpoint missed_in_a_row (c : tconf) (n : counter) (t : tbf) (ops : list sop) (k : Z) : Z :=
  match ops with
  | [] => k
  | o :: ops =>
      match f_dead (t_f t), sub_step c t o with
      | None, Some (t', _) => missed_in_a_row c n t' ops (tally n t o k)
      | _, _ => k
      end
  end.

Definition limit (n : counter) (t : tbf) : Z :=
  match n with N3101 => t_l1 t | N3103 => t_l3 t | N3105 => t_l5 t end.

Definition value (n : counter) (t : tbf) : Z :=
  match n with N3101 => t_n1 t | N3103 => t_n3 t | N3105 => t_n5 t end.

(** The limits of the cell do not change. *)
Definition no_reconfiguration (ops : list sop) : Prop := forall a b c, ~ In (SLimits a b c) ops.

(** The states in which a TBF counts with this counter and can still be lost. *)
Definition counting (n : counter) (s : tst) : bool :=
  match n, s with
  | N3101, (ASSIGN | FLOW) => true
  | N3103, FINISHED => true
  | N3105, (ASSIGN | FLOW | FINISHED | WAIT_RELEASE) => true
  | _, _ => false
  end.

(** The limits with which the cell was configured when the TBF was created. *)
Definition configured (n : counter) (l1 l3 l5 : Z) : Z :=
  match n with N3101 => l1 | N3103 => l3 | N3105 => l5 end.

(** The sub-machine of a poll reason has nothing to do, or has a message to send
    (again). *)
Definition idle (r : reason) (t : tbf) : Prop :=
  match r with
  | P_UL_ASS => t_ua t = UA_NONE
  | P_DL_ASS => t_da t = DA_NONE
  | P_UL_ACK => t_uk t = UK_NONE
  | P_DL_ACK => True
  end.
Definition retries (r : reason) (t : tbf) : Prop :=
  match r with
  | P_UL_ASS => t_ua t = UA_SEND
  | P_DL_ASS => t_da t = DA_SEND
  | P_UL_ACK => t_uk t = UK_SCHED
  | P_DL_ACK => True
  end.
