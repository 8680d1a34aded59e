(** What it means that data queued for a mobile is sent (C78). *)
From Coq Require Import List Arith Bool.
From Verif Require Import Model.DlDemand.
Import ListNotations.

(** What happens by itself when nothing goes wrong: blocks and answers of the mobile arrive, the BTS confirms, the
    scheduler sends what is due, timers run out, resources are there. *)
Definition quiet (o : op) : bool :=
  match o with
  | UlAssigned ok | SendAck ok | Answer ok | DlFinal ok => ok
  | UlBlock _ | SendAss | Cnf | X2002 None | X2002 (Some true) | SelfSend | SelfAnswer | OldSend | OldAnswer
  | Push | DlAck | DlLast | T3192 | T3193 | T3195 => true
  | _ => false
  end.

(** What the SGSN and the mobile do of their own accord, with resources for it. *)
Definition wish (o : op) : bool :=
  match o with Data ok | Request ok _ | Change ok _ | AnswerReq ok _ => ok | Access _ _ => true | _ => false end.

(** A single answer that does not arrive. *)
Definition missing (o : op) : bool :=
  match o with Missed | SelfMissed | OldMissed | DlMiss => true | _ => false end.
Definition smooth (o : op) : bool := quiet o || wish o || missing o.

(** In order: the uplink TBF is not ended while it has a downlink assignment to send or to send again. *)
Definition in_order (s : mob) (o : op) : Prop :=
  match o, m_ul s with
  | SendAck _, Some u => u_st u = UFin -> u_ass u <> Some Send
  | Change _ _, Some u => u_ass u = None
  | Missed, Some u => u_ack u = AWait -> hd_error (u_polls u) <> Some PAss
  | _, _ => True
  end.

(** However what happens by itself is ordered, the queue runs empty. *)
Inductive delivered : mob -> Prop :=
| delivered_now : forall s, m_q s = 0 -> delivered s
| delivered_later : forall s,
    (exists o s', quiet o = true /\ in_order s o /\ step s o = Some s') ->
    (forall o s', quiet o = true -> in_order s o -> step s o = Some s' -> delivered s') ->
    delivered s.

(** Histories in which at most single answers are missing, from a mobile for which nothing is queued. *)
Inductive history : mob -> Prop :=
| history_nil : history mob0
| history_step : forall s o s', history s -> smooth o = true -> in_order s o -> step s o = Some s' -> history s'.
(** The same with one more event allowed, as a list. *)
Fixpoint story (also : op) (s : mob) (os : list op) (s' : mob) : Prop :=
  match os with
  | [] => s = s'
  | o :: os => (smooth o = true \/ o = also) /\ in_order s o /\
               match step s o with Some s1 => story also s1 os s' | None => False end
  end.

(** Forgotten: whatever happens, no queued frame is ever sent, until the SGSN sends more data or the mobile comes with
    a request of its own. *)
Definition demand (o : op) : bool :=
  match o with Data _ | Access _ _ | Request _ _ => true | _ => false end.
Definition forgotten (s : mob) : Prop :=
  0 < m_q s /\ forall os s', Forall (fun o => demand o = false) os -> run s os = Some s' -> m_q s' = m_q s.
