(** Uplink window: what an outside observer sees.

    The observer numbers the blocks of a TBF 0, 1, 2, ... without wrap-around. It logs
    the arrival of every complete, acceptable block that lies in the receive window,
    duplicates included, and collects what is delivered upwards. It never looks into
    the state array. *)
From Coq Require Import ZArith List Bool.
From Verif Require Import Base.Arith Model.RlcWindow Model.RlcWindowUl Model.TbfUlWindow.
Import ListNotations.
Local Open Scope Z_scope.

(** Block [i] arrived with content [c]. [far] tells that at that moment the window was
    empty, spans half the sequence space, and [i] was its very last number. *)
Inductive uev := Arr (i : Z) (c : ul_content) (far : bool).

Record uobs := mk_uobs {
  u_t : ul_tbf;
  u_Q : Z;                    (* number of blocks delivered *)
  u_R : Z;                    (* one more than the highest number received *)
  u_log : list uev;           (* newest first *)
  u_out : list ul_content;    (* delivered blocks, oldest first *)
  u_fin : bool }.             (* the last operation signalled "all data received" *)

Definition uobs_init (sns ws : Z) : uobs := mk_uobs (ul_tbf_init sns ws) 0 0 [] [] false.

(** The number, at or above the lower edge [Q], a sequence number stands for. *)
Definition ul_number (sns Q bsn : Z) : Z := Q + (bsn - Q) mod sns.

Definition uobs_one (Q R sns ws : Z) (b : ul_blk) (log : list uev) : list uev :=
  let i := ul_number sns Q (ub_bsn b) in
  if (i <? Q + ws) && negb (ub_incomplete b) && ub_tlli_ok b
  then Arr i (ub_content b) ((i =? Q + ws - 1) && (R =? Q) && (2 * ws =? sns)) :: log
  else log.

(** The log of the loop over the blocks of one radio block; [R] is followed through
    the window's V(R). *)
Fixpoint uobs_loop (t : ul_tbf) (Q R : Z) (l : list ul_blk) (log : list uev) : list uev * Z :=
  match l with
  | [] => (log, R)
  | b :: r =>
      let w := ut_w t in
      let log1 := uobs_one Q R (uw_sns w) (uw_ws w) b log in
      let '(t1, ret) := ul_rcv_one t b in
      let R1 := R + (uw_vr (ut_w t1) - uw_vr w) mod uw_sns w in
      if ret then (log1, R1) else uobs_loop t1 Q R1 r log1
  end.

Definition uobs_step (op : ul_op) (o : uobs) : option uobs :=
  match op with
  | URcv releasing flow l =>
      match ul_rcv releasing flow (u_t o) l with
      | None => None
      | Some (t', out, fin) =>
          if releasing then Some (mk_uobs t' (u_Q o) (u_R o) (u_log o) (u_out o) fin)
          else
            let '(log', R') := uobs_loop (u_t o) (u_Q o) (u_R o) l (u_log o) in
            Some (mk_uobs t' (u_Q o + Z.of_nat (length out)) R' log' (u_out o ++ out) fin)
      end
  | USetWs ws =>
      match ul_set_ws (u_t o) ws with
      | None => None
      | Some t' => Some (mk_uobs t' (u_Q o) (u_R o) (u_log o) (u_out o) false)
      end
  end.

Fixpoint uobs_run (ops : list ul_op) (o : uobs) : option uobs :=
  match ops with
  | [] => Some o
  | x :: r => match uobs_step x o with None => None | Some o' => uobs_run r o' end
  end.

(** Window parameters the code accepts (window at most half the space), and windows
    that also occupy at most half of the 1024-entry state array. *)
Definition ul_params (sns ws : Z) : Prop := sns_ok sns /\ 64 <= ws /\ 2 * ws <= sns.
Definition ul_half (sns ws : Z) : Prop := 2 * ws <= Z.min sns 1024.

Definition uws (o : uobs) : Z := uw_ws (ut_w (u_t o)).

(** Sequence numbers are what fits the field; the window size does not shrink. *)
Definition ul_op_ok (sns : Z) (op : ul_op) (o : uobs) : Prop :=
  match op with
  | URcv _ _ l => Forall (fun b => 0 <= ub_bsn b < sns) l
  | USetWs ws => uws o <= ws /\ 2 * ws <= sns
  end.

Inductive ul_reach (sns ws : Z) : uobs -> Prop :=
| ureach_init : ul_params sns ws -> ul_reach sns ws (uobs_init sns ws)
| ureach_step : forall o op o', ul_reach sns ws o -> ul_op_ok sns op o ->
    uobs_step op o = Some o' -> ul_reach sns ws o'.

(** Block [i] has arrived. *)
Definition arrived (o : uobs) (i : Z) : Prop := exists c far, In (Arr i c far) (u_log o).

(** No block ever arrived in the exceptional position. *)
Definition no_far (log : list uev) : Prop := forall i c far, In (Arr i c far) log -> far = false.

(** A sender that numbers its blocks 0, 1, 2, ... with contents [f], and respects the
    window: the true numbers of the blocks of one radio block, given the lower edge. *)
Definition sent_block (sns ws Q : Z) (f : Z -> ul_content) (b : ul_blk) : Prop :=
  exists i, Q - ws <= i < Q + ws /\ ub_bsn b = i mod sns /\
            (ub_incomplete b = false -> ub_content b = f i).

Inductive ul_reach_from (sns ws : Z) (f : Z -> ul_content) : uobs -> Prop :=
| ufrom_init : ul_params sns ws -> ul_reach_from sns ws f (uobs_init sns ws)
| ufrom_rcv : forall o rel flow l o', ul_reach_from sns ws f o ->
    Forall (sent_block sns (uws o) (u_Q o) f) l ->
    uobs_step (URcv rel flow l) o = Some o' -> ul_reach_from sns ws f o'
| ufrom_ws : forall o ws' o', ul_reach_from sns ws f o -> ul_op_ok sns (USetWs ws') o ->
    uobs_step (USetWs ws') o = Some o' -> ul_reach_from sns ws f o'.
