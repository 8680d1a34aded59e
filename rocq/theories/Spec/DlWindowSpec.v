(** Downlink window: what an outside observer sees.

    The observer numbers the blocks of a TBF 0, 1, 2, ... without wrap-around and
    keeps a log of what happened to each: sent, reported as received, reported as
    lost. It derives these numbers only from the block sequence numbers that go
    over the air; it never looks into the acknowledgement state array. *)
From Coq Require Import ZArith List Bool.
From Verif Require Import Base.Arith Model.RlcWindow Model.RlcWindowDl Model.TbfDlWindow.
Import ListNotations.
Local Open Scope Z_scope.

Inductive ev := Sent (i : Z) | AckRep (i : Z) | NackRep (i : Z).

Definition about (e : ev) : Z := match e with Sent i | AckRep i | NackRep i => i end.

(** The most recent event about block [i]; the log is newest first. *)
Definition last_about (i : Z) (log : list ev) : option ev :=
  find (fun e => about e =? i) log.

Record obs := mk_obs {
  o_w : dl_window;
  o_A : Z;          (* number of blocks passed by the lower edge *)
  o_S : Z;          (* number of new blocks ever sent *)
  o_log : list ev }.

Definition obs_init (sns ws : Z) : obs := mk_obs (dl_init sns ws) 0 0 [].

(** The newest block with sequence number [bsn] among those below [top]. *)
Definition unwrap (sns top bsn : Z) : Z := top - 1 - ((top - 1 - bsn) mod sns).

Definition report_events (A n : Z) (bits : list bool) : list ev :=
  map (fun k => let i := A + Z.of_nat k in
                if nth k bits false then AckRep i else NackRep i)
      (rev (seq 0 (Z.to_nat (Z.min n (Z.of_nat (length bits)))))).

(** One operation of the TBF as the observer records it. A report covers the
    blocks from the lower edge on, as far as both the bits and the outstanding
    blocks go. The final acknowledgement ends the transfer: counting restarts. *)
Definition obs_step (op : dl_op) (o : obs) : option obs :=
  let w := o_w o in
  match op with
  | DBlock e1 e2 s1 s2 =>
      match tbf_create_dl_acked_block e1 e2 s1 s2 w with
      | None => None
      | Some (w', sent) =>
          let S' := o_S o + (dw_vs w' - dw_vs w) mod dw_sns w in
          Some (mk_obs w' (o_A o) S'
                  (map (fun bsn => Sent (unwrap (dw_sns w) S' bsn)) (rev sent) ++ o_log o))
      end
  | DReport final bits =>
      match tbf_rcvd_dl_ack final (dw_va w) bits w with
      | None => None
      | Some (w', _, _) =>
          if final then Some (mk_obs w' 0 0 [])
          else Some (mk_obs w' (o_A o + (dw_va w' - dw_va w) mod dw_sns w) (o_S o)
                       (report_events (o_A o) (o_S o - o_A o) bits ++ o_log o))
      end
  | DSetWs ws =>
      match dl_set_ws w ws with
      | None => None
      | Some w' => Some (mk_obs w' (o_A o) (o_S o) (o_log o))
      end
  end.

Fixpoint obs_run (ops : list dl_op) (o : obs) : option obs :=
  match ops with
  | [] => Some o
  | x :: r => match obs_step x o with None => None | Some o' => obs_run r o' end
  end.

(** Window parameters the code accepts: a power-of-two sequence space 128..2048 and
    a window of at least 64 and at most half the space. *)
Definition dl_params (sns ws : Z) : Prop := sns_ok sns /\ 64 <= ws /\ 2 * ws <= sns.

(** The window size may change during a transfer, but not shrink
    (see [C50_window_monotone]). *)
Definition ws_grows (op : dl_op) (w : dl_window) : Prop :=
  match op with DSetWs ws => dw_ws w <= ws /\ 2 * ws <= dw_sns w | _ => True end.

Inductive dl_reach (sns ws : Z) : obs -> Prop :=
| reach_init : dl_params sns ws -> dl_reach sns ws (obs_init sns ws)
| reach_step : forall o op o',
    dl_reach sns ws o -> ws_grows op (o_w o) -> obs_step op o = Some o' ->
    dl_reach sns ws o'.

(** Block [i] is outstanding. *)
Definition outstanding (o : obs) (i : Z) : Prop := o_A o <= i < o_S o.

(** The acknowledgement state the window holds for block [i]. *)
Definition blk (o : obs) (i : Z) : dl_bsn_state := vb_get (o_w o) (i mod dw_sns (o_w o)).

Definition needs_resend (s : dl_bsn_state) : Prop := s = DlNacked \/ s = DlResend.

(** Number of outstanding blocks whose state satisfies [f]. *)
Definition count_out (o : obs) (f : dl_bsn_state -> bool) : Z :=
  Z.of_nat (length (filter (fun k => f (blk o (o_A o + Z.of_nat k)))
                           (seq 0 (Z.to_nat (o_S o - o_A o))))).

(** The acknowledgement status of block [i] after some step: a block below the lower
    edge is done with, i.e. acknowledged. *)
Definition status_after (o : obs) (i : Z) : dl_bsn_state :=
  if i <? o_A o then DlAcked else blk o i.

(** 3GPP TS 44.060, 12.3: bit number [b] (1..64) of the GPRS received block bitmap is
    about block SSN - b; bit 64 is transmitted first, i.e. is at position 64 - b. *)
Definition gprs_bitmap_says (ssn : Z) (rbb : Z -> bool) (i : Z) : dl_bsn_state :=
  if rbb (64 - (ssn - i) mod 128) then DlAcked else DlNacked.

(** 3GPP TS 44.060, 12.3.1: with BOW = 1 every block before SSN - 1 is acknowledged,
    block SSN - 1 is V(Q), i.e. missing, if a bitmap is present, and bit k of the
    bitmap (k = 0, 1, ...) is about block SSN + k. [q] is SSN - 1 unwrapped. With
    BOW = 0 nothing is said about the blocks before SSN - 1. *)
Definition egprs_report_says (bow : bool) (q : Z) (bitmap : option (list bool))
  (old : Z -> dl_bsn_state) (i : Z) : dl_bsn_state :=
  if i <? q then (if bow then DlAcked else old i)
  else match bitmap with
       | None => old i
       | Some l =>
         if i =? q then DlNacked
         else match nth_error l (Z.to_nat (i - q - 1)) with
              | Some true => DlAcked | Some false => DlNacked | None => old i end
       end.

(** The bitmap of an EGPRS report: the decompressed part, if any, then the
    uncompressed part (dropped if decompression failed part-way). *)
Definition bitmap_of (crbb : option (bool * list bool)) (urbb : list bool) : option (list bool) :=
  match crbb, urbb with
  | None, [] => None
  | None, u => Some u
  | Some (true, l), u => Some (l ++ u)
  | Some (false, l), _ => Some l
  end.

(** Number of blocks covered by both the report and the window whose bit and previous
    state satisfy [f]. *)
Definition report_count (o : obs) (bits : list bool) (f : bool -> dl_bsn_state -> bool) : Z :=
  Z.of_nat (length (filter (fun k => f (nth k bits false) (blk o (o_A o + Z.of_nat k)))
     (seq 0 (Z.to_nat (Z.min (o_S o - o_A o) (Z.of_nat (length bits))))))).
