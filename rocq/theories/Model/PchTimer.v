(** The timers of subscribers being paged on the paging channel.

    Models src/bts_pch_timer.c:31-121, its caller src/gprs_bssgp_pcu.c:287-324 (one cell) and
    src/tbf_ul_fsm.c:192.  An IMSI is the string of its digits (at most 15, so that the copy in
    the entry is complete); time is in seconds.  Not modelled: log output, counters. *)
From Coq Require Import ZArith List Bool.
Import ListNotations.
Open Scope Z_scope.

(** GSM_RESERVED_TMSI (libosmocore). *)
Definition RESERVED : Z := 0xffffffff.
Definition imsi := list Z.
Definition str_eq (a b : imsi) : bool := if list_eq_dec Z.eq_dec a b then true else false.

(** struct bts_pch_timer, src/bts_pch_timer.h:31-37; [p_end]: when its T3113 fires. *)
Record pch := Pch { p_imsi : imsi; p_ptmsi : Z; p_end : Z }.
(** The list of a cell, the clock and the configured T3113. *)
Record cell := Cell { pl : list pch; now : Z; t3113 : Z }.

(** bts_pch_timer_get_by_ptmsi, src/bts_pch_timer.c:31-42; the outer [None]: the assertion fails. *)
Definition by_ptmsi (p : Z) (l : list pch) : option (option pch) :=
  if p =? RESERVED then None
  else Some (find (fun x => negb (p_ptmsi x =? RESERVED) && (p_ptmsi x =? p)) l).

(** bts_pch_timer_get_by_imsi, src/bts_pch_timer.c:44-54. *)
Definition by_imsi (i : imsi) (l : list pch) : option pch := find (fun x => str_eq (p_imsi x) i) l.

(** bts_pch_timer_start, src/bts_pch_timer.c:74-96; [ptmsi]: the TMSI of the identity that is
    paged, or [None] if it is not a TMSI. *)
Definition pch_start (ptmsi : option Z) (i : imsi) (c : cell) : cell :=
  Cell (pl c ++ [Pch i (match ptmsi with Some t => t | None => RESERVED end) (now c + t3113 c)]) (now c) (t3113 c).

(** bts_pch_timer_remove, src/bts_pch_timer.c:56-63, of the first entry that [f] selects. *)
Fixpoint pch_remove (f : pch -> bool) (l : list pch) : list pch :=
  match l with [] => [] | x :: l => if f x then l else x :: pch_remove f l end.

(** bts_pch_timer_stop, src/bts_pch_timer.c:98-112, for a mobile with this TLLI and IMSI. *)
Definition pch_stop (tlli : Z) (i : imsi) (c : cell) : option cell :=
  match (if negb (tlli =? RESERVED) then by_ptmsi tlli (pl c) else Some None) with
  | None => None
  | Some (Some _) => Some (Cell (pch_remove (fun x => negb (p_ptmsi x =? RESERVED) && (p_ptmsi x =? tlli)) (pl c)) (now c) (t3113 c))
  | Some None =>
      match i with
      | [] => Some c
      | _ => match by_imsi i (pl c) with
             | Some _ => Some (Cell (pch_remove (fun x => str_eq (p_imsi x) i) (pl c)) (now c) (t3113 c))
             | None => Some c
             end
      end
  end.

(** The loop body of gprs_bssgp_pcu_rx_paging_ps, src/gprs_bssgp_pcu.c:311-320; [sent]: the paging
    request could be encoded. *)
Definition page_ps (sent : bool) (ptmsi : option Z) (i : imsi) (c : cell) : cell :=
  match by_imsi i (pl c) with
  | Some _ => c
  | None => if sent then pch_start ptmsi i c else c
  end.

(** T3113_callback, src/bts_pch_timer.c:65-72, of every timer that is due. *)
Definition pch_timers (c : cell) : cell := Cell (filter (fun x => now c <? p_end x) (pl c)) (now c) (t3113 c).

(** The life of a cell: a page from the SGSN, first uplink data of a mobile, time, due timers,
    T3113 is configured. *)
Inductive pop := Page (sent : bool) (ptmsi : option Z) (i : imsi) | Stop (tlli : Z) (i : imsi)
               | Wait (d : Z) | Timers | SetT (t : Z).
Definition p_step (c : cell) (o : pop) : option cell :=
  match o with
  | Page s p i => Some (page_ps s p i c)
  | Stop t i => pch_stop t i c
  | Wait d => Some (Cell (pl c) (now c + d) (t3113 c))
  | Timers => Some (pch_timers c)
  | SetT t => Some (Cell (pl c) (now c) t)
  end.
Fixpoint p_run (c : cell) (ops : list pop) : option cell :=
  match ops with
  | [] => Some c
  | o :: ops => match p_step c o with Some c => p_run c ops | None => None end
  end.
(** bts_alloc: no timers. *)
Definition cell_new (n t : Z) : cell := Cell [] n t.
(** "PS-Paging request already pending", src/gprs_bssgp_pcu.c:312. *)
Definition reported (i : imsi) (c : cell) : bool := match by_imsi i (pl c) with Some _ => true | None => false end.
