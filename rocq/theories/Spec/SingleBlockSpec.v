(** A mobile and the single block it was told of. *)
From Coq Require Import ZArith List Bool.
From Verif Require Import Model.FrameNo Model.UlController Model.ImmAss Model.SingleBlock Spec.FrameSpec Spec.ImmAssSpec.
Import ListNotations.
Local Open Scope Z_scope.

Definition slot_at (c : cell) (trx ts : nat) : option slot :=
  match nth_error c trx with Some l => nth_error l ts | None => None end.
(** 3GPP TS 44.018, 10.5.2.38: the frame that a starting time read in frame [now] means. Starting times
    repeat every 42432 frames; the one meant is at most 31623 frames later or 10808 frames earlier. *)
Definition means (now : Z) (t : time) (x : Z) : Prop :=
  in_hyper x /\ time_of (x mod 42432) = t /\ (ahead now x <= 31623 \/ ahead x now <= 10808).
Definition start_of (u : uplink) : option time :=
  match u with UpSingle _ t => Some t | UpMultiEgprs _ _ t _ _ => Some t | _ => None end.
(** The timing advance in symbols for a delay in quarter symbols. *)
Definition advance (qta : Z) : Z := Z.max 0 (Z.min 63 (qta / 4)).

(** A timeslot in service: parameters in range, at most 32 hopping frequencies (four octets), the last
    block requested by the BTS begins a block, a controller with any history of reservations, not more
    of them than the mobile can be told of. *)
Definition slot_ok (bal : tree -> tree) (frees : item -> list Z) (s : slot) : Prop :=
  pdch_ok (sl_ia s) /\ (length (ma_of (sl_ia s)) <= 4)%nat /\ in_hyper (sl_last s) /\ block_start (sl_last s) /\
  52 + 5 * Z.of_nat (length (inorder (sl_tree s))) <= 31623 /\
  exists st, ulc_reach bal frees (sl_tree s) st /\
    ahead (ts_now st) (sl_last s) + 52 + 5 * Z.of_nat (length (inorder (sl_tree s))) < HYP / 2.
Definition cell_ok (bal : tree -> tree) (frees : item -> list Z) (c : cell) : Prop :=
  Forall (fun l => length l = 8%nat) c /\
  forall trx ts s, slot_at c trx ts = Some s -> sl_on s = true -> slot_ok bal frees s.
Definition burst_ok (ext : bool) (ra rfn alpha gamma : Z) : Prop :=
  fits (if ext then 11 else 8) ra /\ 0 <= rfn < 42432 /\ fits 4 alpha /\ fits 5 gamma.

(** A cell with one PDCH, timeslot 7, on which the BTS has not yet asked for a block, and bursts there that
    ask for a single block. *)
Definition off_slot : slot := mk_slot false (mk_iap 0 0 0 None) Leaf 0.
Definition one_slot (t : tree) : slot := mk_slot true (mk_iap 7 5 871 None) t 0.
Definition one_cell (t : tree) : cell := [repeat off_slot 7 ++ [one_slot t]].
Definition burst_at (t : tree) (id : Z) : sb_res := single_block (fun t => t) (one_cell t) id false 0x7d 1000 12 0 0.
Fixpoint bursts (k : nat) : tree :=
  match k with
  | O => Leaf
  | S j => match burst_at (bursts j) (Z.of_nat j) with SbAssign _ _ _ t _ => t | _ => bursts j end
  end.
