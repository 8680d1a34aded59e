(** The answer to an access burst that asks for a single block: /repo/src/bts.cpp, sba.c, pcu_l1_if.h. *)
From Coq Require Import ZArith List Bool.
From Verif Require Import Model.FrameNo Model.UlController Model.ImmAss.
Import ListNotations.
Local Open Scope Z_scope.

(** A timeslot: is_enabled(), pdch.h:179-182; what an assignment says of it; its uplink controller;
    last_rts_fn. *)
Record slot := mk_slot { sl_on : bool; sl_ia : ia_pdch; sl_tree : tree; sl_last : Z }.
(** The TRX of the cell, each with its timeslots in order. *)
Definition cell := list (list slot).

(** qta2ta, pcu_l1_if.h:35-42. *)
Definition qta2ta (qta : Z) : Z :=
  if qta <? 0 then 0 else Z.shiftr (if 252 <? qta then 252 else qta) 2.
(** The loops of bts_alloc_sba, bts.cpp:905-914. *)
Definition pick_ts (l : list slot) : option nat :=
  find (fun k => match nth_error l k with Some s => sl_on s | None => false end) [7; 6; 5; 4; 3; 2; 1; 0]%nat.
Fixpoint pick (c : cell) (trx : nat) : option (nat * nat) :=
  match c with
  | [] => None
  | l :: r => match pick_ts l with Some ts => Some (trx, ts) | None => pick r (S trx) end
  end.

(** Reject, or a block of a timeslot with the new tree of its controller and the message. *)
Inductive sb_res := SbReject | SbAssign (trx ts : nat) (fn : Z) (t : tree) (m : ia_res) | SbBad.
(** bts_alloc_sba, bts.cpp:896-926 (gsm48_ta_is_valid of libosmocore: below 64), and its use in
    bts_rcv_rach, bts.cpp:948, 990-1004, 1030-1041 (USF 7: 936). SbBad: not reached. *)
Definition single_block (bal : tree -> tree) (c : cell) (id : Z) (ext : bool) (ra rfn qta alpha gamma : Z) : sb_res :=
  let ta := qta2ta qta in
  if negb (ta <? 64) then SbReject
  else match pick c 0 with
       | None => SbReject
       | Some (trx, ts) =>
         match nth_error (nth trx c []) ts with
         | None => SbBad
         | Some s =>
           let '(t, fn, _) := sba_alloc bal (sl_tree s) (sl_last s) id in
           SbAssign trx ts fn t
             (write_immediate_assignment (sl_ia s) NoTbf (mk_par false ra rfn ta 7 false (fn2rfn fn) alpha gamma (-1) ext))
         end
       end.
