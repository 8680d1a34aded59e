(** The request tables, for C56. *)
From Coq Require Import ZArith List Bool.
From Verif Require Import Model.Rach.
Import ListNotations.
Local Open Scope Z_scope.

(** What a mobile asks for; the EGPRS multislot class if it tells. *)
Inductive ask := AOnePhase (class : option Z) | ASingle | AReject.

(** Number of bits given first to last. *)
Definition num (l : list bool) : Z := fold_left (fun a b => 2 * a + (if b : bool then 1 else 0)) l 0.

(** TS 44.060 table 11.2.5a.2, EGPRS PACKET CHANNEL REQUEST; unacknowledged mode, dedicated
    channels and emergency calls are not offered; a short access for one block gets just
    that. *)
Definition table11 (l : list bool) : ask :=
  match l with
  | [false; m4; m3; m2; m1; m0; _; _; _; _; _] => AOnePhase (Some (num [m4; m3; m2; m1; m0] + 1))
  | [true; false; false; false; false; false; _; _; _; _; _] => ASingle (* short access, 1 block *)
  | [true; false; false; _; _; _; _; _; _; _; _] => AOnePhase None (* short access, more *)
  | [true; false; true; _; _; _; _; _; _; _; _] => AOnePhase None (* reduced latency *)
  | [true; true; false; false; false; false; _; _; _; _; _] => ASingle (* two phase *)
  | [true; true; false; false; true; true; _; _; _; _; _] => ASingle (* signalling *)
  | [true; true; true; false; false; false; _; _; _; _; _] => ASingle (* two phase, IPA *)
  | [true; true; true; false; false; true; _; _; _; _; _] => ASingle (* signalling, IPA *)
  | _ => AReject
  end.
(** TS 44.018 table 9.1.8.1, packet access: 01110xxx single block; 011110xx, 01111x0x and
    01111xx0 one phase. None: not a packet access request, for the BSC to handle. *)
Definition table8 (l : list bool) : option ask :=
  match l with
  | [false; true; true; true; false; _; _; _] => Some ASingle
  | [false; true; true; true; true; false; _; _] => Some (AOnePhase None)
  | [false; true; true; true; true; _; false; _] => Some (AOnePhase None)
  | [false; true; true; true; true; _; _; false] => Some (AOnePhase None)
  | _ => None
  end.
(** A burst's meaning: its training sequence and length tell which table. *)
Definition meaning (b : burst) (l : list bool) : option ask :=
  match b, length l with
  | BNone, 8%nat | BAccess0, 8%nat => table8 l
  | BAccess1, 11%nat | BAccess2, 11%nat => Some (table11 l)
  | _, _ => Some AReject
  end.
(** The right answer to it. *)
Definition answer_to (force_two_phase sba_ok tbf_ok : bool) (a : ask) : answer :=
  match a with
  | AReject => ImmAssReject
  | ASingle => if sba_ok then ImmAssSingle else ImmAssReject
  | AOnePhase cl =>
    if force_two_phase then (if sba_ok then ImmAssSingle else ImmAssReject)
    else if tbf_ok then ImmAssTbf (match cl with Some c => c | None => 0 end) else ImmAssReject
  end.
