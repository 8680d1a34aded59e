(** What a mobile is to be told with an acknowledgement, from what the PCU knows of it. *)
From Coq Require Import ZArith List Bool.
From Verif.Model Require Import CodingScheme UlAck.
From Verif.Spec Require Import AssignSpec UlAckSpec.
Local Open Scope Z_scope.

(** The TLLI 0xffffffff and timing advances from 64 on stand for unknown. *)
Definition tlli_told (a : acked) : option Z := if k_tlli a =? 0xffffffff then None else Some (k_tlli a).
Definition ta_told (a : acked) : option Z := if k_ta a <? 64 then Some (k_ta a) else None.
(** The values are as wide as their types or, TFI, as the allocation makes them. *)
Definition acked_ok (a : acked) : Prop := 0 <= k_tfi a < 32 /\ 0 <= k_tlli a < 2 ^ 32 /\ 0 <= k_ta a.
(** The code of the coding scheme the mobile is to use; None: not one of its kind. *)
Definition coding_told (a : acked) : option Z :=
  if k_egprs a then egprs_code_of (k_cs a) else match code_of (k_cs a) with Some (Gprs n) => Some n | _ => None end.
(** Apart from the report: polled if final, its TFI, the coding, TLLI and TA; another TBF can be asked for. *)
Definition ack_told (a : acked) (final : bool) (rrbp cs : Z) (r : report) : ul_ack :=
  mk_ul_ack (if final then Some rrbp else None) (k_tfi a) cs final r (tlli_told a) (ta_told a) true.
(** The room a message has for an EGPRS report, in bits, of which 24 are not for the bitmap. *)
Definition room (a : acked) : Z :=
  142 - (match tlli_told a with Some _ => 32 | None => 0 end) - (match ta_told a with Some _ => 8 | None => 0 end).
