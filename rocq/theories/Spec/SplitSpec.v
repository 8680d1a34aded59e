(** What the place of one block number hands on. *)
From Coq Require Import ZArith List Bool.
From Verif Require Import Model.CodingScheme Model.RlcCps Model.SplitBlock.
Import ListNotations.
Local Open Scope Z_scope.

(** A block [c], also sent as the halves [a] and [b]. *)
Inductive part := PFirst | PSecond | PWhole | POther.
Definition part_of (spb : Z) : part :=
  if spb =? 0 then PWhole else if spb =? 2 then PFirst else if spb =? 3 then PSecond else POther.
Definition rx_of (a b c : list Z) (r : rxb) : Prop :=
  match part_of (r_spb r) with
  | PFirst => r_data r = a
  | PSecond => r_data r = b
  | PWhole => r_data r = c
  | POther => True
  end.
(** The block is handed on once: when the second of the halves arrives, in either order, or
    the whole block. *)
Fixpoint expect (a b c : list Z) (saw1 saw2 : bool) (es : list rxb) : list (list Z) :=
  match es with
  | [] => []
  | r :: es' =>
    match part_of (r_spb r) with
    | PFirst => if saw2 then [a ++ b] else expect a b c true saw2 es'
    | PSecond => if saw1 then [a ++ b] else expect a b c saw1 true es'
    | PWhole => [c]
    | POther => expect a b c saw1 saw2 es'
    end
  end.
Definition clean (k : slot) : Prop := k_st k = ResegDefault /\ length (k_mem k) = Z.to_nat RLC_MAX_LEN /\ 0 <= k_len k.
(** The scheme whose blocks are sent in two halves of scheme [c], 3GPP TS 44.060 table
    8.1.1.1. *)
Definition whole_of (c : scheme) : option scheme :=
  match c with MCS1 => Some MCS4 | MCS2 => Some MCS5 | MCS3 => Some MCS6 | _ => None end.
(** Halves only, or whole blocks only. *)
Definition not_mixed (es : list rxb) : Prop :=
  Forall (fun r => r_spb r <> 0) es \/ Forall (fun r => r_spb r = 0) es.
