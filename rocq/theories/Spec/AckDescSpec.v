(** What an EGPRS Ack/Nack Description tells its reader. *)
From Coq Require Import ZArith List Bool.
From Verif Require Import Model.T4 Model.UlAckDesc Spec.T4Spec.
Import ListNotations.
Local Open Scope Z_scope.

(** The bits for the blocks SSN, SSN + 1, ...: the decompressed bitmap, then the uncompressed
    one, which is sent with the highest number first. *)
Definition told (d : desc) : option (list bool) :=
  match a_crbb d with
  | None => Some (rev (a_urbb d))
  | Some (c, b) => let '(rc, l) := decompress_crbb 1024 c b [] in if rc then Some (l ++ rev (a_urbb d)) else None
  end.
(** The size of the description in bits: length indication, FINAL, BOW, EOW, SSN, CRBB Exist;
    CRBB length, colour and bitmap; URBB. *)
Definition desc_bits (d : desc) : Z :=
  1 + 8 + 3 + 11 + 1 + match a_crbb d with None => 0 | Some (_, b) => 7 + 1 + Z.of_nat (length b) end
  + Z.of_nat (length (a_urbb d)).
From Verif Require Import Spec.UlWindowSpec.
(** [l] tells the truth about the blocks from Q+1 on. *)
Definition bitmap (o : uobs) (l : list bool) : Prop :=
  forall k, (k < length l)%nat -> (nth k l false = true <-> arrived o (u_Q o + 1 + Z.of_nat k)).
(** How many blocks behind Q the report can be about. *)
Definition pending (o : uobs) : Z := Z.max 0 (u_R o - u_Q o - 1).
(** The cases in which the compressor works: the bitmap has no run of 64 or more, or its whole
    code has room. *)
Definition no_cut (o : uobs) (room : Z) : Prop :=
  exists c rs, Forall (fun r => (1 <= r)%nat) rs /\ bitmap o (paint c rs) /\ Z.of_nat (length (paint c rs)) = pending o /\
  (Forall (fun r => (r < 64)%nat) rs \/ Z.of_nat (length (code_runs c rs)) <= room).
