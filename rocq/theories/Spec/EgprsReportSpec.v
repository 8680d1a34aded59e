(** The EGPRS PACKET DOWNLINK ACK/NACK as 3GPP TS 44.060, 11.2.6a, 12.3.1, 12.5a.2 lays it out. *)
From Coq Require Import ZArith List Bool.
From Verif Require Import Spec.UlControlSpec Spec.T4Spec.
Import ListNotations.
Open Scope Z_scope.

Section Message.
Variable m : list Z.
Definition flag (p : Z) : bool := field m p 1 =? 1.
(** Where an optional part ends: a flag, then, if set, the part itself. *)
Definition after_opt (part : Z -> Z) (p : Z) : Z := if flag p then part (p + 1) else p + 1.
(** The EGPRS channel quality report: bit error probability of GMSK and of 8PSK (5 + 3 bits each, both
    optional), C value (6 bits), per time slot the bit error probability (1 + 4 bits) and the
    interference level (4 bits), all optional. *)
Definition quality (p : Z) : Z :=
  let p1 := after_opt (fun q => q + 8) p in
  let p2 := after_opt (fun q => q + 8) p1 in
  let p3 := after_opt (Nat.iter 8 (after_opt (fun q => q + 5))) (p2 + 6) in
  after_opt (Nat.iter 8 (after_opt (fun q => q + 4))) p3.
(** Where the acknowledgement description starts: after MAC header (8), message type (6), TFI (5), out of
    memory (1), channel quality report, channel request (24), PFI (7), and an extension of 1 to 64 bits. *)
Definition desc_at : Z :=
  let p1 := after_opt quality 20 in
  let p2 := after_opt (fun q => q + 24) p1 in
  let p3 := after_opt (fun q => q + 7) p2 in
  after_opt (fun q => q + 6 + (field m q 6 + 1)) p3.

Definition bits_at (p n : Z) : list bool := map (fun k => flag (p + Z.of_nat k)) (seq 0 (Z.to_nat n)).

(** The acknowledgement description: final, beginning and end of window, SSN, compressed bitmap with
    the colour of its first run, uncompressed bitmap. *)
Record report := mk_report {
  r_final : bool; r_bow : bool; r_eow : bool; r_ssn : Z; r_crbb : option (bool * list bool); r_urbb : list bool }.

(** Where it lies: behind a flag for an explicit length of 8 bits, or up to the end of the 23 octets. *)
Definition desc_from : Z := if flag desc_at then desc_at + 9 else desc_at + 1.
Definition desc_to : Z := if flag desc_at then desc_at + 9 + field m (desc_at + 1) 8 else 184.
Definition crbb_len : Z := field m (desc_from + 15) 7.
(** Where the uncompressed bitmap starts. *)
Definition urbb_from : Z := if flag (desc_from + 14) then desc_from + 23 + crbb_len else desc_from + 15.

Definition report_of : option report :=
  let b := desc_from in
  if (urbb_from <=? desc_to) && (desc_to <=? 184) then
    Some (mk_report (flag b) (flag (b + 1)) (flag (b + 2)) (field m (b + 3) 11)
            (if flag (b + 14) then Some (flag (b + 22), bits_at (b + 23) crbb_len) else None)
            (bits_at urbb_from (desc_to - urbb_from)))
  else None.
End Message.

(** What the bitmaps say about the blocks SSN, SSN + 1, ...: the runs of the compressed one first; the
    uncompressed one has the highest number first. *)
Definition says (r : report) (l : list bool) : Prop :=
  match r_crbb r with
  | None => l = rev (r_urbb r)
  | Some (c, z) => exists rs, runs_ok rs /\ z = code_runs c rs /\ l = paint c rs ++ rev (r_urbb r)
  end.
(** A report without any bits of a bitmap has no bitmap. *)
Definition has_bitmap (r : report) : bool :=
  negb (Nat.eqb (length (match r_crbb r with Some (_, z) => z | None => [] end) + length (r_urbb r)) 0).
Definition the_bitmap (r : report) (l : list bool) : option (list bool) := if has_bitmap r then Some l else None.
(** Both bitmaps are made of whole octets. *)
Definition whole (r : report) : Prop :=
  (length (r_urbb r) mod 8 = 0)%nat /\ (length (match r_crbb r with Some (_, z) => z | None => [] end) mod 8 = 0)%nat.
