(** The MS radio access capability of 3GPP TS 24.008, 10.5.5.12a, and the multislot classes announced in it. *)
From Coq Require Import ZArith List Bool.
Import ListNotations.
From Verif Require Import Spec.UlControlSpec.
Open Scope Z_scope.

Section Capability.
Variable m : list Z.
Definition bits : Z := 8 * Z.of_nat (length m).
Definition flag_at (p : Z) : bool := field m p 1 =? 1.

(** One access technology: its type (4 bits), a length (7 bits) and that many bits.
    Type 15 announces a list of technologies in a short form; the others have access capabilities. *)
Record tech := mk_tech { t_type : Z; t_from : Z; t_to : Z }.
Definition tech_at (p : Z) : tech := mk_tech (field m p 4) (p + 11) (p + 11 + field m (p + 4) 7).

(** Technologies follow each other, each with a bit that tells whether there is another one. *)
Inductive techs_at : Z -> list tech -> Prop :=
| techs_last p : t_to (tech_at p) < bits -> flag_at (t_to (tech_at p)) = false -> techs_at p [tech_at p]
| techs_next p l : t_to (tech_at p) < bits -> flag_at (t_to (tech_at p)) = true ->
    techs_at (t_to (tech_at p) + 1) l -> techs_at p (tech_at p :: l).
Definition capability (l : list tech) : Prop := techs_at 0 l.

(** A flag within the access capabilities: what lies behind their end is absent. *)
Definition present (t : tech) (p : Z) : bool := (p <? t_to t) && flag_at p.
(** Behind an optional part of [k] bits. *)
Definition behind (t : tech) (k p : Z) : Z := if present t p then p + 1 + k else p + 1.

(** RF power capability (3 bits), A5 bits (optional, 7 bits), ES IND, PS, VGCS and VBS (a bit each),
    then, optional, the multislot capability. *)
Definition a5_at (t : tech) : Z := t_from t + 3.
Definition multislot_at (t : tech) : Z := behind t 7 (a5_at t) + 4.
(** Multislot capability, all of it optional: HSCSD class (5 bits); GPRS class (5 bits) and extended dynamic
    allocation (1 bit); SMS_VALUE and SM_VALUE (4 bits each); ECSD class (5 bits); EGPRS class (5 bits) and extended
    dynamic allocation (1 bit); … *)
Definition gprs_at (t : tech) : Z := behind t 5 (multislot_at t + 1).
Definition egprs_at (t : tech) : Z := behind t 5 (behind t 8 (behind t 6 (gprs_at t))).

(** Access capabilities with the power capability and without a cut in the A5 bits. *)
Definition long_form (t : tech) : Prop :=
  t_type t <> 15 /\ t_from t + 3 <= t_to t /\ (present t (a5_at t) = true -> a5_at t + 8 <= t_to t).

Definition gprs_class (t : tech) : option Z :=
  if t_type t =? 15 then None
  else if present t (multislot_at t) && present t (gprs_at t) then Some (field m (gprs_at t + 1) 5) else None.
Definition egprs_class (t : tech) : option Z :=
  if t_type t =? 15 then None
  else if present t (multislot_at t) && present t (egprs_at t) then Some (field m (egprs_at t + 1) 5) else None.

(** The class announced: that of the first technology that has one; 0 stands for none. *)
Definition announced (l : list (option Z)) : Z :=
  match find (fun c => match c with Some _ => true | None => false end) l with Some (Some c) => c | _ => 0 end.
End Capability.
