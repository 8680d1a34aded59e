(** Scheme numbers, window sizes and limits, for C37, C50, C51. *)
From Coq Require Import ZArith List Bool.
From Verif Require Import Model.CodingScheme Model.BtsConf Model.LinkAdapt Spec.CodingSpec.
Import ListNotations.
Local Open Scope Z_scope.

(** * C50 *)
(** Timeslots in a mask of eight. *)
Definition slot_count (mask : Z) : nat := length (filter (Z.testbit mask) [0; 1; 2; 3; 4; 5; 6; 7]).
(** Largest window by number of timeslots, TS 44.060 table 9.1.9.2.1. *)
Definition ws_limit (n : nat) : Z :=
  nth n [0; 192; 256; 384; 512; 640; 768; 896; 1024] 0.
(** Meaning of the 5 bits, TS 44.060 table 12.5.2.1; 31 is reserved. *)
Definition ws_meaning (f : Z) : option Z := if (0 <=? f) && (f <=? 30) then Some (64 + 32 * f) else None.
(** What the operator can configure (pcu_vty.c, "window-size <0-1024> [<0-256>]"). *)
Definition ws_conf (base pdch : Z) : Prop := 0 <= base <= 1024 /\ 0 <= pdch <= 256.

(** * C51 *)
(** Numbers as in the names: CS-n, MCS-n. *)
Definition number (c : scheme) : Z :=
  match c with
  | UNKNOWN => 0
  | CS1 => 1 | CS2 => 2 | CS3 => 3 | CS4 => 4
  | MCS1 => 1 | MCS2 => 2 | MCS3 => 3 | MCS4 => 4 | MCS5 => 5 | MCS6 => 6 | MCS7 => 7 | MCS8 => 8 | MCS9 => 9
  end.
Definition is_cs (c : scheme) : bool := match c with CS1 | CS2 | CS3 | CS4 => true | _ => false end.
(** The BTS announced the scheme: bit n-1 of the flags; CS-1 goes without saying. *)
Definition announced (cs mcs : Z) (c : scheme) : Prop :=
  c <> UNKNOWN /\
  (c = CS1 \/ Z.testbit (if is_cs c then cs else mcs) (number c - 1) = true).
(** Configuration commands with the ranges of the VTY. *)
Definition in_rng (hi : Z) (p : pair2) : Prop := 1 <= p_dl p <= hi /\ 1 <= p_ul p <= hi.
Definition conf_ok (o : confop) : Prop :=
  match o with
  | MaxCs p | IniCs p => in_rng 4 p
  | MaxMcs p | IniMcs p => in_rng 9 p
  | Info _ _ ics imcs => 0 <= ics <= 255 /\ 0 <= imcs <= 255
  | _ => True
  end.
(** What the operator and the BTS said last: limits (0 for none given) and flags. *)
Fixpoint last_limit (mcs : bool) (os : list confop) (d : pair2) : pair2 :=
  match os with
  | [] => d
  | MaxCs p :: r => last_limit mcs r (if mcs then d else p)
  | NoMaxCs :: r => last_limit mcs r (if mcs then d else mk2 0 0)
  | MaxMcs p :: r => last_limit mcs r (if mcs then p else d)
  | NoMaxMcs :: r => last_limit mcs r (if mcs then mk2 0 0 else d)
  | _ :: r => last_limit mcs r d
  end.
Definition limit_cs (os : list confop) : pair2 := last_limit false os (mk2 4 4).
Definition limit_mcs (os : list confop) : pair2 := last_limit true os (mk2 9 9).
Fixpoint last_flags (os : list confop) (d : Z * Z) : Z * Z :=
  match os with
  | [] => d
  | Info cs mcs _ _ :: r => last_flags r (cs, mcs)
  | _ :: r => last_flags r d
  end.
Definition told (os : list confop) : bool := existsb (fun o => match o with Info _ _ _ _ => true | _ => false end) os.
(** [x] is the highest number up to [lim] whose scheme was announced, 0 if there is none. *)
Definition highest_number (ann : scheme -> Prop) (fam : list scheme) (lim x : Z) : Prop :=
  (x = 0 \/ exists c, In c fam /\ ann c /\ number c = x /\ x <= lim) /\
  (forall c, In c fam -> ann c -> number c <= lim -> number c <= x).

(** * C37 *)
(** Highest scheme a mobile may use in a mode, given the maxima of a direction: the standing
    maximum, MCS-4 in GMSK-only mode; with no CS maximum all four. *)
Definition top (k : mkind) (max_cs max_mcs : Z) : Z :=
  match k with
  | GPRS => if max_cs =? 0 then 4 else max_cs
  | EGPRS_GMSK => Z.min 4 max_mcs
  | EGPRS => max_mcs
  end.
Definition fits (k : mkind) (max_cs max_mcs : Z) (c : scheme) : Prop :=
  In c (ladder k) /\ number c <= top k max_cs max_mcs.
Definition within (b : bconf) (m : msst) : Prop :=
  fits (s_mode m) (p_dl (b_max_cs b)) (p_dl (b_max_mcs b)) (s_cs_dl m) /\
  fits (s_mode m) (p_ul (b_max_cs b)) (p_ul (b_max_mcs b)) (s_cs_ul m).
(** A sound configuration: initial schemes are not above the maxima. *)
Definition sound1 (max_cs ini_cs max_mcs ini_mcs : Z) : Prop :=
  0 <= max_cs <= 4 /\ 1 <= ini_cs <= Z.max 1 max_cs /\ 0 <= max_mcs <= 9 /\ 0 <= ini_mcs <= max_mcs.
Definition sound (b : bconf) : Prop :=
  sound1 (p_dl (b_max_cs b)) (p_dl (b_ini_cs b)) (p_dl (b_max_mcs b)) (p_dl (b_ini_mcs b)) /\
  sound1 (p_ul (b_max_cs b)) (p_ul (b_ini_cs b)) (p_ul (b_max_mcs b)) (p_ul (b_ini_mcs b)).
(** A history in which the configuration stays. *)
Definition conf_fixed (os : list laop) : Prop := forall c, ~ In (Conf c) os.
(** The operator does not force initial schemes. *)
Definition unforced (o : confop) : Prop := match o with IniCs _ | IniMcs _ => False | _ => True end.
Definition rank (c : scheme) : Z := number c + (if is_cs c then 0 else 4).
