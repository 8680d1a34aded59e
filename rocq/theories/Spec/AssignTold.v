(** What the mobile has to be told in a PACKET UPLINK ASSIGNMENT or PACKET DOWNLINK ASSIGNMENT about a TBF, in terms
    of AssignSpec.v. *)
From Coq Require Import ZArith List Bool.
From Verif.Model Require Import CodingScheme Assign.
From Verif.Spec Require Import AssignSpec.
Import ListNotations.
Local Open Scope Z_scope.

Definition carrier_of (p : slot) : carrier :=
  match s_hop p with
  | None => Arfcn (s_arfcn p)
  | Some h => Hopping (h_maio h) (h_hsn h) (last_bits (h_bits h) (h_ma h))
  end.
Definition frequency_of (p : slot) : frequency := mk_frequency (s_tsc p) (carrier_of p).
(** The timing advance is told if it is known. *)
Definition advance_of (t : tbf) : advance := mk_advance (if t_ta t <? 64 then Some (t_ta t) else None) None.

(** Power control parameters are told unless both are 0 (closed loop control). *)
Definition powered_by (alpha gamma : Z) : bool := negb ((alpha =? 0) && (gamma =? 0)).
Definition uplink_told (d : sender) (tlli : Z) (t : tbf) (p : slot) (alpha gamma rrbp : Z) (c : coding) : uplink :=
  let pw := powered_by alpha gamma in
  mk_uplink (Some rrbp) (if tlli =? RESERVED_TLLI then ByTfi (d_down d) (d_tfi d) else ByTlli tlli) c true
    (advance_of t) (Some (frequency_of p))
    (mk_dynamic (t_tfi t) (if pw then Some alpha else None)
       (map (fun '(q, u) => match q with
                            | Some _ => Some (mk_share u (if pw then Some gamma else None))
                            | None => None
                            end) (combine (t_slots t) (t_usf t)))).

Definition downlink_told (d : sender) (t : tbf) (p : slot) (alpha gamma rrbp : Z) (window : option Z) : downlink :=
  mk_downlink (Some rrbp) (if d_known d then ByTfi (d_down d) (d_tfi d) else ByTlli (t_tlli t)) true (d_wait_release d)
    (map given (t_slots t)) (advance_of t) (Some (frequency_of p)) (Some (t_tfi t))
    (Some (alpha, map (fun q => match q with Some _ => Some gamma | None => None end) (t_slots t))) window.

(** ** What is assumed of the values *)
Definition hop_ok (h : hop) : Prop :=
  0 <= h_maio h < 64 /\ 0 <= h_hsn h < 64 /\ 1 <= h_bits h <= 64 /\
  Z.of_nat (length (h_ma h)) = (h_bits h + 7) / 8.
Definition slot_ok (p : slot) : Prop :=
  0 <= s_tsc p < 8 /\ 0 <= s_arfcn p < 1024 /\ (forall h, s_hop p = Some h -> hop_ok h).
(** A TBF with at least one timeslot; all of its timeslots have the carrier and the training sequence of [p]. *)
Definition tbf_ok (t : tbf) (p : slot) : Prop :=
  0 <= t_tfi t < 32 /\ 0 <= t_ta t < 256 /\ 0 <= t_tlli t < 2 ^ 32 /\
  length (t_slots t) = 8%nat /\ length (t_usf t) = 8%nat /\ (forall u, In u (t_usf t) -> 0 <= u < 8) /\
  In (Some p) (t_slots t) /\ (forall q, In (Some q) (t_slots t) -> q = p) /\ slot_ok p.
(** Parameters of the cell, of the poll and of the TBF that sends. *)
Definition cell_ok (d : sender) (alpha gamma rrbp : Z) : Prop :=
  0 <= d_tfi d < 32 /\ 0 <= alpha < 16 /\ 0 <= gamma < 32 /\ 0 <= rrbp < 4.
(** An EGPRS window (3GPP TS 44.060 table 9.1.9.2.1). *)
Definition window_ok (w : Z) : Prop := exists k, 0 <= k < 31 /\ w = 64 + 32 * k.

(** How many timeslots are assigned. *)
Definition slot_count {A} (l : list (option A)) : Z := Z.of_nat (length (filter given l)).

(** ** The interface to the BTS: what INFO.ind says about a timeslot of a TRX *)
Definition info_frequency (arfcn : Z) (i : info_ts) : frequency :=
  mk_frequency (i_tsc i)
    (if i_hopping i then Hopping (i_maio i) (i_hsn i) (last_bits (i_bits i) (i_ma i)) else Arfcn arfcn).
Definition info_ok (i : info_ts) : Prop := length (i_ma i) = 8%nat /\ 1 <= i_bits i.
