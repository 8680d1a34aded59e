(** What the figures of a transfer should be. *)
From Coq Require Import ZArith List Bool.
Import ListNotations.
Local Open Scope Z_scope.

Definition SECOND : Z := 1000000000.
(** A figure is due with the first observation that comes a second or more after the previous
    figure, and covers all observations since that one. *)
Record span (A : Type) := mk_span { sp_from : Z; sp_to : Z; sp_what : list A }.
Arguments mk_span {A}. Arguments sp_from {A}. Arguments sp_to {A}. Arguments sp_what {A}.
(** The spans of a history and the observations left over; [seen] are those since [from]. *)
Fixpoint spans {A} (from : Z) (seen : list A) (h : list (Z * A)) : list (span A) * list A :=
  match h with
  | [] => ([], seen)
  | (now, x) :: r =>
    if now - from <? SECOND then spans from (seen ++ [x]) r
    else let '(l, rest) := spans now [] r in (mk_span from now (seen ++ [x]) :: l, rest)
  end.
Definition spans_of {A} (from : Z) (h : list (Z * A)) : list (span A) := fst (spans from [] h).
Definition left_over {A} (from : Z) (h : list (Z * A)) : list A := snd (spans from [] h).

Definition sum (l : list Z) : Z := fold_right Z.add 0 l.
Definition duration {A} (s : span A) : Z := sp_to s - sp_from s.

(** [v] is the number of octets per second, rounded down, or up to 4 % more. *)
Definition octets_per_second (s : span Z) (v : Z) : Prop :=
  sum (sp_what s) * SECOND < (v + 1) * duration s
  /\ 100 * (v * duration s) <= 104 * (sum (sp_what s) * SECOND).
(** [v] is the number of kilobits per second, rounded down, or up to 4 % more. *)
Definition kilobits_per_second (s : span Z) (v : Z) : Prop :=
  sum (sp_what s) * 8 * SECOND < (v + 1) * 1000 * duration s
  /\ 100 * (v * 1000 * duration s) <= 104 * (sum (sp_what s) * 8 * SECOND).

(** Percentage of lost blocks, rounded down. *)
Definition recvs (l : list (Z * Z)) : Z := sum (map fst l).
Definition losts (l : list (Z * Z)) : Z := sum (map snd l).
Definition percent_lost (s : span (Z * Z)) (v : Z) : Prop :=
  let t := recvs (sp_what s) + losts (sp_what s) in
  v * t <= 100 * losts (sp_what s) < (v + 1) * t /\ 0 <= v <= 100.

(** Mean of the levels that are known, with an error below 1 and between the lowest and the
    highest of them. *)
Fixpoint known (l : list (option Z)) : list Z :=
  match l with [] => [] | Some x :: r => x :: known r | None :: r => known r end.
Definition mean_level (s : span (option Z)) (v : Z) : Prop :=
  let l := known (sp_what s) in
  Z.abs (v * Z.of_nat (length l) - sum l) < Z.of_nat (length l)
  /\ (forall a b, Forall (fun x => a <= x <= b) l -> a <= v <= b).

(** The spans follow each other without a gap, last at least a second and are not empty. *)
Fixpoint gapless {A} (from : Z) (l : list (span A)) : Prop :=
  match l with
  | [] => True
  | s :: r => sp_from s = from /\ SECOND <= duration s /\ sp_what s <> [] /\ gapless (sp_to s) r
  end.
(** A report about no block at all tells nothing. *)
Definition informative (x : Z * (Z * Z)) : bool := negb (fst (snd x) + snd (snd x) =? 0).
(** A report about fewer than 2^16 blocks; a level of 8 bits, if known. *)
Definition small_report (x : Z * (Z * Z)) : Prop :=
  0 <= fst (snd x) /\ 0 <= snd (snd x) /\ fst (snd x) + snd (snd x) < 2 ^ 16.
Definition int8 (x : option Z) : Prop := match x with Some y => -128 <= y < 128 | None => True end.
