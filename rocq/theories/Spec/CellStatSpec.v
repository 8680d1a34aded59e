(** What the statistics of a cell should say. *)
From Coq Require Import ZArith List Bool.
From Verif Require Import Model.Mslot Model.Alloc Model.Cell Model.CellStat Spec.AllocSpec.
Import ListNotations.
Local Open Scope Z_scope.

(** The 64 timeslots of the eight TRX. *)
Definition all_ts : list (Z * Z) := list_prod slots8 slots8.
Definition how_many_ts (P : Z -> Z -> bool) : Z := Z.of_nat (length (filter (fun x => P (fst x) (snd x)) all_ts)).
(** Some TBF that is [P] uses the timeslot. *)
Definition used_by (c : cell) (P : tbf -> bool) (n ts : Z) : bool := existsb (fun t => usesb n ts t && P t) (c_tbfs c).
(** The TBFs of a direction: everywhere, and on a timeslot. *)
Definition tbfs_of (c : cell) (d : dir) : Z := Z.of_nat (length (filter (fun t => dir_eqb (t_dir t) d) (c_tbfs c))).
Definition tbfs_on (c : cell) (n ts : Z) (d : dir) : Z :=
  Z.of_nat (length (filter (fun t => usesb n ts t && dir_eqb (t_dir t) d) (c_tbfs c))).

Record right_stats (x : scell) : Prop := mk_right {
  r_avail : s_avail (sc_stats x) = how_many_ts (fun n ts => pd_enabled (c_bts (sc_cell x) n ts));
  r_occ : s_occ (sc_stats x) = how_many_ts (used_by (sc_cell x) (fun _ => true));
  r_occ_g : s_occ_g (sc_stats x) = how_many_ts (used_by (sc_cell x) (fun t => negb (t_egprs t)));
  r_occ_e : s_occ_e (sc_stats x) = how_many_ts (used_by (sc_cell x) t_egprs);
  r_ul : s_new (sc_stats x) UL - s_freed (sc_stats x) UL = tbfs_of (sc_cell x) UL + Z.of_nat (length (sc_refusing x));
  r_dl : s_new (sc_stats x) DL - s_freed (sc_stats x) DL = tbfs_of (sc_cell x) DL }.

(** The operations on the cell itself. *)
Definition ops (os : list sop) : list cop := flat_map (fun o => match o with Op o => [o] | Refused _ _ => [] end) os.

(** Every timeslot in service has as many TBFs as it can have, uplink or downlink. *)
Definition all_busy (c : cell) : Prop :=
  forall n ts, 0 <= n < 8 -> 0 <= ts < 8 -> pd_enabled (c_bts c n ts) = true ->
    tbfs_on c n ts UL = 7 \/ tbfs_on c n ts DL = 32.
