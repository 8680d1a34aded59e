(** Multislot classes: /repo/src/mslot_class.c, mslot_class.h. Sets of timeslots are bit
    masks, timeslot [k] being bit [k]. *)
From Coq Require Import ZArith List Bool.
Import ListNotations.
Local Open Scope Z_scope.

(** mslot_class.h:27-31. *)
Definition MS_NA : Z := 255.
Definition MS_A : Z := 254.
Definition MS_B : Z := 253.
Definition MS_C : Z := 252.
Definition MS_TO : Z := 251.
(** NO_FREE_TFI, mslot_class.h:33. *)
Definition NO_FREE_TFI : Z := 0xffffffff.

(** struct gprs_ms_multislot_class, mslot_class.c:33-37. *)
Record mslot := mk_ms {
  m_rx : Z; m_tx : Z; m_sum : Z; m_ta : Z; m_tb : Z; m_ra : Z; m_rb : Z; m_type : Z }.
Definition mslot_na : mslot := mk_ms MS_NA MS_NA MS_NA MS_NA MS_NA MS_NA MS_NA MS_NA.
(** gprs_ms_multislot_class, mslot_class.c:39-88. *)
Definition mslot_table : list mslot := [
  mslot_na;
  mk_ms 1 1 2 3 2 4 2 1; mk_ms 2 1 3 3 2 3 1 1; mk_ms 2 2 3 3 2 3 1 1; mk_ms 3 1 4 3 1 3 1 1;
  mk_ms 2 2 4 3 1 3 1 1; mk_ms 3 2 4 3 1 3 1 1; mk_ms 3 3 4 3 1 3 1 1; mk_ms 4 1 5 3 1 2 1 1;
  mk_ms 3 2 5 3 1 2 1 1; mk_ms 4 2 5 3 1 2 1 1; mk_ms 4 3 5 3 1 2 1 1; mk_ms 4 4 5 2 1 2 1 1;
  mk_ms 3 3 MS_NA MS_NA MS_A 3 MS_A 2; mk_ms 4 4 MS_NA MS_NA MS_A 3 MS_A 2;
  mk_ms 5 5 MS_NA MS_NA MS_A 3 MS_A 2; mk_ms 6 6 MS_NA MS_NA MS_A 2 MS_A 2;
  mk_ms 7 7 MS_NA MS_NA MS_A 1 0 2; mk_ms 8 8 MS_NA MS_NA 0 0 0 2;
  mk_ms 6 2 MS_NA 3 MS_B 2 MS_C 1; mk_ms 6 3 MS_NA 3 MS_B 2 MS_C 1; mk_ms 6 4 MS_NA 3 MS_B 2 MS_C 1;
  mk_ms 6 4 MS_NA 2 MS_B 2 MS_C 1; mk_ms 6 6 MS_NA 2 MS_B 2 MS_C 1; mk_ms 8 2 MS_NA 3 MS_B 2 MS_C 1;
  mk_ms 8 3 MS_NA 3 MS_B 2 MS_C 1; mk_ms 8 4 MS_NA 3 MS_B 2 MS_C 1; mk_ms 8 4 MS_NA 2 MS_B 2 MS_C 1;
  mk_ms 8 6 MS_NA 2 MS_B 2 MS_C 1; mk_ms 8 8 MS_NA 2 MS_B 2 MS_C 1;
  mk_ms 5 1 6 2 1 1 1 1; mk_ms 5 2 6 2 1 1 1 1; mk_ms 5 3 6 2 1 1 1 1; mk_ms 5 4 6 2 1 1 1 1;
  mk_ms 5 5 6 2 1 1 1 1; mk_ms 5 1 6 2 1 MS_TO 1 1; mk_ms 5 2 6 2 1 MS_TO 1 1; mk_ms 5 3 6 2 1 MS_TO 1 1;
  mk_ms 5 4 6 2 1 MS_TO 1 1; mk_ms 5 5 6 2 1 MS_TO 1 1;
  mk_ms 6 1 7 1 1 1 MS_TO 1; mk_ms 6 2 7 1 1 1 MS_TO 1; mk_ms 6 3 7 1 1 1 MS_TO 1; mk_ms 6 4 7 1 1 1 MS_TO 1;
  mk_ms 6 5 7 1 1 1 MS_TO 1; mk_ms 6 6 7 1 1 1 MS_TO 1 ].

(** get_mslot_table, mslot_class.c:90-98. [def] is the_pcu->vty.msclass_default, which the
    configuration limits to 1..45 (pcu_vty.c:891). *)
Definition get_mslot (def cl : Z) : mslot :=
  let index := if cl =? 0 then def else cl in
  let index := if 46 <=? cl then 0 else index in
  nth (Z.to_nat index) mslot_table mslot_na.

(** mslot_class_get_tb, _ra, _rb, mslot_class.c:113-157; the others return the field. *)
Definition get_tb (m : mslot) : Z :=
  if m_tb m =? MS_A then 0 else if m_tb m =? MS_B then 1 else m_tb m.
Definition get_ra (m : mslot) (ta : Z) : Z := if m_ra m =? MS_TO then ta + 1 else m_ra m.
Definition get_rb (m : mslot) (ta : Z) : Z :=
  if m_rb m =? MS_A then 0 else if m_rb m =? MS_C then 1 else if m_rb m =? MS_TO then ta else m_rb m.

(** Complement in 8 bits. *)
Definition not8 (x : Z) : Z := Z.land 0xff (Z.lnot x).

(** mslot_fill_rx_mask, mslot_class.c:186-222: rx_mask[MASK_TT] and rx_mask[MASK_TR]. *)
Definition fill_rx_mask (m : mslot) (num_tx : Z) : Z * Z :=
  let tta := m_ta m in let ttb := get_tb m in
  let tra := get_ra m 0 in let trb := get_rb m 0 in
  let rot (x : Z) := Z.lor (Z.shiftl x 3) (Z.shiftr x 5) mod 256 in
  if m_type m =? 1 then
    (rot (Z.land ((Z.shiftr 0x100 (Z.max ttb tta) - 1) mod 256) (not8 (Z.shiftl 1 (trb + num_tx) - 1))),
     rot (Z.land ((Z.shiftr 0x100 ttb - 1) mod 256) (not8 (Z.shiftl 1 (Z.max trb tra + num_tx) - 1))))
  else (rot 0xff, rot 0xff).

(** The first index below [n], from [i] on, whose bit is clear. *)
Fixpoint first_clear (n : nat) (i x : Z) : option Z :=
  match n with
  | O => None
  | S k => if Z.testbit x i then first_clear k (i + 1) x else Some i
  end.
(** find_free_usf, mslot_class.c:225-238; None for -1. *)
Definition find_free_usf (usf_map : Z) : option Z :=
  if usf_map =? 127 then None else first_clear 7 0 usf_map.
(** find_free_tfi, mslot_class.c:241-254. *)
Definition find_free_tfi (tfi_map : Z) : option Z :=
  if tfi_map =? NO_FREE_TFI then None else first_clear 32 0 tfi_map.

(** mslot_wrap_window, mslot_class.c:271-274. *)
Definition wrap_window (win : Z) : Z := Z.land (Z.lor win (Z.shiftr win 8)) 0xff.

(** mslot_filter_bad, mslot_class.c:292-304; None for -1. *)
Definition filter_bad (mask ul_ts dl_slots rx_valid_win : Z) : option Z :=
  let rx_bad := Z.shiftl (not8 mask) ul_ts mod 65536 in
  let rx_bad := Z.land (Z.lor rx_bad (Z.shiftr rx_bad 8)) 0xff in
  let rx_good := Z.land dl_slots (not8 rx_bad) in
  if rx_good =? 0 then None else Some (Z.land rx_good rx_valid_win).

(** pcu_bitcount, pcu_utils.h:70-73, of a value below 2^16. *)
Definition bitcount (x : Z) : Z :=
  Z.of_nat (length (filter (fun i => Z.testbit x (Z.of_nat i)) (seq 0 16))).
(** ffs of a value below 256. *)
Definition ffs (x : Z) : Z :=
  match find (fun i => Z.testbit x (Z.of_nat i)) (seq 0 8) with Some i => Z.of_nat i + 1 | None => 0 end.
