(** Model of the downlink RLC window (src/rlc_window_dl.h, src/rlc_window_dl.cpp). *)
From Coq Require Import ZArith List Bool.
From Verif Require Import Base.Arith Model.RlcWindow.
Import ListNotations.
Local Open Scope Z_scope.

(** [enum gprs_rlc_dl_bsn_state] (src/rlc_window_dl.h 22-29). *)
Inductive dl_bsn_state :=
| DlInvalid | DlNacked | DlAcked | DlUnacked | DlResend.

Definition dl_state_eqb (a b : dl_bsn_state) : bool :=
  match a, b with
  | DlInvalid, DlInvalid | DlNacked, DlNacked | DlAcked, DlAcked
  | DlUnacked, DlUnacked | DlResend, DlResend => true
  | _, _ => false
  end.

(** [struct gprs_rlc_dl_window] (src/rlc_window_dl.h 126-158) with the inherited
    [m_sns], [m_ws]. The 1024-entry array [m_v_b] is a total map; every access
    goes through the masked index. *)
Record dl_window := mk_dlw {
  dw_vb : Z -> dl_bsn_state;
  dw_vs : Z;
  dw_va : Z;
  dw_sns : Z;
  dw_ws : Z }.

Definition with_vb (w : dl_window) f := mk_dlw f (dw_vs w) (dw_va w) (dw_sns w) (dw_ws w).

(** [gprs_rlc_v_b::is_state], [mark] (src/rlc_window_dl.h 61-69). *)
Definition vb_get (w : dl_window) (bsn : Z) : dl_bsn_state :=
  dw_vb w (Z.land bsn mod_sns_half).
Definition vb_is (w : dl_window) (bsn : Z) (s : dl_bsn_state) : bool :=
  dl_state_eqb (vb_get w bsn) s.
Definition vb_mark (w : dl_window) (bsn : Z) (s : dl_bsn_state) : dl_window :=
  with_vb w (upd (dw_vb w) (Z.land bsn mod_sns_half) s).

Definition dmod (w : dl_window) (x : Z) : Z := mod_sns (dw_sns w) x.

(** [reset] (src/rlc_window_dl.cpp 32-43): all states invalid, V(S) = V(A) = 0. *)
Definition dl_reset (w : dl_window) : dl_window :=
  mk_dlw (fun _ => DlInvalid) 0 0 (dw_sns w) (dw_ws w).

(** A freshly constructed window with its parameters set. *)
Definition dl_init (sns ws : Z) : dl_window := mk_dlw (fun _ => DlInvalid) 0 0 sns ws.

(** src/rlc_window_dl.h 182-200 and the [distance] accessor behind it. *)
Definition dl_stalled (w : dl_window) : bool := dmod w (dw_vs w - dw_va w) =? dw_ws w.
Definition dl_empty (w : dl_window) : bool := dw_vs w =? dw_va w.
Definition dl_distance (w : dl_window) : Z := Z.land (dw_vs w - dw_va w) (dw_sns w - 1).
Definition dl_increment_send (w : dl_window) : dl_window :=
  mk_dlw (dw_vb w) (Z.land (dw_vs w + 1) (dw_sns w - 1)) (dw_va w) (dw_sns w) (dw_ws w).
Definition dl_raise (w : dl_window) (moves : Z) : dl_window :=
  mk_dlw (dw_vb w) (dw_vs w) (Z.land (dw_va w + moves) (dw_sns w - 1)) (dw_sns w) (dw_ws w).

(** [resend_needed] (src/rlc_window_dl.cpp 45-53). The C loop has no counter; it
    runs from V(A) until it meets V(S). [fuel] is the sequence number space, which
    the loop cannot exceed when V(S) is a valid number; running out of it gives
    [None], an outcome the theorems exclude. [Some (-1)] is "nothing to resend". *)
Fixpoint resend_loop (fuel : nat) (w : dl_window) (bsn : Z) : option Z :=
  if bsn =? dw_vs w then Some (-1) else
  match fuel with
  | O => None
  | S f => if vb_is w bsn DlNacked || vb_is w bsn DlResend then Some bsn
           else resend_loop f w (dmod w (bsn + 1))
  end.
Definition dl_fuel (w : dl_window) : nat := Z.to_nat (dw_sns w).
Definition dl_resend_needed (w : dl_window) : option Z :=
  resend_loop (dl_fuel w) w (dw_va w).

(** [mark_for_resend] (src/rlc_window_dl.cpp 55-68). *)
Fixpoint mark_resend_loop (fuel : nat) (w : dl_window) (bsn cnt : Z)
  : option (dl_window * Z) :=
  if bsn =? dw_vs w then Some (w, cnt) else
  match fuel with
  | O => None
  | S f => if vb_is w bsn DlUnacked
           then mark_resend_loop f (vb_mark w bsn DlResend) (dmod w (bsn + 1)) (cnt + 1)
           else mark_resend_loop f w (dmod w (bsn + 1)) cnt
  end.
Definition dl_mark_for_resend (w : dl_window) : option (dl_window * Z) :=
  mark_resend_loop (dl_fuel w) w (dw_va w) 0.

(** [count_unacked] (src/rlc_window_dl.cpp 70-81); the [uint16_t] counter cannot
    wrap because the loop makes at most 2047 rounds. *)
Fixpoint count_unacked_loop (fuel : nat) (w : dl_window) (bsn cnt : Z) : option Z :=
  if bsn =? dw_vs w then Some cnt else
  match fuel with
  | O => None
  | S f => count_unacked_loop f w (dmod w (bsn + 1))
             (if vb_is w bsn DlAcked then cnt else cnt + 1)
  end.
Definition dl_count_unacked (w : dl_window) : option Z :=
  count_unacked_loop (dl_fuel w) w (dw_va w) 0.

(** [update(bts, rbb, first_bsn, &lost, &received)] (src/rlc_window_dl.cpp 83-114).
    [rbb] is the list of the bits the bit vector holds ([cur_bit] = length), the
    first [num_blocks] of which are visited. *)
Fixpoint update_loop (w : dl_window) (first_bsn bitpos : Z) (rbb : list bool)
                     (lost received : Z) : dl_window * Z * Z :=
  match rbb with
  | [] => (w, lost, received)
  | b :: rest =>
      let bsn := dmod w (first_bsn + bitpos) in
      if bsn =? dmod w (dw_va w - 1) then (w, lost, received)
      else if b
      then update_loop (vb_mark w bsn DlAcked) first_bsn (bitpos + 1) rest lost
             (if vb_is w bsn DlAcked then received else received + 1)
      else update_loop (vb_mark w bsn DlNacked) first_bsn (bitpos + 1) rest
             (lost + 1) received
  end.
Definition dl_update (w : dl_window) (first_bsn : Z) (rbb : list bool)
  : dl_window * Z * Z :=
  let num_blocks := Z.min (Z.of_nat (length rbb)) (dl_distance w) in
  update_loop w first_bsn 0 (firstn (Z.to_nat num_blocks) rbb) 0 0.

(** [move_window] (src/rlc_window_dl.cpp 140-155). *)
Fixpoint move_loop (fuel : nat) (w : dl_window) (bsn moved : Z) : option (dl_window * Z) :=
  if bsn =? dw_vs w then Some (w, moved) else
  match fuel with
  | O => None
  | S f => if vb_is w bsn DlAcked
           then move_loop f (vb_mark w bsn DlInvalid) (dmod w (bsn + 1)) (moved + 1)
           else Some (w, moved)
  end.
Definition dl_move_window (w : dl_window) : option (dl_window * Z) :=
  move_loop (dl_fuel w) w (dw_va w) 0.
