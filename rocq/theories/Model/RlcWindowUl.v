(** Model of the uplink RLC window (src/rlc_window_ul.h, src/rlc_window_ul.cpp). *)
From Coq Require Import ZArith List Bool.
From Verif Require Import Base.Arith Model.RlcWindow.
Import ListNotations.
Local Open Scope Z_scope.

(** [enum gprs_rlc_ul_bsn_state] (src/rlc_window_ul.h 23-28). *)
Inductive ul_bsn_state := UlInvalid | UlReceived | UlMissing.

Definition ul_is_rcvd (s : ul_bsn_state) : bool :=
  match s with UlReceived => true | _ => false end.

(** [struct gprs_rlc_ul_window] (src/rlc_window_ul.h 82-110) with the inherited
    [m_sns], [m_ws]. The 1024-entry array [m_v_n] is a total map; every access goes
    through the masked index. *)
Record ul_window := mk_ulw {
  uw_vn : Z -> ul_bsn_state;
  uw_vr : Z;
  uw_vq : Z;
  uw_sns : Z;
  uw_ws : Z }.

(** [gprs_rlc_v_n::state], [mark], [is_received] (src/rlc_window_ul.h 47-80). *)
Definition vn_get (w : ul_window) (bsn : Z) : ul_bsn_state := uw_vn w (Z.land bsn mod_sns_half).
Definition vn_mark (w : ul_window) (bsn : Z) (s : ul_bsn_state) : ul_window :=
  mk_ulw (upd (uw_vn w) (Z.land bsn mod_sns_half) s) (uw_vr w) (uw_vq w) (uw_sns w) (uw_ws w).
Definition vn_is_received (w : ul_window) (bsn : Z) : bool := ul_is_rcvd (vn_get w bsn).

Definition umod (w : ul_window) (x : Z) : Z := mod_sns (uw_sns w) x.

(** Constructor, [reset_state] (src/rlc_window_ul.h 113-116, 140-145), with the
    parameters set. *)
Definition ul_init (sns ws : Z) : ul_window := mk_ulw (fun _ => UlInvalid) 0 0 sns ws.

(** [is_in_window] (src/rlc_window_ul.h 118-127). *)
Definition ul_in_window (w : ul_window) (bsn : Z) : bool :=
  Z.land (bsn - uw_vq w) (uw_sns w - 1) <? uw_ws w.

(** [is_received] (src/rlc_window_ul.h 129-136). *)
Definition ul_is_received (w : ul_window) (bsn : Z) : bool :=
  ul_in_window w bsn && vn_is_received w bsn
  && (Z.land (uw_vr w - 1 - bsn) (uw_sns w - 1) <? uw_ws w).

(** [raise_v_r_to], [raise_v_q(int)] (src/rlc_window_ul.h 172-180). *)
Definition ul_raise_v_r_to (w : ul_window) (moves : Z) : ul_window :=
  mk_ulw (uw_vn w) (umod w (uw_vr w + moves)) (uw_vq w) (uw_sns w) (uw_ws w).
Definition ul_raise_v_q_by (w : ul_window) (incr : Z) : ul_window :=
  mk_ulw (uw_vn w) (uw_vr w) (umod w (uw_vq w + incr)) (uw_sns w) (uw_ws w).

(** The loop of [raise_v_r] (src/rlc_window_ul.cpp 40-50); the argument is
    [offset_v_r] before the decrement in the loop condition. *)
Fixpoint ul_raise_v_r_loop (offset_v_r : nat) (w : ul_window) : ul_window :=
  match offset_v_r with
  | O => w
  | S k =>
      let v_r := uw_vr w in
      let w1 := vn_mark w (umod w (v_r - uw_ws w)) UlInvalid in
      let w2 := match k with O => w1 | S _ => vn_mark w1 v_r UlMissing end in
      ul_raise_v_r_loop k (ul_raise_v_r_to w2 1)
  end.

(** [raise_v_r(bsn)] (src/rlc_window_ul.cpp 33-52). *)
Definition ul_raise_v_r (w : ul_window) (bsn : Z) : ul_window :=
  let offset_v_r := umod w (bsn + 1 - uw_vr w) in
  if offset_v_r <? Z.shiftr (uw_sns w) 1
  then ul_raise_v_r_loop (Z.to_nat offset_v_r) w
  else w.

(** [raise_v_q()] (src/rlc_window_ul.cpp 58-72): the new window and the number of
    blocks taken out. The C loop has no counter; [fuel] is the sequence number space
    and running out of it gives [None], an outcome the theorems exclude. *)
Fixpoint ul_raise_v_q_loop (fuel : nat) (w : ul_window) (count : Z) : option (ul_window * Z) :=
  match fuel with
  | O => None
  | S k =>
      if uw_vq w =? uw_vr w then Some (w, count)
      else if vn_is_received w (uw_vq w)
           then ul_raise_v_q_loop k (ul_raise_v_q_by w 1) ((count + 1) mod 65536)
           else Some (w, count)
  end.
Definition ul_raise_v_q (w : ul_window) : option (ul_window * Z) :=
  ul_raise_v_q_loop (Z.to_nat (uw_sns w)) w 0.

(** [receive_bsn], [invalidate_bsn] (src/rlc_window_ul.cpp 74-86). *)
Definition ul_receive_bsn (w : ul_window) (bsn : Z) : ul_window :=
  ul_raise_v_r (vn_mark w bsn UlReceived) bsn.
Definition ul_invalidate_bsn (w : ul_window) (bsn : Z) : ul_window :=
  vn_mark w bsn UlMissing.

(** [update_rbb] (src/rlc_window_ul.cpp 116-125): entry [ws - 1 - i] is about BSN
    [ssn - 1 - i], so entry [k] is about [ssn - ws + k]; the list is in the order of
    the array. *)
Definition ul_update_rbb (w : ul_window) : list bool :=
  map (fun k => vn_is_received w
                  (Z.land (uw_vr w - 1 - (uw_ws w - 1 - Z.of_nat k)) (uw_sns w - 1)))
      (seq 0 (Z.to_nat (uw_ws w))).

(** The loop of [update_egprs_rbb] (src/rlc_window_ul.cpp 90-113). The bits go to
    consecutive positions, most significant first; here they are a list. The start
    [v_q() + 1] is not reduced modulo the sequence number space, and the loop stops
    at the first number that is not below V(R). *)
Fixpoint ul_egprs_rbb_loop (fuel : nat) (w : ul_window) (i bsn : Z) : list bool :=
  match fuel with
  | O => []
  | S k => if (bsn <? uw_vr w) && (i <? uw_ws w)
           then vn_is_received w bsn :: ul_egprs_rbb_loop k w (i + 1) (umod w (bsn + 1))
           else []
  end.
(** [fuel]: the loop is bounded by its counter [i < ws]. *)
Definition ul_update_egprs_rbb (w : ul_window) : list bool :=
  ul_egprs_rbb_loop (Z.to_nat (uw_ws w)) w 0 (uw_vq w + 1).
