(** The figures of throughput, loss and received level of a TBF: /repo/src/gprs_rlcmac_meas.cpp. *)
From Coq Require Import ZArith List Bool.
Import ListNotations.
Local Open Scope Z_scope.

(** Times of the monotonic clock in nanoseconds; the parts of a difference as timespecsub leaves
    them (the nanoseconds are not negative). *)
Definition tv_sec (e : Z) : Z := e / 1000000000.
Definition tv_nsec (e : Z) : Z := e mod 1000000000.

(** ** Downlink throughput *)
(** dl_bw_tv, dl_bw_octets, dl_throughput (uint32_t), tbf_dl.h:92-95. *)
Record bwm := mk_bwm { bw_tv : Z; bw_octets : Z; bw_thr : Z }.
(** BandWidth::BandWidth, tbf_dl.cpp:93-102. *)
Definition bw_start (now : Z) : bwm := mk_bwm now 0 0.
(** gprs_rlcmac_dl_bw, gprs_rlcmac_meas.cpp:168-189, called with the length of an LLC frame when
    it is finished, tbf_dl.cpp:664. The second component is the figure logged. The numerator is
    of 32 bits, the denominator of 64. *)
Definition dl_bw (now octets : Z) (m : bwm) : bwm * option Z :=
  let oct := (bw_octets m + octets) mod 2 ^ 32 in
  let e := now - bw_tv m in
  if tv_sec e <? 1 then (mk_bwm (bw_tv m) oct (bw_thr m), None)
  else
    let thr := ((oct * 2 ^ 10) mod 2 ^ 32) / (tv_sec e * 2 ^ 10 + tv_nsec e / 2 ^ 20) in
    (mk_bwm now 0 thr, Some thr).

(** ** Downlink loss *)
(** dl_loss_tv, dl_loss_lost, dl_loss_received (uint16_t), tbf_dl.h:97-99. *)
Record lossm := mk_lossm { lo_tv : Z; lo_lost : Z; lo_recv : Z }.
Definition loss_start (now : Z) : lossm := mk_lossm now 0 0.
(** gprs_rlcmac_lost_rep, gprs_rlcmac_meas.cpp:150-163; None: nothing is logged. *)
Definition lost_rep (m : lossm) : option Z :=
  let sum := (lo_lost m + lo_recv m) mod 2 ^ 16 in
  if sum =? 0 then None else Some (lo_lost m * 100 / sum).
(** gprs_rlcmac_received_lost, gprs_rlcmac_meas.cpp:116-147. *)
Definition received_lost (now received lost : Z) (m : lossm) : lossm * option Z :=
  if (received + lost) mod 2 ^ 16 =? 0 then (m, None)
  else
    let m1 := mk_lossm (lo_tv m) ((lo_lost m + lost) mod 2 ^ 16) ((lo_recv m + received) mod 2 ^ 16) in
    if tv_sec (now - lo_tv m) <? 1 then (m1, None)
    else (mk_lossm now 0 0, lost_rep m1).

(** ** Uplink received level *)
(** rssi_tv, rssi_sum (int32_t), rssi_num (int), tbf.h:225-227. *)
Record rssim := mk_rssim { rs_tv : Z; rs_sum : Z; rs_num : Z }.
Definition rssi_start (now : Z) : rssim := mk_rssim now 0 0.
(** gprs_rlcmac_rssi and _rssi_rep, gprs_rlcmac_meas.cpp:73-107, called for every radio block of
    an uplink TBF with 0 if the level is not known, tbf_ul.cpp:253, 275. None: a signed sum
    overflows. The division truncates towards zero. *)
Definition fits_int (x : Z) : bool := (- 2 ^ 31 <=? x) && (x <? 2 ^ 31).
Definition rssi_block (now : Z) (level : option Z) (m : rssim) : option (rssim * option Z) :=
  let rssi := match level with Some x => x | None => 0 end in
  let sum := rs_sum m + rssi in
  let num := rs_num m + 1 in
  if negb (fits_int sum && fits_int num) then None
  else if tv_sec (now - rs_tv m) <? 1 then Some (mk_rssim (rs_tv m) sum num, None)
  else Some (mk_rssim now 0 0, if num =? 0 then None else Some (Z.quot sum num)).

(** Histories: the state in the end and the figures logged, the first first. *)
Definition note (x : option Z) (l : list Z) : list Z := match x with Some y => y :: l | None => l end.
Fixpoint bw_run (h : list (Z * Z)) (m : bwm) : bwm * list Z :=
  match h with
  | [] => (m, [])
  | (now, octets) :: r =>
    let '(m1, x) := dl_bw now octets m in
    let '(m2, l) := bw_run r m1 in (m2, note x l)
  end.
Fixpoint loss_run (h : list (Z * (Z * Z))) (m : lossm) : lossm * list Z :=
  match h with
  | [] => (m, [])
  | (now, (received, lost)) :: r =>
    let '(m1, x) := received_lost now received lost m in
    let '(m2, l) := loss_run r m1 in (m2, note x l)
  end.
Fixpoint rssi_run (h : list (Z * option Z)) (m : rssim) : option (rssim * list Z) :=
  match h with
  | [] => Some (m, [])
  | (now, level) :: r =>
    match rssi_block now level m with
    | None => None
    | Some (m1, x) =>
      match rssi_run r m1 with None => None | Some (m2, l) => Some (m2, note x l) end
    end
  end.
