(** Flow control towards the SGSN.

    Models src/gprs_bssgp_pcu.c:40-48, 767-917, 919-1039 and 1332-1353, and
    src/alloc_algo.cpp:890-904.  Not modelled: the log output, the tag, the timer that sends the
    PDU, and the encoding of the PDU by libosmocore (units of 100 octets and of 100 bit/s).  The first
    cell of the PCU is the one that counts, as in the code. *)
From Coq Require Import ZArith List Bool.
From Verif Require Import Model.CodingScheme Model.BtsConf.
Import ListNotations.
Open Scope Z_scope.

(** Unsigned and signed 32 bit values. *)
Definition u32 (x : Z) : Z := x mod 2 ^ 32.
Definition s32 (x : Z) : Z := let y := x mod 2 ^ 32 in if y <? 2 ^ 31 then y else y - 2 ^ 32.
Definition fits (x : Z) : bool := (- 2 ^ 31 <=? x) && (x <? 2 ^ 31).

(** FC_* constants, src/gprs_bssgp_pcu.c:40-48. *)
Definition LIFE_TIME : Z := 10.
Definition FALLBACK : Z := 2000.
Definition ms_fallback (bmax : Z) : Z := bmax / 2 + 500.
Definition MS_MAX_RX_SLOTS : Z := 4.
Definition MAX_LEAK : Z := 6553500 / 8.
Definition MAX_BUCKET : Z := 6553500.

(** the_pcu->vty: what the configuration forces (0: nothing), and the adaptation of coding schemes. *)
Record fconf := Fc { c_time : Z; c_lifetime : Z; c_bvc_bucket : Z; c_bvc_leak : Z; c_ms_bucket : Z; c_ms_leak : Z; c_adj : bool }.
(** The cell: its enabled timeslots, the coding schemes, and the number of downlink slots of
    gprs_alloc_max_dl_slots_per_ms for an unknown mobile. *)
Record fcell := Cell { l_pdch : Z; l_conf : bconf; l_slots : Z }.
(** the_pcu->bssgp: the counters; the sum of the delays as seconds and nanoseconds. *)
Record fcount := Cnt { f_sent : Z; f_bytes : Z; f_frames : Z; f_sec : Z; f_nsec : Z; f_delays : Z }.

(** gprs_bssgp_max_leak_rate, src/gprs_bssgp_pcu.c:788-794. *)
Definition max_leak (cs : scheme) (n : Z) : Z :=
  u32 (mcs_max_data_block_bytes cs * num_data_blocks (mcs_header_type cs) * (1000 / 20) * n).

(** compute_bucket_size, src/gprs_bssgp_pcu.c:796-821. *)
Definition bucket_size (c : fconf) (leak fallback : Z) : Z :=
  let time := if c_time c =? 0 then c_lifetime c else c_time c in
  let b := if time =? 0xffff then MAX_BUCKET else 0 in
  let b := if (b =? 0) && negb (time =? 0) && negb (leak =? 0) then u32 (leak * time / 100) else b in
  let b := if (b =? 0) && negb (leak =? 0) then u32 (leak * LIFE_TIME) else b in
  let b := if b =? 0 then fallback else b in
  if b >? MAX_BUCKET then MAX_BUCKET else b.

(** get_and_reset_avg_queue_delay, src/gprs_bssgp_pcu.c:823-839. *)
Definition avg_delay (f : fcount) : Z :=
  let sum := u32 (f_sec f * 1000 + f_nsec f / 1000000000) in
  if f_delays f >? 0 then sum / f_delays f else 0.

(** get_and_reset_measured_leak_rate, src/gprs_bssgp_pcu.c:841-866: rate, usage, the counters.  [None]:
    division by zero. *)
Definition measured (f : fcount) (n : Z) : option (Z * Z * fcount) :=
  if f_sent f =? 0 then Some (-1, 0, f)
  else if f_frames f =? 0 then Some (-1, 0, f)
  else
    let usage := s32 (u32 (f_frames f * 1000) / f_sent f) in
    let d := u32 (20 * f_frames f) in
    if d =? 0 then None
    else Some (s32 (u32 (f_bytes f * 1000 * n) / d), usage, Cnt 0 0 0 (f_sec f) (f_nsec f) (f_delays f)).

(** max_coding_scheme_dl, src/gprs_bssgp_pcu.c:868-917. *)
Definition max_scheme (c : fconf) (b : bconf) : scheme :=
  let any := highest (b_mcs_mask b) 9 in
  if negb (any =? 0) then
    mcs_get_egprs_by_num
      (if negb (c_adj c) then if negb (p_dl (b_ini_mcs b) =? 0) then p_dl (b_ini_mcs b) else any
       else if negb (p_dl (b_max_mcs b) =? 0) then p_dl (b_max_mcs b)
       else 9)
  else
    let num :=
      if negb (c_adj c) then if negb (p_dl (b_ini_cs b) =? 0) then p_dl (b_ini_cs b) else highest (b_cs_mask b) 4
      else if negb (p_dl (b_max_cs b) =? 0) then p_dl (b_max_cs b) else 0 in
    mcs_get_gprs_by_num (if num =? 0 then 4 else num).

(** The values of a FLOW-CONTROL-BVC PDU: octets and octets per second; milliseconds. *)
Record pdu := Pdu { u_bucket : Z; u_leak : Z; u_ms_bucket : Z; u_ms_leak : Z; u_delay : Z }.

(** gprs_bssgp_tx_fc_bvc, src/gprs_bssgp_pcu.c:919-1039.  [None]: undefined behaviour. *)
Definition min_leak (x : Z) : Z := if x >? MAX_LEAK then MAX_LEAK else x.
Definition report (c : fconf) (l : fcell) (f : fcount) : option (pdu * fcount) :=
  let cs := max_scheme c (l_conf l) in
  let cap := max_leak cs (l_pdch l) in
  match
    (if c_bvc_leak c =? 0 then
       match measured f (l_pdch l) with
       | None => None
       | Some (rate, usage, f) =>
           if rate >? 0 then
             if fits (rate * usage) && fits (1000 - usage)
             then Some (u32 (rate * usage + cap * u32 (1000 - usage)) / 1000, f) else None
           else Some (0, f)
       end
     else Some (c_bvc_leak c, f))
  with
  | None => None
  | Some (leak, f) =>
      let leak := if leak =? 0 then cap else leak in
      let ms_leak :=
        if c_ms_leak c =? 0 then
          let mx := if l_slots l >? MS_MAX_RX_SLOTS then MS_MAX_RX_SLOTS else l_slots l in
          max_leak cs (if l_pdch l >? mx then mx else l_pdch l)
        else c_ms_leak c in
      let bucket := if c_bvc_bucket c =? 0 then bucket_size c leak FALLBACK else c_bvc_bucket c in
      let ms_bucket := if c_ms_bucket c =? 0 then bucket_size c ms_leak (ms_fallback bucket) else c_ms_bucket c in
      Some (Pdu bucket (min_leak leak) ms_bucket (min_leak ms_leak) (avg_delay f),
            Cnt (f_sent f) (f_bytes f) (f_frames f) 0 0 0)
  end.

(** What happens between the reports: a block was sent, an acknowledgement reported octets in a number
    of blocks, a frame left its queue after a number of nanoseconds; a report. *)
Inductive fop := FSent | FBytes (bytes frames : Z) | FDelay (ns : Z) | FReport (c : fconf) (l : fcell).

(** gprs_bssgp_update_*, src/gprs_bssgp_pcu.c:1332-1353; timespecadd carries. *)
Definition f_step (f : fcount) (o : fop) : option (fcount * list pdu) :=
  match o with
  | FSent => Some (Cnt (u32 (f_sent f + 1)) (f_bytes f) (f_frames f) (f_sec f) (f_nsec f) (f_delays f), [])
  | FBytes b k => Some (Cnt (f_sent f) (u32 (f_bytes f + b)) (u32 (f_frames f + k)) (f_sec f) (f_nsec f) (f_delays f), [])
  | FDelay ns =>
      let n := f_nsec f + ns mod 1000000000 in
      let s := f_sec f + ns / 1000000000 in
      Some (Cnt (f_sent f) (f_bytes f) (f_frames f)
              (if n >=? 1000000000 then s + 1 else s) (if n >=? 1000000000 then n - 1000000000 else n)
              (u32 (f_delays f + 1)), [])
  | FReport c l => match report c l f with Some (p, f) => Some (f, [p]) | None => None end
  end.
Definition fcount0 : fcount := Cnt 0 0 0 0 0 0.
Fixpoint f_run (f : fcount) (out : list pdu) (h : list fop) : option (fcount * list pdu) :=
  match h with
  | [] => Some (f, out)
  | o :: h => match f_step f o with Some (f, p) => f_run f (out ++ p) h | None => None end
  end.
