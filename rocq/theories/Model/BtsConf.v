(** Coding schemes a cell may use, and EGPRS window sizes: /repo/src/bts.cpp,
    pcu_l1_if.cpp, gprs_pcu.c, tbf.cpp, encoding.cpp. *)
From Coq Require Import ZArith List Bool.
From Verif Require Import Model.CodingScheme Model.Mslot.
Import ListNotations.
Local Open Scope Z_scope.

(** A downlink and an uplink value. *)
Record pair2 := mk2 { p_dl : Z; p_ul : Z }.

(** struct gprs_pcu, field vty (gprs_pcu.h:84-140): the values used here. A forced initial
    scheme is [Some]. *)
Record vty := mk_vty {
  y_max_cs : pair2; y_max_mcs : pair2;
  y_ini_cs : option pair2; y_ini_mcs : option pair2 }.
(** struct gprs_rlcmac_bts (bts.h:206-300): the values used here. *)
Record bconf := mk_bc {
  b_cs_mask : Z; b_mcs_mask : Z;
  b_max_cs : pair2; b_max_mcs : pair2;
  b_ini_cs : pair2; b_ini_mcs : pair2;
  b_ind_cs : Z; b_ind_mcs : Z }.        (* pcuif_info_ind.initial_cs, initial_mcs *)

(** gprs_pcu_alloc, gprs_pcu.c:83-86; bts_alloc, bts.cpp:285-296. *)
Definition vty0 : vty := mk_vty (mk2 4 4) (mk2 9 9) None None.
Definition bconf0 : bconf := mk_bc 1 0 (mk2 4 4) (mk2 9 9) (mk2 1 1) (mk2 1 1) 0 0.

(** The loop in bts_recalc_max_cs and bts_recalc_max_mcs, bts.cpp:1407-1412 and three
    more: the highest number up to [n] that is in the mask, else 0. *)
Fixpoint highest (mask : Z) (n : nat) : Z :=
  match n with
  | O => 0
  | S k => if Z.testbit mask (Z.of_nat k) then Z.of_nat n else highest mask k
  end.
(** bts_recalc_max_cs and bts_recalc_max_mcs, bts.cpp:1400-1453. *)
Definition recalc_max (mask : Z) (lim : pair2) : pair2 :=
  mk2 (highest mask (Z.to_nat (p_dl lim))) (highest mask (Z.to_nat (p_ul lim))).
Definition recalc_max_cs (y : vty) (b : bconf) : bconf :=
  mk_bc (b_cs_mask b) (b_mcs_mask b) (recalc_max (b_cs_mask b) (y_max_cs y)) (b_max_mcs b)
        (b_ini_cs b) (b_ini_mcs b) (b_ind_cs b) (b_ind_mcs b).
Definition recalc_max_mcs (y : vty) (b : bconf) : bconf :=
  mk_bc (b_cs_mask b) (b_mcs_mask b) (b_max_cs b) (recalc_max (b_mcs_mask b) (y_max_mcs y))
        (b_ini_cs b) (b_ini_mcs b) (b_ind_cs b) (b_ind_mcs b).

(** bts_recalc_initial_cs, bts.cpp:1344-1372. *)
Definition recalc_ini_cs (y : vty) (b : bconf) : bconf :=
  let one (mx : Z) := let x := if mx <? b_ind_cs b then mx else b_ind_cs b in if x =? 0 then 1 else x in
  mk_bc (b_cs_mask b) (b_mcs_mask b) (b_max_cs b) (b_max_mcs b)
    (match y_ini_cs y with Some p => p | None => mk2 (one (p_dl (b_max_cs b))) (one (p_ul (b_max_cs b))) end)
    (b_ini_mcs b) (b_ind_cs b) (b_ind_mcs b).
(** bts_recalc_initial_mcs, bts.cpp:1374-1398. *)
Definition recalc_ini_mcs (y : vty) (b : bconf) : bconf :=
  let one (mx : Z) := if mx <? b_ind_mcs b then mx else b_ind_mcs b in
  mk_bc (b_cs_mask b) (b_mcs_mask b) (b_max_cs b) (b_max_mcs b) (b_ini_cs b)
    (match y_ini_mcs y with Some p => p | None => mk2 (one (p_dl (b_max_mcs b))) (one (p_ul (b_max_mcs b))) end)
    (b_ind_cs b) (b_ind_mcs b).

(** pcu_rx_info_ind, pcu_l1_if.cpp:844-872. [cs] and [mcs] are the flags PCU_IF_FLAG_CS1..4
    and PCU_IF_FLAG_MCS1..9, bit 0 being the first one. *)
Definition info_ind (y : vty) (cs mcs ini_cs ini_mcs : Z) (b : bconf) : bconf :=
  let b1 := recalc_max_cs y (mk_bc (Z.lor 1 (Z.land cs 15)) (b_mcs_mask b) (b_max_cs b) (b_max_mcs b)
                                   (b_ini_cs b) (b_ini_mcs b) (b_ind_cs b) (b_ind_mcs b)) in
  let b2 := recalc_max_mcs y (mk_bc (b_cs_mask b1) (Z.land mcs 511) (b_max_cs b1) (b_max_mcs b1)
                                    (b_ini_cs b1) (b_ini_mcs b1) (b_ind_cs b1) (b_ind_mcs b1)) in
  let b3 := recalc_ini_cs y (mk_bc (b_cs_mask b2) (b_mcs_mask b2) (b_max_cs b2) (b_max_mcs b2)
                                   (b_ini_cs b2) (b_ini_mcs b2) ini_cs (b_ind_mcs b2)) in
  recalc_ini_mcs y (mk_bc (b_cs_mask b3) (b_mcs_mask b3) (b_max_cs b3) (b_max_mcs b3)
                          (b_ini_cs b3) (b_ini_mcs b3) (b_ind_cs b3) ini_mcs).

(** The configuration commands (pcu_vty.c:463-585) and the BTS's message. *)
Inductive confop : Set :=
| MaxCs (p : pair2)                (* "cs max <1-4> [<1-4>]" *)
| NoMaxCs                          (* "no cs max" *)
| MaxMcs (p : pair2)               (* "mcs max <1-9> [<1-9>]" *)
| NoMaxMcs                         (* "no mcs max" *)
| IniCs (p : pair2)                (* "cs <1-4> [<1-4>]" *)
| NoIniCs                          (* "no cs" *)
| IniMcs (p : pair2)               (* "mcs <1-9> [<1-9>]" *)
| NoIniMcs                         (* "no mcs" *)
| Info (cs mcs ini_cs ini_mcs : Z).
(** gprs_pcu_set_max_cs etc., gprs_pcu.c:170-216. *)
Definition conf_step (o : confop) (s : vty * bconf) : vty * bconf :=
  let '(y, b) := s in
  match o with
  | MaxCs p => let y := mk_vty p (y_max_mcs y) (y_ini_cs y) (y_ini_mcs y) in (y, recalc_max_cs y b)
  | NoMaxCs => let y := mk_vty (mk2 0 0) (y_max_mcs y) (y_ini_cs y) (y_ini_mcs y) in (y, recalc_max_cs y b)
  | MaxMcs p => let y := mk_vty (y_max_cs y) p (y_ini_cs y) (y_ini_mcs y) in (y, recalc_max_mcs y b)
  | NoMaxMcs => let y := mk_vty (y_max_cs y) (mk2 0 0) (y_ini_cs y) (y_ini_mcs y) in (y, recalc_max_mcs y b)
  | IniCs p => let y := mk_vty (y_max_cs y) (y_max_mcs y) (Some p) (y_ini_mcs y) in (y, recalc_ini_cs y b)
  | NoIniCs => let y := mk_vty (y_max_cs y) (y_max_mcs y) None (y_ini_mcs y) in (y, recalc_ini_cs y b)
  | IniMcs p => let y := mk_vty (y_max_cs y) (y_max_mcs y) (y_ini_cs y) (Some p) in (y, recalc_ini_mcs y b)
  | NoIniMcs => let y := mk_vty (y_max_cs y) (y_max_mcs y) (y_ini_cs y) None in (y, recalc_ini_mcs y b)
  | Info cs mcs ics imcs => (y, info_ind y cs mcs ics imcs b)
  end.
Definition conf_run (os : list confop) : vty * bconf := fold_left (fun s o => conf_step o s) os (vty0, bconf0).

(** bts_cs_dl_is_supported, bts.cpp:1200-1209; None: the assertion fails. *)
Definition cs_dl_is_supported (b : bconf) (c : scheme) : option bool :=
  if negb (mcs_is_valid c) then None
  else
    let num := mcs_chan_code c in
    Some (if mcs_is_gprs c then (num <=? p_dl (b_max_cs b)) && Z.testbit (b_cs_mask b) num
          else (num <=? p_dl (b_max_mcs b)) && Z.testbit (b_mcs_mask b) num).

(** egprs_window_size, tbf.cpp:284-290. *)
Definition egprs_window_size (ws_base ws_pdch slots : Z) : Z :=
  let n := bitcount slots in
  Z.min (if negb (n =? 1) then 128 * n else 192) (Z.max 64 ((ws_base + n * ws_pdch) / 32 * 32)) mod 65536.
(** enc_ws, encoding.cpp:154-157. *)
Definition enc_ws (ws : Z) : Z := Z.quot (ws - 64) 32 mod 65536.
(** The 5 bits of the window size in the Packet Downlink Assignment (encoding.cpp:796), and
    with the same expression in the IA Rest Octets (encoding.cpp:225, 338). The structure
    member has 8 bits (gsm_rlcmac.h:2274), the message field 5 (gsm_rlcmac.c:2155); writing
    a field keeps the low bits. *)
Definition ws_field_dl (ws : Z) : Z := (enc_ws ws mod 256) mod 32.
Definition ws_field_ia (ws : Z) : Z := enc_ws ws mod 32.
(** The same in the Packet Uplink Assignment, encoding.cpp:647, gsm_rlcmac.h:2189,
    gsm_rlcmac.c:2081. *)
Definition ws_field_ul (ws : Z) : Z := (ws mod 256) mod 32.
