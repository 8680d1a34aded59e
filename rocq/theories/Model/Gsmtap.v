(** What is sent over GSMTAP of the traffic on the air: /repo/src/pcu_vty.c, bts.cpp,
    gprs_rlcmac_sched.cpp, pdch.cpp, pcu_l1_if.cpp. Left out: the received level and the link quality,
    and whether a remote host is configured (gsmtap_send does nothing without). *)
From Coq Require Import ZArith Ascii String List Bool.
From Verif Require Import Model.VtyConf.
Import ListNotations.
Local Open Scope Z_scope.

(** ** Configuration *)
(** get_string_value(pcu_gsmtap_categ_names, .), pcu_vty.c:32-51, 122, 135. *)
Definition cat_of (n : string) : option Z := option_map fst (find (fun x => String.eqb (snd x) n) categ_names).
(** cfg_pcu_gsmtap_categ, pcu_vty.c:118-129; cfg_pcu_no_gsmtap_categ, 131-142;
    cfg_pcu_gsmtap_sapi_all, 103-116. *)
Inductive gcmd := GOn (n : string) | GOff (n : string) | GAll | GNone.
Definition g_mask (m : Z) (c : gcmd) : Z :=
  match c with
  | GOn n => match cat_of n with Some k => Z.lor m (Z.shiftl 1 k) | None => m end
  | GOff n => match cat_of n with Some k => Z.ldiff m (Z.shiftl 1 k) | None => m end
  | GAll => 0xffffffff
  | GNone => 0
  end.
(** The mask is 0 at the start: talloc_zero of gprs_pcu_alloc, gprs_pcu.c:78. *)
Definition g_masks (l : list gcmd) : Z := fold_left g_mask l 0.

(** ** Packets *)
(** enum pcu_gsmtap_category, gprs_pcu.h:50-67. *)
Definition C_DL_DUMMY : Z := 1.
Definition C_DL_CTRL : Z := 2.
Definition C_DL_DATA_GPRS : Z := 3.
Definition C_DL_DATA_EGPRS : Z := 4.
Definition C_DL_PTCCH : Z := 5.
Definition C_DL_AGCH : Z := 6.
Definition C_DL_PCH : Z := 7.
Definition C_UL_UNKNOWN : Z := 15.
Definition C_UL_DUMMY : Z := 16.
Definition C_UL_CTRL : Z := 17.
Definition C_UL_DATA_GPRS : Z := 18.
Definition C_UL_DATA_EGPRS : Z := 19.
Definition C_UL_RACH : Z := 20.
Definition C_UL_PTCCH : Z := 21.
(** GSMTAP_CHANNEL_*, libosmocore. *)
Inductive chan := ChPdtch | ChPacch | ChPtcch | ChAgch | ChPch | ChRach | ChBcch | ChUnknown.
(** The arguments of gsmtap_send. *)
Record pkt := mk_pkt { p_arfcn : Z; p_ts : Z; p_chan : chan; p_fn : Z; p_data : list Z }.
(** GSMTAP_ARFCN_F_UPLINK, libosmocore. *)
Definition UPLINK : Z := 0x4000.

(** bts_send_gsmtap_meas, bts.cpp:549-569, and bts_send_gsmtap, 540-547. [arf] is the array of the
    ARFCNs of the eight TRX; None: it is read out of bounds. *)
Definition send_meas (mask : Z) (arf : list Z) (categ : Z) (uplink : bool) (trx ts : Z) (ch : chan) (fn : Z) (data : list Z) :
  option (option pkt) :=
  if Z.land mask (Z.shiftl 1 categ) =? 0 then Some None
  else match nth_error arf (Z.to_nat trx) with
       | None => None
       | Some a => Some (Some (mk_pkt (if uplink then Z.lor a UPLINK else a) ts ch fn data))
       end.
(** ra_buf of bts_send_gsmtap_rach, bts.cpp:517-538. *)
Definition ra_buf (is11 : bool) (ra : Z) : list Z :=
  if is11 then [Z.land (Z.shiftr ra 3) 0xff; Z.land (Z.shiftl ra 5) 0xff] else [Z.land ra 0xff].
(** The direct calls of gsmtap_send in pcu_l1_if.cpp. *)
Definition send_if (mask categ : Z) (p : pkt) : option (option pkt) :=
  Some (if Z.land mask (Z.shiftl 1 categ) =? 0 then None else Some p).

(** What passes on the air. *)
Inductive air :=
| DlCtrl (trx ts fn : Z) (data : list Z)
| DlData (egprs : bool) (trx ts fn : Z) (data : list Z)
| DlDummy (trx ts fn : Z) (data : list Z)
| DlPtcch (trx ts fn : Z) (data : list Z)
| DlAgch (data : list Z)
| DlPch (data : list Z)
| UlCtrl (dummy : bool) (trx ts fn : Z) (data : list Z)
| UlData (egprs : bool) (trx ts fn : Z) (data : list Z)
| UlRach (is11 : bool) (ra trx ts fn : Z)
| UlPtcch (is11 : bool) (ra trx ts fn : Z)
| UlUnknown (arfcn ts fn : Z) (ch : chan) (data : list Z).
Definition tap (mask : Z) (arf : list Z) (a : air) : option (option pkt) :=
  match a with
  (* tap_n_acc, gprs_rlcmac_sched.cpp:362-388, called in 521 with the categories of 468, 472, 496 *)
  | DlCtrl trx ts fn d => send_meas mask arf C_DL_CTRL false trx ts ChPacch fn d
  | DlData e trx ts fn d => send_meas mask arf (if e then C_DL_DATA_EGPRS else C_DL_DATA_GPRS) false trx ts ChPdtch fn d
  | DlDummy trx ts fn d => send_meas mask arf C_DL_DUMMY false trx ts ChPacch fn d
  (* pcu_l1if_tx_ptcch, pcu_l1_if.cpp:236-257, called in 566 and 571 with the ARFCN of the TRX, which
     is checked before (545-546) *)
  | DlPtcch trx ts fn d =>
    match d, nth_error arf (Z.to_nat trx) with
    | [], _ => Some None
    | _, None => None
    | _, Some n => send_if mask C_DL_PTCCH (mk_pkt n ts ChPtcch fn d)
    end
  (* pcu_l1if_tx_agch2 and pcu_l1if_tx_pch2, pcu_l1_if.cpp:262-275, 280-302 *)
  | DlAgch d => send_if mask C_DL_AGCH (mk_pkt 0 0 ChAgch 0 d)
  | DlPch d => send_if mask C_DL_PCH (mk_pkt 0 0 ChPch 0 d)
  (* rcv_control_block, pdch.cpp:917-920; rcv_data_block, pdch.cpp:1011-1019 *)
  | UlCtrl dummy trx ts fn d => send_meas mask arf (if dummy then C_UL_DUMMY else C_UL_CTRL) true trx ts ChPacch fn d
  | UlData e trx ts fn d => send_meas mask arf (if e then C_UL_DATA_EGPRS else C_UL_DATA_GPRS) true trx ts ChPdtch fn d
  (* bts_rcv_rach, bts.cpp:950; bts_rcv_ptcch_rach, bts.cpp:1071, before its test of the TRX number *)
  | UlRach is11 ra trx ts fn => send_meas mask arf C_UL_RACH true trx ts ChRach fn (ra_buf is11 ra)
  | UlPtcch is11 ra trx ts fn => send_meas mask arf C_UL_PTCCH true trx ts ChPtcch fn (ra_buf is11 ra)
  (* pcu_rx_data_ind, pcu_l1_if.cpp:505-508 *)
  | UlUnknown n ts fn ch d => send_if mask C_UL_UNKNOWN (mk_pkt (Z.lor n UPLINK) ts ch fn d)
  end.
