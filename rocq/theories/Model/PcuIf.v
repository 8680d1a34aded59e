(** Messages the PCU receives from the BTS or BSC over the PCU socket:
    /repo/src/pcuif_sock.c, pcu_l1_if.cpp, /repo/include/osmocom/pcu/pcuif_proto.h.

    Modelled: reading a message from the socket, the size checks, how each message is taken
    apart, and what it does to the configuration of the cell. What a message starts in the
    rest of the PCU (a received block, a request to send, an access burst, paging, ...) is
    returned as a list of actions; those procedures are modelled in other files. The direct
    PHY access (ENABLE_DIRECT_PHY) is not compiled in. *)
From Coq Require Import ZArith List Bool.
From Verif Require Import Model.FrameNo Model.BtsConf.
Import ListNotations.
Local Open Scope Z_scope.

(** ** Reading packed structures, pcuif_proto.h:81-318

    The structures are packed, so their fields follow one another; numbers are in host byte
    order, little endian. A [reader] goes through the octets received; it fails if it would
    go beyond them. *)
Definition reader (A : Type) := list Z -> option (A * list Z).
Definition ret {A} (a : A) : reader A := fun l => Some (a, l).
Definition bind {A B} (m : reader A) (k : A -> reader B) : reader B :=
  fun l => match m l with Some (a, r) => k a r | None => None end.
Notation "'do' x <- m ; k" := (bind m (fun x => k)) (at level 200, x name, m at level 100, k at level 200).
Definition octet : reader Z := fun l => match l with b :: r => Some (b, r) | [] => None end.
Fixpoint times {A} (n : nat) (m : reader A) : reader (list A) :=
  match n with
  | O => ret []
  | S k => do a <- m; do r <- times k m; ret (a :: r)
  end.
(** uint16_t, uint32_t, and int8_t, int16_t. *)
Definition le (bs : list Z) : Z := fold_right (fun b acc => b + 256 * acc) 0 bs.
Definition num (n : nat) : reader Z := do bs <- times n octet; ret (le bs).
Definition signed (bits x : Z) : Z := if x <? 2 ^ (bits - 1) then x else x - 2 ^ bits.
(** osmo_load16be of libosmocore. *)
Definition be16 : reader Z := do h <- octet; do l <- octet; ret (256 * h + l).

(** struct gsm_pcu_if_data, pcuif_proto.h:94-106. *)
Record data_ind := mk_di {
  di_sapi : Z; di_len : Z; di_data : list Z; di_fn : Z; di_arfcn : Z; di_trx : Z; di_ts : Z;
  di_blk : Z; di_rssi : Z; di_ber : Z; di_ta : Z; di_lqual : Z }.
Definition rd_data : reader data_ind :=
  do sapi <- octet; do len <- octet; do dat <- times 162 octet; do fn <- num 4; do arfcn <- num 2;
  do trx <- octet; do ts <- octet; do blk <- octet; do rssi <- octet; do ber <- num 2;
  do ta <- num 2; do lq <- num 2;
  ret (mk_di sapi len dat fn arfcn trx ts blk (signed 8 rssi) ber (signed 16 ta) (signed 16 lq)).
(** struct gsm_pcu_if_data_cnf, pcuif_proto.h:109-112: sapi and message identifier. *)
Definition rd_cnf : reader (Z * Z) := do sapi <- octet; do id <- num 4; ret (sapi, id).
(** struct gsm_pcu_if_rts_req, pcuif_proto.h:114-122. *)
Record rts_req := mk_rts { rt_sapi : Z; rt_fn : Z; rt_trx : Z; rt_ts : Z; rt_blk : Z }.
Definition rd_rts : reader rts_req :=
  do sapi <- octet; do _ <- times 3 octet; do fn <- num 4; do _ <- num 2;
  do trx <- octet; do ts <- octet; do blk <- octet; ret (mk_rts sapi fn trx ts blk).
(** struct gsm_pcu_if_rach_ind, pcuif_proto.h:124-134. *)
Record rach_ind := mk_ri {
  ri_sapi : Z; ri_ra : Z; ri_qta : Z; ri_fn : Z; ri_11 : Z; ri_burst : Z; ri_trx : Z; ri_ts : Z }.
Definition rd_rach : reader rach_ind :=
  do sapi <- octet; do ra <- num 2; do qta <- num 2; do fn <- num 4; do _ <- num 2;
  do e <- octet; do bt <- octet; do trx <- octet; do ts <- octet;
  ret (mk_ri sapi ra (signed 16 qta) fn e bt trx ts).
(** struct gsm_pcu_if_info_trx_ts, gsm_pcu_if_info_trx and gsm_pcu_if_info_ind,
    pcuif_proto.h:136-197. Fields the PCU does not use are read over. *)
Record its := mk_its { is_tsc : Z; is_hop : Z; is_hsn : Z; is_maio : Z; is_malen : Z; is_ma : list Z }.
Definition rd_its : reader its :=
  do tsc <- octet; do hop <- octet; do hsn <- octet; do maio <- octet; do l <- octet;
  do ma <- times 8 octet; ret (mk_its tsc hop hsn maio l ma).
Record itrx := mk_itrx { ix_arfcn : Z; ix_mask : Z; ix_hl1 : Z; ix_ts : list its }.
Definition rd_itrx : reader itrx :=
  do arfcn <- num 2; do mask <- octet; do _ <- octet; do hl <- num 4; do ts <- times 8 rd_its;
  ret (mk_itrx arfcn mask hl ts).
(** The cell's identity: MCC, MNC, three-digit MNC (a bool), LAC, RAC, cell identity. *)
Record cgi := mk_cgi { g_mcc : Z; g_mnc : Z; g_mnc3 : Z; g_lac : Z; g_rac : Z; g_ci : Z }.
Definition flag (x : Z) : Z := Z.b2z (negb (x =? 0)).
Record info := mk_info {
  in_version : Z; in_flags : Z; in_trx : list itrx; in_bsic : Z;
  in_mcc : Z; in_mnc : Z; in_mnc3 : Z; in_lac : Z; in_rac : Z; in_nsei : Z; in_ci : Z; in_bvci : Z;
  in_t3142 : Z; in_t3169 : Z; in_t3191 : Z; in_t3193 : Z; in_t3195 : Z;
  in_n3101 : Z; in_n3103 : Z; in_n3105 : Z; in_cs : Z; in_mcs : Z;
  in_nsvci : list Z; in_lport : list Z; in_rport : list Z; in_atype : list Z; in_ip : list (list Z);
  in_model : Z }.
Definition rd_info : reader info :=
  do version <- num 4; do flags <- num 4; do trx <- times 8 rd_itrx; do bsic <- octet;
  do mcc <- num 2; do mnc <- num 2; do mnc3 <- octet; do lac <- num 2; do rac <- num 2;
  do nsei <- num 2; do _ <- times 7 octet; do _ <- times 11 octet; do ci <- num 2;
  do _ <- num 2; do _ <- octet; do bvci <- num 2;
  do t3142 <- octet; do t3169 <- octet; do t3191 <- octet; do t3193 <- octet; do t3195 <- octet;
  do n3101 <- octet; do n3103 <- octet; do n3105 <- octet; do _ <- octet; do _ <- num 2; do _ <- num 2;
  do cs <- octet; do mcs <- octet;
  do nsvci <- times 2 (num 2); do lport <- times 2 (num 2); do rport <- times 2 (num 2);
  do atype <- times 2 octet; do ip <- times 2 (times 16 octet); do mdl <- octet;
  ret (mk_info version flags trx bsic mcc mnc mnc3 lac rac nsei ci bvci t3142 t3169 t3191 t3193 t3195
               n3101 n3103 n3105 cs mcs nsvci lport rport atype ip mdl).
(** struct gsm_pcu_if_e1_ccu_ind, pcuif_proto.h:200-208. *)
Definition rd_e1 : reader (list Z) := times 5 octet.
(** struct gsm_pcu_if_time_ind, pcuif_proto.h:217-219. *)
Definition rd_time : reader Z := num 4.
(** struct gsm_pcu_if_pag_req, pcuif_proto.h:221-225: channel needed and identity_lv. *)
Definition rd_pag : reader (Z * list Z) :=
  do _ <- octet; do chan <- octet; do lv <- times 9 octet; ret (chan, lv).
(** struct gsm_pcu_if_app_info_req, pcuif_proto.h:228-232: type and length; the data is
    looked at in place. *)
Definition rd_app : reader (Z * Z) := do ty <- octet; do len <- octet; ret (ty, len).
(** struct gsm_pcu_if_susp_req, pcuif_proto.h:235-239: TLLI and RA identifier. *)
Definition rd_susp : reader (Z * list Z) :=
  do tlli <- num 4; do ra <- times 6 octet; do _ <- octet; ret (tlli, ra).
(** struct gsm_pcu_if_container, pcuif_proto.h:250-255: type and length. *)
Definition rd_cont : reader (Z * Z) := do ty <- octet; do _ <- octet; do len <- be16; ret (ty, len).
(** struct gsm_pcu_if_neigh_addr_cnf, pcuif_proto.h:259-281. The identity is only used if
    err_code is 0. *)
Record naddr := mk_na {
  na_lac : Z; na_ci : Z; na_arfcn : Z; na_bsic : Z; na_err : Z; na_cgi : cgi }.
Definition rd_naddr : reader naddr :=
  do lac <- be16; do ci <- be16; do arfcn <- be16; do bsic <- octet; do err <- octet;
  do mcc <- be16; do mnc <- be16; do m3 <- octet; do glac <- be16; do rac <- octet; do gci <- be16;
  ret (mk_na lac ci arfcn bsic err (mk_cgi mcc mnc (flag m3) glac rac gci)).

(** sizeof of the structures; PCUIF_HDR_SIZE, pcu_l1_if.h:191. *)
Definition HDR : Z := 4.
Definition SZ_DATA : Z := 180.
Definition SZ_CNF : Z := 5.
Definition SZ_RTS : Z := 13.
Definition SZ_RACH : Z := 15.
Definition SZ_INFO : Z := 1003.
Definition SZ_E1 : Z := 5.
Definition SZ_TIME : Z := 4.
Definition SZ_PAG : Z := 11.
Definition SZ_APP : Z := 164.
Definition SZ_SUSP : Z := 11.
Definition SZ_CONT : Z := 4.
Definition SZ_NADDR : Z := 18.
(** sizeof(struct gsm_pcu_if) + 1000, pcuif_sock.c:113. *)
Definition MAX_READ : Z := HDR + SZ_INFO + 1000.

(** ** The configuration held by the PCU *)

(** struct gprs_rlcmac_pdch, pdch.h:86-125: what the messages set. *)
Record pdch := mk_pdch {
  p_on : bool; p_tsc : Z; p_hop : bool; p_hsn : Z; p_maio : Z; p_malen : Z; p_ma : list Z }.
Definition pdch0 : pdch := mk_pdch false 0 false 0 0 0 (repeat 0 8).
Record trx := mk_trx { x_arfcn : Z; x_pdch : list pdch }.
(** struct gprs_rlcmac_bts, bts.h:206-300. System information is [None] while not set. The
    coding schemes are in [b_conf], see Model/BtsConf.v. *)
Record bts := mk_bts {
  b_nr : Z; b_active : bool; b_fn : Z; b_trx : list trx; b_cgi : cgi; b_bsic : Z; b_conf : bconf;
  b_n3101 : Z; b_n3103 : Z; b_n3105 : Z;
  b_si1 : option (list Z); b_si2 : option (list Z); b_si3 : option (list Z); b_si13 : option (list Z);
  b_model : Z; b_idle : bool }.
(** T_defs_bts, bts.cpp:78-85: one table for all cells. T3168, T3192 and T3193 in
    milliseconds, the others in seconds. *)
Record tdefs := mk_td { t_3142 : Z; t_3168 : Z; t_3169 : Z; t_3191 : Z; t_3192 : Z; t_3193 : Z; t_3195 : Z }.
Definition tdefs0 : tdefs := mk_td 20 4000 5 5 1500 1600 5.
(** the_pcu->bssgp, gprs_bssgp_pcu.c:1281-1303: what the cell is announced as to the SGSN. *)
Record bssgp := mk_bg { g_bts : Z; g_bvci : Z; g_nsei : Z; g_id : cgi }.
Record e1 := mk_e1 { e1_bts : Z; e1_trx : Z; e1_ts : Z; e1_line : Z; e1_e1ts : Z; e1_ss : Z }.
Record pcu := mk_pcu { s_bts : list bts; s_t : tdefs; s_bssgp : option bssgp; s_e1 : list e1; s_vty : vty }.
Definition pcu0 (y : vty) : pcu := mk_pcu [] tdefs0 None [] y.

(** bts_alloc, bts.cpp:273-335; pdch_init and bts_trx_init. *)
Definition new_bts (nr : Z) : bts :=
  mk_bts nr false FN_UNSET (repeat (mk_trx 0 (repeat pdch0 8)) 8) (mk_cgi 0 0 0 0 0 0) 0 bconf0
         10 4 8 None None None None 0 false.

(** What a message starts elsewhere. *)
Inductive act :=
| AActivate (nr trx ts : Z) (on : bool)                      (* ACT.req to the BTS *)
| ABlock (nr trx ts : Z) (octets : list Z) (fn rssi ber bto lqual : Z)  (* pdch->rcv_block *)
| ARts (nr trx ts fn blk : Z)                                (* gprs_rlcmac_rcv_rts_block *)
| APtcch (nr trx ts arfcn fn blk : Z) (idle : bool)          (* pcu_l1if_tx_ptcch *)
| ARach (nr burst : Z) (e11 : bool) (ra trx ts rfn fn qta : Z)  (* bts_rcv_rach *)
| ATa (nr burst : Z) (e11 : bool) (ra trx ts rfn fn qta : Z)    (* bts_rcv_ptcch_rach *)
| AImmCnf (nr id : Z)                                        (* bts_rcv_imm_ass_cnf *)
| APaging (nr chan : Z) (identity : list Z)                  (* bts_add_paging *)
| ASuspend (nr tlli : Z) (ra : list Z) (sgsn : bool)         (* pcu_rx_susp_req *)
| AAppInfo (nr ty : Z) (octets : list Z)                     (* pcu_rx_app_info_req *)
| ANeigh (nr lac ci arfcn bsic : Z) (res : option cgi)       (* neigh_cache_add, NACC_EV_RX_RAC_CI *)
| ATap (octets : list Z).                                    (* gsmtap_send *)

(** The outcome of a message: a result code; or the process exits; or an assertion fails; or
    memory outside an array, or octets that were not received, are read. *)
Inductive outcome :=
| Done (s : pcu) (a : list act) (rc : Z)
| Exit (status : Z)
| Halt
| Fault.

(** What decides in other parts of the program. [e_log]: log messages (DL1IF at debug level) are written;
    [e_tap]: GSMTAP is enabled for unknown uplink blocks; [e_rc]: result of
    pdch->rcv_block; [e_tbfs]: number of TBFs on a timeslot; [e_bssgp], [e_ns]: the BSSGP
    context could be allocated, the NS connection could be configured; [e_mi]: type of the
    mobile identity decoded by osmo_mobile_identity_decode of libosmocore ([None]: not
    decoded); [e_si13]: T3168 and T3192 decoded by osmo_gsm48_rest_octets_si13_decode. *)
Inductive mi_type := MiTmsi | MiImsi | MiOther.
Record env := mk_env {
  e_log : bool; e_tap : bool; e_rc : Z; e_tbfs : Z -> Z -> Z; e_bssgp : bool; e_ns : bool;
  e_mi : list Z -> option mi_type; e_si13 : list Z -> Z * Z }.

Definition EINVAL : Z := -22.
Definition EAGAIN : Z := -11.
Definition EIO : Z := -5.

Definition set_bts (s : pcu) (b : bts) : pcu :=
  mk_pcu (map (fun x => if b_nr x =? b_nr b then b else x) (s_bts s)) (s_t s) (s_bssgp s) (s_e1 s) (s_vty s).
Definition set_t (s : pcu) (t : tdefs) : pcu := mk_pcu (s_bts s) t (s_bssgp s) (s_e1 s) (s_vty s).
Definition set_fn (b : bts) (fn : Z) : bts :=
  mk_bts (b_nr b) (b_active b) fn (b_trx b) (b_cgi b) (b_bsic b) (b_conf b) (b_n3101 b) (b_n3103 b)
         (b_n3105 b) (b_si1 b) (b_si2 b) (b_si3 b) (b_si13 b) (b_model b) (b_idle b).
Definition set_si (b : bts) (s1 s2 s3 s13 : option (list Z)) : bts :=
  mk_bts (b_nr b) (b_active b) (b_fn b) (b_trx b) (b_cgi b) (b_bsic b) (b_conf b) (b_n3101 b) (b_n3103 b)
         (b_n3105 b) s1 s2 s3 s13 (b_model b) (b_idle b).

(** &bts->trx[trx].pdch[ts]; bts.h:237, eight TRX of eight timeslots. [None]: outside. *)
Definition slot_of (b : bts) (trx ts : Z) : option pdch :=
  match nth_error (b_trx b) (Z.to_nat trx) with
  | Some x => nth_error (x_pdch x) (Z.to_nat ts)
  | None => None
  end.

(** pcu_rx_data_ind_bcch, pcu_l1_if.cpp:371-445; the list of neighbours decoded from SI2 is
    left out. The type numbers are SYSINFO_TYPE_1, 2, 3, 13 and GSM48_MT_RR_SYSINFO_1, 2, 3,
    13 of libosmocore. *)
Definition rx_bcch (e : env) (s : pcu) (b : bts) (d : data_ind) : pcu * Z :=
  let len := di_len d in
  let put s1 s2 s3 s13 := set_bts s (set_si b s1 s2 s3 s13) in
  if len =? 0 then (put (b_si1 b) (b_si2 b) (b_si3 b) None, 0)
  else if len =? 1 then
    let ty := nth 0 (di_data d) 0 in
    if ty =? 1 then (put None (b_si2 b) (b_si3 b) (b_si13 b), 0)
    else if ty =? 2 then (put (b_si1 b) None (b_si3 b) (b_si13 b), 0)
    else if ty =? 3 then (put (b_si1 b) (b_si2 b) None (b_si13 b), 0)
    else if ty =? 11 then (put (b_si1 b) (b_si2 b) (b_si3 b) None, 0)
    else (s, EINVAL)
  else if len =? 23 then
    let si := firstn 23 (di_data d) in
    let ty := nth 2 (di_data d) 0 in
    if ty =? 25 then (put (Some si) (b_si2 b) (b_si3 b) (b_si13 b), 0)
    else if ty =? 26 then (put (b_si1 b) (Some si) (b_si3 b) (b_si13 b), 0)
    else if ty =? 27 then (put (b_si1 b) (b_si2 b) (Some si) (b_si13 b), 0)
    else if ty =? 0 then
      let t := s_t s in
      let '(t3168, t3192) := e_si13 e (skipn 3 si) in
      (set_t (put (b_si1 b) (b_si2 b) (b_si3 b) (Some si))
             (mk_td (t_3142 t) t3168 (t_3169 t) (t_3191 t) t3192 (t_3193 t) (t_3195 t)), 0)
    else (s, EINVAL)
  else (s, EINVAL).

(** [len] octets starting at the first one of [at], whatever array they belong to. [None]:
    beyond what was received. *)
Definition octets_at (len : Z) (at_ : list Z) : option (list Z) :=
  if len <=? Z.of_nat (length at_) then Some (firstn (Z.to_nat len) at_) else None.

(** pcu_rx_data_ind, pcu_l1_if.cpp:447-497, and pcu_rx_data_ind_pdtch, pcu_l1_if.cpp:336-353.
    [raw]: what was received, from the structure on; its data start at the third octet. The
    hexdump of the debug message and gsmtap_send go through as many octets as the length
    field says. Division of the measurements truncates. *)
Definition rx_data (e : env) (s : pcu) (b : bts) (d : data_ind) (raw : list Z) : outcome :=
  let body := skipn 2 raw in
  let tap (s : pcu) (a : list act) (rc : Z) :=
    if (rc <? 0) && e_tap e then
      match octets_at (di_len d) body with
      | Some o => Done s (a ++ [ATap o]) rc
      | None => Fault
      end
    else Done s a rc in
  if e_log e && (Z.of_nat (length body) <? di_len d) then Fault
  else if di_sapi d =? 5 then
    if e_log e && (match slot_of b (di_trx d) (di_ts d) with None => true | _ => false end) then Fault
    else if negb (di_fn d <? HYP) then Halt                      (* bts.cpp:340 *)
    else
      match slot_of b (di_trx d) (di_ts d) with
      | None => Fault
      | Some p =>
        let s1 := set_bts s (set_fn b (di_fn d)) in
        if p_on p then
          match octets_at (di_len d) body with
          | Some o =>
            tap s1 [ABlock (b_nr b) (di_trx d) (di_ts d) o (di_fn d) (di_rssi d)
                           (Z.quot (di_ber d) 100) (di_ta d) (Z.quot (di_lqual d) 10)] (e_rc e)
          | None => tap s1 [] EINVAL                                (* no such block size *)
          end
        else tap s1 [] EINVAL
      end
  else if di_sapi d =? 4 then
    let '(s1, rc) := rx_bcch e s b d in tap s1 [] rc
  else tap s [] EINVAL.

(** pcu_rx_data_cnf2, pcu_l1_if.cpp:499-516. *)
Definition rx_cnf (s : pcu) (b : bts) (c : Z * Z) : outcome :=
  if (fst c =? 8) || (fst c =? 9) then Done s [AImmCnf (b_nr b) (snd c)] 0 else Done s [] EINVAL.

(** pcu_rx_rts_req, pcu_l1_if.cpp:560-587; gprs_rlcmac_rcv_rts_block up to
    gprs_rlcmac_sched.cpp:414; pcu_rx_rts_req_ptcch, pcu_l1_if.cpp:525-558. *)
Definition rx_rts (e : env) (s : pcu) (b : bts) (r : rts_req) : outcome :=
  let trx := rt_trx r in let ts := rt_ts r in
  if e_log e && (match slot_of b trx ts with None => true | _ => false end) then Fault
  else if rt_sapi r =? 5 then
    if (8 <=? trx) || (8 <=? ts) then Done s [] 0
    else match slot_of b trx ts with
         | None => Fault
         | Some p => Done s (if p_on p then [ARts (b_nr b) trx ts (rt_fn r) (rt_blk r)] else []) 0
         end
  else if rt_sapi r =? 7 then
    if (8 <=? trx) || (8 <=? ts) then Done s [] 0
    else match slot_of b trx ts with
         | None => Fault
         | Some p =>
           if p_on p then
             let idle := (e_tbfs e trx ts =? 0) && (if b_idle b then negb (trx =? 0) else true) in
             Done s [APtcch (b_nr b) trx ts (x_arfcn (nth (Z.to_nat trx) (b_trx b) (mk_trx 0 []))) (rt_fn r)
                            (rt_blk r) idle] 0
           else Done s [] 0
         end
  else Done s [] EINVAL.

(** pcu_rx_rach_ind, pcu_l1_if.cpp:624-675. What bts_rcv_rach and bts_rcv_ptcch_rach return
    is [e_rc]; the latter checks the numbers of TRX and timeslot itself (bts.cpp:1074). *)
Definition rx_rach (e : env) (s : pcu) (b : bts) (r : rach_ind) : outcome :=
  if HYP - 1 <? ri_fn r then Done s [] EINVAL
  else
    let rfn := fn2rfn (ri_fn r) in
    match bts_rfn_to_fn (b_fn b) rfn with
    | None => Halt
    | Some fn =>
      if ri_sapi r =? 1 then
        Done s [ARach (b_nr b) (ri_burst r) (0 <? ri_11 r) (ri_ra r) (ri_trx r) (ri_ts r) rfn fn (ri_qta r)] (e_rc e)
      else if ri_sapi r =? 7 then
        if (8 <=? ri_trx r) || (8 <=? ri_ts r) then Done s [] EINVAL
        else match slot_of b (ri_trx r) (ri_ts r) with
             | None => Fault
             | Some p =>
               if p_on p then
                 Done s [ATa (b_nr b) (ri_burst r) (0 <? ri_11 r) (ri_ra r) (ri_trx r) (ri_ts r) rfn fn (ri_qta r)]
                      (e_rc e)
               else Done s [] EAGAIN
             end
      else Done s [] EINVAL
    end.

(** pcu_info_ind_ns, pcu_l1_if.cpp:669-731: without any IPv4 or IPv6 address there is nothing
    to configure; else gprs_ns_update_config decides. *)
Definition ns_ok (e : env) (i : info) : bool :=
  existsb (fun a => (a =? 4) || (a =? 41)) (in_atype i) && e_ns e.
(** decide_gen_idle_blocks, pcu_l1_if.cpp:744-764. *)
Definition gen_idle (model : Z) : bool :=
  (model =? 0) || (model =? 1) || (model =? 2) || (model =? 3) || (model =? 4) || (model =? 6).
(** pcu_l1_if.cpp:926-974: one timeslot. [None]: the assertion on the length of the mobile
    allocation fails. *)
Definition set_slot (nr trx : Z) (mask : Z) (ts : Z) (i : its) (p : pdch) : option (pdch * list act) :=
  if Z.testbit mask ts then
    let a := if p_on p then [] else [AActivate nr trx ts true] in
    if is_hop i =? 0 then Some (mk_pdch true (is_tsc i) (p_hop p) (p_hsn p) (p_maio p) (p_malen p) (p_ma p), a)
    else if 64 <? is_malen i then None
    else
      let oct := Z.to_nat ((is_malen i + 7) / 8) in
      Some (mk_pdch true (is_tsc i) true (is_hsn i) (is_maio i) (is_malen i)
                    (skipn (8 - oct) (is_ma i) ++ skipn oct (p_ma p)), a)
  else if p_on p then
    Some (mk_pdch false (p_tsc p) (p_hop p) (p_hsn p) (p_maio p) (p_malen p) (p_ma p), [AActivate nr trx ts false])
  else Some (p, []).
Fixpoint set_slots (nr trx mask ts : Z) (is : list its) (ps : list pdch) : option (list pdch * list act) :=
  match is, ps with
  | i :: is', p :: ps' =>
    match set_slot nr trx mask ts i p, set_slots nr trx mask (ts + 1) is' ps' with
    | Some (p', a), Some (r, a') => Some (p' :: r, a ++ a')
    | _, _ => None
    end
  | _, _ => Some (ps, [])
  end.
Fixpoint set_trxs (nr n : Z) (is : list itrx) (xs : list trx) : option (list trx * list act) :=
  match is, xs with
  | i :: is', x :: xs' =>
    match set_slots nr n (ix_mask i) 0 (ix_ts i) (x_pdch x), set_trxs nr (n + 1) is' xs' with
    | Some (ps, a), Some (r, a') => Some (mk_trx (ix_arfcn i) ps :: r, a ++ a')
    | _, _ => None
    end
  | _, _ => Some (xs, [])
  end.

(** pcu_rx_info_ind, pcu_l1_if.cpp:766-988, with gprs_bssgp_init, gprs_bssgp_pcu.c:1274-1311
    (without spoofed identity). PCU_IF_VERSION is 12; flags: bit 0 active, bit 1 direct PHY,
    bits 16-19 CS-1..4, bits 20-28 MCS-1..9. If the PHY of a later TRX is direct the process
    exits, an assertion on an earlier one fails before: the order of TRXs decides, which the
    model does not follow (it lets the assertion win). *)
Definition rx_info (e : env) (s : pcu) (b : bts) (i : info) : outcome :=
  if negb (in_version i =? 12) then Exit (-1)
  else if negb (Z.testbit (in_flags i) 0) then
    if b_active b then Exit 0 else Done s [] EAGAIN
  else
    let id := mk_cgi (in_mcc i) (in_mnc i) (flag (in_mnc3 i)) (in_lac i) (in_rac i mod 256) (in_ci i) in
    let conf := info_ind (s_vty s) (Z.shiftr (in_flags i) 16) (Z.shiftr (in_flags i) 20)
                         (in_cs i) (in_mcs i) (b_conf b) in
    match (match s_bssgp s with
           | Some g => Some g
           | None => if e_bssgp e then
                       Some (mk_bg (b_nr b) (in_bvci i) (in_nsei i) id)
                     else None
           end) with
    | None => Exit 0
    | Some g =>
      if negb (ns_ok e i) then Exit 0
      else
        let t := s_t s in
        let timers := negb (in_t3142 i =? 0) in
        let t1 := if timers then mk_td (in_t3142 i) (t_3168 t) (in_t3169 i) (in_t3191 i) (t_3192 t)
                                       (in_t3193 i * 10) (in_t3195 i) else t in
        match set_trxs (b_nr b) 0 (in_trx i) (b_trx b) with
        | None => Halt
        | Some (xs, a) =>
          if Z.testbit (in_flags i) 1 && existsb (fun x => negb (ix_hl1 x =? 0)) (in_trx i) then Exit 0
          else
            let b1 := mk_bts (b_nr b) true (b_fn b) xs id (in_bsic i) conf
                        (if timers then in_n3101 i else b_n3101 b)
                        (if timers then in_n3103 i else b_n3103 b)
                        (if timers then in_n3105 i else b_n3105 b)
                        (b_si1 b) (b_si2 b) (b_si3 b) (b_si13 b) (in_model i) (gen_idle (in_model i)) in
            let s1 := set_bts s b1 in
            Done (mk_pcu (s_bts s1) t1 (Some g) (s_e1 s1) (s_vty s1)) a 0
        end
    end.

(** pcu_rx_e1_ccu_ind, pcu_l1_if.cpp:1024-1061: an existing entry is updated, a new one put
    in front. *)
Definition same_e1 (a b : e1) : bool :=
  (e1_bts a =? e1_bts b) && (e1_trx a =? e1_trx b) && (e1_ts a =? e1_ts b).
Fixpoint update_e1 (x : e1) (l : list e1) : option (list e1) :=
  match l with
  | [] => None
  | y :: r => if same_e1 y x then Some (x :: r) else
              match update_e1 x r with Some r' => Some (y :: r') | None => None end
  end.
Definition rx_e1 (s : pcu) (b : bts) (m : list Z) : outcome :=
  let x := mk_e1 (b_nr b) (nth 0 m 0) (nth 1 m 0) (nth 2 m 0) (nth 3 m 0) (nth 4 m 0) in
  let l := match update_e1 x (s_e1 s) with Some l => l | None => x :: s_e1 s end in
  Done (mk_pcu (s_bts s) (s_t s) (s_bssgp s) l (s_vty s)) [] 0.

(** pcu_rx_pag_req, pcu_l1_if.cpp:1076-1120. What bts_add_paging returns is [e_rc]. *)
Definition rx_pag (e : env) (s : pcu) (b : bts) (m : Z * list Z) : outcome :=
  let '(chan, lv) := m in
  let len := nth 0 lv 0 in
  if 9 <=? len then Done s [] EINVAL
  else
    let id := firstn (Z.to_nat len) (skipn 1 lv) in
    match e_mi e id with
    | Some MiTmsi | Some MiImsi => Done s [APaging (b_nr b) chan id] (e_rc e)
    | _ => Done s [] EINVAL
    end.

(** pcu_rx_susp_req, pcu_l1_if.cpp:1122-1150. *)
Definition rx_susp (e : env) (s : pcu) (b : bts) (m : Z * list Z) : outcome :=
  match s_bssgp s with
  | None => Done s [ASuspend (b_nr b) (fst m) (snd m) false] (-1)
  | Some _ => Done s [ASuspend (b_nr b) (fst m) (snd m) true] (e_rc e)
  end.

(** pcu_rx_app_info_req, pcu_l1_if.cpp:1152-1183, and gprs_rlcmac_app_info_msg,
    gprs_rlcmac.c:54-75, which goes through as many octets as the length field says. [raw]:
    what was received, from the structure on. Which mobiles the message is for is not
    modelled here: the action is always there, and [e_rc] is returned. *)
Definition rx_app (e : env) (s : pcu) (b : bts) (m : Z * Z) (raw : list Z) : outcome :=
  match octets_at (snd m) (skipn 2 raw) with
  | Some o => Done s [AAppInfo (b_nr b) (fst m) o] (e_rc e)
  | None => Fault
  end.

(** pcu_rx_neigh_addr_cnf, pcu_l1_if.cpp:1185-1224, and pcu_rx_container,
    pcu_l1_if.cpp:1226-1249. [raw]: what was received, from the structure on. *)
Definition rx_cont (s : pcu) (b : bts) (m : Z * Z) (raw : list Z) : outcome :=
  let '(ty, len) := m in
  if ty =? 130 then
    if len <? SZ_NADDR then Done s [] EINVAL
    else match rd_naddr (skipn 4 raw) with
         | None => Fault
         | Some (n, _) =>
           Done s [ANeigh (b_nr b) (na_lac n) (na_ci n) (na_arfcn n) (na_bsic n)
                          (if na_err n =? 0 then Some (na_cgi n) else None)] 0
         end
  else Done s [] (-1).

(** CHECK_IF_MSG_SIZE, pcu_l1_if.cpp:1251-1259, then the structure is looked at. *)
Definition sized {A} (size : Z) (m : reader A) (s : pcu) (raw : list Z) (k : A -> outcome) : outcome :=
  if HDR + Z.of_nat (length raw) <? HDR + size then Done s [] EINVAL
  else match m raw with Some (a, _) => k a | None => Fault end.

(** gprs_pcu_get_bts_by_nr, gprs_pcu.c:150-158. *)
Definition find_bts (s : pcu) (nr : Z) : option bts := find (fun b => b_nr b =? nr) (s_bts s).

(** pcu_rx, pcu_l1_if.cpp:1260-1338; allocation never fails. A BTS not heard of before is
    added at the end of the list; its table of timers, the one of all cells, is reset. *)
Definition rx (e : env) (s : pcu) (ty nr : Z) (raw : list Z) : outcome :=
  let '(s, b) := match find_bts s nr with
                 | Some b => (s, b)
                 | None => (mk_pcu (s_bts s ++ [new_bts nr]) tdefs0 (s_bssgp s) (s_e1 s) (s_vty s), new_bts nr)
                 end in
  if ty =? 2 then sized SZ_DATA rd_data s raw (fun d => rx_data e s b d raw)
  else if ty =? 17 then sized SZ_CNF rd_cnf s raw (fun c => rx_cnf s b c)
  else if ty =? 16 then sized SZ_RTS rd_rts s raw (fun r => rx_rts e s b r)
  else if ty =? 34 then sized SZ_RACH rd_rach s raw (fun r => rx_rach e s b r)
  else if ty =? 50 then sized SZ_INFO rd_info s raw (fun i => rx_info e s b i)
  else if ty =? 51 then sized SZ_E1 rd_e1 s raw (fun m => rx_e1 s b m)
  else if ty =? 82 then sized SZ_TIME rd_time s raw (fun _ => Done s [] 0)
  else if ty =? 96 then sized SZ_PAG rd_pag s raw (fun m => rx_pag e s b m)
  else if ty =? 3 then sized SZ_SUSP rd_susp s raw (fun m => rx_susp e s b m)
  else if ty =? 4 then sized SZ_APP rd_app s raw (fun m => rx_app e s b m raw)
  else if ty =? 83 then Done s [] 0
  else if ty =? 128 then
    sized SZ_CONT rd_cont s raw (fun m =>
      if HDR + Z.of_nat (length raw) <? HDR + SZ_CONT + snd m then Done s [] EINVAL
      else rx_cont s b m raw)
  else Done s [] EINVAL.

(** pcu_sock_read, pcuif_sock.c:111-137: one message of the sequenced-packet socket, cut at
    the size of the buffer. An empty one: the connection is closed; pcu_sock_close,
    pcuif_sock.c:70-108, ends the process. *)
Definition sock_read (e : env) (s : pcu) (d : list Z) : outcome :=
  let d := firstn (Z.to_nat MAX_READ) d in
  match d with
  | [] => Exit 0
  | ty :: nr :: _ :: _ :: raw => rx e s ty nr raw
  | _ => Done s [] EINVAL
  end.

(** A sequence of messages; [None] once the process has ended. *)
Fixpoint rx_all (e : nat -> env) (k : nat) (s : pcu) (ds : list (list Z)) : option (pcu * list act) :=
  match ds with
  | [] => Some (s, [])
  | d :: r =>
    match sock_read (e k) s d with
    | Done s1 a _ => match rx_all e (S k) s1 r with Some (s2, a') => Some (s2, a ++ a') | None => None end
    | _ => None
    end
  end.
