(** What a BTS sends over the PCU interface, and what it means: the layout of the messages
    (pcuif_proto.h) written down a second time, as an encoder, and the reading of single
    octets of a message. Independent of how the PCU takes them apart. *)
From Coq Require Import ZArith List Bool.
From Verif Require Import Model.FrameNo Model.BtsConf Model.PcuIf.
Import ListNotations.
Local Open Scope Z_scope.

Definition byte (x : Z) : Prop := 0 <= x < 256.
(** A number as [n] octets, least significant first. *)
Fixpoint octets_le (n : nat) (x : Z) : list Z :=
  match n with O => [] | S k => x mod 256 :: octets_le k (x / 256) end.
Definition octets_be (x : Z) : list Z := [x / 256; x mod 256].

(** ** The messages in octets, after the header *)
Definition enc_data (m : data_ind) : list Z :=
  [di_sapi m; di_len m] ++ di_data m ++ octets_le 4 (di_fn m) ++ octets_le 2 (di_arfcn m)
  ++ [di_trx m; di_ts m; di_blk m; di_rssi m mod 256] ++ octets_le 2 (di_ber m)
  ++ octets_le 2 (di_ta m mod 65536) ++ octets_le 2 (di_lqual m mod 65536).
Definition enc_rts (spare : list Z) (arfcn : Z) (m : rts_req) : list Z :=
  [rt_sapi m] ++ spare ++ octets_le 4 (rt_fn m) ++ octets_le 2 arfcn ++ [rt_trx m; rt_ts m; rt_blk m].
Definition enc_rach (arfcn : Z) (m : rach_ind) : list Z :=
  [ri_sapi m] ++ octets_le 2 (ri_ra m) ++ octets_le 2 (ri_qta m mod 65536) ++ octets_le 4 (ri_fn m)
  ++ octets_le 2 arfcn ++ [ri_11 m; ri_burst m; ri_trx m; ri_ts m].
Definition enc_its (t : its) : list Z := [is_tsc t; is_hop t; is_hsn t; is_maio t; is_malen t] ++ is_ma t.
Definition enc_itrx (t : itrx) : list Z :=
  octets_le 2 (ix_arfcn t) ++ [ix_mask t; 0] ++ octets_le 4 (ix_hl1 t) ++ concat (map enc_its (ix_ts t)).
(** [nse], [cell]: the NS and cell timers; [rep]: repeat time and count; [cv], [ext]: countdown
    value and the two extension fields. The PCU does not use them. *)
Definition enc_info (nse cell rep : list Z) (cv : Z) (ext : list Z) (i : info) : list Z :=
  octets_le 4 (in_version i) ++ octets_le 4 (in_flags i) ++ concat (map enc_itrx (in_trx i))
  ++ [in_bsic i] ++ octets_le 2 (in_mcc i) ++ octets_le 2 (in_mnc i) ++ [in_mnc3 i]
  ++ octets_le 2 (in_lac i) ++ octets_le 2 (in_rac i) ++ octets_le 2 (in_nsei i) ++ nse ++ cell
  ++ octets_le 2 (in_ci i) ++ rep ++ octets_le 2 (in_bvci i)
  ++ [in_t3142 i; in_t3169 i; in_t3191 i; in_t3193 i; in_t3195 i; in_n3101 i; in_n3103 i; in_n3105 i; cv]
  ++ ext ++ [in_cs i; in_mcs i]
  ++ concat (map (octets_le 2) (in_nsvci i)) ++ concat (map (octets_le 2) (in_lport i))
  ++ concat (map (octets_le 2) (in_rport i)) ++ in_atype i ++ concat (in_ip i) ++ [in_model i].
Definition enc_naddr (n : naddr) : list Z :=
  octets_be (na_lac n) ++ octets_be (na_ci n) ++ octets_be (na_arfcn n) ++ [na_bsic n; na_err n]
  ++ octets_be (g_mcc (na_cgi n)) ++ octets_be (g_mnc (na_cgi n)) ++ [g_mnc3 (na_cgi n)]
  ++ octets_be (g_lac (na_cgi n)) ++ [g_rac (na_cgi n)] ++ octets_be (g_ci (na_cgi n)).
Definition header (ty nr : Z) : list Z := [ty; nr; 0; 0].

(** ** The values a message can carry *)
Definition u8 (x : Z) : Prop := byte x.
Definition u16 (x : Z) : Prop := 0 <= x < 65536.
Definition u32z (x : Z) : Prop := 0 <= x < 4294967296.
Definition i8 (x : Z) : Prop := -128 <= x < 128.
Definition i16 (x : Z) : Prop := -32768 <= x < 32768.
Definition ok_data (m : data_ind) : Prop :=
  u8 (di_sapi m) /\ u8 (di_len m) /\ length (di_data m) = 162%nat /\ u32z (di_fn m) /\ u16 (di_arfcn m)
  /\ u8 (di_trx m) /\ u8 (di_ts m) /\ u8 (di_blk m) /\ i8 (di_rssi m) /\ u16 (di_ber m)
  /\ i16 (di_ta m) /\ i16 (di_lqual m).
Definition ok_rts (m : rts_req) : Prop := u32z (rt_fn m).
Definition ok_rach (m : rach_ind) : Prop := u16 (ri_ra m) /\ i16 (ri_qta m) /\ u32z (ri_fn m).
Definition ok_its (t : its) : Prop := length (is_ma t) = 8%nat.
Definition ok_itrx (t : itrx) : Prop :=
  u16 (ix_arfcn t) /\ u32z (ix_hl1 t) /\ length (ix_ts t) = 8%nat /\ Forall ok_its (ix_ts t).
Definition ok_info (i : info) : Prop :=
  u32z (in_version i) /\ u32z (in_flags i) /\ length (in_trx i) = 8%nat /\ Forall ok_itrx (in_trx i)
  /\ u16 (in_mcc i) /\ u16 (in_mnc i) /\ u16 (in_lac i) /\ u16 (in_rac i) /\ u16 (in_nsei i)
  /\ u16 (in_ci i) /\ u16 (in_bvci i)
  /\ length (in_nsvci i) = 2%nat /\ Forall u16 (in_nsvci i)
  /\ length (in_lport i) = 2%nat /\ Forall u16 (in_lport i)
  /\ length (in_rport i) = 2%nat /\ Forall u16 (in_rport i)
  /\ length (in_atype i) = 2%nat
  /\ length (in_ip i) = 2%nat /\ Forall (fun a => length a = 16%nat) (in_ip i).
Definition ok_naddr (n : naddr) : Prop :=
  u16 (na_lac n) /\ u16 (na_ci n) /\ u16 (na_arfcn n) /\ u16 (g_mcc (na_cgi n)) /\ u16 (g_mnc (na_cgi n))
  /\ (g_mnc3 (na_cgi n) = 0 \/ g_mnc3 (na_cgi n) = 1) /\ u16 (g_lac (na_cgi n)) /\ u16 (g_ci (na_cgi n)).

(** ** Any message: its octets by position *)
Definition oct (d : list Z) (k : nat) : Z := nth k d 0.
Definition kind (d : list Z) : Z := oct d 0.
Definition cell_nr (d : list Z) : Z := oct d 1.
Definition DATA_IND : Z := 2.
Definition RTS_REQ : Z := 16.
Definition RACH_IND : Z := 34.
Definition INFO_IND : Z := 50.
Definition APP_INFO : Z := 4.
(** DATA.ind: SAPI at 4, length at 5, frame number at 168, TRX at 174, timeslot at 175. *)
Definition data_fn (d : list Z) : Z :=
  oct d 168 + 256 * (oct d 169 + 256 * (oct d 170 + 256 * oct d 171)).
(** A DATA.ind or RTS.req about a timeslot no cell has. *)
Definition no_slot (d : list Z) : Prop :=
  (kind d = DATA_IND /\ oct d 4 = 5 /\ (8 <= oct d 174 \/ 8 <= oct d 175))
  \/ (kind d = RTS_REQ /\ (8 <= oct d 14 \/ 8 <= oct d 15)).
(** A DATA.ind or an application information request whose length is more than the message
    has room for. *)
Definition too_long (d : list Z) : Prop :=
  (kind d = DATA_IND \/ kind d = APP_INFO) /\ 162 < oct d 5.
(** A DATA.ind of a frame number beyond the hyperframe. *)
Definition no_frame (d : list Z) : Prop := kind d = DATA_IND /\ oct d 4 = 5 /\ HYP <= data_fn d.
(** An INFO.ind with a hopping timeslot (in use) whose mobile allocation is longer than 64:
    timeslot [t] of TRX [x] at 12 + 112 x + 8 + 13 t. *)
Definition long_ma (d : list Z) : Prop :=
  kind d = INFO_IND /\ exists x t : nat, (x < 8)%nat /\ (t < 8)%nat /\
    Z.testbit (oct d (12 + 112 * x + 2)) (Z.of_nat t) = true /\
    oct d (12 + 112 * x + 8 + 13 * t + 1) <> 0 /\ 64 < oct d (12 + 112 * x + 8 + 13 * t + 4).
(** The number of octets a message of a kind needs; [None]: no such kind. *)
Definition needed (ty : Z) : option Z :=
  match ty with
  | 2 => Some 184 | 3 => Some 15 | 4 => Some 168 | 16 => Some 17 | 17 => Some 9 | 34 => Some 19
  | 50 => Some 1007 | 51 => Some 9 | 82 => Some 8 | 83 => Some 4 | 96 => Some 15 | 128 => Some 8
  | _ => None
  end.

(** ** What can be seen of a cell *)
(** The state the PCU gets into. *)
Definition reached (e : nat -> env) (y : vty) (ds : list (list Z)) (s : pcu) (a : list act) : Prop :=
  rx_all e 0 (pcu0 y) ds = Some (s, a).
(** What the BTS makes of the activation requests. *)
Definition told (a : list act) (nr trx ts : Z) : bool :=
  fold_left (fun on x => match x with
    | AActivate n x' t' o => if (n =? nr) && (x' =? trx) && (t' =? ts) then o else on
    | _ => on end) a false.
(** A timeslot of a cell; off if there is no such cell. *)
Definition is_on (s : pcu) (nr trx ts : Z) : bool :=
  match find_bts s nr with
  | Some b => match slot_of b trx ts with Some p => p_on p | None => false end
  | None => false
  end.
(** What an action is about: this cell. *)
Definition about (nr : Z) (x : act) : Prop :=
  match x with
  | AActivate n _ _ _ | ABlock n _ _ _ _ _ _ _ _ | ARts n _ _ _ _ | APtcch n _ _ _ _ _ _
  | ARach n _ _ _ _ _ _ _ _ | ATa n _ _ _ _ _ _ _ _ | AImmCnf n _ | APaging n _ _ | ASuspend n _ _ _
  | AAppInfo n _ _ | ANeigh n _ _ _ _ _ => n = nr
  | ATap _ => True
  end.
(** The timeslot an action of the packet channels is about: a received block, a request to
    send, the timing advance channel. *)
Definition uses (x : act) : option (Z * Z * Z) :=
  match x with
  | ABlock n x t _ _ _ _ _ _ | ARts n x t _ _ | APtcch n x t _ _ _ _ | ATa n _ _ _ x t _ _ _ => Some (n, x, t)
  | _ => None
  end.
(** System information of a cell: 1, 2, 3 or 13. *)
Definition si (s : pcu) (nr k : Z) : option (list Z) :=
  match find_bts s nr with
  | Some b => if k =? 1 then b_si1 b else if k =? 2 then b_si2 b else if k =? 3 then b_si3 b
              else if k =? 13 then b_si13 b else None
  | None => None
  end.
(** The code by which a BTS names it when taking it back, and the one in the message itself. *)
Definition revoke_code (k : Z) : Z := if k =? 13 then 11 else k.
Definition rr_code (k : Z) : Z := if k =? 13 then 0 else 24 + k.
(** What becomes of system information [k] by a message about the cell: a DATA.ind of the
    broadcast channel (SAPI 4) of 23 octets (the third names the type) sets it; one of a
    single octet that names it, or for SI 13 an empty one, takes it back. *)
Definition si_after (d : list Z) (k : Z) (old : option (list Z)) : option (list Z) :=
  if (kind d =? DATA_IND) && (184 <=? Z.of_nat (length d)) && (oct d 4 =? 4) then
    if (oct d 5 =? 23) && (oct d 8 =? rr_code k) then Some (map (fun j => oct d (6 + j)) (seq 0 23))
    else if (oct d 5 =? 1) && (oct d 6 =? revoke_code k) then None
    else if (oct d 5 =? 0) && (k =? 13) then None
    else old
  else old.

(** A timeslot as an INFO.ind wants it: on if it is in the mask; then with this training
    sequence and, if it hops, with these parameters: the mobile allocation is the last octets
    of the field, as many as its length needs. *)
Definition as_wanted (mask ts : Z) (i : its) (p : pdch) : Prop :=
  p_on p = Z.testbit mask ts /\
  (p_on p = true -> p_tsc p = is_tsc i /\
    (is_hop i <> 0 -> p_hop p = true /\ p_hsn p = is_hsn i /\ p_maio p = is_maio i /\ p_malen p = is_malen i /\
       firstn (Z.to_nat ((is_malen i + 7) / 8)) (p_ma p) = skipn (8 - Z.to_nat ((is_malen i + 7) / 8)) (is_ma i))).
(** The same, and not hopping if the INFO.ind says so. *)
Definition exactly_as_wanted (mask ts : Z) (i : its) (p : pdch) : Prop :=
  as_wanted mask ts i p /\ (p_on p = true -> is_hop i = 0 -> p_hop p = false).
Definition slots_as (P : Z -> Z -> its -> pdch -> Prop) (i : info) (b : bts) : Prop :=
  forall x t, (x < 8)%nat -> (t < 8)%nat -> exists xi it p,
    nth_error (in_trx i) x = Some xi /\ nth_error (ix_ts xi) t = Some it /\
    slot_of b (Z.of_nat x) (Z.of_nat t) = Some p /\ P (ix_mask xi) (Z.of_nat t) it p.
(** All hopping timeslots have a mobile allocation that fits. *)
Definition short_ma (i : info) : Prop :=
  forall j xi k t, nth_error (in_trx i) j = Some xi -> nth_error (ix_ts xi) k = Some t -> is_hop t <> 0 -> is_malen t <= 64.
(** The types of system information the PCU keeps. *)
Definition known (k : Z) : Prop := k = 1 \/ k = 2 \/ k = 3 \/ k = 13.
