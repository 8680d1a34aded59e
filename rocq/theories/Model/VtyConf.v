(** The configuration of the PCU: its commands and how it is written to a file (pcu_vty.c, gprs_pcu.c). *)
From Coq Require Import ZArith Ascii String List Bool.
Import ListNotations.
Open Scope Z_scope.

(** ** The configuration *)
(** struct gprs_pcu, gprs_pcu.h:78-141: the members the commands set.  Booleans and enumerations are numbers:
    f_dl_arq_type 0 EGPRS_ARQ1, 1 EGPRS_ARQ2; f_ns_dialect 0 GPRS_NS2_DIALECT_IPACCESS, 1 GPRS_NS2_DIALECT_SNS; f_alloc 0 NULL,
    1 alloc_algorithm_a, 2 _b, 3 _dynamic.  f_cs_low i is cs_lqual_ranges[i].low, and so on; f_timer T is the val of that
    member of T_defs; f_keep_neigh and f_keep_si are the keep times of the caches (neigh_cache.c:86-90, 219-223). *)
Inductive field :=
| f_fc_interval | f_fc_bucket_time | f_fc_bvc_bucket_size | f_fc_bvc_leak_rate | f_fc_ms_bucket_size | f_fc_ms_leak_rate
| f_force_initial_cs | f_initial_cs_dl | f_initial_cs_ul | f_max_cs_dl | f_max_cs_ul
| f_force_initial_mcs | f_initial_mcs_dl | f_initial_mcs_ul | f_max_mcs_dl | f_max_mcs_ul
| f_force_two_phase | f_force_alpha | f_gamma | f_preemptive | f_dl_arq_type
| f_cs_adj_enabled | f_cs_adj_upper | f_cs_adj_lower | f_cs_downgrade
| f_cs_low (i : Z) | f_cs_high (i : Z) | f_mcs_low (i : Z) | f_mcs_high (i : Z)
| f_ns_dialect | f_ns_ip_dscp | f_ns_priority | f_ws_base | f_ws_pdch | f_msclass_default
| f_llc_lifetime | f_llc_discard | f_llc_idle_ack | f_llc_codel
| f_alloc | f_categ_mask | f_timer (t : Z) | f_keep_neigh | f_keep_si.

Definition code (f : field) : Z * Z :=
  match f with
  | f_fc_interval => (0, 1) | f_fc_bucket_time => (0, 2) | f_fc_bvc_bucket_size => (0, 3) | f_fc_bvc_leak_rate => (0, 4)
  | f_fc_ms_bucket_size => (0, 5) | f_fc_ms_leak_rate => (0, 6)
  | f_force_initial_cs => (0, 7) | f_initial_cs_dl => (0, 8) | f_initial_cs_ul => (0, 9) | f_max_cs_dl => (0, 10) | f_max_cs_ul => (0, 11)
  | f_force_initial_mcs => (0, 12) | f_initial_mcs_dl => (0, 13) | f_initial_mcs_ul => (0, 14) | f_max_mcs_dl => (0, 15) | f_max_mcs_ul => (0, 16)
  | f_force_two_phase => (0, 17) | f_force_alpha => (0, 18) | f_gamma => (0, 19) | f_preemptive => (0, 20) | f_dl_arq_type => (0, 21)
  | f_cs_adj_enabled => (0, 22) | f_cs_adj_upper => (0, 23) | f_cs_adj_lower => (0, 24) | f_cs_downgrade => (0, 25)
  | f_cs_low i => (1, i) | f_cs_high i => (2, i) | f_mcs_low i => (3, i) | f_mcs_high i => (4, i)
  | f_ns_dialect => (0, 26) | f_ns_ip_dscp => (0, 27) | f_ns_priority => (0, 28) | f_ws_base => (0, 29) | f_ws_pdch => (0, 30) | f_msclass_default => (0, 31)
  | f_llc_lifetime => (0, 32) | f_llc_discard => (0, 33) | f_llc_idle_ack => (0, 34) | f_llc_codel => (0, 35)
  | f_alloc => (0, 36) | f_categ_mask => (0, 37) | f_timer t => (5, t) | f_keep_neigh => (0, 38) | f_keep_si => (0, 39)
  end.
Definition field_eqb (a b : field) : bool := (fst (code a) =? fst (code b)) && (snd (code a) =? snd (code b)).

(** A word of a line: a number, a timer's name (T3113; X2031 is -2031), or another one.  Numbers are written without
    leading zeros or signs. *)
Inductive word := W (s : string) | Nr (z : Z) | Tm (t : Z).
Definition line := list word.

(** [num]: the numbers; gsmtap_remote_host; pcu_sock_path. *)
Record conf := mk_conf { num : field -> Z; host : option word; path : word }.
Definition set (f : field) (z : Z) (c : conf) : conf := mk_conf (fun g => if field_eqb g f then z else num c g) (host c) (path c).
Definition set_host (h : option word) (c : conf) : conf := mk_conf (num c) h (path c).
Definition set_path (p : word) (c : conf) : conf := mk_conf (num c) (host c) p.

(** T_defs_pcu, gprs_pcu.c:32-49 (names of gprs_pcu.h:41-44): number, default, greatest value (0: any). *)
Definition tdefs : list (Z * (Z * Z)) :=
  [(3113, (7, 0)); (3190, (5, 0)); (3141, (10, 0)); (3172, (5000, 255000)); (-1, (1000, 0)); (-2, (1000, 0)); (-10, (5, 0)); (-11, (5, 0));
   (-101, (30, 0)); (-102, (30, 0)); (-2000, (0, 0)); (-2001, (2, 0)); (-2002, (200, 0)); (-2030, (60, 0)); (-2031, (2000, 0))].
Definition tdef (t : Z) : option (Z * Z) :=
  match find (fun x => fst x =? t) tdefs with Some x => Some (snd x) | None => None end.

(** PCU_SOCK_DEFAULT, pcuif_proto.h:9 *)
Definition SOCK_DEFAULT : word := W "/tmp/pcu_bts".

(** gprs_pcu_alloc, gprs_pcu.c:74-148 (members not named there are 0); main, pcu_main.cpp:237-240. *)
Definition dflt (f : field) : Z :=
  match f with
  | f_fc_interval => 1 | f_max_cs_ul => 4 | f_max_cs_dl => 4 | f_max_mcs_ul => 9 | f_max_mcs_dl => 9
  | f_force_alpha => 255 | f_preemptive => 1 | f_dl_arq_type => 0 | f_cs_adj_enabled => 1 | f_cs_adj_upper => 33 | f_cs_adj_lower => 10
  | f_cs_downgrade => 200
  | f_cs_low i => nth (Z.to_nat i) (if i <? 0 then [] else [-256; 5; 7; 12]) 0
  | f_cs_high i => nth (Z.to_nat i) (if i <? 0 then [] else [6; 8; 13; 256]) 0
  | f_mcs_low i => nth (Z.to_nat i) (if i <? 0 then [] else [-256; 5; 7; 12; 14; 16; 17; 19; 23]) 0
  | f_mcs_high i => nth (Z.to_nat i) (if i <? 0 then [] else [6; 8; 13; 15; 17; 18; 20; 24; 256]) 0
  | f_ns_dialect => 0 | f_ns_ip_dscp => -1 | f_ns_priority => -1 | f_ws_base => 64 | f_ws_pdch => 0 | f_msclass_default => 12
  | f_llc_codel => 2 ^ 32 - 1 | f_llc_idle_ack => 10
  | f_timer t => match tdef t with Some x => fst x | None => 0 end
  | f_keep_neigh => 5 | f_keep_si => 5
  | _ => 0
  end.
Definition conf0 : conf := mk_conf dflt None SOCK_DEFAULT.

(** ** The commands *)
(** What a command's string is made of: a keyword, a range, a choice, a range with a keyword as alternative, a word of
    the user, a timer's name, an optional part. *)
Inductive tok := K (s : string) | Rg (a b : Z) | Alt (l : list string) | KRg (s : string) (a b : Z) | Free | Tname | Opt (t : tok).

(** The reader of libosmovty for lines of a file (all words in full): what a token adds to argv, if it matches. *)
Fixpoint match1 (t : tok) (w : word) : option (list word) :=
  match t, w with
  | K s, W x => if String.eqb x s then Some [] else None
  | Rg a b, Nr z => if (a <=? z) && (z <=? b) then Some [w] else None
  | Alt l, W x => if existsb (String.eqb x) l then Some [w] else None
  | KRg s a b, W x => if String.eqb x s then Some [w] else None
  | KRg s a b, Nr z => if (a <=? z) && (z <=? b) then Some [w] else None
  | Free, _ => Some [w]
  | Tname, Tm _ => Some [w]
  | Opt t, _ => match1 t w
  | _, _ => None
  end.
Fixpoint matches (p : list tok) (l : line) : option (list word) :=
  match p, l with
  | [], [] => Some []
  | Opt _ :: r, [] => matches r []
  | t :: r, w :: ws =>
    match match1 t w with
    | Some a => match matches r ws with Some b => Some (a ++ b) | None => None end
    | None => None
    end
  | _, _ => None
  end.

(** The procedures, named as in pcu_vty.c without cfg_pcu_. *)
Inductive command :=
| c_egprs | c_no_egprs | c_no_two_phase | c_cs | c_no_cs | c_cs_max | c_no_cs_max | c_cs_err_limits | c_no_cs_err_limits
| c_cs_downgrade | c_no_cs_downgrade | c_cs_lqual | c_mcs_lqual | c_mcs | c_dl_arq | c_no_mcs | c_mcs_max | c_no_mcs_max | c_window_size
| c_lifetime | c_lifetime_inf | c_no_lifetime | c_hysteresis | c_no_hysteresis | c_codel | c_codel_interval | c_no_codel | c_idle_ack
| c_no_idle_ack | c_alloc | c_two_phase | c_fc_interval | c_fc_bucket_time | c_no_fc_bucket_time | c_bvc_bucket | c_no_bvc_bucket
| c_bvc_leak | c_no_bvc_leak | c_ms_bucket | c_no_ms_bucket | c_ms_leak | c_no_ms_leak | c_alpha | c_gamma | c_dl_idle | c_no_dl_idle
| c_preemptive | c_no_preemptive | c_msclass | c_ms_idle | c_no_ms_idle | c_host | c_no_host | c_categ_all | c_categ | c_no_categ
| c_sock | c_dialect | c_dscp | c_priority | c_timer.

(** pcu_gsmtap_categ_names, pcu_vty.c:32-51, with the numbers of gprs_pcu.h:50-67. *)
Definition categ_names : list (Z * string) :=
  [(0, "dl-unknown"); (1, "dl-dummy"); (2, "dl-ctrl"); (3, "dl-data-gprs"); (4, "dl-data-egprs"); (5, "dl-ptcch"); (6, "dl-agch"); (7, "dl-pch");
   (15, "ul-unknown"); (16, "ul-dummy"); (17, "ul-ctrl"); (18, "ul-data-gprs"); (19, "ul-data-egprs"); (20, "ul-rach"); (21, "ul-ptcch")]%string.

(** The commands installed, pcu_vty_init, pcu_vty.c:1264-1344, with the strings of their definitions, pcu_vty.c:74-142 and 327-1168. *)
Definition commands : list (command * list tok) :=
  [(c_egprs, [K "egprs"; K "only"]); (c_no_egprs, [K "no"; K "egprs"]); (c_no_two_phase, [K "no"; K "two-phase-access"]);
   (c_cs, [K "cs"; Rg 1 4; Opt (Rg 1 4)]); (c_no_cs, [K "no"; K "cs"]); (c_cs_max, [K "cs"; K "max"; Rg 1 4; Opt (Rg 1 4)]);
   (c_no_cs_max, [K "no"; K "cs"; K "max"]); (c_cs_err_limits, [K "cs"; K "threshold"; Rg 0 100; Rg 0 100]);
   (c_no_cs_err_limits, [K "no"; K "cs"; K "threshold"]); (c_cs_downgrade, [K "cs"; K "downgrade-threshold"; Rg 1 10000]);
   (c_no_cs_downgrade, [K "no"; K "cs"; K "downgrade-threshold"]);
   (c_cs_lqual, [K "cs"; K "link-quality-ranges"; K "cs1"; Rg 0 35; K "cs2"; Rg 0 35; Rg 0 35; K "cs3"; Rg 0 35; Rg 0 35; K "cs4"; Rg 0 35]);
   (c_mcs_lqual, [K "mcs"; K "link-quality-ranges"; K "mcs1"; Rg 0 35; K "mcs2"; Rg 0 35; Rg 0 35; K "mcs3"; Rg 0 35; Rg 0 35; K "mcs4"; Rg 0 35; Rg 0 35;
     K "mcs5"; Rg 0 35; Rg 0 35; K "mcs6"; Rg 0 35; Rg 0 35; K "mcs7"; Rg 0 35; Rg 0 35; K "mcs8"; Rg 0 35; Rg 0 35; K "mcs9"; Rg 0 35]);
   (c_mcs, [K "mcs"; Rg 1 9; Opt (Rg 1 9)]); (c_dl_arq, [K "egprs"; K "dl"; K "arq-type"; Alt ["spb"; "arq2"]]); (c_no_mcs, [K "no"; K "mcs"]);
   (c_mcs_max, [K "mcs"; K "max"; Rg 1 9; Opt (Rg 1 9)]); (c_no_mcs_max, [K "no"; K "mcs"; K "max"]);
   (c_window_size, [K "window-size"; Rg 0 1024; Opt (Rg 0 256)]);
   (c_lifetime, [K "queue"; K "lifetime"; Rg 1 65534]); (c_lifetime_inf, [K "queue"; K "lifetime"; K "infinite"]);
   (c_no_lifetime, [K "no"; K "queue"; K "lifetime"]); (c_hysteresis, [K "queue"; K "hysteresis"; Rg 1 65535]);
   (c_no_hysteresis, [K "no"; K "queue"; K "hysteresis"]); (c_codel, [K "queue"; K "codel"]);
   (c_codel_interval, [K "queue"; K "codel"; K "interval"; Rg 1 1000]); (c_no_codel, [K "no"; K "queue"; K "codel"]);
   (c_idle_ack, [K "queue"; K "idle-ack-delay"; Rg 1 65535]); (c_no_idle_ack, [K "no"; K "queue"; K "idle-ack-delay"]);
   (c_alloc, [K "alloc-algorithm"; Alt ["a"; "b"; "dynamic"]]); (c_two_phase, [K "two-phase-access"]);
   (c_fc_interval, [K "flow-control-interval"; Rg 1 10]); (c_fc_bucket_time, [K "flow-control"; K "bucket-time"; Rg 1 65534]);
   (c_no_fc_bucket_time, [K "no"; K "flow-control"; K "bucket-time"]);
   (c_bvc_bucket, [K "flow-control"; K "force-bvc-bucket-size"; Rg 1 6553500]); (c_no_bvc_bucket, [K "no"; K "flow-control"; K "force-bvc-bucket-size"]);
   (c_bvc_leak, [K "flow-control"; K "force-bvc-leak-rate"; Rg 1 6553500]); (c_no_bvc_leak, [K "no"; K "flow-control"; K "force-bvc-leak-rate"]);
   (c_ms_bucket, [K "flow-control"; K "force-ms-bucket-size"; Rg 1 6553500]); (c_no_ms_bucket, [K "no"; K "flow-control"; K "force-ms-bucket-size"]);
   (c_ms_leak, [K "flow-control"; K "force-ms-leak-rate"; Rg 1 6553500]); (c_no_ms_leak, [K "no"; K "flow-control"; K "force-ms-leak-rate"]);
   (c_alpha, [K "alpha"; KRg "si13" 0 10]); (c_gamma, [K "gamma"; Rg 0 62]);
   (c_dl_idle, [K "dl-tbf-idle-time"; Rg 1 5000]); (c_no_dl_idle, [K "no"; K "dl-tbf-idle-time"]);
   (c_preemptive, [K "dl-tbf-preemptive-retransmission"]); (c_no_preemptive, [K "no"; K "dl-tbf-preemptive-retransmission"]);
   (c_msclass, [K "multislot-class"; K "default"; Rg 1 45]); (c_ms_idle, [K "ms-idle-time"; Rg 1 7200]); (c_no_ms_idle, [K "no"; K "ms-idle-time"]);
   (c_host, [K "gsmtap-remote-host"; Opt Free]); (c_no_host, [K "no"; K "gsmtap-remote-host"]);
   (c_categ_all, [K "gsmtap-category"; Alt ["enable-all"; "disable-all"]]); (c_categ, [K "gsmtap-category"; Alt (map snd categ_names)]);
   (c_no_categ, [K "no"; K "gsmtap-category"; Alt (map snd categ_names)]); (c_sock, [K "pcu-socket"; Free]);
   (c_dialect, [K "gb-dialect"; Alt ["classic"; "ip-sns"]]); (c_dscp, [K "gb"; K "ip-dscp"; Rg 0 63]); (c_priority, [K "gb"; K "socket-priority"; Rg 0 255]);
   (c_timer, [K "timer"; Opt Tname; Opt (KRg "default" 0 2147483647)])]%string.

(** The command of a line; none if there is no such command, or more than one. *)
Definition lookup (l : line) : option (command * list word) :=
  match flat_map (fun x => match matches (snd x) l with Some a => [(fst x, a)] | None => [] end) commands with
  | [r] => Some r
  | _ => None
  end.

Definition atoi (w : word) : Z := match w with Nr z => z | _ => 0 end.
Definition arg (i : nat) (a : list word) : Z := atoi (nth i a (W "")).
Definition is_word (s : string) (w : word) : bool := match w with W x => String.eqb x s | _ => false end.
Definition u8 (z : Z) : Z := z mod 256.
Definition u16 (z : Z) : Z := z mod 65536.
Definition u32 (z : Z) : Z := z mod 2 ^ 32.
(** get_string_value(pcu_gsmtap_categ_names, .) *)
Definition categ (w : word) : option Z := match find (fun x => is_word (snd x) w) categ_names with Some x => Some (fst x) | None => None end.
(** The second argument, or the first one if there is none. *)
Definition second (a : list word) : Z := if (1 <? Z.of_nat (length a)) then arg 1 a else arg 0 a.
(** A sequence of assignments. *)
Definition sets (l : list (field * Z)) (c : conf) : conf := fold_left (fun c x => set (fst x) (snd x) c) l c.

(** osmo_tdef_vty_set_cmd and osmo_tdef_set of libosmocore: the value is taken if it is in the range. *)
Definition set_timer (t z : Z) (c : conf) : option conf :=
  match tdef t with
  | None => None
  | Some (_, mx) => if (mx =? 0) || (z <=? mx) then Some (set (f_timer t) z c) else None
  end.
(** cfg_pcu_timer, pcu_vty.c:1143-1168.  With less than two arguments it only shows. *)
Definition do_timer (a : list word) (c : conf) : option conf :=
  match a with
  | [Tm t; v] =>
    let z := if is_word "default" v then match tdef t with Some x => fst x | None => 0 end else atoi v in
    match set_timer t z c with
    | None => None
    | Some c1 => Some (if t =? -10 then set f_keep_neigh (num c1 (f_timer t)) c1 else if t =? -11 then set f_keep_si (num c1 (f_timer t)) c1 else c1)
    end
  | _ => Some c
  end.

(** The procedures, pcu_vty.c:74-142 and 327-1168; gprs_pcu_set_initial_cs and the like, gprs_pcu.c:170-214 (what
    they do to the cells is in BtsConf.v).  None: CMD_WARNING, nothing changed. *)
Definition act (k : command) (a : list word) (c : conf) : option conf :=
  match k with
  | c_egprs | c_no_egprs => Some c
  | c_fc_interval => Some (set f_fc_interval (u8 (arg 0 a)) c)
  | c_bvc_bucket => Some (set f_fc_bvc_bucket_size (u32 (arg 0 a)) c)
  | c_no_bvc_bucket => Some (set f_fc_bvc_bucket_size 0 c)
  | c_bvc_leak => Some (set f_fc_bvc_leak_rate (u32 (arg 0 a)) c)
  | c_no_bvc_leak => Some (set f_fc_bvc_leak_rate 0 c)
  | c_ms_bucket => Some (set f_fc_ms_bucket_size (u32 (arg 0 a)) c)
  | c_no_ms_bucket => Some (set f_fc_ms_bucket_size 0 c)
  | c_ms_leak => Some (set f_fc_ms_leak_rate (u32 (arg 0 a)) c)
  | c_no_ms_leak => Some (set f_fc_ms_leak_rate 0 c)
  | c_fc_bucket_time => Some (set f_fc_bucket_time (u16 (arg 0 a)) c)
  | c_no_fc_bucket_time => Some (set f_fc_bucket_time 0 c)
  | c_cs => Some (sets [(f_force_initial_cs, 1); (f_initial_cs_dl, u8 (arg 0 a)); (f_initial_cs_ul, u8 (second a))] c)
  | c_no_cs => Some (sets [(f_force_initial_cs, 0); (f_initial_cs_dl, 0); (f_initial_cs_ul, 0)] c)
  | c_cs_max => Some (sets [(f_max_cs_dl, u8 (arg 0 a)); (f_max_cs_ul, u8 (second a))] c)
  | c_no_cs_max => Some (sets [(f_max_cs_dl, 0); (f_max_cs_ul, 0)] c)
  | c_mcs => Some (sets [(f_force_initial_mcs, 1); (f_initial_mcs_dl, u8 (arg 0 a)); (f_initial_mcs_ul, u8 (second a))] c)
  | c_no_mcs => Some (sets [(f_force_initial_mcs, 0); (f_initial_mcs_dl, 0); (f_initial_mcs_ul, 0)] c)
  | c_mcs_max => Some (sets [(f_max_mcs_dl, u8 (arg 0 a)); (f_max_mcs_ul, u8 (second a))] c)
  | c_no_mcs_max => Some (sets [(f_max_mcs_dl, 0); (f_max_mcs_ul, 0)] c)
  | c_dl_arq => Some (set f_dl_arq_type (if is_word "arq2" (nth 0 a (W "")) then 1 else 0) c)
  | c_window_size =>
    let c1 := set f_ws_base (u16 (arg 0 a)) c in
    Some (if 1 <? Z.of_nat (length a) then set f_ws_pdch (u16 (arg 1 a)) c1 else c1)
  | c_lifetime => Some (set f_llc_lifetime (u16 (arg 0 a)) c)
  | c_lifetime_inf => Some (set f_llc_lifetime 65535 c)
  | c_no_lifetime => Some (set f_llc_lifetime 0 c)
  | c_hysteresis => Some (set f_llc_discard (u16 (arg 0 a)) c)
  | c_no_hysteresis => Some (set f_llc_discard 0 c)
  | c_codel => Some (set f_llc_codel (u32 (-1)) c)
  | c_codel_interval => Some (set f_llc_codel (u32 (10 * u16 (arg 0 a))) c)
  | c_no_codel => Some (set f_llc_codel 0 c)
  | c_idle_ack => Some (set f_llc_idle_ack (u16 (arg 0 a)) c)
  | c_no_idle_ack => Some (set f_llc_idle_ack 0 c)
  | c_alloc => Some (set f_alloc (if is_word "a" (nth 0 a (W "")) then 1 else if is_word "b" (nth 0 a (W "")) then 2 else 3) c)
  | c_two_phase => Some (set f_force_two_phase 1 c)
  | c_no_two_phase => Some (set f_force_two_phase 0 c)
  | c_alpha => Some (set f_force_alpha (if is_word "si13" (nth 0 a (W "")) then 255 else u8 (arg 0 a)) c)
  | c_gamma => Some (set f_gamma (u8 (Z.quot (arg 0 a) 2)) c)
  | c_dl_idle => set_timer (-2031) (arg 0 a) c
  | c_no_dl_idle => set_timer (-2031) 0 c
  | c_ms_idle => set_timer (-2030) (arg 0 a) c
  | c_no_ms_idle => set_timer (-2030) 0 c
  | c_preemptive => Some (set f_preemptive 1 c)
  | c_no_preemptive => Some (set f_preemptive 0 c)
  | c_msclass => Some (set f_msclass_default (u8 (arg 0 a)) c)
  | c_cs_err_limits =>
    if u8 (arg 1 a) <? u8 (arg 0 a) then None
    else Some (sets [(f_cs_adj_enabled, 1); (f_cs_adj_upper, u8 (arg 1 a)); (f_cs_adj_lower, u8 (arg 0 a))] c)
  | c_no_cs_err_limits => Some (sets [(f_cs_adj_enabled, 0); (f_cs_adj_upper, 100); (f_cs_adj_lower, 0)] c)
  | c_cs_downgrade => Some (set f_cs_downgrade (u16 (arg 0 a)) c)
  | c_no_cs_downgrade => Some (set f_cs_downgrade 0 c)
  | c_cs_lqual => Some (sets [(f_cs_high 0, u8 (arg 0 a)); (f_cs_low 1, u8 (arg 1 a)); (f_cs_high 1, u8 (arg 2 a)); (f_cs_low 2, u8 (arg 3 a));
      (f_cs_high 2, u8 (arg 4 a)); (f_cs_low 3, u8 (arg 5 a))] c)
  | c_mcs_lqual => Some (sets [(f_mcs_high 0, arg 0 a); (f_mcs_low 1, arg 1 a); (f_mcs_high 1, arg 2 a); (f_mcs_low 2, arg 3 a); (f_mcs_high 2, arg 4 a);
      (f_mcs_low 3, arg 5 a); (f_mcs_high 3, arg 6 a); (f_mcs_low 4, arg 7 a); (f_mcs_high 4, arg 8 a); (f_mcs_low 5, arg 9 a); (f_mcs_high 5, arg 10 a);
      (f_mcs_low 6, arg 11 a); (f_mcs_high 6, arg 12 a); (f_mcs_low 7, arg 13 a); (f_mcs_high 7, arg 14 a); (f_mcs_low 8, arg 15 a)] c)
  | c_host => Some (set_host (Some (nth 0 a (W "localhost"))) c)
  | c_no_host => Some (set_host None c)
  | c_categ_all => Some (set f_categ_mask (if is_word "enable-all" (nth 0 a (W "")) then 2 ^ 32 - 1 else 0) c)
  | c_categ => match categ (nth 0 a (W "")) with Some n => Some (set f_categ_mask (Z.lor (num c f_categ_mask) (2 ^ n)) c) | None => None end
  | c_no_categ => match categ (nth 0 a (W "")) with Some n => Some (set f_categ_mask (Z.ldiff (num c f_categ_mask) (2 ^ n)) c) | None => None end
  | c_sock => Some (set_path (nth 0 a (W "")) c)
  | c_dialect => Some (set f_ns_dialect (if is_word "ip-sns" (nth 0 a (W "")) then 1 else 0) c)
  | c_dscp => Some (set f_ns_ip_dscp (arg 0 a) c)
  | c_priority => Some (set f_ns_priority (arg 0 a) c)
  | c_timer => do_timer a c
  end.

(** One line: None if it is refused. *)
Definition exec (c : conf) (l : line) : option conf :=
  match lookup l with Some (k, a) => act k a c | None => None end.
(** A configuration file: reading stops at the first line refused (vty_read_config_file of libosmovty). *)
Fixpoint load (ls : list line) (c : conf) : option conf :=
  match ls with [] => Some c | l :: r => match exec c l with Some c1 => load r c1 | None => None end end.
(** What a user types: a line refused changes nothing. *)
Definition typed (ls : list line) (c : conf) : conf := fold_left (fun c l => match exec c l with Some c1 => c1 | None => c end) ls c.
(** main, pcu_main.cpp:316-317, after the file has been read. *)
Definition boot (c : conf) : conf := if num c f_alloc =? 0 then set f_alloc 3 c else c.

(** ** Writing it *)
Definition when (b : bool) (l : line) : list line := if b then [l] else [].
(** " cs %d" or " cs %d %d" with what stands in front of the numbers. *)
Definition dl_ul (p : line) (dl ul : Z) : line := if ul =? dl then p ++ [Nr dl] else p ++ [Nr dl; Nr ul].
(** config_write_pcu, pcu_vty.c:150-311, without the line "pcu". *)
Definition config_write (c : conf) : list line :=
  let n := num c in
  [[W "flow-control-interval"; Nr (n f_fc_interval)]] ++
  when (negb (n f_fc_bvc_bucket_size =? 0)) [W "flow-control"; W "force-bvc-bucket-size"; Nr (n f_fc_bvc_bucket_size)] ++
  when (negb (n f_fc_bvc_leak_rate =? 0)) [W "flow-control"; W "force-bvc-leak-rate"; Nr (n f_fc_bvc_leak_rate)] ++
  when (negb (n f_fc_ms_bucket_size =? 0)) [W "flow-control"; W "force-ms-bucket-size"; Nr (n f_fc_ms_bucket_size)] ++
  when (negb (n f_fc_ms_leak_rate =? 0)) [W "flow-control"; W "force-ms-leak-rate"; Nr (n f_fc_ms_leak_rate)] ++
  when (negb (n f_force_initial_cs =? 0)) (dl_ul [W "cs"] (n f_initial_cs_dl) (n f_initial_cs_ul)) ++
  when (negb (n f_max_cs_dl =? 0) && negb (n f_max_cs_ul =? 0)) (dl_ul [W "cs"; W "max"] (n f_max_cs_dl) (n f_max_cs_ul)) ++
  [if negb (n f_cs_adj_enabled =? 0) then [W "cs"; W "threshold"; Nr (n f_cs_adj_lower); Nr (n f_cs_adj_upper)] else [W "no"; W "cs"; W "threshold"]] ++
  [if negb (n f_cs_downgrade =? 0) then [W "cs"; W "downgrade-threshold"; Nr (n f_cs_downgrade)] else [W "no"; W "cs"; W "downgrade-threshold"]] ++
  [[W "cs"; W "link-quality-ranges"; W "cs1"; Nr (n (f_cs_high 0)); W "cs2"; Nr (n (f_cs_low 1)); Nr (n (f_cs_high 1));
    W "cs3"; Nr (n (f_cs_low 2)); Nr (n (f_cs_high 2)); W "cs4"; Nr (n (f_cs_low 3))]] ++
  [[W "mcs"; W "link-quality-ranges"; W "mcs1"; Nr (n (f_mcs_high 0)); W "mcs2"; Nr (n (f_mcs_low 1)); Nr (n (f_mcs_high 1));
    W "mcs3"; Nr (n (f_mcs_low 2)); Nr (n (f_mcs_high 2)); W "mcs4"; Nr (n (f_mcs_low 3)); Nr (n (f_mcs_high 3));
    W "mcs5"; Nr (n (f_mcs_low 4)); Nr (n (f_mcs_high 4)); W "mcs6"; Nr (n (f_mcs_low 5)); Nr (n (f_mcs_high 5));
    W "mcs7"; Nr (n (f_mcs_low 6)); Nr (n (f_mcs_high 6)); W "mcs8"; Nr (n (f_mcs_low 7)); Nr (n (f_mcs_high 7)); W "mcs9"; Nr (n (f_mcs_low 8))]] ++
  when (negb (n f_force_initial_mcs =? 0)) (dl_ul [W "mcs"] (n f_initial_mcs_dl) (n f_initial_mcs_ul)) ++
  when (negb (n f_max_mcs_dl =? 0) && negb (n f_max_mcs_ul =? 0)) (dl_ul [W "mcs"; W "max"] (n f_max_mcs_dl) (n f_max_mcs_ul)) ++
  [[W "window-size"; Nr (n f_ws_base); Nr (n f_ws_pdch)]] ++
  when (n f_dl_arq_type =? 1) [W "egprs"; W "dl"; W "arq-type"; W "arq2"] ++
  (if n f_llc_lifetime =? 65535 then [[W "queue"; W "lifetime"; W "infinite"]]
   else when (negb (n f_llc_lifetime =? 0)) [W "queue"; W "lifetime"; Nr (n f_llc_lifetime)]) ++
  when (negb (n f_llc_discard =? 0)) [W "queue"; W "hysteresis"; Nr (n f_llc_discard)] ++
  when (negb (n f_llc_idle_ack =? 0)) [W "queue"; W "idle-ack-delay"; Nr (n f_llc_idle_ack)] ++
  [if n f_llc_codel =? u32 (-1) then [W "queue"; W "codel"] else if n f_llc_codel =? 0 then [W "no"; W "queue"; W "codel"]
   else [W "queue"; W "codel"; W "interval"; Nr (n f_llc_codel / 10)]] ++
  when (n f_alloc =? 1) [W "alloc-algorithm"; W "a"] ++
  when (n f_alloc =? 2) [W "alloc-algorithm"; W "b"] ++
  when (n f_alloc =? 3) [W "alloc-algorithm"; W "dynamic"] ++
  when (negb (n f_force_two_phase =? 0)) [W "two-phase-access"] ++
  when (negb (n f_force_alpha =? 255)) [W "alpha"; Nr (n f_force_alpha)] ++
  [[W "gamma"; Nr (n f_gamma * 2)]] ++
  when (n f_preemptive =? 0) [W "no"; W "dl-tbf-preemptive-retransmission"] ++
  when (negb (n f_msclass_default =? 12)) [W "multislot-class"; W "default"; Nr (n f_msclass_default)] ++
  (match path c, SOCK_DEFAULT with W x, W y => when (negb (String.eqb x y)) [W "pcu-socket"; W x] | p, _ => [[W "pcu-socket"; p]] end) ++
  (match host c with Some h => [[W "gsmtap-remote-host"; h]] | None => [] end) ++
  flat_map (fun x => when (Z.testbit (n f_categ_mask) (fst x)) [W "gsmtap-category"; W (snd x)]) categ_names ++
  [if n f_ns_dialect =? 1 then [W "gb-dialect"; W "ip-sns"] else [W "gb-dialect"; W "classic"]] ++
  when (negb (n f_ns_ip_dscp =? -1)) [W "gb"; W "ip-dscp"; Nr (n f_ns_ip_dscp)] ++
  when (negb (n f_ns_priority =? -1)) [W "gb"; W "socket-priority"; Nr (n f_ns_priority)] ++
  (* osmo_tdef_vty_write of libosmocore: the timers that differ from their default *)
  flat_map (fun x => when (negb (n (f_timer (fst x)) =? fst (snd x))) [W "timer"; Tm (fst x); Nr (n (f_timer (fst x)))]) tdefs.
