(** The coding schemes of a mobile: /repo/src/gprs_ms.c. *)
From Coq Require Import ZArith List Bool.
From Verif Require Import Model.CodingScheme Model.BtsConf.
Import ListNotations.
Local Open Scope Z_scope.

(** The thresholds in struct gprs_pcu, field vty. *)
Record lqconf := mk_lq {
  l_upper : Z; l_lower : Z; l_down : Z;
  l_cs : Z -> Z * Z; l_mcs : Z -> Z * Z }.      (* cs_lqual_ranges, mcs_lqual_ranges: low, high *)

(** struct GprsMs, gprs_ms.h:56-100: the fields used here; l1_meas is its link quality. *)
Record msst := mk_st {
  s_mode : mkind; s_cs_ul : scheme; s_cs_dl : scheme;
  s_eclass : Z; s_nack : Z; s_notlow : Z; s_qual : option Z }.

Definition or_first (c first : scheme) : scheme := if mcs_is_valid c then c else first.
(** ms_set_mode, gprs_ms.c:261-310. *)
Definition set_mode (b : bconf) (k : mkind) (s : msst) : msst :=
  let pick (cur : scheme) (cs mcs : Z) :=
    match k with
    | GPRS => if mcs_is_gprs cur then cur else or_first (mcs_get_gprs_by_num cs) CS1
    | EGPRS_GMSK => if mcs_is_edge_gmsk cur then cur else or_first (mcs_get_egprs_by_num mcs) MCS1
    | EGPRS => if mcs_is_edge cur then cur else or_first (mcs_get_egprs_by_num mcs) MCS1
    end in
  mk_st k (pick (s_cs_ul s) (p_ul (b_ini_cs b)) (p_ul (b_ini_mcs b)))
          (pick (s_cs_dl s) (p_dl (b_ini_cs b)) (p_dl (b_ini_mcs b)))
          (s_eclass s) (s_nack s) (s_notlow s) (s_qual s).
(** ms_alloc, gprs_ms.c:126-179. *)
Definition ms_alloc (b : bconf) (now : Z) : msst :=
  set_mode b GPRS (mk_st GPRS UNKNOWN UNKNOWN 0 0 now None).

(** ms_set_egprs_ms_class, gprs_ms.c:631-659. *)
Definition set_egprs_class (b : bconf) (cl : Z) (s : msst) : msst :=
  if cl =? s_eclass s then s
  else
    let s := mk_st (s_mode s) (s_cs_ul s) (s_cs_dl s) cl (s_nack s) (s_notlow s) (s_qual s) in
    if (p_ul (b_max_mcs b) =? 0) || (p_dl (b_max_mcs b) =? 0) then s
    else if mcs_is_edge_gmsk (mcs_get_egprs_by_num (p_ul (b_max_mcs b))) &&
            mcs_is_edge_gmsk (mcs_get_egprs_by_num (p_dl (b_max_mcs b))) &&
            match s_mode s with EGPRS => false | _ => true end
         then set_mode b EGPRS_GMSK s else set_mode b EGPRS s.

(** ms_max_cs_ul and ms_max_cs_dl, gprs_ms.c:711-753: of the current scheme and the
    limits of that direction. *)
Definition ms_max_cs (k : mkind) (cur : scheme) (max_cs max_mcs : Z) : scheme :=
  if mcs_is_gprs cur then (if max_cs =? 0 then CS4 else mcs_get_gprs_by_num max_cs)
  else
    let cs := mcs_get_egprs_by_num max_mcs in
    match k with EGPRS_GMSK => if snum MCS4 <? snum cs then MCS4 else cs | _ => cs end.

(** ms_update_error_rate, gprs_ms.c:661-708; [now] is now_msec(). None: the assertion
    fails. *)
Definition update_error_rate (q : lqconf) (b : bconf) (now rate : Z) (s : msst) : option msst :=
  let mx := ms_max_cs (s_mode s) (s_cs_dl s) (p_dl (b_max_cs b)) (p_dl (b_max_mcs b)) in
  match mx with
  | UNKNOWN => None
  | _ =>
    if rate <? 0 then Some s
    else
      let upd (cs : scheme) (notlow : Z) := Some (mk_st (s_mode s) (s_cs_ul s) cs (s_eclass s) rate notlow (s_qual s)) in
      if l_upper q <? rate then
        (if 0 <? mcs_chan_code (s_cs_dl s) then upd (mcs_dec_kind (s_cs_dl s) (s_mode s)) now
         else upd (s_cs_dl s) (s_notlow s))
      else if rate <? l_lower q then
        (if snum (s_cs_dl s) <? snum mx then
           (if 1000 <? now - s_notlow s then upd (mcs_inc_kind (s_cs_dl s) (s_mode s)) now
            else upd (s_cs_dl s) (s_notlow s))
         else upd (s_cs_dl s) (s_notlow s))
      else upd (s_cs_dl s) now
  end.

(** ms_update_cs_ul, gprs_ms.c:755-825; [lq] is meas->link_qual if present. *)
Definition update_cs_ul (q : lqconf) (b : bconf) (lq : option Z) (s : msst) : msst :=
  let mx := ms_max_cs (s_mode s) (s_cs_ul s) (p_ul (b_max_cs b)) (p_ul (b_max_mcs b)) in
  let cur := mcs_chan_code (s_cs_ul s) in
  match mx, s_cs_ul s, lq with
  | UNKNOWN, _, _ => s
  | _, UNKNOWN, _ => s
  | _, _, None => s
  | _, _, Some new =>
    let '(low, high) := if mcs_is_gprs (s_cs_ul s) then l_cs q (if 4 <=? cur then 3 else cur)
                        else l_mcs q (if 9 <=? cur then 8 else cur) in
    let old := match s_qual s with Some o => o | None => new end in
    let cs :=
      if (new <? low) && (old <? low) then mcs_dec_kind (s_cs_ul s) (s_mode s)
      else if (high <? new) && (high <? old) && (snum (s_cs_ul s) <? snum mx) then mcs_inc_kind (s_cs_ul s) (s_mode s)
      else s_cs_ul s in
    mk_st (s_mode s) cs (s_cs_dl s) (s_eclass s) (s_nack s) (s_notlow s) (s_qual s)
  end.
(** ms_update_l1_meas, gprs_ms.c:827-857: only the link quality is kept here. *)
Definition update_l1_meas (q : lqconf) (b : bconf) (lq : option Z) (s : msst) : msst :=
  let s := update_cs_ul q b lq s in
  match lq with
  | None => s
  | Some x => mk_st (s_mode s) (s_cs_ul s) (s_cs_dl s) (s_eclass s) (s_nack s) (s_notlow s) (Some x)
  end.

(** The loop for(;;i--) in ms_current_cs_dl, gprs_ms.c:887, and the assertion after it. *)
Fixpoint cs_below (b : bconf) (n : nat) : option scheme :=
  match sof (snum CS1 + Z.of_nat n) with
  | None => None
  | Some c =>
    match cs_dl_is_supported b c with
    | None => None
    | Some true => if (n <=? 3)%nat then Some c else None
    | Some false => match n with O => None | S k => cs_below b k end
    end
  end.
(** ms_current_cs_dl, gprs_ms.c:859-922; [octets] are the unencoded octets. None: an
    assertion fails. *)
Definition current_cs_dl (q : lqconf) (b : bconf) (octets : Z) (req : mkind) (s : msst) : option scheme :=
  let orig := s_cs_dl s in
  let sup c := match cs_dl_is_supported b c with Some true => true | _ => false end in
  let cs :=
    match req with
    | EGPRS_GMSK =>
      if mcs_is_edge orig && (snum MCS4 <? snum orig)
      then Some (if sup MCS4 then MCS4 else if sup MCS3 then MCS3 else if sup MCS2 then MCS2 else MCS1)
      else Some orig
    | GPRS =>
      if mcs_is_edge orig
      then cs_below b (Z.to_nat (mcs_chan_code (if snum MCS4 <? snum orig then MCS4 else orig)))
      else Some orig
    | EGPRS => Some orig
    end in
  match cs with
  | None => None
  | Some cs =>
    if l_down q <=? octets then Some cs
    else if s_nack s <? l_lower q then Some cs
    else
      let cs := mcs_dec_kind cs (s_mode s) in
      Some (if seqb cs CS2 then mcs_dec_kind cs (s_mode s) else cs)
  end.

(** What happens to a mobile: a downlink error rate, a measurement of its uplink, news of its
    EGPRS multislot class (bts.cpp:1007, pdch.cpp:800, tbf_dl.cpp:227, gprs_ms.c:475); and
    changes of the configuration. *)
Inductive laop :=
| ErrRate (now rate : Z)
| Meas (lq : option Z)
| EClass (cl : Z)
| Conf (o : confop).
Definition la_step (q : lqconf) (o : laop) (s : (vty * bconf) * msst) : option ((vty * bconf) * msst) :=
  let '(c, m) := s in
  match o with
  | ErrRate now rate => match update_error_rate q (snd c) now rate m with Some m' => Some (c, m') | None => None end
  | Meas lq => Some (c, update_l1_meas q (snd c) lq m)
  | EClass cl => Some (c, set_egprs_class (snd c) cl m)
  | Conf o => Some (conf_step o c, m)
  end.
Fixpoint la_run (q : lqconf) (os : list laop) (s : (vty * bconf) * msst) : option ((vty * bconf) * msst) :=
  match os with
  | [] => Some s
  | o :: r => match la_step q o s with Some s' => la_run q r s' | None => None end
  end.
