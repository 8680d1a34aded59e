(** Packet Application Information (ETWS primary notifications): the request of the BTS,
    /repo/src/pcu_l1_if.cpp:1135-1167; the message, /repo/src/gprs_rlcmac.c:53-75; its place in
    the scheduler, /repo/src/gprs_rlcmac_sched.cpp:105-209. *)
From Coq Require Import ZArith List Bool.
From Verif Require Import Model.CodingScheme Model.Sched Model.Csn1Enc.
Import ListNotations.
Local Open Scope Z_scope.

(** gprs_rlcmac_app_info_msg, gprs_rlcmac.c:54-75, bit by bit; msgb_alloc gives zeroed memory.
    None: no octets, or (not modelled) no memory. *)
Definition app_msg (ty : Z) (data : list Z) : option (list bool) :=
  match data with
  | [] => None
  | _ => Some ([false; false] ++ field_bits 4 ty ++ flat_map (field_bits 8) data ++ [false; false])
  end.

(** The USF, gprs_rlcmac_sched.cpp:499-501: the low three bits of the first octet. *)
Definition set_usf (usf : Z) (b : list bool) : list bool :=
  firstn 5 b ++ field_bits 3 usf ++ skipn 8 b.

(** A mobile: ms_dl_tbf(ms) != NULL, ms->app_info_pending (gprs_ms.h:56). A number stands for the
    object. *)
Record ams := mk_ams { i_id : Z; i_dl : bool; i_flag : bool }.
(** bts->ms_list, bts->app_info, bts->app_info_pending (bts.h:255-256, uint32_t). *)
Record acell := mk_acell { c_ms : list ams; c_msg : option (list bool); c_left : Z }.
(** bts.cpp:298; the structure is zeroed. *)
Definition acell0 : acell := mk_acell [] None 0.

(** pcu_rx_app_info_req, pcu_l1_if.cpp:1135-1167, with the value returned. *)
Definition app_request (ty : Z) (data : list Z) (s : acell) : acell * Z :=
  let n := Z.of_nat (length (filter i_dl (c_ms s))) mod 4294967296 in
  let l := map (fun m => if i_dl m then mk_ams (i_id m) true true else m) (c_ms s) in
  if n =? 0 then (mk_acell l (c_msg s) 0, -1)
  else (mk_acell l (app_msg ty data) n, 0).

(** tbf->ms()->app_info_pending *)
Definition flagged (l : list ams) (m : Z) : bool := existsb (fun x => (i_id x =? m) && i_flag x) l.
Definition unflag (l : list ams) (m : Z) : list ams :=
  map (fun x => if i_id x =? m then mk_ams (i_id x) (i_dl x) false else x) l.

(** What one request of the physical layer brings: the TBFs of the TRX in list order, which mobile a TBF
    belongs to, next_ctrl_prio, which creating functions return a message, whether there is a page. *)
Record ablock := mk_ab {
  a_ul : list ctbf; a_dl : list ctbf; a_of : Z -> Z; a_prio : Z; a_make : ckind -> Z -> bool; a_paging : bool }.
Definition with_flag (b : ablock) (l : list ams) (t : ctbf) : ctbf :=
  mk_ct (t_id t) (t_up t) (t_ul_ack t) (t_dl_ass t) (t_ul_ass t) (t_nacc t) (t_reject t)
        (flagged l (a_of b (t_id t))).
Definition a_cands (b : ablock) (l : list ams) : cands :=
  candidates (map (with_flag b l) (a_ul b)) (map (with_flag b l) (a_dl b)).
Definition is_some {A} (o : option A) : bool := match o with Some _ => true | None => false end.

(** sched_app_info within sched_select_ctrl_msg, gprs_rlcmac_sched.cpp:105-209. Gives: the cell
    afterwards; the mobile and the message that a copy was made of, if one was; the message sent. *)
Definition app_block (b : ablock) (s : acell) : acell * option (Z * list bool) * option cmsg :=
  let k := a_cands b (c_ms s) in
  let r := select_ctrl (a_make b) (is_some (c_msg s)) (a_paging b) k (a_prio b) in
  match k_dl_ass k with
  | Some t =>
    if t_app t then
      let m := a_of b (t_id t) in
      let n := (c_left s - 1) mod 4294967296 in
      (mk_acell (unflag (c_ms s) m) (if n =? 0 then None else c_msg s) n,
       match c_msg s with Some x => Some (m, x) | None => None end, r_sent r)
    else (s, None, r_sent r)
  | None => (s, None, r_sent r)
  end.

(** What happens to a cell. A new mobile: gprs_ms.c:168, bts.cpp bts_alloc_ms (a number in use is not a
    new mobile). A downlink TBF comes or goes: ms_attach_tbf, ms_detach_tbf (gprs_ms.c:333-395). The mobile
    is freed: ms_talloc_destructor, gprs_ms.c:182-217, which does not look at app_info_pending. *)
Inductive aop : Type :=
| ONew (m : Z) | ODl (m : Z) (b : bool) | OFree (m : Z)
| ORequest (ty : Z) (data : list Z)
| OBlock (b : ablock).
Definition has_ms (l : list ams) (m : Z) : bool := existsb (fun x => i_id x =? m) l.
Definition set_ms (l : list ams) (m : Z) (f : ams -> ams) : list ams :=
  map (fun x => if i_id x =? m then f x else x) l.

(** One step: the cell afterwards, the value returned to the BTS, the copy made, the message sent. *)
Record aout := mk_aout { o_rc : Z; o_copy : option (Z * list bool); o_sent : option cmsg }.
Definition astep (o : aop) (s : acell) : acell * aout :=
  match o with
  | ONew m => (if has_ms (c_ms s) m then s
               else mk_acell (mk_ams m false false :: c_ms s) (c_msg s) (c_left s), mk_aout 0 None None)
  | ODl m b => (mk_acell (set_ms (c_ms s) m (fun x => mk_ams (i_id x) b (i_flag x))) (c_msg s) (c_left s),
                mk_aout 0 None None)
  | OFree m => (mk_acell (filter (fun x => negb (i_id x =? m)) (c_ms s)) (c_msg s) (c_left s), mk_aout 0 None None)
  | ORequest ty data => let '(s1, rc) := app_request ty data s in (s1, mk_aout rc None None)
  | OBlock b => let '(s1, c, m) := app_block b s in (s1, mk_aout 0 c m)
  end.
Fixpoint arun (l : list aop) (s : acell) : acell * list aout :=
  match l with
  | [] => (s, [])
  | o :: r => let '(s1, x) := astep o s in let '(s2, xs) := arun r s1 in (s2, x :: xs)
  end.
