(** The statistics of a cell's timeslots and TBFs: /repo/src/pdch.cpp, bts.cpp, tbf.cpp,
    tbf_ul.cpp, tbf_dl.cpp, gprs_ms.c. *)
From Coq Require Import ZArith List Bool.
From Verif Require Import Base.Arith Model.Mslot Model.Alloc Model.Cell.
Import ListNotations.
Local Open Scope Z_scope.

(** The stat items pdch.available, .occupied, .occupied.gprs, .occupied.egprs, bts.cpp:221-232,
    and the counters CTR_TBF_UL_ALLOCATED, _UL_FREED, _DL_ALLOCATED, _DL_FREED and
    CTR_TBF_ALLOC_FAIL. They are taken as unbounded numbers. *)
Record stats := mk_stats {
  s_avail : Z; s_occ : Z; s_occ_g : Z; s_occ_e : Z;
  s_new : dmap Z; s_freed : dmap Z; s_fail : Z }.
Definition init_stats : stats := mk_stats 0 0 0 0 (fun _ => 0) (fun _ => 0) 0.
Definition add_avail (x : Z) (s : stats) : stats :=
  mk_stats (s_avail s + x) (s_occ s) (s_occ_g s) (s_occ_e s) (s_new s) (s_freed s) (s_fail s).
Definition add_occ (x : Z) (s : stats) : stats :=
  mk_stats (s_avail s) (s_occ s + x) (s_occ_g s) (s_occ_e s) (s_new s) (s_freed s) (s_fail s).
Definition add_occ_g (x : Z) (s : stats) : stats :=
  mk_stats (s_avail s) (s_occ s) (s_occ_g s + x) (s_occ_e s) (s_new s) (s_freed s) (s_fail s).
Definition add_occ_e (x : Z) (s : stats) : stats :=
  mk_stats (s_avail s) (s_occ s) (s_occ_g s) (s_occ_e s + x) (s_new s) (s_freed s) (s_fail s).
Definition one_new (d : dir) (s : stats) : stats :=
  mk_stats (s_avail s) (s_occ s) (s_occ_g s) (s_occ_e s) (dset (s_new s) d (s_new s d + 1)) (s_freed s) (s_fail s).
Definition one_freed (d : dir) (s : stats) : stats :=
  mk_stats (s_avail s) (s_occ s) (s_occ_g s) (s_occ_e s) (s_new s) (dset (s_freed s) d (s_freed s d + 1)) (s_fail s).
Definition one_fail (s : stats) : stats :=
  mk_stats (s_avail s) (s_occ s) (s_occ_g s) (s_occ_e s) (s_new s) (s_freed s) (s_fail s + 1).

(** num_tbfs_update, pdch.cpp:1148-1173: what it does to the statistics, from the counters of
    the timeslot before; the sums are of 8 bits. *)
Definition num_stat (attached : bool) (t : tbf) (p : pdch) (s : stats) : stats :=
  let threshold := if attached then 0 else 1 in
  let inc := if attached then 1 else -1 in
  let g := (pd_gprs p UL + pd_gprs p DL) mod 256 in
  let e := (pd_egprs p UL + pd_egprs p DL) mod 256 in
  let s1 := if g + e =? threshold then add_occ inc s else s in
  if t_egprs t && (e =? threshold) then add_occ_e inc s1
  else if negb (t_egprs t) && (g =? threshold) then add_occ_g inc s1
  else s1.

(** [on_slots] with the statistics of attaching or detaching. *)
Definition on_slots_stat (f : Z -> pdch -> option pdch) (g : pdch -> stats -> stats) (b : bts) (s : stats) (n mask : Z)
  : option (bts * stats) :=
  fold_left (fun (acc : option (bts * stats)) ts =>
    match acc with
    | None => None
    | Some (b, s) =>
      if Z.testbit mask ts then
        match f ts (b n ts) with
        | None => None
        | Some p => Some (upd b n (upd (b n) ts p), g (b n ts) s)
        end
      else Some (b, s)
    end) slots8 (Some (b, s)).

(** As [take] of Cell.v. [alloced] tells that a TBF is made (ul_tbf_alloc, tbf_ul.cpp:108-126,
    dl_tbf_alloc, tbf_dl.cpp:109-148); a failed allocation is counted, gprs_ms.c:1152, 1201,
    1287, 1336 and tbf_dl.cpp:517. *)
Definition take_stat (a : algo) (def : Z) (c : cell) (s : stats) (id m : Z) (d : dir) (single : bool) (use_trx : Z)
  (egprs alloced : bool) : option (option cell * bool * stats) :=
  let '(r, dis) := alloc a def (c_bts c) (c_dis c) (mk_req (c_ms c m) d single use_trx) in
  match r with
  | None => Some (None, dis, one_fail s)
  | Some r =>
    let s1 := if alloced then one_new d s else s in
    let c := mk_cell (c_bts c) (c_tbfs c) (c_ms c) dis in
    let v := c_ms c m in
    obind (if (r_rul r =? v_rul v) && (r_rdl r =? v_rdl v) then Some c
           else set_reserved c m (Some (r_trx r)) (r_rul r) (r_rdl r)) (fun c1 =>
    let c2 := set_common c1 m (Some (r_trx r, r_common r)) in
    let t := mk_tbf id m d (r_tfi r) (r_trx r) (r_mask r) (r_usf r) egprs in
    if is_ul d && existsb (fun ts => Z.testbit (r_mask r) ts && (r_usf r ts <? 0)) slots8 then None
    else
      obind (on_slots_stat (fun ts p => Some (attach ts t p)) (num_stat true t) (c_bts c2) s1 (r_trx r) (r_mask r)) (fun '(b, s2) =>
      Some (Some (mk_cell b (t :: c_tbfs c2) (c_ms c2) (c_dis c2)), dis, s2)))
  end.
(** tbf_unlink_pdch, tbf.cpp:214-244. *)
Definition unlink_stat (c : cell) (s : stats) (t : tbf) : option (cell * stats) :=
  obind (on_slots_stat (fun ts => detach ts t) (num_stat false t) (c_bts c) s (t_trx t) (t_slots t)) (fun '(b, s1) =>
  Some (mk_cell b (filter (fun x => negb (t_id x =? t_id t)) (c_tbfs c)) (c_ms c) (c_dis c), s1)).
(** tbf_free, tbf.cpp:246-281: the counters first. *)
Definition drop_stat (c : cell) (s : stats) (t : tbf) : option (cell * stats) :=
  unlink_stat c (one_freed (t_dir t) s) t.
(** pdch_free_all_tbf, pdch.cpp:1278-1302: every TBF in the table. *)
Fixpoint drop_all_stat (ts_ids : list Z) (c : cell) (s : stats) : option (cell * stats) :=
  match ts_ids with
  | [] => Some (c, s)
  | id :: r =>
    match find_tbf c id with
    | None => drop_all_stat r c s
    | Some t => obind (drop_stat c s t) (fun '(c1, s1) => drop_all_stat r c1 s1)
    end
  end.

(** The cell, the TBFs without resources made only to refuse a mobile
    (ms_new_ul_tbf_rejected_pacch, gprs_ms.c:1229-1262) as the timeslots that control them,
    and the statistics. *)
Record scell := mk_scell { sc_cell : cell; sc_refusing : list (Z * Z); sc_stats : stats }.
Definition init_scell : scell := mk_scell init_cell [] init_stats.
Inductive sop :=
| Op (o : cop)
| Refused (n ts : Z).              (* tbf_free of such a TBF *)

Definition same_ts (x y : Z * Z) : bool := (fst x =? fst y) && (snd x =? snd y).
Fixpoint remove_one (x : Z * Z) (l : list (Z * Z)) : option (list (Z * Z)) :=
  match l with
  | [] => None
  | y :: r => if same_ts x y then Some r else option_map (cons y) (remove_one x r)
  end.
(** The second loop of pdch_free_all_tbf, pdch.cpp:1293-1301: a TBF that is only there to
    refuse is freed with its controlling timeslot. *)
Fixpoint free_refusing (x : Z * Z) (l : list (Z * Z)) (s : stats) : list (Z * Z) * stats :=
  match l with
  | [] => ([], s)
  | y :: r =>
    if same_ts x y then free_refusing x r (one_freed UL s)
    else let '(l', s') := free_refusing x r s in (y :: l', s')
  end.

(** One step, as [cstep] of Cell.v. When an upgrade fails the TBF is freed
    (tbf_dl_fsm.c:406-408); enable and disable count the timeslot (pdch.cpp:169-190). *)
Definition sstep (def : Z) (ids : list Z) (o : sop) (x : scell) : option scell :=
  let c := sc_cell x in let l := sc_refusing x in let s := sc_stats x in
  match o with
  | Refused n ts =>
    match remove_one (n, ts) l with
    | Some l' => Some (mk_scell c l' (one_freed UL s))
    | None => Some x
    end
  | Op (New a id m d single use_trx egprs) =>
    if existsb (Z.eqb m) ids && negb (existsb (fun t => t_id t =? id) (c_tbfs c)) then
      match take_stat a def c s id m d single use_trx egprs true with
      | None => None
      | Some (Some c', _, s') => Some (mk_scell c' l s')
      | Some (None, dis, s') => Some (mk_scell (mk_cell (c_bts c) (c_tbfs c) (c_ms c) dis) l s')
      end
    else Some x
  | Op (Reject m n ts) =>
    if existsb (Z.eqb m) ids && in8 n && in8 ts
    then Some (mk_scell (set_common c m (Some (n, ts))) ((n, ts) :: l) (one_new UL s))
    else Some x
  | Op (Free id) =>
    match find_tbf c id with
    | None => Some x
    | Some t => obind (drop_stat c s t) (fun '(c', s') => Some (mk_scell c' l s'))
    end
  | Op (Upgrade a id) =>
    match find_tbf c id with
    | None => Some x
    | Some t =>
      if is_ul (t_dir t) then Some x
      else obind (unlink_stat c s t) (fun '(c1, s1) =>
        match take_stat a def c1 s1 id (t_ms t) DL false (-1) (t_egprs t) false with
        | None => None
        | Some (Some c', _, s') => Some (mk_scell c' l s')
        | Some (None, dis, s') => Some (mk_scell (mk_cell (c_bts c1) (c_tbfs c1) (c_ms c1) dis) l (one_freed DL s'))
        end)
    end
  | Op (Idle m) =>
    if existsb (Z.eqb m) ids && negb (existsb (fun t => t_ms t =? m) (c_tbfs c)) then
      obind (set_reserved c m None 0 0) (fun c1 => Some (mk_scell (set_common c1 m None) l s))
    else Some x
  | Op (SetClass m cl) =>
    let v := c_ms c m in
    Some (mk_scell (mk_cell (c_bts c) (c_tbfs c) (upd (c_ms c) m (mk_msv cl (v_trx v) (v_rul v) (v_rdl v) (v_common v))) (c_dis c)) l s)
  | Op (Enable n ts tsc) =>
    if in8 n && in8 ts && negb (pd_enabled (c_bts c n ts)) then
      let p := c_bts c n ts in
      Some (mk_scell (set_pdch c n ts (mk_pdch true tsc (pd_gprs p) (pd_egprs p) (pd_res p) (pd_usf p) (pd_tfi p) (pd_tbf p)))
              l (add_avail 1 s))
    else Some x
  | Op (Disable n ts) =>
    if in8 n && in8 ts && pd_enabled (c_bts c n ts) then
      obind (drop_all_stat (table_ids (c_bts c n ts)) c s) (fun '(c1, s1) =>
      let '(l', s2) := free_refusing (n, ts) l s1 in
      obind (unreserve_all ids n ts c1) (fun c2 =>
      let p := c_bts c2 n ts in
      Some (mk_scell (set_pdch c2 n ts (mk_pdch false (pd_tsc p) (pd_gprs p) (pd_egprs p) (pd_res p) (pd_usf p) (pd_tfi p) (pd_tbf p)))
              l' (add_avail (-1) s2))))
    else Some x
  end.
Fixpoint srun (def : Z) (ids : list Z) (os : list sop) (x : scell) : option scell :=
  match os with
  | [] => Some x
  | o :: r => obind (sstep def ids o x) (srun def ids r)
  end.

(** pdch_is_full, pdch.cpp:1314-1322. *)
Definition pdch_is_full (p : pdch) : bool :=
  (pd_tfi p UL =? NO_FREE_TFI) || (pd_tfi p DL =? NO_FREE_TFI) ||
  match find_free_usf (pd_usf p) with None => true | Some _ => false end.
(** bts_all_pdch_allocated, bts.cpp:1466-1480; the value sampled every second by
    _update_stats_timer_cb, gprs_pcu.c:51-60. *)
Definition all_pdch_allocated (b : bts) : bool :=
  forallb (fun n => forallb (fun ts => negb (pd_enabled (b n ts)) || pdch_is_full (b n ts)) slots8) slots8.
