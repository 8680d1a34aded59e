(** TBFs taking and leaving timeslots: /repo/src/pdch.cpp, tbf.cpp, tbf_dl.cpp, tbf_ul.cpp,
    gprs_ms.c, bts.cpp. *)
From Coq Require Import ZArith List Bool.
From Verif Require Import Base.Arith Model.Mslot Model.Alloc.
Import ListNotations.
Local Open Scope Z_scope.

(** A TBF as far as its resources go: its name, its MS, direction, TFI, TRX, timeslots
    (the set entries of pdch[]), m_usf and m_egprs_enabled. *)
Record tbf := mk_tbf {
  t_id : Z; t_ms : Z; t_dir : dir; t_tfi : Z; t_trx : Z; t_slots : Z; t_usf : Z -> Z; t_egprs : bool }.

(** num_tbfs_update, pdch.cpp:1148-1173, without the statistics: counters of 8 bits. *)
Definition num_update (p : pdch) (t : tbf) (inc : Z) : pdch :=
  let bump (f : dmap Z) := dset f (t_dir t) ((f (t_dir t) + inc) mod 256) in
  mk_pdch (pd_enabled p) (pd_tsc p)
    (if t_egprs t then pd_gprs p else bump (pd_gprs p)) (if t_egprs t then bump (pd_egprs p) else pd_egprs p)
    (pd_res p) (pd_usf p) (pd_tfi p) (pd_tbf p).
(** attach_tbf, pdch.cpp:1175-1196, at timeslot [ts]. *)
Definition attach (ts : Z) (t : tbf) (p0 : pdch) : pdch :=
  let p := num_update p0 t 1 in
  mk_pdch (pd_enabled p) (pd_tsc p) (pd_gprs p) (pd_egprs p) (pd_res p)
    (if is_ul (t_dir t) then Z.lor (pd_usf p) (Z.shiftl 1 (t_usf t ts)) mod 256 else pd_usf p)
    (dset (pd_tfi p) (t_dir t) (Z.lor (pd_tfi p (t_dir t)) (Z.shiftl 1 (t_tfi t)) mod 2 ^ 32))
    (dset (pd_tbf p) (t_dir t) (upd (pd_tbf p (t_dir t)) (t_tfi t) (Some (t_id t)))).
(** detach_tbf, pdch.cpp:1198-1222, without the UL controller (see UlController.v). None: an
    assertion fails. *)
Definition detach (ts : Z) (t : tbf) (p0 : pdch) : option pdch :=
  if (if t_egprs t then pd_egprs p0 else pd_gprs p0) (t_dir t) =? 0 then None
  else
    let p := num_update p0 t (-1) in
    Some (mk_pdch (pd_enabled p) (pd_tsc p) (pd_gprs p) (pd_egprs p) (pd_res p)
      (if is_ul (t_dir t) then Z.land (pd_usf p) (Z.lnot (Z.shiftl 1 (t_usf t ts))) mod 256 else pd_usf p)
      (dset (pd_tfi p) (t_dir t) (Z.land (pd_tfi p (t_dir t)) (Z.lnot (Z.shiftl 1 (t_tfi t))) mod 2 ^ 32))
      (dset (pd_tbf p) (t_dir t) (upd (pd_tbf p (t_dir t)) (t_tfi t) None))).
(** reserve and unreserve, pdch.cpp:1230-1239. *)
Definition set_res (p : pdch) (d : dir) (x : Z) : pdch :=
  mk_pdch (pd_enabled p) (pd_tsc p) (pd_gprs p) (pd_egprs p) (dset (pd_res p) d x) (pd_usf p) (pd_tfi p) (pd_tbf p).
Definition reserve (d : dir) (p : pdch) : pdch := set_res p d ((pd_res p d + 1) mod 256).
Definition unreserve (d : dir) (p : pdch) : option pdch :=
  if pd_res p d =? 0 then None else Some (set_res p d (pd_res p d - 1)).

(** Doing [f] on every timeslot of a set, lowest first; the whole fails if one does. *)
Definition on_slots (f : Z -> pdch -> option pdch) (b : bts) (n mask : Z) : option bts :=
  fold_left (fun (acc : option bts) ts =>
    match acc with
    | None => None
    | Some b =>
      if Z.testbit mask ts then
        match f ts (b n ts) with
        | None => None
        | Some p => Some (upd b n (upd (b n) ts p))
        end
      else Some b
    end) slots8 (Some b).
Definition obind {A B} (o : option A) (f : A -> option B) : option B := match o with Some x => f x | None => None end.

Record cell := mk_cell { c_bts : bts; c_tbfs : list tbf; c_ms : Z -> msv; c_dis : bool }.
Definition init_pdch : pdch :=
  mk_pdch false 0 (fun _ => 0) (fun _ => 0) (fun _ => 0) 0 (fun _ => 0) (fun _ _ => None).
Definition init_ms : msv := mk_msv 0 None 0 0 None.
Definition init_cell : cell := mk_cell (fun _ _ => init_pdch) [] (fun _ => init_ms) false.

(** ms_set_reserved_slots, gprs_ms.c:987-1008, with bts_trx_reserve_slots and
    bts_trx_unreserve_slots, bts.cpp:1326-1342. *)
Definition set_reserved (c : cell) (m : Z) (trx : option Z) (ul dl : Z) : option cell :=
  let v := c_ms c m in
  obind (match v_trx v with
         | None => Some (c_bts c, v_rul v, v_rdl v)
         | Some n =>
           obind (on_slots (fun _ => unreserve DL) (c_bts c) n (v_rdl v)) (fun b1 =>
           obind (on_slots (fun _ => unreserve UL) b1 n (v_rul v)) (fun b2 => Some (b2, 0, 0)))
         end) (fun '(b, rul, rdl) =>
  match trx with
  | None => Some (mk_cell b (c_tbfs c) (upd (c_ms c) m (mk_msv (v_class v) None rul rdl (v_common v))) (c_dis c))
  | Some n =>
    obind (on_slots (fun _ p => Some (reserve DL p)) b n dl) (fun b1 =>
    obind (on_slots (fun _ p => Some (reserve UL p)) b1 n ul) (fun b2 =>
    Some (mk_cell b2 (c_tbfs c) (upd (c_ms c) m (mk_msv (v_class v) (Some n) ul dl (v_common v))) (c_dis c))))
  end).
Definition set_common (c : cell) (m : Z) (x : option (Z * Z)) : cell :=
  let v := c_ms c m in
  mk_cell (c_bts c) (c_tbfs c) (upd (c_ms c) m (mk_msv (v_class v) (v_trx v) (v_rul v) (v_rdl v) x)) (c_dis c).

(** From the allocation to the attached TBF: ms_new_ul_tbf_assigned_pacch, _agch,
    ms_new_dl_tbf_assigned_on_pacch, _pch, gprs_ms.c:1134-1364, and
    apply_allocated_resources, tbf_dl.cpp:414-451 and tbf_ul.cpp:678-721. The outer option is
    an assertion, the inner one a failed allocation. *)
Definition take (a : algo) (def : Z) (c : cell) (id m : Z) (d : dir) (single : bool) (use_trx : Z) (egprs : bool)
  : option (option cell * bool) :=
  let '(r, dis) := alloc a def (c_bts c) (c_dis c) (mk_req (c_ms c m) d single use_trx) in
  match r with
  | None => Some (None, dis)
  | Some r =>
    let c := mk_cell (c_bts c) (c_tbfs c) (c_ms c) dis in
    let v := c_ms c m in
    obind (if (r_rul r =? v_rul v) && (r_rdl r =? v_rdl v) then Some c
           else set_reserved c m (Some (r_trx r)) (r_rul r) (r_rdl r)) (fun c1 =>
    let c2 := set_common c1 m (Some (r_trx r, r_common r)) in
    let t := mk_tbf id m d (r_tfi r) (r_trx r) (r_mask r) (r_usf r) egprs in
    if is_ul d && existsb (fun ts => Z.testbit (r_mask r) ts && (r_usf r ts <? 0)) slots8 then None
    else
      obind (on_slots (fun ts p => Some (attach ts t p)) (c_bts c2) (r_trx r) (r_mask r)) (fun b =>
      Some (Some (mk_cell b (t :: c_tbfs c2) (c_ms c2) (c_dis c2)), dis)))
  end.
(** tbf_unlink_pdch, tbf.cpp:216-245, and the TBF's end. *)
Definition drop (c : cell) (t : tbf) : option cell :=
  obind (on_slots (fun ts => detach ts t) (c_bts c) (t_trx t) (t_slots t)) (fun b =>
  Some (mk_cell b (filter (fun x => negb (t_id x =? t_id t)) (c_tbfs c)) (c_ms c) (c_dis c))).
Definition find_tbf (c : cell) (id : Z) : option tbf := find (fun t => t_id t =? id) (c_tbfs c).
Definition set_pdch (c : cell) (n ts : Z) (p : pdch) : cell :=
  mk_cell (upd (c_bts c) n (upd (c_bts c n) ts p)) (c_tbfs c) (c_ms c) (c_dis c).

(** pdch_unreserve_all_ms_reserved_slots, pdch.cpp:135-156, for the MS in [ids] (ms_list). *)
Fixpoint unreserve_all (ids : list Z) (n ts : Z) (c : cell) : option cell :=
  match ids with
  | [] => Some c
  | m :: r =>
    let v := c_ms c m in
    let rm := not8 (Z.shiftl 1 ts) in
    obind (match v_trx v with
           | Some k =>
             if k =? n then
               (if (Z.land (v_rdl v) rm =? v_rdl v) && (Z.land (v_rul v) rm =? v_rul v) then Some c
                else set_reserved c m (Some n) (Z.land (v_rul v) rm) (Z.land (v_rdl v) rm))
             else Some c
           | None => Some c
           end) (unreserve_all r n ts)
  end.
(** pdch_free_all_tbf, pdch.cpp:1278-1302: every TBF in the table. *)
Fixpoint drop_all (ts_ids : list Z) (c : cell) : option cell :=
  match ts_ids with
  | [] => Some c
  | id :: r =>
    match find_tbf c id with
    | None => drop_all r c
    | Some t => obind (drop c t) (drop_all r)
    end
  end.
Definition table_ids (p : pdch) : list Z :=
  flat_map (fun k => match pd_tbf p UL (Z.of_nat k) with Some i => [i] | None => [] end ++
                     match pd_tbf p DL (Z.of_nat k) with Some i => [i] | None => [] end) (seq 0 32).

(** What happens in a cell. [ids] are the MS that exist. *)
Inductive cop :=
| New (a : algo) (id m : Z) (d : dir) (single : bool) (use_trx : Z) (egprs : bool)
| Reject (m n ts : Z)                   (* ms_new_ul_tbf_rejected_pacch: sets the common TS *)
| Free (id : Z)
| Upgrade (a : algo) (id : Z)           (* dl_tbf_upgrade_to_multislot, tbf_dl.cpp:492-535 *)
| Idle (m : Z)                          (* ms_becomes_idle, gprs_ms.c:218-226: no TBF left *)
| SetClass (m cl : Z)
| Enable (n ts tsc : Z)                 (* pdch.cpp:168-182 *)
| Disable (n ts : Z).                   (* pdch.cpp:184-207 *)

Definition in8 (x : Z) : bool := (0 <=? x) && (x <? 8).
(** One step; None: an assertion fails. Operations that the callers exclude do nothing. *)
Definition cstep (def : Z) (ids : list Z) (o : cop) (c : cell) : option cell :=
  match o with
  | New a id m d single use_trx egprs =>
    if existsb (Z.eqb m) ids && negb (existsb (fun t => t_id t =? id) (c_tbfs c)) then
      match take a def c id m d single use_trx egprs with
      | None => None
      | Some (Some c', _) => Some c'
      | Some (None, dis) => Some (mk_cell (c_bts c) (c_tbfs c) (c_ms c) dis)
      end
    else Some c
  | Reject m n ts => if existsb (Z.eqb m) ids && in8 n && in8 ts then Some (set_common c m (Some (n, ts))) else Some c
  | Free id =>
    match find_tbf c id with
    | None => Some c
    | Some t => drop c t
    end
  | Upgrade a id =>
    match find_tbf c id with
    | None => Some c
    | Some t =>
      if is_ul (t_dir t) then Some c
      else obind (drop c t) (fun c1 =>
        match take a def c1 id (t_ms t) DL false (-1) (t_egprs t) with
        | None => None
        | Some (Some c', _) => Some c'
        | Some (None, dis) => Some (mk_cell (c_bts c1) (c_tbfs c1) (c_ms c1) dis)
        end)
    end
  | Idle m =>
    if existsb (Z.eqb m) ids && negb (existsb (fun t => t_ms t =? m) (c_tbfs c)) then
      obind (set_reserved c m None 0 0) (fun c1 => Some (set_common c1 m None))
    else Some c
  | SetClass m cl =>
    let v := c_ms c m in
    Some (mk_cell (c_bts c) (c_tbfs c) (upd (c_ms c) m (mk_msv cl (v_trx v) (v_rul v) (v_rdl v) (v_common v))) (c_dis c))
  | Enable n ts tsc =>
    if in8 n && in8 ts && negb (pd_enabled (c_bts c n ts)) then
      let p := c_bts c n ts in
      Some (set_pdch c n ts (mk_pdch true tsc (pd_gprs p) (pd_egprs p) (pd_res p) (pd_usf p) (pd_tfi p) (pd_tbf p)))
    else Some c
  | Disable n ts =>
    if in8 n && in8 ts && pd_enabled (c_bts c n ts) then
      obind (drop_all (table_ids (c_bts c n ts)) c) (fun c1 =>
      obind (unreserve_all ids n ts c1) (fun c2 =>
      let p := c_bts c2 n ts in
      Some (set_pdch c2 n ts (mk_pdch false (pd_tsc p) (pd_gprs p) (pd_egprs p) (pd_res p) (pd_usf p) (pd_tfi p) (pd_tbf p)))))
    else Some c
  end.
Fixpoint crun (def : Z) (ids : list Z) (os : list cop) (c : cell) : option cell :=
  match os with
  | [] => Some c
  | o :: r => obind (cstep def ids o c) (crun def ids r)
  end.
