(** Timeslot allocation: /repo/src/alloc_algo.cpp, bts.cpp. Sets of timeslots are bit masks. *)
From Coq Require Import ZArith List Bool.
From Verif Require Import Base.Arith Model.Mslot.
Import ListNotations.
Local Open Scope Z_scope.

(** enum gprs_rlcmac_tbf_direction. *)
Inductive dir : Set := DL | UL.
Definition reverse (d : dir) : dir := match d with DL => UL | UL => DL end.
Definition is_ul (d : dir) : bool := match d with UL => true | DL => false end.
(** A value for each direction. *)
Definition dmap (A : Type) := dir -> A.
Definition dset {A} (f : dmap A) (d : dir) (v : A) : dmap A :=
  fun x => match x, d with UL, UL => v | DL, DL => v | _, _ => f x end.

(** struct gprs_rlcmac_pdch, pdch.h:42-155: the fields of the allocation. TBFs are named by
    numbers. *)
Record pdch := mk_pdch {
  pd_enabled : bool; pd_tsc : Z;
  pd_gprs : dmap Z; pd_egprs : dmap Z;      (* m_num_tbfs_gprs, m_num_tbfs_egprs *)
  pd_res : dmap Z;                          (* m_num_reserved *)
  pd_usf : Z;                               (* m_assigned_usf *)
  pd_tfi : dmap Z;                          (* m_assigned_tfi *)
  pd_tbf : dmap (Z -> option Z) }.          (* m_tbfs *)
(** num_tbfs, pdch.h:157-160. *)
Definition num_tbfs (p : pdch) (d : dir) : Z := pd_gprs p d + pd_egprs p d.

(** struct gprs_rlcmac_trx: its eight timeslots; the eight TRX of a BTS. *)
Definition trx := Z -> pdch.
Definition bts := Z -> trx.
Definition slots8 : list Z := [0; 1; 2; 3; 4; 5; 6; 7].

(** struct GprsMs, the fields of the allocation. *)
Record msv := mk_msv {
  v_class : Z; v_trx : option Z; v_rul : Z; v_rdl : Z; v_common : option (Z * Z) }.

(** struct alloc_resources_req, alloc_algo.h:33-44. *)
Record areq := mk_req { q_ms : msv; q_dir : dir; q_single : bool; q_trx : Z }.
(** struct alloc_resources_res, alloc_algo.h:46-55. *)
Record ares := mk_res {
  r_trx : Z; r_common : Z; r_rul : Z; r_rdl : Z; r_mask : Z; r_upg : bool; r_tfi : Z; r_usf : Z -> Z }.

(** find_possible_pdchs, alloc_algo.cpp:62-107. *)
Definition find_possible_pdchs (t : trx) (max_slots mask : Z) : Z :=
  fst (fold_left (fun (acc : Z * option Z) ts =>
    let '(set, tsc) := acc in
    let p := t ts in
    if negb (pd_enabled p) then acc
    else if negb (Z.testbit mask ts) then acc
    else if 1 <? max_slots then
      match tsc with
      | None => (Z.lor set (Z.shiftl 1 ts), Some (pd_tsc p))
      | Some c => if c =? pd_tsc p then (Z.lor set (Z.shiftl 1 ts), tsc) else acc
      end
    else (Z.lor set (Z.shiftl 1 ts), tsc)) slots8 (0, None)).

(** compute_usage_by_num_tbfs, compute_usage_by_reservation and compute_usage_for_algo_a,
    alloc_algo.cpp:109-136. *)
Definition usage_num (p : pdch) (d : dir) : Z := num_tbfs p d.
Definition usage_a (p : pdch) (d : dir) : Z :=
  num_tbfs p DL + num_tbfs p UL + (pd_res p DL + pd_res p UL) +
  (if pd_tfi p (reverse d) =? NO_FREE_TFI then 32 else 0).

(** find_least_busy_pdch, alloc_algo.cpp:148-217: timeslot, TFI and USF; [need_tfi] tells
    whether free_tfi was given. An absent TFI or USF is -1. *)
Definition find_least_busy (t : trx) (d : dir) (mask : Z) (fn : pdch -> dir -> Z) (need_tfi : bool)
  : option (Z * Z * Z) :=
  option_map snd (fold_left (fun (acc : option (Z * (Z * Z * Z))) ts =>
    if negb (Z.testbit mask ts) then acc
    else
      let p := t ts in
      let used := fn p d in
      if match acc with None => used <? 2147483647 | Some (m, _) => used <? m end then
        match (if need_tfi then find_free_tfi (pd_tfi p d) else Some (-1)) with
        | None => acc
        | Some tfi =>
          match (if is_ul d then find_free_usf (pd_usf p) else Some (-1)) with
          | None => acc
          | Some usf => Some (used, (ts, tfi, usf))
          end
        end
      else acc) slots8 None).

(** find_trx, alloc_algo.cpp:219-251; None for -EBUSY. *)
Definition find_trx (b : bts) (q : areq) : option Z :=
  match v_trx (q_ms q) with
  | Some n => Some n
  | None =>
    if (0 <=? q_trx q) && (q_trx q <? 8) then Some (q_trx q)
    else find (fun n => existsb (fun ts =>
           pd_enabled (b n ts) && negb (pd_tfi (b n ts) UL =? NO_FREE_TFI) && negb (pd_tfi (b n ts) DL =? NO_FREE_TFI))
           slots8) slots8
  end.
(** idle_pdch_avail, alloc_algo.cpp:253-275. *)
Definition idle_pdch_avail (b : bts) : bool :=
  existsb (fun n => existsb (fun ts => pd_enabled (b n ts) && (num_tbfs (b n ts) DL <=? 1)) slots8) slots8.

(** trx_count_free_tfi, bts.cpp:589-621: the number of free TFIs and the first one. *)
Definition free_mask (t : trx) (d : dir) : Z :=
  fold_left (fun m ts => if pd_enabled (t ts) then Z.land m (Z.lnot (pd_tfi (t ts) d)) else m) slots8 NO_FREE_TFI.
Definition count_free_tfi (t : trx) (d : dir) : Z * Z :=
  let m := free_mask t d in
  if negb (existsb (fun ts => pd_enabled (t ts)) slots8) || (m =? 0) then (0, 255)
  else
    let l := filter (fun i => Z.testbit m (Z.of_nat i)) (seq 0 32) in
    (Z.of_nat (length l), match l with i :: _ => Z.of_nat i | [] => 255 end).
(** bts_tfi_find_free, bts.cpp:628-667: TFI and TRX. None for -EBUSY (the assertion
    best_first_tfi < 32 is checked in the proofs). *)
Definition tfi_find_free (b : bts) (d : dir) (use_trx : Z) : option (Z * Z) :=
  let range := if (0 <=? use_trx) && (use_trx <? 8) then [use_trx] else slots8 in
  let '(best, cnt, tfi) := fold_left (fun (acc : Z * Z * Z) n =>
    let '(best, cnt, tfi) := acc in
    let '(c, f) := count_free_tfi (b n) d in
    if cnt <? c then (n, c, f) else acc) range (255, 0, 0) in
  if (best =? 255) || (cnt =? 0) then None else Some (tfi, best).
(** tfi_find_free, alloc_algo.cpp:283-310. *)
Definition req_tfi_find_free (b : bts) (q : areq) : option (Z * Z) :=
  match v_trx (q_ms q) with
  | Some n => if (0 <=? q_trx q) && negb (q_trx q =? n) then None else tfi_find_free b (q_dir q) n
  | None => tfi_find_free b (q_dir q) (q_trx q)
  end.

(** alloc_algorithm_a, alloc_algo.cpp:320-381. Error codes are not told apart. *)
Definition alloc_a (b : bts) (q : areq) : option ares :=
  match find_trx b q with
  | None => None
  | Some n =>
    let t := b n in
    let v := q_ms q in
    let mask :=
      match v_common v with
      | Some (_, ts) => Z.shiftl 1 ts
      | None => if (v_rdl v =? 0) && (v_rul v =? 0) then 0xff else Z.land (v_rdl v) (v_rul v)
      end in
    let mask := find_possible_pdchs t 1 mask in
    if mask =? 0 then None
    else match find_least_busy t (q_dir q) mask usage_a true with
         | None => None
         | Some (ts, tfi, usf) =>
           Some (mk_res n ts (Z.shiftl 1 ts) (Z.shiftl 1 ts) (Z.shiftl 1 ts) false tfi (upd (fun _ => 0) ts usf))
         end
  end.

(** compute_capacity, alloc_algo.cpp:390-409. *)
Definition capacity (t : trx) (rx tx : Z) : Z :=
  fold_left (fun c ts =>
    let p := t ts in
    let c := if Z.testbit rx ts then c + Z.max (32 - pd_res p DL) 1 else c in
    if Z.testbit (Z.land tx rx) ts then
      match find_free_usf (pd_usf p) with
      | Some _ => c + Z.max (32 - pd_res p UL) 1
      | None => c
      end
    else c) slots8 0.

(** skip_slot, alloc_algo.cpp:420-464: whether to skip, and checked_rx afterwards (as the
    256 bit number). *)
Definition skip_slot (m : mslot) (check_tr : bool) (rx tx checked : Z) : bool * Z :=
  let rxc := bitcount rx in
  let txc := bitcount tx in
  let sum := rxc + txc in
  if (m_type m =? 1) &&
     (if (sum <=? 6) && (txc <? 3) then negb check_tr
      else if (6 <? sum) && (txc <? 3) then check_tr
      else true)
  then (true, checked)
  else if Z.testbit checked rx then (true, checked)
  else
    let req := Z.min txc rxc in
    let req := if m_type m =? 1 then Z.min req 2 else req in
    (negb (req =? bitcount (Z.land tx rx)), Z.setbit checked rx).

(** The values that the window takes in the loops over ul_ts and dl_ts of find_multi_slots:
    it is wrapped at the start of a turn and shifted at its end. *)
Fixpoint windows (n : nat) (ts win : Z) : list (Z * Z) :=
  match n with
  | O => []
  | S k => let w := wrap_window win in (ts, w) :: windows k (ts + 1) (Z.shiftl w 1 mod 65536)
  end.
(** Both ends of the frame are in the window. *)
Definition splits_frame (win : Z) : bool := Z.testbit win 0 && Z.testbit win 7.

(** The best combination so far: max_capacity, max_ul_slots, max_dl_slots. *)
Definition best := (Z * Z * Z)%type.
(** The loop over mask_sel, alloc_algo.cpp:560-592, for one Rx window. *)
Definition try_masks (t : trx) (m : mslot) (masks : Z * Z) (ul_ts dl_slots tx rx_valid_win : Z) (st : Z * best) : Z * best :=
  fold_left (fun (st : Z * best) (sel : bool) =>
    let '(checked, b) := st in
    match filter_bad (if sel then snd masks else fst masks) ul_ts dl_slots rx_valid_win with
    | None => st
    | Some rx =>
      let '(skip, checked') := skip_slot m sel rx tx checked in
      if skip then (checked', b)
      else
        let c := capacity t rx tx in
        if c <=? fst (fst b) then (checked', b) else (checked', (c, tx, rx))
    end) [false; true] st.
(** The loop over dl_ts, alloc_algo.cpp:547-593. *)
Definition try_rx (t : trx) (m : mslot) (masks : Z * Z) (num_tx ul_ts dl_slots tx : Z) (b : best) : best :=
  let num_rx := Z.min (m_rx m) (m_sum m - num_tx) in
  snd (fold_left (fun (st : Z * best) (w : Z * Z) =>
    if (m_type m =? 1) && (num_rx <? 8) && splits_frame (snd w) then st
    else try_masks t m masks ul_ts dl_slots tx (snd w) st)
    (windows 8 0 (Z.shiftl 1 num_rx - 1)) (0, b)).
(** The loop over ul_ts, alloc_algo.cpp:519-594. *)
Definition try_tx (t : trx) (m : mslot) (ul_slots dl_slots num_tx : Z) (b : best) : best :=
  let masks := fill_rx_mask m num_tx in
  fold_left (fun (b : best) (w : Z * Z) =>
    let ul_ts := fst w in
    if (m_type m =? 1) && (num_tx <? 8) && splits_frame (snd w) then b
    else
      let tx := Z.land (snd w) ul_slots in
      if negb (Z.testbit tx ul_ts) then b
      else if negb (Z.testbit tx ((ul_ts + num_tx - 1) mod 8)) then b
      else try_rx t m masks num_tx ul_ts dl_slots tx b)
    (windows 8 0 (Z.shiftl 1 num_tx - 1)) b.
(** find_multi_slots, alloc_algo.cpp:473-608: the uplink and the downlink timeslots. *)
Definition find_multi_slots (t : trx) (m : mslot) (ul0 dl0 : Z) : option (Z * Z) :=
  if m_tx m =? MS_NA then None
  else
    let pdch_slots := find_possible_pdchs t (Z.max (m_rx m) (m_tx m)) 0xff in
    let dl := Z.land (if dl0 =? 0 then 0xff else dl0) pdch_slots in
    let ul := Z.land (if ul0 =? 0 then 0xff else ul0) pdch_slots in
    let '(_, mul, mdl) :=
      fold_left (fun b k => try_tx t m ul dl (Z.of_nat k) b) (seq 1 (Z.to_nat (m_tx m))) (-1, 0, 0) in
    if (mul =? 0) || (mdl =? 0) then None else Some (mul, mdl).

(** get_single_ts, alloc_algo.cpp:633-648: a set of timeslots. The TS given is the MS's
    first common one. *)
Definition get_single_ts (t : trx) (d : dir) (dl ul : Z) (ts : option Z) : Z :=
  let ret := Z.land dl ul in
  match (match ts with
         | Some x => Some x
         | None => option_map (fun r => fst (fst r)) (find_least_busy t d ret usage_num false)
         end) with
  | None => ffs ret
  | Some x => Z.land ret (Z.shiftl 1 x)
  end.
(** tbf_select_slot_set, alloc_algo.cpp:661-695; 0 where it returns an error. *)
Definition select_slot_set (t : trx) (q : areq) (ul dl : Z) : Z :=
  if q_single q then get_single_ts t (q_dir q) dl ul (option_map snd (v_common (q_ms q)))
  else if is_ul (q_dir q) then ul else dl.
(** allocate_usf, alloc_algo.cpp:705-738. *)
Definition allocate_usf (t : trx) (sel dl : Z) : option (Z * (Z -> Z)) :=
  let '(ul, usf) := fold_left (fun (acc : Z * (Z -> Z)) ts =>
    let '(ul, usf) := acc in
    if negb (Z.testbit ul ts) then acc
    else match find_free_usf (pd_usf (t ts)) with
         | None => (Z.land ul (not8 (Z.shiftl 1 ts)), usf)
         | Some u => (ul, upd usf ts u)
         end) slots8 (Z.land sel dl, fun _ => -1) in
  if ul =? 0 then None else Some (ul, usf).

(** alloc_algorithm_b, alloc_algo.cpp:749-851; [def] is the default multislot class. *)
Definition alloc_b (def : Z) (b : bts) (q : areq) : option ares :=
  let v := q_ms q in
  match req_tfi_find_free b q with
  | None => None
  | Some (tfi, n) =>
    let t := b n in
    match (if (v_rdl v =? 0) || (v_rul v =? 0)
           then find_multi_slots t (get_mslot def (v_class v)) (v_rul v) (v_rdl v)
           else Some (v_rul v, v_rdl v)) with
    | None => None
    | Some (rul, rdl) =>
      let sel := select_slot_set t q rul rdl in
      if sel =? 0 then None
      else
        match (match q_dir q with
               | DL => Some (sel, rul, sel, rul, fun _ => -1)
               | UL => match allocate_usf t sel rdl with
                       | None => None
                       | Some (u, usf) => Some (rdl, u, u, u, usf)
                       end
               end) with
        | None => None
        | Some (dl, ul, mask, rul', usf) =>
          let common := ffs (Z.land dl ul) - 1 in
          if (ffs mask - 1 <? 0) || (common <? 0) then None
          else
            let slotcount := bitcount mask in
            let reserve_count := match q_dir q with DL => bitcount rdl | UL => bitcount rul' end in
            Some (mk_res n common rul' rdl mask (q_single q && (0 <? slotcount) && (slotcount <? reserve_count)) tfi usf)
        end
    end
  end.

Inductive algo : Set := AlgA | AlgB | AlgDyn.
(** alloc_algorithm_dynamic, alloc_algo.cpp:865-889, and the choice of the algorithm; the
    second component is bts->multislot_disabled afterwards. *)
Definition alloc (a : algo) (def : Z) (b : bts) (disabled : bool) (q : areq) : option ares * bool :=
  match a with
  | AlgA => (alloc_a b q, disabled)
  | AlgB => (alloc_b def b q, disabled)
  | AlgDyn =>
    let dis := disabled && negb (idle_pdch_avail b) in
    if dis then (alloc_a b q, true)
    else match alloc_b def b q with
         | Some r => (Some r, false)
         | None => (alloc_a b q, true)
         end
  end.
