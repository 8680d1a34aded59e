(** C88: the statistics of a cell's timeslots and TBFs. *)
From Coq Require Import ZArith List Bool Lia.
From Verif Require Import Base.Arith Model.Mslot Model.Alloc Model.Cell Model.CellStat Spec.AllocSpec Spec.CellStatSpec
  Proofs.CellStatR Proofs.AllocEx.
Import ListNotations.
Local Open Scope Z_scope.

(** After any history: no assertion has failed, the cell is what it is without the statistics,
    the timeslots counted as available are those in service, those counted as occupied (by
    GPRS, by EGPRS) are those some TBF (of that mode) uses, and the TBFs made less those
    freed are the ones that exist. *)
Theorem C88_stats : forall def ids os, NoDup ids -> (length ids < 256)%nat ->
  exists x, srun def ids os init_scell = Some x /\ crun def ids (ops os) init_cell = Some (sc_cell x) /\ right_stats x.
Proof. exact stats_history. Qed.
Print Assumptions C88_stats.
Example C88_ex_stats : option_map (fun x => let s := sc_stats x in
    ((s_avail s, s_occ s, s_occ_g s, s_occ_e s), (s_new s UL, s_freed s UL, s_new s DL, s_freed s DL), s_fail s, length (sc_refusing x)))
  (srun 12 (rg 0 50) (map Op (en [2; 3; 4; 5] ++ put_on UL 3 [1; 2; 3] ++ [SetClass 8 12; New AlgB 8 8 DL true (-1) true; Upgrade AlgB 8; Free 2;
     Disable 0 4; New AlgB 9 9 UL false 5 true]) ++ [Refused 0 3]) init_scell) =
  Some ((3, 1, 1, 0), (6, 2, 1, 1), 1, 2%nat).
Proof. vm_compute. reflexivity. Qed.

(** A request is counted once: as a failed allocation and nothing else if it is refused, as a
    TBF made otherwise. *)
Theorem C88_request : forall def ids os x a id m d single use_trx egprs, NoDup ids -> (length ids < 256)%nat ->
  srun def ids os init_scell = Some x -> In m ids -> ~ In id (map t_id (c_tbfs (sc_cell x))) ->
  let c := sc_cell x in let s := sc_stats x in
  exists x', sstep def ids (Op (New a id m d single use_trx egprs)) x = Some x' /\
    match fst (alloc a def (c_bts c) (c_dis c) (mk_req (c_ms c m) d single use_trx)) with
    | None => sc_stats x' = mk_stats (s_avail s) (s_occ s) (s_occ_g s) (s_occ_e s) (s_new s) (s_freed s) (s_fail s + 1)
    | Some _ => s_new (sc_stats x') = dset (s_new s) d (s_new s d + 1) /\ s_freed (sc_stats x') = s_freed s /\
                s_fail (sc_stats x') = s_fail s
    end.
Proof. exact stats_request. Qed.
Print Assumptions C88_request.
Example C88_ex_request : option_map (fun x => (s_new (sc_stats x) UL, s_fail (sc_stats x)))
  (srun 12 (rg 0 50) (map Op (en [2] ++ put_on UL 2 (rg 1 7) ++ [New AlgA 8 8 UL true (-1) false])) init_scell) = Some (14, 1).
Proof. vm_compute. reflexivity. Qed.

(** The flag "all allocated" is up exactly when every timeslot in service has all 7 uplink
    TBFs or all 32 downlink TBFs it can have. *)
Theorem C88_all_allocated_partial : forall def ids os c, NoDup ids -> (length ids < 256)%nat -> crun def ids os init_cell = Some c ->
  (all_pdch_allocated (c_bts c) = true <-> all_busy c).
Proof. exact all_allocated_ok. Qed.
Print Assumptions C88_all_allocated_partial.
Example C88_ex_all_allocated : seen (cell_of (en [2] ++ put_on UL 2 (rg 1 7))) (fun c =>
  (tbfs_on c 0 2 UL, tbfs_on c 0 2 DL, all_pdch_allocated (c_bts c))) = Some (7, 0, true) /\
  seen (cell_of (en [2] ++ put_on UL 2 (rg 1 6))) (fun c => all_pdch_allocated (c_bts c)) = Some false.
Proof. vm_compute. auto. Qed.

(** When that is so in one direction on every timeslot, no request in that direction is
    granted. *)
Theorem C88_no_room : forall def ids os c a m d single use_trx, NoDup ids -> (length ids < 256)%nat ->
  crun def ids os init_cell = Some c -> In m ids ->
  (forall n ts, 0 <= n < 8 -> 0 <= ts < 8 -> pd_enabled (c_bts c n ts) = true -> tbfs_on c n ts d = if is_ul d then 7 else 32) ->
  fst (alloc a def (c_bts c) (c_dis c) (mk_req (c_ms c m) d single use_trx)) = None.
Proof. exact no_room. Qed.
Print Assumptions C88_no_room.
Example C88_ex_no_room : seen (cell_of (en [2] ++ put_on UL 2 (rg 1 7))) (fun c =>
  (forallb (fun x => negb (pd_enabled (c_bts c (fst x) (snd x))) || (tbfs_on c (fst x) (snd x) UL =? 7)) all_ts,
   option_map r_mask (fst (alloc AlgB 12 (c_bts c) (c_dis c) (mk_req (c_ms c 8) DL true (-1)))))) = Some (true, Some 4).
Proof. vm_compute. reflexivity. Qed.

(** But the flag does not say that nothing can be allocated: with 32 downlink TBFs on the only
    timeslot it is up, and an uplink request is granted there. *)
Theorem C88_all_allocated_refuted : exists os c r, cell_of os = Some c /\ all_pdch_allocated (c_bts c) = true /\
  fst (alloc AlgB 12 (c_bts c) (c_dis c) (mk_req (c_ms c 40) UL true (-1))) = Some r /\ r_mask r = 8.
Proof. exact room_though_flag. Qed.
Print Assumptions C88_all_allocated_refuted.

(** And it is up when no timeslot is in service, so that the time before the first one
    counts as time in which all were allocated. *)
Theorem C88_none_in_service_refuted : exists c, cell_of [] = Some c /\ all_pdch_allocated (c_bts c) = true /\
  forall n ts, pd_enabled (c_bts c n ts) = false.
Proof. exact flag_without_timeslots. Qed.
Print Assumptions C88_none_in_service_refuted.
