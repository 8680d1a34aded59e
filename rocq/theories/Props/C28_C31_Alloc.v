(** C28 to C31: what allocations hand out, multislot classes, TFIs, and the bookkeeping. *)
From Coq Require Import ZArith List Bool Lia.
From Verif Require Import Base.Arith Model.Mslot Model.Alloc Model.Cell Spec.AllocSpec Spec.MslotSpec
  Proofs.AllocP Proofs.AllocQ Proofs.AllocR Proofs.CellP Proofs.CellI Proofs.AllocEx.
Import ListNotations.
Local Open Scope Z_scope.

(** * C28 *)
(** Any allocation, with any tables, by each algorithm: one TRX, enabled timeslots, a TFI
    free on all of them, and USFs below 7 that are free. *)
Theorem C28_alloc : forall a def b dis q r, ms_ok b (q_ms q) -> counters_ok b ->
  fst (alloc a def b dis q) = Some r -> granted b (q_dir q) r.
Proof. exact (fun a def b dis q r M C H => proj1 (alloc_all_ok a def b dis q r M C H)). Qed.
Print Assumptions C28_alloc.
Example C28_ex_alloc : seen (cell_of (en [2; 3; 4; 5] ++ put_on UL 3 [1; 2; 3] ++ put_on DL 4 [4; 5] ++ put_on DL 5 (rg 10 20))) (fun c =>
  option_map (fun r => (r_mask r, r_tfi r, r_usf r 3, r_usf r 4)) (fst (alloc AlgB 12 (c_bts c) false (mk_req (c_ms c 8) UL false (-1))))) =
  Some (Some (8 + 16, 3, 3, 0)).
Proof. vm_compute. reflexivity. Qed.

(** After any history: no assertion has failed, every TBF is on enabled timeslots with a TFI
    below 32 and USFs below 7, and no two TBFs share a TFI or USF; the hypotheses of
    [C28_alloc] hold. *)
Theorem C28_history : forall def ids os, NoDup ids -> (length ids < 256)%nat ->
  exists c, crun def ids os init_cell = Some c /\ no_clash c /\ (forall t, In t (c_tbfs c) -> tbf_ok c t) /\
    (forall m, In m ids -> ms_ok (c_bts c) (c_ms c m)) /\ counters_ok (c_bts c).
Proof.
  exact (fun def ids os ND LEN => match cell_history def ids os ND LEN with
    ex_intro _ c (conj A (conj B (conj C (conj D (conj E _))))) => ex_intro _ c (conj A (conj B (conj C (conj D E)))) end).
Qed.
Print Assumptions C28_history.
Example C28_ex_history : seen (cell_of (en [2; 3; 4; 5] ++ put_on UL 3 [1; 2; 3] ++
    [SetClass 8 12; New AlgB 8 8 DL true (-1) true; Upgrade AlgB 8; Free 2; Disable 0 4; Idle 2]))
  (fun c => (map t_id (c_tbfs c), v_rdl (c_ms c 8))) = Some ([3; 1], 0x2c).
Proof. vm_compute. reflexivity. Qed.

(** A request makes exactly one new TBF with what was granted, or changes no table, TBF or
    mobile at all. *)
Theorem C28_new : forall def ids os c a id m d single use_trx egprs, NoDup ids -> (length ids < 256)%nat ->
  crun def ids os init_cell = Some c -> In m ids -> ~ In id (map t_id (c_tbfs c)) ->
  exists c', cstep def ids (New a id m d single use_trx egprs) c = Some c' /\
    match fst (alloc a def (c_bts c) (c_dis c) (mk_req (c_ms c m) d single use_trx)) with
    | None => c_bts c' = c_bts c /\ c_tbfs c' = c_tbfs c /\ c_ms c' = c_ms c
    | Some r => granted (c_bts c) d r /\
        c_tbfs c' = mk_tbf id m d (r_tfi r) (r_trx r) (r_mask r) (r_usf r) egprs :: c_tbfs c
    end.
Proof. exact new_step. Qed.
Print Assumptions C28_new.
Example C28_ex_new : seen (cell_of (en [2] ++ put_on UL 2 (rg 1 7))) (fun c => (length (c_tbfs c),
  option_map r_mask (fst (alloc AlgDyn 12 (c_bts c) false (mk_req (c_ms c 8) UL false (-1)))),
  option_map r_mask (fst (alloc AlgDyn 12 (c_bts c) false (mk_req (c_ms c 8) DL false (-1)))))) = Some (7%nat, None, Some 4).
Proof. vm_compute. reflexivity. Qed.

(** * C29 *)
(** The search for several timeslots gives only sets that the class can serve, on enabled
    timeslots, within what is already reserved, with as many common timeslots as the
    assignment needs. *)
Theorem C29_multi : forall t def cl ul0 dl0 u d, 0 <= ul0 < 256 -> 0 <= dl0 < 256 ->
  find_multi_slots t (get_mslot def cl) ul0 dl0 = Some (u, d) ->
  0 < u < 256 /\ 0 < d < 256 /\
  (forall ts, on u ts \/ on d ts -> pd_enabled (t ts) = true) /\
  (ul0 <> 0 -> forall ts, on u ts -> on ul0 ts) /\ (dl0 <> 0 -> forall ts, on d ts -> on dl0 ts) /\
  (exists a, ability_of (known_class def cl) = Some a /\ can_serve a u d) /\
  Z.min 2 (Z.min (size u) (size d)) <= size (Z.land u d) /\ shares u d.
Proof. exact find_multi_ok. Qed.
Print Assumptions C29_multi.
Example C29_ex_multi : seen (cell_of (en [0; 1; 2; 3; 4; 5; 6; 7])) (fun c =>
  (find_multi_slots (c_bts c 0) (get_mslot 12 12) 0 0, find_multi_slots (c_bts c 0) (get_mslot 12 18) 0 0,
   find_multi_slots (c_bts c 0) (get_mslot 12 0) 0 0x60)) = Some (Some (4, 15), Some (255, 255), Some (0x60, 0x60)).
Proof. vm_compute. reflexivity. Qed.

(** The timeslots reserved for a mobile stay right for its class and the TBF stays within
    them, unless the request is for a single uplink timeslot of a mobile without one (full
    property: always). *)
Theorem C29_alloc_partial : forall a def b dis q r, ms_ok b (q_ms q) -> counters_ok b ->
  (v_rul (q_ms q) <> 0 -> v_rdl (q_ms q) <> 0 -> serves def (q_ms q) (v_rul (q_ms q)) (v_rdl (q_ms q))) ->
  q_single q = false \/ q_dir q = DL \/ v_common (q_ms q) <> None ->
  fst (alloc a def b dis q) = Some r ->
  serves def (q_ms q) (r_rul r) (r_rdl r) /\
  forall ts, on (r_mask r) ts -> on (r_rdl r) ts /\ (q_dir q = UL -> on (r_rul r) ts).
Proof. exact alloc_serves. Qed.
Print Assumptions C29_alloc_partial.
Example C29_ex_alloc : seen (cell_of (en [2; 3; 4; 5] ++ [SetClass 8 10; New AlgB 8 8 UL false (-1) false])) (fun c =>
  (v_rul (c_ms c 8), v_rdl (c_ms c 8),
   option_map r_mask (fst (alloc AlgB 12 (c_bts c) false (mk_req (c_ms c 8) DL false (-1)))))) = Some (16, 4 + 8 + 16 + 32, Some (4 + 8 + 16 + 32)).
Proof. vm_compute. reflexivity. Qed.

(** The full property fails. First, a single uplink timeslot is asked for when the USFs of
    the chosen timeslot are used up: the number of the timeslot is taken as a set, and the
    mobile of class 12 gets two uplink and four downlink timeslots. *)
Theorem C29_single_refuted : exists os c a, cell_of os = Some c /\
  (forall m cl, In (SetClass m cl) os -> m = 8 /\ cl = 12) /\
  ability_of (known_class 12 (v_class (c_ms c 8))) = Some a /\ ~ can_serve a (in_use c 8 UL) (in_use c 8 DL).
Proof. exact single_refuted. Qed.
Print Assumptions C29_single_refuted.
(** Second, the class is learnt after timeslots were reserved for the default class. *)
Theorem C29_class_refuted : exists c a, cell_of class_history = Some c /\
  ability_of (known_class 12 (v_class (c_ms c 8))) = Some a /\ ~ can_serve a (in_use c 8 UL) (in_use c 8 DL).
Proof. exact class_refuted. Qed.
Print Assumptions C29_class_refuted.
(** Third, the uplink TBF leaves out the timeslot of the downlink TBF when its USFs are used
    up: the two share none. *)
Theorem C29_common_refuted : exists os c, cell_of os = Some c /\
  in_use c 8 UL <> 0 /\ in_use c 8 DL <> 0 /\ ~ shares (in_use c 8 UL) (in_use c 8 DL).
Proof. exact common_refuted. Qed.
Print Assumptions C29_common_refuted.

(** * C30 *)
(** The TFI found is unused on all enabled timeslots of its TRX, is the lowest such, and no
    allowed TRX has more free ones; the search fails only if no allowed TRX has a free TFI. *)
Theorem C30_tfi : forall b d use_trx,
  match tfi_find_free b d use_trx with
  | Some (k, n) => allowed use_trx n /\ trx_free (b n) d k /\ (forall k', trx_free (b n) d k' -> k <= k') /\
      forall n', allowed use_trx n' -> (free_count (b n') d <= free_count (b n) d)%nat
  | None => forall n k, allowed use_trx n -> ~ trx_free (b n) d k
  end.
Proof. exact tfi_find_free_full. Qed.
Print Assumptions C30_tfi.
Example C30_ex_tfi : seen (cell_of (en [2; 3] ++ [Enable 1 4 0] ++ put_on UL 2 [1; 2] ++ put_on UL 3 [3])) (fun c =>
  (tfi_find_free (c_bts c) UL (-1), tfi_find_free (c_bts c) UL 0, tfi_find_free (c_bts c) UL 2, free_count (c_bts c 0) UL)) =
  Some (Some (0, 1), Some (2, 0), None, 30%nat).
Proof. vm_compute. reflexivity. Qed.

(** * C31 *)
(** After any history the tables, bitmaps and counters of every timeslot describe exactly
    the TBFs and mobiles that use it. *)
Theorem C31_tables : forall def ids os, NoDup ids -> (length ids < 256)%nat ->
  exists c, crun def ids os init_cell = Some c /\ forall n ts, 0 <= ts < 8 -> described ids c n ts.
Proof.
  exact (fun def ids os ND LEN => match cell_history def ids os ND LEN with
    ex_intro _ c (conj A (conj _ (conj _ (conj _ (conj _ B))))) => ex_intro _ c (conj A B) end).
Qed.
Print Assumptions C31_tables.
Example C31_ex_tables : seen (cell_of (en [2; 3] ++ put_on UL 2 [1; 2; 3] ++ [Free 2])) (fun c =>
  (map (pd_tbf (c_bts c 0 2) UL) [0; 1; 2], pd_usf (c_bts c 0 2), pd_gprs (c_bts c 0 2) UL, pd_res (c_bts c 0 2) UL)) =
  Some ([Some 1; None; Some 3], 5, 2, 3).
Proof. vm_compute. reflexivity. Qed.

(** Freeing a TBF takes just this one away; all others are found as before. *)
Theorem C31_free : forall def ids os c t, NoDup ids -> (length ids < 256)%nat ->
  crun def ids os init_cell = Some c -> In t (c_tbfs c) ->
  exists c', cstep def ids (Free (t_id t)) c = Some c' /\
    (forall x, In x (c_tbfs c') <-> In x (c_tbfs c) /\ t_id x <> t_id t) /\
    forall x n ts, In x (c_tbfs c') -> uses x n ts ->
      pd_tbf (c_bts c' n ts) (t_dir x) (t_tfi x) = Some (t_id x) /\ pd_tbf (c_bts c n ts) (t_dir x) (t_tfi x) = Some (t_id x).
Proof. exact free_step. Qed.
Print Assumptions C31_free.
Example C31_ex_free : seen (cell_of (en [2; 3] ++ put_on UL 2 [1; 2; 3])) (fun c =>
  map (fun t => (t_id t, t_slots t, t_tfi t)) (c_tbfs c)) = Some [(3, 4, 2); (2, 4, 1); (1, 4, 0)].
Proof. vm_compute. reflexivity. Qed.
