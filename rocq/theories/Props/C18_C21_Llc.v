(** C18-C21: the downlink LLC queue and its active queue management. *)
From Coq Require Import ZArith List Bool Lia Permutation.
From Verif Require Import Base.Arith Model.Codel Model.LlcQueue Spec.LlcSpec
  Proofs.LlcP Proofs.CodelP Proofs.LlcQ.
Import ListNotations.
Local Open Scope Z_scope.

Definition ex_a := mk_f 1 0xc3 100 1000000000 3000000000.
Definition ex_b := mk_f 2 0xc1 50 1100000000 0.
Definition ex_c := mk_f 3 0xc7 70 1200000000 9000000000.
Definition ex_d := mk_f 4 0xc3 100 1300000000 9000000000.
Definition ex_q := fold_left enqueue [ex_a; ex_b; ex_c; ex_d] (llcq_init 0).

(** *** C18: order and priority. *)

(** Dequeueing takes frames away one by one, each the oldest of the highest non-empty
    priority; the last taken is the one returned, all before it are dropped; nothing is
    returned only if the queue is then empty. *)
Theorem C18_dequeue : forall q now hyst, 0 <= hyst ->
  exists q' r d, dequeue q now hyst = Some (q', r, d) /\
    takes (ql q) (map fst d ++ given r) (ql q') /\ (r = None -> all_frames q' = []).
Proof. exact dequeue_order. Qed.
Print Assumptions C18_dequeue.
Example C18_ex_dequeue : exists q1 q2 q3,
  dequeue ex_q 4000000000 0 = Some (q1, Some (ex_b, PGmm), []) /\
  dequeue q1 4000000000 0 = Some (q2, Some (ex_c, PSms), []) /\
  dequeue q2 4000000000 0 = Some (q3, Some (ex_d, POther), [(ex_a, POther, RLifetime)]).
Proof. do 3 eexists. repeat split; vm_compute; reflexivity. Qed.

(** Enqueueing adds at the end of the list of the frame's priority, and changes nothing
    else. *)
Theorem C18_enqueue : forall q f p,
  ql (enqueue q f) p = if rank p =? rank (frame_prio f) then ql q p ++ [f] else ql q p.
Proof. exact enqueue_lists. Qed.
Print Assumptions C18_enqueue.
(** The priorities: SAPI 1 (GMM), then 2, 7 and 8 (TOM, SMS), then all others. *)
Theorem C18_priority : forall sapi, 0 <= sapi < 16 ->
  rank (sapi2prio sapi) = if sapi =? 1 then 0 else if (sapi =? 2) || (sapi =? 7) || (sapi =? 8) then 1 else 2.
Proof. exact sapi_rank. Qed.
Print Assumptions C18_priority.

(** Putting back the frame just taken restores every list. *)
Theorem C18_put_back : forall q now hyst, 0 <= hyst -> forall q' f p,
  dequeue q now hyst = Some (q', Some (f, p), []) ->
  forall p', ql (merge_prepend q' p f) p' = ql q p'.
Proof. exact put_back_restores. Qed.
Print Assumptions C18_put_back.

(** Merging interleaves the two queues within each priority, keeps the order of each, is
    sorted by arrival if both were, and empties the other queue. *)
Theorem C18_merge : forall q o, let q' := fst (move_and_merge q o) in
  all_frames (snd (move_and_merge q o)) = [] /\
  forall p, shuffle (ql q p) (ql o p) (ql q' p) /\
    (oldest_first (ql q p) -> oldest_first (ql o p) -> oldest_first (ql q' p)).
Proof. exact merge_ok. Qed.
Print Assumptions C18_merge.
Example C18_ex_merge : ql (fst (move_and_merge (fold_left enqueue [ex_a; ex_d] (llcq_init 0))
    (fold_left enqueue [mk_f 9 0xc3 10 1250000000 0; mk_f 10 0xc3 10 1400000000 0] (llcq_init 0)))) POther
  = [ex_a; mk_f 9 0xc3 10 1250000000 0; ex_d; mk_f 10 0xc3 10 1400000000 0].
Proof. vm_compute. reflexivity. Qed.

(** Over any history nothing is lost or duplicated: what came in is what is queued plus
    what went out. *)
Theorem C18_history : forall interval ops, Forall qop_ok ops ->
  exists q g, q_run (llcq_init interval, mk_log [] []) ops = Some (q, g) /\
    Permutation (lg_in g) (all_frames q ++ lg_out g).
Proof. exact history_perm. Qed.
Print Assumptions C18_history.

(** A TBF given up before its first acknowledgement: per priority, the frames queued at
    the start and since are an interleaving of the dropped ones and the queue after
    giving back, each in its old order. *)
Theorem C18_give_back : forall q0 ops,
  (forall p f, In f (ql q0 p) -> 0 < f_len f) -> Forall hop_ok ops ->
  exists s, h_run (mk_hs (mk_h None []) q0 [] []) ops = Some s /\
    forall p, shuffle (of_prio p (hs_drops s)) (ql (copy_back (hs_h s) (hs_q s)) p)
                      (ql q0 p ++ enq_of p (hs_enq s)).
Proof. exact give_back. Qed.
Print Assumptions C18_give_back.
Example C18_ex_give_back : exists s,
  h_run (mk_hs (mk_h None []) ex_q [] [])
    [HSched 4000000000 0; HComplete; HSched 4000000000 0; HComplete; HEnq (mk_f 5 0xc1 5 4000000000 0); HSched 4000000000 0; HComplete; HSched 4000000000 0] = Some s /\
  hs_drops s = [(ex_a, POther)] /\ ql (copy_back (hs_h s) (hs_q s)) PGmm = [ex_b; mk_f 5 0xc1 5 4000000000 0] /\
  ql (copy_back (hs_h s) (hs_q s)) POther = [ex_d].
Proof. eexists. split; [vm_compute; reflexivity|]. vm_compute. tauto. Qed.

(** But a dummy frame sent to fill time is given back too, in front of the signalling
    frames, though it never was queued; and an empty frame is lost. *)
Theorem C18_dummy_refuted :
  let h := complete_frame (put_dummy (mk_h None []) 77 20) in
  let q := enqueue (llcq_init 0) (mk_f 1 0xc1 50 1000000000 0) in
  exists g, ql (copy_back h q) PGmm = [g; mk_f 1 0xc1 50 1000000000 0] /\ f_id g = 77.
Proof. exact dummy_put_back. Qed.
Print Assumptions C18_dummy_refuted.
Theorem C18_empty_frame_refuted :
  let q := enqueue (llcq_init 0) (mk_f 1 0xc3 0 1000000000 0) in
  exists q', schedule_next (mk_h None []) q 1100000000 0 = Some (mk_h None [], q', []) /\ all_frames q' = [].
Proof. exact empty_frame_lost. Qed.
Print Assumptions C18_empty_frame_refuted.

(** *** C19: the counts. *)
Theorem C19_counts : forall interval ops, Forall qop_ok ops ->
  exists q g, q_run (llcq_init interval, mk_log [] []) ops = Some (q, g) /\
    q_size q = Z.of_nat (length (all_frames q)) mod 2 ^ 64 /\
    q_octets q = sum_len (all_frames q) mod 2 ^ 64.
Proof. exact history_counts. Qed.
Print Assumptions C19_counts.
Example C19_ex_counts : exists q g, q_run (llcq_init 4000, mk_log [] [])
   [QEnq ex_a; QEnq ex_b; QMerge ex_q; QDeq 4000000000 0; QDeq 4000000000 0; QDeq 4000000000 0; QPutBack PSms ex_c] = Some (q, g) /\
  q_size q = 4 /\ q_octets q = 370 /\ length (lg_out g) = 3%nat.
Proof. do 2 eexists. split; [vm_compute; reflexivity|]. vm_compute. tauto. Qed.
(** Both queues of a merge, and giving back, keep them too. *)
Theorem C19_merge : forall q o, counts_ok (fst (move_and_merge q o)) /\ counts_ok (snd (move_and_merge q o)).
Proof. exact merge_counts. Qed.
Print Assumptions C19_merge.
Theorem C19_give_back : forall h q, counts_ok q -> counts_ok (copy_back h q).
Proof. exact copy_back_counts. Qed.
Print Assumptions C19_give_back.
(** The discard report carries the number and the octets of the frames dropped, cut at
    its field sizes. *)
Theorem C19_report : forall l, Z.of_nat (length l) < 2 ^ 32 ->
  Forall (fun g => 0 <= f_len g) (dropped_frames l) -> sum_len (dropped_frames l) < 2 ^ 32 ->
  discarded_report l =
    match l with
    | [] => None
    | _ => Some (Z.min (Z.of_nat (length l)) 255, Z.min (sum_len (dropped_frames l)) 0xffffff)
    end.
Proof. exact report_ok. Qed.
Print Assumptions C19_report.
Example C19_ex_report : discarded_report [(ex_a, POther, RLifetime); (ex_c, PSms, RCodel)] = Some (2, 170).
Proof. reflexivity. Qed.

(** *** C20: lifetimes. *)

(** A frame handed out is not overdue, whatever the hysteresis. *)
Theorem C20_delivered_in_time : forall q now hyst q' f p d force delay t0,
  0 <= hyst -> 0 < t0 -> 0 <= lifetime_of force delay ->
  dequeue q now hyst = Some (q', Some (f, p), d) -> f_exp f = calc_pdu_lifetime force delay t0 ->
  ~ overdue force delay t0 now.
Proof. exact delivered_in_time. Qed.
Print Assumptions C20_delivered_in_time.
(** Without hysteresis a frame dropped for age is overdue. *)
Theorem C20_dropped_late : forall q now q' r d f p force delay t0,
  0 < t0 -> 0 <= lifetime_of force delay ->
  dequeue q now 0 = Some (q', r, d) -> In (f, p, RLifetime) d -> f_exp f = calc_pdu_lifetime force delay t0 ->
  overdue force delay t0 now.
Proof. exact discarded_late_plain. Qed.
Print Assumptions C20_dropped_late.
(** With hysteresis, it is overdue or will be within the hysteresis, and then is a long
    frame that is not signalling. *)
Theorem C20_dropped_hysteresis : forall q now hyst q' r d f p force delay t0,
  0 <= hyst -> 0 < t0 -> 0 <= lifetime_of force delay ->
  dequeue q now hyst = Some (q', r, d) -> In (f, p, RLifetime) d -> f_exp f = calc_pdu_lifetime force delay t0 ->
  overdue force delay t0 now \/
  overdue force delay t0 (now + hyst * 10000000) /\ 60 < f_len f /\ frame_prio f <> PGmm.
Proof. exact discarded_late. Qed.
Print Assumptions C20_dropped_hysteresis.
(** An infinite lifetime never runs out. *)
Theorem C20_infinite : forall q now hyst q' r d f p force delay t0,
  0 <= hyst -> lifetime_of force delay = 0xffff -> 0 < t0 ->
  dequeue q now hyst = Some (q', r, d) -> In (f, p, RLifetime) d ->
  f_exp f <> calc_pdu_lifetime force delay t0.
Proof. exact infinite_kept. Qed.
Print Assumptions C20_infinite.
(** Without CoDel, age is the only reason to drop. *)
Theorem C20_only_age : forall q now hyst q' r d, 0 <= hyst -> q_use_codel q = false ->
  dequeue q now hyst = Some (q', r, d) -> Forall (fun x => snd x = RLifetime) d.
Proof. exact only_reasons. Qed.
Print Assumptions C20_only_age.
Example C20_ex : exists q' q'', 
  dequeue (enqueue (llcq_init 0) (mk_f 1 0xc3 100 1000000000 (calc_pdu_lifetime 0 100 1000000000))) 2000000000 0
    = Some (q', Some (mk_f 1 0xc3 100 1000000000 2000000000, POther), []) /\
  dequeue (enqueue (llcq_init 0) (mk_f 1 0xc3 100 1000000000 (calc_pdu_lifetime 0 100 1000000000))) 2000000001 0
    = Some (q'', None, [(mk_f 1 0xc3 100 1000000000 2000000000, POther, RLifetime)]).
Proof. do 2 eexists. split; vm_compute; reflexivity. Qed.
(** So with hysteresis configured "never discarded before its lifetime is over" fails. *)
Theorem C20_hysteresis_refuted :
  exists q', dequeue (fold_left enqueue hyst_frames (llcq_init 0)) 2100000000 50 =
      Some (q', None, map (fun f => (f, POther, RLifetime)) hyst_frames) /\
    ~ overdue 0 100 1500000000 2100000000.
Proof. exact hyst_drops_early. Qed.
Print Assumptions C20_hysteresis_refuted.

(** *** C21: CoDel. *)

(** A frame dropped by CoDel waited at least the target, and more than one packet's worth
    of octets was queued behind it. *)
Theorem C21_queue : forall q now hyst q' r d, dequeue q now hyst = Some (q', r, d) ->
  counts_ok q -> (forall p f, In f (ql q p) -> 0 <= f_len f) -> sum_len (all_frames q) < 2 ^ 31 ->
  forall a f p b, d = a ++ (f, p, RCodel) :: b ->
    cd_target (qc q p) <= now - f_recv f /\
    cd_maxpacket (qc q p) < sum_len (dropped_frames b ++ map fst (given r) ++ all_frames q').
Proof. exact dequeue_codel. Qed.
Print Assumptions C21_queue.

(** Along any observations from the initial state, a drop comes only when all
    observations of at least the last interval were above target with a backlog. *)
Theorem C21_whole_interval : forall s0 h o, start_state s0 -> 0 < cd_interval s0 ->
  Forall (fun o => 0 <= o_now o) (h ++ [o]) -> fst (cd_step (cd_run s0 h) o) = true ->
  exists h1 o1 h2, h = h1 ++ o1 :: h2 /\
    Forall (too_long (cd_target s0) (cd_maxpacket s0)) (o1 :: h2 ++ [o]) /\
    o_now o1 + cd_interval s0 <= o_now o.
Proof. exact drop_after_interval. Qed.
Print Assumptions C21_whole_interval.
(** The very first drop needs two intervals. *)
Theorem C21_first_drop : forall s0 h o, start_state s0 -> 0 < cd_interval s0 ->
  Forall (fun o => 0 <= o_now o) (h ++ [o]) -> cd_drops s0 h = [] -> fst (cd_step (cd_run s0 h) o) = true ->
  exists h1 o1 h2, h = h1 ++ o1 :: h2 /\
    Forall (too_long (cd_target s0) (cd_maxpacket s0)) (o1 :: h2 ++ [o]) /\
    o_now o1 + 2 * cd_interval s0 <= o_now o.
Proof. exact first_drop_two. Qed.
Print Assumptions C21_first_drop.
Definition ex_obs (t : Z) := mk_obs 1 (t * 1000000) 5000.
Example C21_ex_drop : start_state (codel_set_interval codel_init 100) /\
  cd_drops (codel_set_interval codel_init 100) (map ex_obs [10; 50; 109; 150; 209; 210; 250; 308; 309; 310; 380; 390])
    = [210000000; 310000000; 390000000].
Proof. split; [repeat split|vm_compute; reflexivity]. Qed.

(** When dropping began with the observation [o], at count [c], and goes on: the k-th
    further drop is no earlier than [o] plus the control law's delays for c, c+1, .. *)
Theorem C21_pace : forall s o l k t, cd_dropping s = false -> fst (cd_step s o) = true ->
  let s1 := snd (cd_step s o) in cd_keeps s1 l -> nth_error (cd_drops s1 l) k = Some t ->
  1 <= cd_count s1 /\ o_now o + law_sum (cd_interval s) (cd_count s1) (S k) <= t.
Proof. exact phase_paced. Qed.
Print Assumptions C21_pace.
(** The control law's delay at count n is the interval times a value v/256 with
    v + 1 >= 256 / sqrt n, for every n; and v <= 256 / sqrt n up to n = 256. *)
Theorem C21_law : forall n, 1 <= n ->
  0 <= inv_sqrt n <= 255 /\ 65536 <= (inv_sqrt n + 1) * (inv_sqrt n + 1) * n /\
  (2 <= n <= 256 -> inv_sqrt n * inv_sqrt n * n <= 65536).
Proof. exact inv_sqrt_all. Qed.
Print Assumptions C21_law.
(** Single drops may follow closer than one delay when observations come late. *)
Theorem C21_burst_refuted : exists s o l k t t', cd_dropping s = false /\ fst (cd_step s o) = true /\
  let s1 := snd (cd_step s o) in cd_keeps s1 l /\ nth_error (cd_drops s1 l) k = Some t /\
    nth_error (cd_drops s1 l) (S k) = Some t' /\ t' = t.
Proof. exact burst. Qed.
Print Assumptions C21_burst_refuted.
