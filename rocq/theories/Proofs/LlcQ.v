(** The LLC queue: lifetimes, CoDel inside the queue, the discard report. *)
From Coq Require Import ZArith List Bool Lia Permutation.
From Verif Require Import Base.Arith Model.Codel Model.LlcQueue Spec.LlcSpec Proofs.LlcP Proofs.CodelP.
Import ListNotations.
Local Open Scope Z_scope.

Lemma expired_overdue force delay t0 now : 0 < t0 -> 0 <= lifetime_of force delay ->
  is_expired now (calc_pdu_lifetime force delay t0) = true <-> overdue force delay t0 now.
Proof.
  intros T L. unfold overdue, is_expired, calc_pdu_lifetime, lifetime_of in *.
  replace (if negb (force =? 0) then force else delay) with (if force =? 0 then delay else force) by (destruct (force =? 0); reflexivity).
  set (d := if force =? 0 then delay else force) in *.
  destruct (d =? 0xffff) eqn:D.
  - split; [discriminate|lia].
  - destruct (t0 + d * 10000000 =? 0) eqn:Z0; lia.
Qed.

Lemma takes_octets q ps q' : takes (ql q) ps (ql q') -> sum_len (all_frames q) = sum_len (map fst ps) + sum_len (all_frames q').
Proof. intros T. apply takes_all in T. unfold all_frames. rewrite T, sum_len_app. reflexivity. Qed.

Lemma s32_small x : 0 <= x < 2 ^ 31 -> s32 x = x.
Proof. intros L. unfold s32. rewrite Z.mod_small by lia. lia. Qed.

Lemma sum_len_nonneg l : Forall (fun g => 0 <= f_len g) l -> 0 <= sum_len l.
Proof. unfold sum_len. induction 1; cbn [fold_right]; lia. Qed.

Definition same_params (q q' : llcq) : Prop :=
  forall p, cd_target (qc q' p) = cd_target (qc q p) /\ cd_maxpacket (qc q' p) = cd_maxpacket (qc q p) /\ cd_interval (qc q' p) = cd_interval (qc q p).

Lemma control_params s r n b : cd_target (snd (codel_control s r n b)) = cd_target s /\
  cd_maxpacket (snd (codel_control s r n b)) = cd_maxpacket s /\ cd_interval (snd (codel_control s r n b)) = cd_interval s.
Proof. destruct (step_params s (mk_obs r n b)) as (A & B & C). unfold cd_step in *. cbn [o_recv o_now o_bytes] in *. auto. Qed.

Lemma deq_loop_codel fuel : forall q now now2 frames q' r d, deq_loop fuel q now now2 frames = Some (q', r, d) ->
  (qlen q <= fuel)%nat -> counts_ok q -> (forall p f, In f (ql q p) -> 0 <= f_len f) -> sum_len (all_frames q) < 2 ^ 31 ->
  same_params q q' /\
  forall a f p b, d = a ++ (f, p, RCodel) :: b ->
    cd_target (qc q p) <= now - f_recv f /\
    cd_maxpacket (qc q p) < sum_len (dropped_frames b ++ map fst (given r) ++ all_frames q').
Proof.
  induction fuel as [|n IH]; intros q now now2 frames q' r d E FU CO LE SM; cbn [deq_loop] in E.
  - destruct (pick q) as [[[f p] q1]|]; [discriminate|]. injection E as <- <- <-.
    split; [intros p; auto|]. intros a f p b X. destruct a; discriminate.
  - destruct (pick_spec q) as [[E0 A]|(f & p & rs & q1 & E0 & A & B & HI & C & CC & U & QC & SZ)]; rewrite E0 in E.
    { injection E as <- <- <-. split; [intros p; auto|]. intros a f p b X. destruct a; discriminate. }
    specialize (CC CO).
    assert (T1 : takes (ql q) [(f, p)] (ql q1)).
    { apply (tk_cons _ f p [] (ql q1) (ql q1)); auto; [congruence|constructor; auto]. }
    pose proof (takes_octets _ _ _ T1) as OC.
    cbn [map fst] in OC. assert (LF : 0 <= f_len f) by (apply (LE p); rewrite A; left; reflexivity).
    assert (LE1 : forall p' g, In g (ql q1 p') -> 0 <= f_len g).
    { intros p' g I. apply (LE p'). destruct (prio_dec p' p) as [->|N]; [rewrite A; right; congruence|rewrite <- C; auto]. }
    assert (NN : 0 <= sum_len (all_frames q1)).
    { assert (FA : Forall (fun g => 0 <= f_len g) (all_frames q1)).
      { unfold all_frames. rewrite !Forall_app, !Forall_forall. splits; apply LE1. }
      apply sum_len_nonneg, FA. }
    assert (OC' : sum_len (all_frames q) = f_len f + sum_len (all_frames q1)) by (unfold sum_len in *; cbn [fold_right] in OC; lia).
    clear OC.
    destruct (if q_use_codel q1 then
                let '(d, c') := codel_control (qc q1 p) (f_recv f) now (s32 (q_octets q1)) in (d, set_qc q1 p c')
              else (false, q1)) as [cd q2] eqn:CD.
    assert (Q2 : (forall p', ql q2 p' = ql q1 p') /\ counts_ok q2 /\ same_params q q2 /\
                 (cd = true -> cd_target (qc q p) <= now - f_recv f /\ cd_maxpacket (qc q p) < sum_len (all_frames q1))).
    { destruct (q_use_codel q1) eqn:UC.
      - destruct (codel_control _ _ _ _) as [dd c'] eqn:CE. injection CD as <- <-. splits.
        + intros p'. apply ql_qc.
        + destruct CC as [K1 K2]. unfold counts_ok, all_frames in *. rewrite !ql_qc.
          split; [rewrite <- K1|rewrite <- K2]; destruct p; reflexivity.
        + intros p'. pose proof (control_params (qc q1 p) (f_recv f) now (s32 (q_octets q1))) as CP. rewrite CE in CP. cbn [snd] in CP.
          destruct (prio_dec p' p) as [->|N].
          * replace (qc (set_qc q1 p c') p) with c' by (destruct p; reflexivity). rewrite <- (QC p). exact CP.
          * replace (qc (set_qc q1 p c') p') with (qc q1 p') by (destruct p, p'; try reflexivity; congruence). rewrite (QC p'). auto.
        + intros ->. destruct (bad_dec (qc q1 p) (mk_obs (f_recv f) now (s32 (q_octets q1)))) as [BD|NB].
          * destruct BD as [B1 B2]. cbn [o_now o_recv o_bytes] in *. rewrite (QC p) in *.
            destruct CC as [_ K2]. rewrite K2 in B2. rewrite Z.mod_small, s32_small in B2 by lia. lia.
          * destruct (step_good _ _ NB) as [X _]. unfold cd_step in X. cbn [o_now o_recv o_bytes] in X. rewrite CE in X. discriminate.
      - injection CD as <- <-. splits; auto; [|discriminate]. intros p'. rewrite (QC p'). auto. }
    destruct Q2 as (QA & QB & QP & QD). clear CD.
    assert (AF : all_frames q2 = all_frames q1) by (unfold all_frames; rewrite !QA; reflexivity).
    assert (QLE : qlen q2 = qlen q1).
    { unfold qlen. pose proof (QA PGmm) as Q1. pose proof (QA PSms) as Q22. pose proof (QA POther) as Q3.
      cbn [ql] in Q1, Q22, Q3. congruence. }
    assert (STOP : Some (q2, Some (f, p), []) = Some (q', r, d) -> same_params q q' /\
      forall a f p b, d = a ++ (f, p, RCodel) :: b -> cd_target (qc q p) <= now - f_recv f /\
      cd_maxpacket (qc q p) < sum_len (dropped_frames b ++ map fst (given r) ++ all_frames q')).
    { intros X. injection X as <- <- <-. split; [exact QP|]. intros a g p0 b X. destruct a; discriminate. }
    assert (DROP : forall rs', (rs' = RCodel -> cd = true) ->
       match deq_loop n q2 now now2 (u32 (frames + 1)) with
       | None => None | Some (q3, res, l) => Some (q3, res, (f, p, rs') :: l) end = Some (q', r, d) -> same_params q q' /\
      forall a f p b, d = a ++ (f, p, RCodel) :: b -> cd_target (qc q p) <= now - f_recv f /\
      cd_maxpacket (qc q p) < sum_len (dropped_frames b ++ map fst (given r) ++ all_frames q')).
    { intros rs' RC X. destruct (deq_loop n q2 now now2 (u32 (frames + 1))) as [[[q3 res] l]|] eqn:DL; [|discriminate].
      injection X as -> -> <-.
      destruct (IH _ _ _ _ _ _ _ DL) as [SP1 G]; auto.
      { lia. }
      { intros p' g. rewrite QA. apply LE1. }
      { rewrite AF. lia. }
      split.
      { intros p'. destruct (QP p') as (E1 & E2 & E3), (SP1 p') as (E4 & E5 & E6). rewrite E4, E5, E6. auto. }
      intros a g p0 b X. destruct a as [|y a]; cbn [app] in X.
      - injection X as -> -> -> ->. specialize (QD (RC eq_refl)). destruct QD as [QD1 QD2]. split; [exact QD1|].
        assert (TK : takes (ql q2) (out_taken r b) (ql q')).
        { destruct (deq_loop_spec n q2 now now2 (u32 (frames + 1))) as (q'' & r'' & d'' & D1 & D2 & _).
          - assert (QLL : qlen q2 = qlen q1) by exact QLE. lia.
          - rewrite DL in D1. injection D1 as <- <- <-. exact D2. }
        apply takes_octets in TK. rewrite AF in TK. unfold out_taken in TK. rewrite map_app, map_map in TK.
        fold (dropped_frames b) in TK. rewrite sum_len_app in TK. unfold dropped_frames in *.
        rewrite !sum_len_app. unfold given. lia.
      - injection X as <- ->. destruct (G a g p0 b eq_refl) as [G1 G2]. destruct (QP p0) as (E1 & E2 & _).
        rewrite E1 in G1. rewrite E2 in G2. auto. }
    destruct cd; [apply (DROP RCodel); auto|].
    destruct (negb (is_expired now2 (f_exp f))); [apply STOP; exact E|].
    destruct (negb (is_expired now (f_exp f))).
    + destruct (frames =? 0); [apply STOP; exact E|].
      destruct (negb (can_be_discarded f)); [apply STOP; exact E|apply (DROP RLifetime); [discriminate|exact E]].
    + apply (DROP RLifetime); [discriminate|exact E].
Qed.

Lemma dequeue_codel q now hyst q' r d : dequeue q now hyst = Some (q', r, d) ->
  counts_ok q -> (forall p f, In f (ql q p) -> 0 <= f_len f) -> sum_len (all_frames q) < 2 ^ 31 ->
  forall a f p b, d = a ++ (f, p, RCodel) :: b ->
    cd_target (qc q p) <= now - f_recv f /\
    cd_maxpacket (qc q p) < sum_len (dropped_frames b ++ map fst (given r) ++ all_frames q').
Proof. intros E C L S. destruct (deq_loop_codel _ _ _ _ _ _ _ _ E (le_n _) C L S) as [_ G]. exact G. Qed.

(** The report. *)
Lemma fold_count (l : list (frame * prio * reason)) : forall n, 0 <= n -> n + Z.of_nat (length l) < 2 ^ 32 ->
  fold_left (fun n _ => u32 (n + 1)) l n = n + Z.of_nat (length l).
Proof.
  induction l as [|x l IH]; intros n N B; cbn [fold_left length] in *; [lia|].
  assert (E : u32 (n + 1) = n + 1) by (unfold u32; apply Z.mod_small; lia). rewrite E, IH; lia.
Qed.
Lemma fold_octets (l : list (frame * prio * reason)) : forall n, 0 <= n -> Forall (fun g => 0 <= f_len g) (dropped_frames l) ->
  n + sum_len (dropped_frames l) < 2 ^ 32 ->
  fold_left (fun n x => u32 (n + f_len (fst (fst x)))) l n = n + sum_len (dropped_frames l).
Proof.
  induction l as [|x l IH]; intros n N F B; cbn [fold_left dropped_frames map] in *; [unfold sum_len; cbn; lia|].
  fold (dropped_frames l) in *. inversion F as [|? ? F1 F2]; subst. pose proof (sum_len_nonneg _ F2) as NN.
  unfold sum_len in B |- *. cbn [fold_right] in *. fold (sum_len (dropped_frames l)) in *.
  assert (E : u32 (n + f_len (fst (fst x))) = n + f_len (fst (fst x))) by (unfold u32; apply Z.mod_small; lia).
  rewrite E, IH; auto; lia.
Qed.
Lemma report_ok l : Z.of_nat (length l) < 2 ^ 32 -> Forall (fun g => 0 <= f_len g) (dropped_frames l) ->
  sum_len (dropped_frames l) < 2 ^ 32 ->
  discarded_report l = match l with [] => None | _ => Some (Z.min (Z.of_nat (length l)) 255, Z.min (sum_len (dropped_frames l)) 0xffffff) end.
Proof.
  intros A F B. unfold discarded_report. cbv zeta. rewrite fold_count by lia. rewrite fold_octets by (auto; lia).
  rewrite !Z.add_0_l. destruct l as [|x l]; [reflexivity|].
  assert (P : 0 < Z.of_nat (length (x :: l))) by (cbn [length]; lia).
  destruct (Z.of_nat (length (x :: l)) =? 0) eqn:E; [lia|reflexivity].
Qed.

(** ** The statements *)
Lemma dequeue_order q now hyst : 0 <= hyst ->
  exists q' r d, dequeue q now hyst = Some (q', r, d) /\
    takes (ql q) (map fst d ++ given r) (ql q') /\ (r = None -> all_frames q' = []).
Proof.
  intros Hy. destruct (dequeue_spec q now hyst Hy) as (q' & r & d & A & B & _ & _ & D & _).
  exists q', r, d. splits; auto. intros R. unfold all_frames. rewrite !(D R). reflexivity.
Qed.
Lemma merge_ok q o : let q' := fst (move_and_merge q o) in
  all_frames (snd (move_and_merge q o)) = [] /\
  forall p, shuffle (ql q p) (ql o p) (ql q' p) /\
    (oldest_first (ql q p) -> oldest_first (ql o p) -> oldest_first (ql q' p)).
Proof.
  cbv zeta. split; [unfold all_frames; rewrite !merge_other_empty; reflexivity|].
  intros p. rewrite merge_lists_of. split; [apply merge_shuffle|].
  rewrite !oldest_sorted. apply merge_sorted.
Qed.
Lemma put_back_restores q now hyst : 0 <= hyst -> forall q' f p, dequeue q now hyst = Some (q', Some (f, p), []) ->
  forall p', ql (merge_prepend q' p f) p' = ql q p'.
Proof.
  intros Hy q' f p E p'. destruct (dequeue_spec q now hyst Hy) as (q1 & r & d & A & B & _).
  rewrite E in A. injection A as <- <- <-. unfold out_taken in B. cbn [map app] in B.
  rewrite (takes_prio _ _ _ B p'), prepend_lists, of_prio_cons, (Z.eqb_sym (rank p')).
  destruct (rank p =? rank p'); reflexivity.
Qed.

Lemma delivered_in_time q now hyst q' f p d force delay t0 : 0 <= hyst -> 0 < t0 -> 0 <= lifetime_of force delay ->
  dequeue q now hyst = Some (q', Some (f, p), d) -> f_exp f = calc_pdu_lifetime force delay t0 ->
  ~ overdue force delay t0 now.
Proof.
  intros Hy T L E X O. destruct (dequeue_spec q now hyst Hy) as (q1 & r & d1 & A & _ & _ & _ & _ & G & _).
  rewrite E in A. injection A as <- <- <-. specialize (G f p eq_refl). rewrite X in G.
  apply (expired_overdue force delay t0 now T L) in O. congruence.
Qed.
Lemma discarded_late q now hyst q' r d f p force delay t0 : 0 <= hyst -> 0 < t0 -> 0 <= lifetime_of force delay ->
  dequeue q now hyst = Some (q', r, d) -> In (f, p, RLifetime) d -> f_exp f = calc_pdu_lifetime force delay t0 ->
  overdue force delay t0 now \/
  overdue force delay t0 (now + hyst * 10000000) /\ 60 < f_len f /\ frame_prio f <> PGmm.
Proof.
  intros Hy T L E I X. destruct (dequeue_spec q now hyst Hy) as (q1 & r1 & d1 & A & _ & _ & _ & _ & _ & _ & G).
  rewrite E in A. injection A as <- <- <-. apply in_split in I as (a & b & ->).
  destruct (G a _ b eq_refl eq_refl) as [G1 G2]. cbn [fst] in *. rewrite X in *.
  rewrite (expired_overdue force delay t0 now T L) in G2.
  rewrite (expired_overdue force delay t0 (now + hyst * 10000000) T L) in G1.
  destruct G2 as [G2|[_ G2]]; [auto|right]. split; [exact G1|].
  unfold can_be_discarded in G2. destruct (f_len f <=? 60) eqn:L60; [discriminate|]. split; [lia|].
  destruct (f_addr f mod 16 =? 1) eqn:S1; [discriminate|]. unfold frame_prio, sapi2prio.
  intros P. pose proof (Z.mod_pos_bound (f_addr f) 16 ltac:(lia)) as B.
  assert (Cs : f_addr f mod 16 <> 1) by lia.
  destruct (f_addr f mod 16) as [|[[[[]|[]|]|[[]|[]|]|]|[[[]|[]|]|[[]|[]|]|]|]|]; try discriminate; lia.
Qed.
Lemma discarded_late_plain q now q' r d f p force delay t0 : 0 < t0 -> 0 <= lifetime_of force delay ->
  dequeue q now 0 = Some (q', r, d) -> In (f, p, RLifetime) d -> f_exp f = calc_pdu_lifetime force delay t0 ->
  overdue force delay t0 now.
Proof.
  intros T L E I X. destruct (discarded_late q now 0 q' r d f p force delay t0 (Z.le_refl 0) T L E I X) as [O|[O _]]; auto.
  rewrite Z.add_0_r in O. exact O.
Qed.
Lemma infinite_kept q now hyst q' r d f p force delay t0 : 0 <= hyst -> lifetime_of force delay = 0xffff ->
  0 < t0 -> dequeue q now hyst = Some (q', r, d) -> In (f, p, RLifetime) d ->
  f_exp f <> calc_pdu_lifetime force delay t0.
Proof.
  intros Hy L T E I X. destruct (discarded_late q now hyst q' r d f p force delay t0 Hy T ltac:(lia) E I X) as [[O _]|[[O _] _]]; auto.
Qed.
Lemma only_reasons q now hyst q' r d : 0 <= hyst -> q_use_codel q = false -> dequeue q now hyst = Some (q', r, d) ->
  Forall (fun x => snd x = RLifetime) d.
Proof.
  intros Hy U E. destruct (dequeue_spec q now hyst Hy) as (q1 & r1 & d1 & A & _ & _ & _ & _ & _ & G & _).
  rewrite E in A. injection A as <- <- <-. auto.
Qed.

(** Witnesses. *)
Definition hyst_frames : list frame :=
  [mk_f 1 0xc3 100 1000000000 (calc_pdu_lifetime 0 100 1000000000);
   mk_f 2 0xc3 100 1500000000 (calc_pdu_lifetime 0 100 1500000000)].
Lemma hyst_drops_early :
  exists q', dequeue (fold_left enqueue hyst_frames (llcq_init 0)) 2100000000 50 =
      Some (q', None, map (fun f => (f, POther, RLifetime)) hyst_frames) /\
    ~ overdue 0 100 1500000000 2100000000.
Proof. eexists. split; [vm_compute; reflexivity|]. intros [_ O]. revert O. vm_compute. discriminate. Qed.
Lemma dummy_put_back :
  let h := complete_frame (put_dummy (mk_h None []) 77 20) in
  let q := enqueue (llcq_init 0) (mk_f 1 0xc1 50 1000000000 0) in
  exists g, ql (copy_back h q) PGmm = [g; mk_f 1 0xc1 50 1000000000 0] /\ f_id g = 77.
Proof. cbv zeta. eexists. split; vm_compute; reflexivity. Qed.
Lemma empty_frame_lost :
  let q := enqueue (llcq_init 0) (mk_f 1 0xc3 0 1000000000 0) in
  exists q', schedule_next (mk_h None []) q 1100000000 0 = Some (mk_h None [], q', []) /\ all_frames q' = [].
Proof. cbv zeta. eexists. split; vm_compute; reflexivity. Qed.
Lemma sapi_rank sapi : 0 <= sapi < 16 ->
  rank (sapi2prio sapi) = if sapi =? 1 then 0 else if (sapi =? 2) || (sapi =? 7) || (sapi =? 8) then 1 else 2.
Proof.
  intros B. destruct sapi as [|[[[[]|[]|]|[[]|[]|]|]|[[[]|[]|]|[[]|[]|]|]|]|]; try reflexivity; lia.
Qed.
Lemma history_perm interval ops : Forall qop_ok ops ->
  exists q g, q_run (llcq_init interval, mk_log [] []) ops = Some (q, g) /\ Permutation (lg_in g) (all_frames q ++ lg_out g).
Proof. intros F. destruct (history interval ops F) as (q & g & A & _ & B). eauto. Qed.
Lemma history_counts interval ops : Forall qop_ok ops ->
  exists q g, q_run (llcq_init interval, mk_log [] []) ops = Some (q, g) /\
    q_size q = Z.of_nat (length (all_frames q)) mod 2 ^ 64 /\ q_octets q = sum_len (all_frames q) mod 2 ^ 64.
Proof. intros F. destruct (history interval ops F) as (q & g & A & B & _). eauto. Qed.
Lemma inv_sqrt_all n : 1 <= n ->
  0 <= inv_sqrt n <= 255 /\ 65536 <= (inv_sqrt n + 1) * (inv_sqrt n + 1) * n /\
  (2 <= n <= 256 -> inv_sqrt n * inv_sqrt n * n <= 65536).
Proof. intros N. destruct (inv_sqrt_ok n N). split; [assumption|]. split; [assumption|]. apply inv_sqrt_exact. Qed.
Definition burst_obs (t : Z) := mk_obs 1 (t * 1000000) 5000.
Definition burst_state := cd_run (codel_set_interval codel_init 100) (map burst_obs [10; 150]).
Lemma burst : exists s o l k t t', cd_dropping s = false /\ fst (cd_step s o) = true /\
  let s1 := snd (cd_step s o) in cd_keeps s1 l /\ nth_error (cd_drops s1 l) k = Some t /\
    nth_error (cd_drops s1 l) (S k) = Some t' /\ t' = t.
Proof.
  exists burst_state, (burst_obs 210), (map burst_obs [900; 900]), 0%nat, 900000000, 900000000.
  cbv zeta. split; [vm_compute; reflexivity|]. split; [vm_compute; reflexivity|].
  split; [vm_compute; tauto|]. split; [vm_compute; reflexivity|]. split; vm_compute; reflexivity.
Qed.
