(** Flow control: bounds, capacity and the mean delay. *)
From Coq Require Import ZArith List Bool Lia.
From Verif Require Import Base.Arith Model.CodingScheme Model.BtsConf Model.FlowCtl Spec.CodingSpec Spec.FlowCtlSpec.
Import ListNotations.
Open Scope Z_scope.

Lemma u32_pos x : 0 <= u32 x < 2 ^ 32. Proof. apply Z.mod_pos_bound. lia. Qed.
Lemma u32_id x : 0 <= x < 2 ^ 32 -> u32 x = x. Proof. apply Z.mod_small. Qed.

Lemma bucket_bounds c leak fb : 0 < fb -> 1 <= bucket_size c leak fb <= 6553500.
Proof.
  intros F. unfold bucket_size, MAX_BUCKET. cbv zeta.
  set (time := if c_time c =? 0 then c_lifetime c else c_time c).
  set (b0 := if time =? 65535 then 6553500 else 0).
  set (b1 := if (b0 =? 0) && negb (time =? 0) && negb (leak =? 0) then u32 (leak * time / 100) else b0).
  set (b2 := if (b1 =? 0) && negb (leak =? 0) then u32 (leak * LIFE_TIME) else b1).
  assert (B0 : 0 <= b0) by (unfold b0; destruct (time =? 65535); lia).
  assert (B1 : 0 <= b1) by (unfold b1; destruct ((b0 =? 0) && _ && _); [apply u32_pos|exact B0]).
  assert (B2 : 0 <= b2) by (unfold b2; destruct ((b1 =? 0) && _); [apply u32_pos|exact B1]).
  rewrite Z.gtb_ltb. destruct (Z.eqb_spec b2 0); destruct (Z.ltb_spec 6553500 (if b2 =? 0 then fb else b2)); subst; try lia.
  all: match goal with |- context [Z.ltb ?a ?b] => destruct (Z.ltb_spec a b) end; lia.
Qed.

Lemma data_payload c : mcs_max_data_block_bytes c * num_data_blocks (mcs_header_type c) = payload c * blocks_of c.
Proof. destruct c; reflexivity. Qed.
Lemma payload_pos c : 0 <= payload c * blocks_of c <= 148.
Proof. destruct c; cbn; lia. Qed.
Lemma max_leak_capacity c n : 0 <= n <= 64 -> max_leak c n = capacity c n /\ 0 <= capacity c n <= 473600.
Proof.
  intros N. pose proof (payload_pos c) as P. unfold max_leak, capacity. rewrite data_payload. change (1000 / 20) with 50.
  set (p := payload c * blocks_of c) in *. assert (0 <= p * 50 * n <= 473600) by nia. split; [apply u32_id; lia|assumption].
Qed.

Definition cnt_ok (f : fcount) : Prop :=
  0 <= f_sent f < 2 ^ 32 /\ 0 <= f_bytes f < 2 ^ 32 /\ 0 <= f_frames f < 2 ^ 32 /\ 0 <= f_sec f /\ 0 <= f_nsec f < 1000000000 /\ 0 <= f_delays f < 2 ^ 32.

Lemma report_bounds c l f p f' : conf_ok c -> cell_ok l -> report c l f = Some (p, f') ->
  1 <= u_bucket p <= 6553500 /\ 1 <= u_ms_bucket p <= 6553500 /\ 0 <= u_leak p <= 819187 /\ 0 <= u_ms_leak p <= 819187.
Proof.
  intros (_ & _ & Cb & Cl & Mb & Ml) [N S] R. unfold report in R. cbv zeta in R.
  set (cs := max_scheme c (l_conf l)) in *.
  match type of R with match ?x with _ => _ end = _ => destruct x as [[leak f1]|] eqn:E; [|discriminate] end.
  assert (LP : 0 <= leak).
  { destruct (c_bvc_leak c =? 0) eqn:Z0.
    - destruct (measured f (l_pdch l)) as [[[rate usage] f2]|]; [|discriminate]. destruct (rate >? 0).
      + destruct (fits _ && fits _); [|discriminate]. injection E as <- _. apply Z.div_pos; [apply u32_pos|lia].
      + injection E as <- _. lia.
    - injection E as <- _. apply Z.eqb_neq in Z0. unfold forced in Cl. lia. }
  injection R as <- _. cbn [u_bucket u_ms_bucket u_leak u_ms_leak].
  destruct (max_leak_capacity cs (l_pdch l) N) as [Mc Cc]. rewrite Mc.
  set (leak' := if leak =? 0 then capacity cs (l_pdch l) else leak).
  assert (L' : 0 <= leak') by (unfold leak'; destruct (leak =? 0); lia).
  set (bk := if c_bvc_bucket c =? 0 then bucket_size c leak' FALLBACK else c_bvc_bucket c).
  assert (Bk : 1 <= bk <= 6553500).
  { unfold bk. destruct (Z.eqb_spec (c_bvc_bucket c) 0); [apply bucket_bounds; reflexivity|]. destruct Cb; lia. }
  match goal with |- context [min_leak (if c_ms_leak c =? 0 then ?a else ?b)] => set (msl := if c_ms_leak c =? 0 then a else b) in * end.
  assert (Ms : 0 <= msl).
  { unfold msl. destruct (Z.eqb_spec (c_ms_leak c) 0); [apply u32_pos|]. destruct Ml; lia. }
  split; [exact Bk|]. split.
  { destruct (Z.eqb_spec (c_ms_bucket c) 0); [|destruct Mb; lia]. apply bucket_bounds. unfold ms_fallback. pose proof (Z.div_pos bk 2). lia. }
  assert (Mn : forall x, 0 <= x -> 0 <= min_leak x <= 819187).
  { intros x X. unfold min_leak. change MAX_LEAK with 819187. rewrite Z.gtb_ltb. destruct (Z.ltb_spec 819187 x); lia. }
  split; apply Mn; assumption.
Qed.

Lemma run_all (P : pdu -> Prop) (K : fop -> Prop) :
  (forall c l f p f', K (FReport c l) -> report c l f = Some (p, f') -> P p) ->
  forall h f out f' out', Forall K h -> Forall P out -> f_run f out h = Some (f', out') -> Forall P out'.
Proof.
  intros S. induction h as [|o h IH]; intros f out f' out' Hk Ho R; cbn [f_run] in R; [injection R as _ <-; exact Ho|].
  inversion Hk; subst. destruct (f_step f o) as [[f1 p]|] eqn:E; [|discriminate]. eapply IH; [eassumption| |exact R].
  apply Forall_app. split; [exact Ho|]. destruct o; cbn [f_step] in E; try (injection E as _ <-; constructor).
  destruct (report c l f) as [[q f2]|] eqn:Q; [|discriminate]. injection E as _ <-. constructor; [eapply S; eassumption|constructor].
Qed.

Theorem bounds : forall h f out, hist_ok h -> f_run fcount0 [] h = Some (f, out) ->
  Forall (fun p => 1 <= u_bucket p <= 6553500 /\ 1 <= u_ms_bucket p <= 6553500 /\ 0 <= u_leak p <= 6553500 / 8 /\ 0 <= u_ms_leak p <= 6553500 / 8) out.
Proof.
  intros h f out H R. eapply (run_all _ (fun o => match o with FReport c l => conf_ok c /\ cell_ok l | _ => True end)); [| |constructor|exact R].
  - intros c l f0 p f' [A B] Q. change (6553500 / 8) with 819187. eapply report_bounds; eauto.
  - eapply Forall_impl; [|exact H]. intros o. destruct o; auto.
Qed.

(** No acknowledgement: nothing measured. *)
Definition no_bytes (h : list fop) : Prop := Forall (fun o => match o with FBytes _ _ => False | _ => True end) h.

Lemma report_frames c l f p f' : f_frames f = 0 -> report c l f = Some (p, f') -> f_frames f' = 0.
Proof.
  intros F R. unfold report in R. cbv zeta in R. unfold measured in R. rewrite F in R. change (0 =? 0) with true in R. cbv beta iota in R.
  destruct (c_bvc_leak c =? 0); [destruct (f_sent f =? 0)|]; cbn in R; injection R as _ <-; exact F.
Qed.

Lemma run_no_bytes : forall h f out f' out', no_bytes h -> f_frames f = 0 -> f_run f out h = Some (f', out') -> f_frames f' = 0.
Proof.
  induction h as [|o h IH]; intros f out f' out' N F R; cbn [f_run] in R; [injection R as <- _; exact F|].
  inversion N; subst. destruct (f_step f o) as [[f1 p]|] eqn:E; [|discriminate]. eapply IH; [eassumption| |exact R].
  destruct o; cbn [f_step] in E; try contradiction; try (injection E as <- _; exact F).
  destruct (report c l f) as [[q f2]|] eqn:Q; [|discriminate]. injection E as <- _. eapply report_frames; eauto.
Qed.

Lemma report_unmeasured c l f : cell_ok l -> f_frames f = 0 -> exists p f', report c l f = Some (p, f') /\
  (c_bvc_leak c = 0 -> u_leak p = Z.min (6553500 / 8) (capacity (max_scheme c (l_conf l)) (l_pdch l))) /\
  (c_ms_leak c = 0 -> u_ms_leak p = Z.min (6553500 / 8) (capacity (max_scheme c (l_conf l)) (Z.min (l_pdch l) (Z.min (l_slots l) 4)))).
Proof.
  intros [N S] F. unfold report. cbv zeta.
  assert (Mn : forall x, min_leak x = Z.min (6553500 / 8) x).
  { intros x. unfold min_leak. rewrite Z.gtb_ltb. change MAX_LEAK with (6553500 / 8). destruct (Z.ltb_spec (6553500 / 8) x); lia. }
  assert (E : (if c_bvc_leak c =? 0 then
       match measured f (l_pdch l) with
       | None => None
       | Some (rate, usage, f) => if rate >? 0 then if fits (rate * usage) && fits (1000 - usage)
             then Some (u32 (rate * usage + max_leak (max_scheme c (l_conf l)) (l_pdch l) * u32 (1000 - usage)) / 1000, f) else None
           else Some (0, f) end
     else Some (c_bvc_leak c, f)) = Some (if c_bvc_leak c =? 0 then 0 else c_bvc_leak c, f)).
  { destruct (c_bvc_leak c =? 0); [|reflexivity]. unfold measured. rewrite F. destruct (f_sent f =? 0); reflexivity. }
  rewrite E. eexists. eexists. split; [reflexivity|]. cbn [u_leak u_ms_leak]. rewrite !Mn. split.
  - intros ->. cbn [Z.eqb]. f_equal. now apply max_leak_capacity.
  - intros ->. cbn [Z.eqb]. f_equal. unfold MS_MAX_RX_SLOTS. rewrite !Z.gtb_ltb.
    assert (X : (if (if 4 <? l_slots l then 4 else l_slots l) <? l_pdch l then if 4 <? l_slots l then 4 else l_slots l else l_pdch l) = Z.min (l_pdch l) (Z.min (l_slots l) 4)).
    { destruct (Z.ltb_spec 4 (l_slots l)); match goal with |- context [?a <? ?b] => destruct (Z.ltb_spec a b) end; lia. }
    rewrite X. apply max_leak_capacity. lia.
Qed.

Theorem unmeasured : forall h f out c l, no_bytes h -> f_run fcount0 [] h = Some (f, out) -> cell_ok l ->
  exists p f', f_run f out [FReport c l] = Some (f', out ++ [p]) /\
  (c_bvc_leak c = 0 -> u_leak p = Z.min (6553500 / 8) (capacity (max_scheme c (l_conf l)) (l_pdch l))) /\
  (c_ms_leak c = 0 -> u_ms_leak p = Z.min (6553500 / 8) (capacity (max_scheme c (l_conf l)) (Z.min (l_pdch l) (Z.min (l_slots l) 4)))).
Proof.
  intros h f out c l N R L. assert (F : f_frames f = 0) by (eapply run_no_bytes; eauto; reflexivity).
  destruct (report_unmeasured c l f L F) as (p & f' & E & A). exists p, f'. cbn [f_run f_step]. rewrite E. auto.
Qed.

(** Measured: the estimate lies between the measured rate and the capacity, as long as the blocks
    acknowledged are no more than those sent, and nothing overflows. *)
Theorem estimate : forall c l f, cell_ok l -> c_bvc_leak c = 0 -> 0 < f_sent f -> 0 < f_frames f <= f_sent f -> 0 <= f_bytes f ->
  f_sent f * 1000 < 2 ^ 32 -> f_bytes f * 1000 * 64 < 2 ^ 32 -> f_bytes f <= 148 * f_frames f ->
  let rate := f_bytes f * 1000 * l_pdch l / (20 * f_frames f) in
  let cap := capacity (max_scheme c (l_conf l)) (l_pdch l) in
  0 < rate ->
  exists p f', report c l f = Some (p, f') /\ f_sent f' = 0 /\ f_bytes f' = 0 /\ f_frames f' = 0 /\
  (u_leak p = cap \/ Z.min rate cap <= u_leak p <= Z.max rate cap).
Proof.
  intros c l f [N S] C0 Fs Ff Fb O1 O2 O3 rate cap R0. unfold report. cbv zeta. rewrite C0. cbn [Z.eqb].
  unfold measured. rewrite (proj2 (Z.eqb_neq (f_sent f) 0)) by lia. rewrite (proj2 (Z.eqb_neq (f_frames f) 0)) by lia.
  rewrite (u32_id (20 * f_frames f)) by lia. rewrite (proj2 (Z.eqb_neq (20 * f_frames f) 0)) by lia.
  rewrite (u32_id (f_frames f * 1000)) by lia. rewrite (u32_id (f_bytes f * 1000 * l_pdch l)) by nia. fold rate.
  assert (Us : 0 <= f_frames f * 1000 / f_sent f <= 1000).
  { split; [apply Z.div_pos; lia|]. apply Z.div_le_upper_bound; lia. }
  set (usage := f_frames f * 1000 / f_sent f) in *.
  assert (Rb : rate <= 473600).
  { unfold rate. apply Z.div_le_upper_bound; [lia|]. nia. }
  assert (Sg : forall x, 0 <= x < 2 ^ 31 -> s32 x = x).
  { intros x X. unfold s32. rewrite Z.mod_small by lia. cbv zeta. rewrite (proj2 (Z.ltb_lt _ _)) by lia. reflexivity. }
  rewrite !Sg by lia. rewrite Z.gtb_ltb, (proj2 (Z.ltb_lt 0 rate)) by lia.
  destruct (max_leak_capacity (max_scheme c (l_conf l)) (l_pdch l) N) as [Mc Cc]. rewrite Mc. fold cap in Mc, Cc |- *.
  assert (Ft : fits (rate * usage) && fits (1000 - usage) = true).
  { unfold fits. rewrite !andb_true_iff, !Z.leb_le, !Z.ltb_lt. nia. }
  rewrite Ft. rewrite (u32_id (1000 - usage)) by lia. rewrite (u32_id (rate * usage + cap * (1000 - usage))) by nia.
  set (est := (rate * usage + cap * (1000 - usage)) / 1000).
  assert (Eb : Z.min rate cap <= est <= Z.max rate cap).
  { unfold est. destruct (Z.le_ge_cases rate cap); [rewrite Z.min_l, Z.max_r by lia|rewrite Z.min_r, Z.max_l by lia]; (split; [apply Z.div_le_lower_bound; [lia|]; nia|apply Z.div_le_upper_bound; [lia|]; nia]). }
  eexists. eexists. split; [reflexivity|]. cbn [u_leak f_sent f_bytes f_frames]. split; [reflexivity|]. split; [reflexivity|]. split; [reflexivity|].
  unfold min_leak. change MAX_LEAK with 819187. rewrite Z.gtb_ltb.
  destruct (Z.eqb_spec est 0); rewrite (proj2 (Z.ltb_ge _ _)) by lia; [now left|now right].
Qed.

(** The mean delay. *)
Lemma delays_app : forall h1 h2 acc, delays acc (h1 ++ h2) = delays (delays acc h1) h2.
Proof. induction h1 as [|o h1 IH]; intros h2 acc; [reflexivity|]. destruct o; cbn [app delays]; apply IH. Qed.
Lemma total_pos l : Forall (fun x => 0 <= x) l -> 0 <= total l.
Proof. induction 1; cbn [total fold_right]; [lia|]. unfold total in IHForall. lia. Qed.

Definition tracks (l : list Z) (f : fcount) : Prop :=
  Forall (fun x => 0 <= x) l /\ f_sec f = total l / 1000000000 /\ f_nsec f = total l mod 1000000000 /\ f_delays f = u32 (Z.of_nat (length l)).

Lemma measured_keeps f n r u f' : measured f n = Some (r, u, f') -> f_sec f' = f_sec f /\ f_nsec f' = f_nsec f /\ f_delays f' = f_delays f.
Proof.
  unfold measured. destruct (f_sent f =? 0); [intro E; injection E as _ _ <-; auto|]. destruct (f_frames f =? 0); [intro E; injection E as _ _ <-; auto|].
  destruct (u32 (20 * f_frames f) =? 0); [discriminate|]. intro E. injection E as _ _ <-. auto.
Qed.
Lemma report_delay c l f p f' : report c l f = Some (p, f') -> u_delay p = avg_delay f /\ tracks [] f'.
Proof.
  intro R. unfold report in R. cbv zeta in R.
  match type of R with match ?x with _ => _ end = _ => destruct x as [[leak f1]|] eqn:E; [|discriminate] end.
  injection R as <- <-. cbn [u_delay]. split; [|split; [constructor|cbn; repeat split]].
  assert (X : f_sec f1 = f_sec f /\ f_nsec f1 = f_nsec f /\ f_delays f1 = f_delays f).
  { destruct (c_bvc_leak c =? 0); [|injection E as _ <-; auto].
    destruct (measured f (l_pdch l)) as [[[rate usage] f2]|] eqn:M; [|discriminate]. apply measured_keeps in M.
    destruct (rate >? 0); [destruct (fits _ && fits _); [|discriminate]|]; injection E as _ <-; exact M. }
  unfold avg_delay. destruct X as (-> & -> & ->). reflexivity.
Qed.

Lemma step_tracks o f l f' p : match o with FDelay ns => 0 <= ns | _ => True end -> tracks l f -> f_step f o = Some (f', p) -> tracks (delays l [o]) f'.
Proof.
  intros K (A & B & C & D) E. destruct o; cbn [f_step delays] in *.
  - injection E as <- _. split; [exact A|]. auto.
  - injection E as <- _. split; [exact A|]. auto.
  - injection E as <- _. pose proof (total_pos l A) as P. split; [now constructor|]. cbn [f_sec f_nsec f_delays].
    assert (T : total (ns :: l) = ns + total l) by reflexivity. rewrite T, B, C, D.
    assert (Ln : u32 (u32 (Z.of_nat (length l)) + 1) = u32 (Z.of_nat (length (ns :: l)))).
    { unfold u32. rewrite Zplus_mod_idemp_l. f_equal. cbn [length]. lia. }
    pose proof (Z.mod_pos_bound (total l) 1000000000). pose proof (Z.mod_pos_bound ns 1000000000).
    rewrite Z.geb_leb. destruct (Z.leb_spec 1000000000 (total l mod 1000000000 + ns mod 1000000000)); (split; [|split; [|exact Ln]]); Z.div_mod_to_equations; lia.
  - destruct (report c l0 f) as [[q f2]|] eqn:Q; [|discriminate]. injection E as <- _. apply report_delay in Q. apply Q.
Qed.
Lemma run_tracks : forall h f l out f' out', Forall (fun o => match o with FDelay ns => 0 <= ns | _ => True end) h -> tracks l f ->
  f_run f out h = Some (f', out') -> tracks (delays l h) f'.
Proof.
  induction h as [|o h IH]; intros f l out f' out' K T R; cbn [f_run] in R; [injection R as <- _; exact T|].
  inversion K; subst. destruct (f_step f o) as [[f1 p]|] eqn:E; [|discriminate].
  change (o :: h) with ([o] ++ h). rewrite delays_app. eapply IH; [eassumption| |exact R]. eapply step_tracks; eauto.
Qed.

Theorem mean_delay : forall h f out c l p f', hist_ok h -> f_run fcount0 [] h = Some (f, out) -> report c l f = Some (p, f') ->
  let d := delays [] h in d <> [] -> Z.of_nat (length d) < 2 ^ 32 -> total d < 4294967 * 1000000000 ->
  u_delay p = (total d / 1000000000 * 1000) / Z.of_nat (length d).
Proof.
  intros h f out c l p f' H R Q d N L T.
  assert (K : Forall (fun o => match o with FDelay ns => 0 <= ns | _ => True end) h) by (eapply Forall_impl; [|exact H]; intros []; auto).
  assert (T0 : tracks [] fcount0) by (split; [constructor|cbn; auto]).
  pose proof (run_tracks h fcount0 [] [] f out K T0 R) as (A & B & C & D). fold d in A, B, C, D.
  apply report_delay in Q as [-> _]. unfold avg_delay. rewrite B, C, D.
  pose proof (total_pos d A) as P. rewrite (u32_id (Z.of_nat (length d))) by lia.
  assert (Ln : 0 < Z.of_nat (length d)) by (destruct d; [congruence|cbn [length]; lia]).
  rewrite Z.gtb_ltb, (proj2 (Z.ltb_lt 0 _)) by exact Ln. pose proof (Z.mod_pos_bound (total d) 1000000000).
  rewrite (Z.div_small (total d mod 1000000000)) by lia. rewrite Z.add_0_r.
  rewrite u32_id; [reflexivity|]. assert (total d / 1000000000 < 4294967) by (apply Z.div_lt_upper_bound; lia).
  pose proof (Z.div_pos (total d) 1000000000). lia.
Qed.

(** The coding scheme the capacity is computed for. *)
Lemma highest_mask : forall n mask, 0 < highest mask n -> highest mask n <= Z.of_nat n /\ Z.testbit mask (highest mask n - 1) = true.
Proof.
  induction n as [|n IH]; intros mask H; cbn [highest] in *; [lia|].
  destruct (Z.testbit mask (Z.of_nat n)) eqn:E.
  - split; [lia|]. replace (Z.of_nat (S n) - 1) with (Z.of_nat n) by lia. exact E.
  - destruct (IH mask H). split; [lia|assumption].
Qed.
Lemma highest_pos : forall n mask, 0 <= highest mask n.
Proof. induction n as [|n IH]; intro mask; cbn [highest]; [lia|]. destruct (Z.testbit _ _); [lia|apply IH]. Qed.
Lemma highest_first : forall n mask, (0 < n)%nat -> Z.testbit mask 0 = true -> 0 < highest mask n.
Proof.
  induction n as [|n IH]; intros mask L T; [lia|]. cbn [highest]. destruct (Z.testbit mask (Z.of_nat n)) eqn:E; [lia|].
  destruct n; [change (Z.of_nat 0) with 0 in E; rewrite T in E; discriminate|]. apply IH; [lia|exact T].
Qed.

Theorem scheme_usable : forall c y b cs mcs ics imcs, c_adj c = true -> 1 <= p_dl (y_max_cs y) <= 4 -> 0 <= p_dl (y_max_mcs y) <= 9 ->
  let b' := info_ind y cs mcs ics imcs b in
  Z.land mcs 511 = 0 \/ 0 < highest (Z.land mcs 511) (Z.to_nat (p_dl (y_max_mcs y))) ->
  usable y b' (max_scheme c b').
Proof.
  intros c y b cs mcs ics imcs A L1 L2 b' H. unfold max_scheme. rewrite A. cbn [negb].
  change (b_mcs_mask b') with (Z.land mcs 511). change (p_dl (b_max_mcs b')) with (highest (Z.land mcs 511) (Z.to_nat (p_dl (y_max_mcs y)))).
  change (p_dl (b_max_cs b')) with (highest (Z.lor 1 (Z.land cs 15)) (Z.to_nat (p_dl (y_max_cs y)))).
  pose proof (highest_pos 9 (Z.land mcs 511)) as P9.
  destruct (Z.eqb_spec (highest (Z.land mcs 511) 9) 0) as [Z9|Z9]; cbn [negb].
  - assert (P4 : 0 < highest (Z.lor 1 (Z.land cs 15)) (Z.to_nat (p_dl (y_max_cs y)))).
    { apply highest_first; [lia|]. rewrite Z.lor_spec. reflexivity. }
    destruct (highest_mask _ _ P4) as [B T].
    rewrite (proj2 (Z.eqb_neq (highest (Z.lor 1 (Z.land cs 15)) (Z.to_nat (p_dl (y_max_cs y)))) 0)) by lia. cbn [negb].
    rewrite (proj2 (Z.eqb_neq (highest (Z.lor 1 (Z.land cs 15)) (Z.to_nat (p_dl (y_max_cs y)))) 0)) by lia.
    eexists. right. split; [reflexivity|]. split; [lia|]. split; [exact T|lia].
  - destruct H as [H|H]; [exfalso; apply Z9; rewrite H; reflexivity|].
    destruct (highest_mask _ _ H) as [B T]. rewrite (proj2 (Z.eqb_neq _ 0)) by lia. cbn [negb].
    eexists. left. split; [reflexivity|]. split; [lia|]. split; [exact T|lia].
Qed.
