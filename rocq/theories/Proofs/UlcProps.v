(** Statements of C13-C17, C54 and C57 in lemma form. *)
From Coq Require Import ZArith List Bool Lia Sorted.
From Verif Require Import Base.Arith Model.FrameNo Model.UlController Spec.FrameSpec Proofs.FrameP Proofs.UlcP.
Import ListNotations.
Local Open Scope Z_scope.

Lemma refines bal frees now ops : keeps_order bal -> in_hyper now ->
  ops_in_time frees (mk_ts t_empty now) ops ->
  exists t, ul_run bal frees Leaf ops = Some (t, snd (t_run frees (mk_ts t_empty now) ops)) /\
    forall fn, get_node t fn = option_map (mk_item fn) (ts_m (fst (t_run frees (mk_ts t_empty now) ops)) fn).
Proof.
  intros KO Hn O. destruct (run_ok bal KO frees ops Leaf (mk_ts t_empty now) (rel_empty now Hn) O) as (t & E & R).
  exists t. split; [exact E|]. intros fn. exact (rel_get _ t _ fn R).
Qed.

Lemma reserve_exact bal frees t s fn o : keeps_order bal -> ulc_reach bal frees t s ->
  in_hyper fn -> ahead (ts_now s) fn < HYP / 2 ->
  (get_node t fn <> None -> reserve bal t fn o = (t, false)) /\
  (get_node t fn = None -> exists t', reserve bal t fn o = (t', true) /\
     get_node t' fn = Some (mk_item fn o) /\ forall x, x <> fn -> get_node t' x = get_node t x).
Proof.
  intros KO RE HF A. pose proof (reach_rel bal KO frees t s RE) as R. rewrite HALF_eq in A.
  pose proof (rel_reserve bal KO _ t _ fn o R HF A) as X. rewrite (rel_get _ t _ fn R).
  destruct (ts_m s fn) as [o'|] eqn:M; cbn [option_map]; split; try congruence; auto.
  intros _. destruct X as (t' & E & R'). exists t'. split; [exact E|]. split.
  - rewrite (rel_get _ t' _ fn R'). unfold t_set. rewrite Z.eqb_refl. reflexivity.
  - intros x NE. rewrite (rel_get _ t' _ x R'), (rel_get _ t _ x R). unfold t_set.
    apply Z.eqb_neq in NE. rewrite NE. reflexivity.
Qed.

Lemma release_fn_exact bal frees t s fn : keeps_order bal -> ulc_reach bal frees t s ->
  (get_node t fn = None -> release_fn bal t fn = (t, false)) /\
  (get_node t fn <> None -> exists t', release_fn bal t fn = (t', true) /\
     get_node t' fn = None /\ forall x, x <> fn -> get_node t' x = get_node t x).
Proof.
  intros KO RE. pose proof (reach_rel bal KO frees t s RE) as R.
  pose proof (rel_release_fn bal KO _ t _ fn R) as X. rewrite (rel_get _ t _ fn R).
  destruct (ts_m s fn) as [o'|] eqn:M; cbn [option_map]; split; try congruence; auto.
  intros _. destruct X as (t' & E & R'). exists t'. split; [exact E|]. split.
  - rewrite (rel_get _ t' _ fn R'). unfold t_set. rewrite Z.eqb_refl. reflexivity.
  - intros x NE. rewrite (rel_get _ t' _ x R'), (rel_get _ t _ x R). unfold t_set.
    apply Z.eqb_neq in NE. rewrite NE. reflexivity.
Qed.

Lemma release_tbf_exact bal frees t s b : keeps_order bal -> ulc_reach bal frees t s ->
  exists t', release_tbf bal t b = Some t' /\
    forall fn, get_node t' fn =
      match get_node t fn with Some it => if owned_by b (i_own it) then None else Some it | None => None end.
Proof.
  intros KO RE. pose proof (reach_rel bal KO frees t s RE) as R.
  destruct (rel_release_tbf bal KO _ t _ b R) as (t' & E & R'). exists t'. split; [exact E|].
  intros fn. rewrite (rel_get _ t' _ fn R'), (rel_get _ t _ fn R). unfold t_release_tbf.
  destruct (ts_m s fn) as [o|]; cbn [option_map i_own]; [|reflexivity]. destruct (owned_by b o); reflexivity.
Qed.

Lemma expire_exact bal frees t s fn : keeps_order bal -> ulc_reach bal frees t s ->
  in_hyper fn -> ahead (ts_now s) fn < HYP / 2 ->
  exists t' rep, expire_fn bal frees t fn = Some (t', rep) /\
    StronglySorted (fun a b => ahead (ts_now s) (i_fn a) < ahead (ts_now s) (i_fn b)) rep /\
    (forall it, In it rep -> get_node t (i_fn it) = Some it /\ ahead (ts_now s) (i_fn it) <= ahead (ts_now s) fn) /\
    (forall it, get_node t (i_fn it) = Some it -> ahead (ts_now s) (i_fn it) <= ahead (ts_now s) fn ->
       In it rep \/ exists e b, In e rep /\ ahead (ts_now s) (i_fn e) < ahead (ts_now s) (i_fn it) /\
                                In b (frees e) /\ owned_by b (i_own it) = true) /\
    (forall x, in_hyper x -> ahead (ts_now s) x <= ahead (ts_now s) fn -> get_node t' x = None) /\
    (forall x, in_hyper x -> ahead (ts_now s) fn < ahead (ts_now s) x ->
       get_node t' x = match get_node t x with
                       | Some it => if freed_by frees rep (i_own it) then None else Some it
                       | None => None end).
Proof.
  intros KO RE HF A. pose proof (reach_rel bal KO frees t s RE) as R. rewrite HALF_eq in A.
  destruct (rel_expire bal KO frees _ t _ fn R HF A) as (t' & rep & m' & P & Q & U).
  exists t', rep. split; [exact P|].
  pose proof (ahead_range (ts_now s) fn) as AR. pose proof (r_now _ _ _ R) as Hn.
  destruct (t_expire_exact frees (ts_now s) (S (Z.to_nat (ahead (ts_now s) fn))) (ts_m s) 0 m' rep) as (X1 & X2 & X3 & X4);
    try lia; auto.
  { rewrite Z.add_0_r, Z.mod_small by exact Hn. exact Q. }
  assert (IH : forall x, get_node t x <> None -> in_hyper x).
  { intros x G. destruct (get_node t x) as [it|] eqn:E; [|congruence]. apply get_sound in E as [I <-].
    pose proof (r_win _ _ _ R) as W. rewrite Forall_forall in W. apply (W it I). }
  splits.
  - exact X1.
  - intros it I. rewrite Forall_forall in X2. destruct (X2 it I) as (M & _ & L). split; [|lia].
    rewrite (rel_get _ t _ _ R), M. destruct it; reflexivity.
  - intros it G L. assert (HI : in_hyper (i_fn it)) by (apply IH; congruence).
    pose proof (ahead_range (ts_now s) (i_fn it)).
    destruct (X3 (i_fn it) HI ltac:(lia)) as [_ X]. rewrite (rel_get _ t _ _ R) in G.
    destruct (ts_m s (i_fn it)) as [o|]; cbn [option_map] in G; [|discriminate].
    assert (o = i_own it) by (apply (f_equal (option_map i_own)) in G; cbn in G; congruence). subst o.
    destruct (X _ eq_refl) as [I|(e & I & LE & b & B & O)].
    + left. destruct it; exact I.
    + right. exists e, b. splits; auto.
  - intros x Hx L. pose proof (ahead_range (ts_now s) x).
    destruct (X3 x Hx ltac:(lia)) as [X _]. rewrite (rel_get _ t' _ _ U), X. reflexivity.
  - intros x Hx L. rewrite (rel_get _ t' _ _ U), (rel_get _ t _ _ R). rewrite (X4 x Hx) by lia.
    destruct (ts_m s x) as [o|]; cbn [option_map i_own]; [|reflexivity]. destruct (freed_by frees rep o); reflexivity.
Qed.

Lemma rrbp_exact bal frees t s fn : keeps_order bal -> ulc_reach bal frees t s ->
  in_hyper fn -> block_start fn -> ahead (ts_now s) fn + 26 < HYP / 2 ->
  match get_next_free_rrbp_fn t fn with
  | Some (p, v) =>
      in_hyper p /\ block_start p /\ answers_in fn v p /\ (forall q, answers_in fn v q -> q = p) /\
      get_node t p = None /\
      forall tbf r, exists t', reserve bal t p (OPoll tbf r) = (t', true) /\ get_tbf_poll t' p = Some tbf
  | None => forall v p, 0 <= v <= 3 -> answers_in fn v p -> get_node t p <> None
  end.
Proof.
  intros KO RE HF B A. unfold get_next_free_rrbp_fn.
  pose proof (rrbp_search_spec t fn rrbp_list HF) as X.
  assert (LB : forall o c, In (o, c) rrbp_list -> 0 <= o <= 26).
  { intros o c I. unfold rrbp_list in I. cbn [In] in I.
    repeat (destruct I as [I|I]; [injection I as <- <-; lia|]). destruct I. }
  specialize (X LB). destruct (rrbp_search t fn rrbp_list) as [[p v]|].
  - destruct X as (o & I & E & BS & F). assert (OB := LB o v I). apply rrbp_in in I as [I V].
    assert (AN : answers_in fn v p) by (exists o; auto).
    assert (HP : in_hyper p) by (rewrite E; apply in_hyper_mod).
    splits; auto.
    + intros q AQ. symmetry. apply (answer_unique fn v); auto.
    + intros tbf r.
      assert (AP : ahead (ts_now s) p < HYP / 2).
      { pose proof (reach_rel bal KO frees t s RE) as R. pose proof (r_now _ _ _ R) as Hn.
        rewrite E. pose proof (ahead_back (ts_now s) fn HF) as AB. rewrite <- AB, Zplus_mod_idemp_l, <- Z.add_assoc.
        pose proof (ahead_range (ts_now s) fn).
        rewrite ahead_add; rewrite HALF_eq in *; rewrite ?H_val; unfold HALF in *; lia. }
      destruct (reserve_exact bal frees t s p (OPoll tbf r) KO RE HP AP) as [_ Y].
      destruct (Y F) as (t' & E1 & E2 & _). exists t'. split; [exact E1|].
      unfold get_tbf_poll. rewrite E2. reflexivity.
  - intros v p V (o & I & -> & BS). apply (X o v); auto. apply rrbp_in. auto.
Qed.

Lemma sba_exact bal frees t s last id : keeps_order bal -> ulc_reach bal frees t s ->
  in_hyper last -> block_start last ->
  ahead (ts_now s) last + 52 + 5 * Z.of_nat (length (inorder t)) < HYP / 2 ->
  exists t' fn, sba_alloc bal t last id = (t', fn, true) /\
    in_hyper fn /\ block_start fn /\ 52 <= ahead last fn < HYP / 2 /\ get_node t fn = None /\
    (forall x, in_hyper x -> block_start x -> 52 <= ahead last x < ahead last fn -> get_node t x <> None) /\
    get_sba t' fn = Some id /\
    ulc_reach bal frees t' (mk_ts (t_set (ts_m s) fn (Some (OSba id))) (ts_now s)).
Proof.
  intros KO RE HL BL A. pose proof (reach_rel bal KO frees t s RE) as R. rewrite HALF_eq in A.
  pose proof R as [Hn SS W T]. unfold sba_alloc, get_next_free_fn.
  rewrite next_fn_spec by (auto; unfold AGCH_START_OFFSET; lia). unfold AGCH_START_OFFSET.
  set (st := (last + 52) mod HYP).
  assert (Hs : in_hyper st) by apply in_hyper_mod.
  assert (Bs : block_start st).
  { unfold st. apply block_start_mod. unfold block_start in *.
    replace (last + 52) with (last + 1 * 52) by lia. rewrite Z_mod_plus_full. exact BL. }
  pose proof (ahead_range (ts_now s) last) as AR.
  assert (As : ahead (ts_now s) st = ahead (ts_now s) last + 52).
  { unfold st. pose proof (ahead_back (ts_now s) last HL) as AB. rewrite <- AB at 1.
    rewrite Zplus_mod_idemp_l, <- Z.add_assoc. apply ahead_add. rewrite H_val. unfold HALF in A. lia. }
  destruct (walk_ok (ts_now s) (inorder t) st Hn SS W Hs Bs ltac:(lia)) as (P1 & P2 & P3 & P4 & P5).
  set (fn := next_free_walk (inorder t) st) in *.
  assert (FR : get_node t fn = None).
  { destruct (get_node t fn) as [it|] eqn:G; [|reflexivity]. apply get_sound in G as [I E]. destruct (P4 it I E). }
  assert (AF : ahead (ts_now s) fn < HYP / 2) by (rewrite HALF_eq; lia).
  destruct (reserve_exact bal frees t s fn (OSba id) KO RE P1 AF) as [_ Y].
  destruct (Y FR) as (t' & E1 & E2 & _). rewrite E1.
  assert (SH : forall x, ahead (ts_now s) last <= ahead (ts_now s) x ->
                 ahead last x = ahead (ts_now s) x - ahead (ts_now s) last) by (intros; apply ahead_shift; auto).
  exists t', fn. splits; auto.
  - rewrite SH by lia. lia.
  - rewrite SH by lia. lia.
  - intros x Hx Bx X.
    assert (AX : ahead (ts_now s) x = ahead (ts_now s) last + ahead last x).
    { rewrite <- (ahead_back last x Hx) at 1. rewrite <- (ahead_back (ts_now s) last HL) at 1.
      rewrite Zplus_mod_idemp_l, <- Z.add_assoc. apply ahead_add.
      rewrite (SH fn) in X by lia. rewrite H_val. unfold HALF in *. rewrite HALF_eq in AF. unfold HALF in AF.
      pose proof (ahead_range last x). lia. }
    rewrite (SH fn) in X by lia.
    destruct (P5 x Hx Bx ltac:(lia)) as (it & I & <-). rewrite (get_complete (ts_now s)) by auto. discriminate.
  - unfold get_sba. rewrite E2. reflexivity.
  - destruct RE as (now & ops & res & Hn' & O & E & Q).
    assert (M : ts_m s fn = None).
    { rewrite (rel_get _ t _ fn R) in FR. destruct (ts_m s fn); [discriminate|reflexivity]. }
    exists now, (ops ++ [UReserve fn (OSba id)]), (res ++ [RBool true]). split; [exact Hn'|].
    clear - O E Q E1 P1 AF M. revert O E Q. generalize (mk_ts t_empty now). generalize Leaf.
    revert res. induction ops as [|op ops IH]; intros res t0 s0 O E Q.
    + cbn [ul_run t_run app fst] in *. injection E as -> <-. subst s0.
      cbn [ops_in_time op_in_time t_step ul_step]. rewrite M, E1. cbn [fst]. splits; auto.
    + cbn [ul_run t_run app fst ops_in_time] in *. destruct O as [O1 O2].
      destruct (ul_step bal frees t0 op) as [[t1 x]|]; [|discriminate].
      destruct (ul_run bal frees t1 ops) as [[t2 xs]|] eqn:E2; [|discriminate].
      injection E as -> <-. destruct (t_step frees s0 op) as [s1 y].
      cbn [fst] in O2. 
      assert (Q2 : fst (t_run frees s1 ops) = s) by (destruct (t_run frees s1 ops); exact Q).
      destruct (IH xs t1 s1 O2 E2 Q2) as (I1 & I2 & I3). split; [split; [exact O1|exact I1]|].
      rewrite I2. split; [reflexivity|]. destruct (t_run frees s1 (ops ++ _)); exact I3.
Qed.

Lemma owned_stays bal frees t s op fn id : keeps_order bal -> ulc_reach bal frees t s ->
  op_in_time s op -> get_sba t fn = Some id ->
  match op with UReleaseFn x => x <> fn
              | UExpire x => ahead (ts_now s) x < ahead (ts_now s) fn
              | _ => True end ->
  exists t' r, ul_step bal frees t op = Some (t', r) /\ get_sba t' fn = Some id.
Proof.
  intros KO RE O G C. pose proof (reach_rel bal KO frees t s RE) as R.
  destruct (step_ok bal KO frees t s op R O) as (t' & E & R'). exists t', (snd (t_step frees s op)).
  split; [exact E|]. unfold get_sba in *.
  rewrite (rel_get _ t' _ fn R'). rewrite (rel_get _ t _ fn R) in G.
  destruct (ts_m s fn) as [o|] eqn:M; [|discriminate]. cbn [option_map] in G.
  destruct o as [b|b r|i]; try discriminate G. injection G as ->.
  assert (X : ts_m (fst (t_step frees s op)) fn = Some (OSba id)); [|rewrite X; reflexivity].
  destruct op as [x o|x|b|x]; cbn [t_step] in *.
  - destruct (ts_m s x) eqn:MX; cbn [fst ts_m]; auto. unfold t_set.
    destruct (fn =? x) eqn:EE; auto. apply Z.eqb_eq in EE. congruence.
  - destruct (ts_m s x) eqn:MX; cbn [fst ts_m]; auto. unfold t_set.
    destruct (fn =? x) eqn:EE; auto. apply Z.eqb_eq in EE. congruence.
  - cbn [fst ts_m]. unfold t_release_tbf. rewrite M. reflexivity.
  - destruct (t_expire frees (ts_m s) (ts_now s) (S (Z.to_nat (ahead (ts_now s) x)))) as [m' rep] eqn:Q.
    cbn [fst ts_m]. pose proof (r_now _ _ _ R) as Hn. pose proof (ahead_range (ts_now s) x) as AR.
    assert (HF : in_hyper fn).
    { apply (r_tab _ _ _ R) in M. pose proof (r_win _ _ _ R) as W. rewrite Forall_forall in W. apply (W _ M). }
    destruct (t_expire_exact frees (ts_now s) (S (Z.to_nat (ahead (ts_now s) x))) (ts_m s) 0 m' rep) as (_ & _ & _ & X4);
      try lia; auto.
    { rewrite Z.add_0_r, Z.mod_small by exact Hn. exact Q. }
    rewrite (X4 fn HF) by lia. rewrite M.
    assert (FB : freed_by frees rep (OSba id) = false).
    { unfold freed_by. induction (flat_map frees rep); auto. }
    rewrite FB. reflexivity.
Qed.

(** ** The clock *)
Lemma clk_step c fn : clk_ok c -> in_hyper fn ->
  exists c', set_block_fn c fn = Some c' /\ clk_ok c' /\
    (ck_blk c' = ck_blk c /\ c' = c \/
     ck_blk c' = fn /\ (ck_blk c = -1 \/ 0 < ahead (ck_blk c) fn < HYP / 2)).
Proof.
  intros K F. destruct (set_block_spec c fn K F) as (c' & E & K' & X). exists c'. splits; auto.
  destruct ((0 <=? ck_blk c) && _) eqn:B.
  - left. subst; auto.
  - right. destruct X as (X & _). split; [exact X|].
    destruct K as [_ [KB|KB]]; [|auto]. right.
    unfold in_hyper in KB. destruct (0 <=? ck_blk c) eqn:B1; [|lia]. cbn [andb] in B.
    apply negb_false_iff in B. apply andb_prop in B as [B2 B3]. rewrite Z.ltb_lt in B2, B3. auto.
Qed.
Lemma clk_accept c fn : clk_ok c -> in_hyper fn ->
  (ck_blk c = -1 \/ 0 < ahead (ck_blk c) fn < HYP / 2) ->
  exists c', set_block_fn c fn = Some c' /\ ck_blk c' = fn /\
    (ck_fn c = FN_UNSET -> ck_fn c' = fn) /\
    (ck_fn c <> FN_UNSET -> ck_fn c <> 0 ->
     (ahead fn (ck_fn c) <= 500 -> ck_fn c' = ck_fn c) /\ (500 < ahead fn (ck_fn c) -> ck_fn c' = fn)).
Proof.
  intros K F A. destruct (set_block_spec c fn K F) as (c' & E & K' & X). exists c'. split; [exact E|].
  assert (B : (0 <=? ck_blk c) && negb ((0 <? ahead (ck_blk c) fn) && (ahead (ck_blk c) fn <? HYP / 2)) = false).
  { destruct A as [A|[A1 A2]]; [rewrite A; reflexivity|].
    apply Z.ltb_lt in A1, A2. rewrite A1, A2. cbn [andb negb]. apply andb_false_r. }
  rewrite B in X. destruct X as (X1 & X2 & _ & X4). split; [exact X1|]. split; [exact X2|].
  intros N1 N2. rewrite (X4 N1 N2). split; intros L; destruct (ahead fn (ck_fn c) <=? 500) eqn:Z5; auto; exfalso; lia.
Qed.
Lemma clk_run_ok c l : clk_ok c -> Forall in_hyper l -> exists c', clk_run c l = Some c' /\ clk_ok c'.
Proof.
  revert c. induction l as [|fn l IH]; intros c K F; cbn [clk_run].
  - exists c; auto.
  - inversion F; subst. destruct (set_block_spec c fn K) as (c' & E & K' & _); auto. rewrite E. auto.
Qed.

(** ** Counterexamples *)
Lemma any_frame_bad :
  (exists fn, in_hyper fn /\ fn2bn fn = 12) /\
  (exists fn k, in_hyper fn /\ block_start (fn - 3) /\ 0 < k < ahead fn (fn_next_block fn) /\ block_start (fn + k)).
Proof.
  split.
  - exists 50. split; [split; [discriminate|reflexivity]|vm_compute; reflexivity].
  - exists 16, 1. split; [split; [discriminate|reflexivity]|]. splits; try reflexivity; vm_compute; tauto.
Qed.
Lemma ahead_next_bad :
  exists cur, in_hyper cur /\ bts_rfn_to_fn cur (((cur + 1) mod HYP) mod 42432) <> Some ((cur + 1) mod HYP).
Proof. exists 84863. split; [split; [discriminate|reflexivity]|]. vm_compute. discriminate. Qed.
Lemma threshold_bad :
  exists cur, in_hyper cur /\
    bts_rfn_to_fn cur (((cur - 21216) mod HYP) mod 42432) <> Some ((cur - 21216) mod HYP).
Proof. exists 42440. split; [split; [discriminate|reflexivity]|]. vm_compute. discriminate. Qed.
Lemma zero_bad : exists fn, in_hyper fn /\ 500 < ahead fn 0 /\
  set_block_fn (mk_clk 0 (-1)) fn = Some (mk_clk 0 fn).
Proof. exists 1000000. split; [split; [discriminate|reflexivity]|]. vm_compute. tauto. Qed.
