(** What the statistics say, and the flag that all timeslots are allocated. *)
From Coq Require Import ZArith List Bool Lia FinFun.
From Verif Require Import Base.Arith Model.Mslot Model.Alloc Model.Cell Model.CellStat Spec.AllocSpec Spec.CellStatSpec
  Proofs.AllocP Proofs.AllocQ Proofs.CellP Proofs.CellI Proofs.CellStatP Proofs.CellStatQ Proofs.AllocEx.
Import ListNotations.
Local Open Scope Z_scope.

(** ** From the counters to the TBFs *)
Lemma existsb_filter : forall A (f g : A -> bool) l, existsb g (filter f l) = existsb (fun x => f x && g x) l.
Proof. intros A f g l. induction l as [|x l IH]; cbn [filter existsb]; [ reflexivity | ]. destruct (f x); cbn [existsb andb]; rewrite IH; reflexivity. Qed.
Lemma existsb_same : forall A (f g : A -> bool) l, (forall x, f x = g x) -> existsb f l = existsb g l.
Proof. intros A f g l H. induction l as [|x l IH]; cbn [existsb]; [ reflexivity | ]. rewrite H, IH. reflexivity. Qed.
Lemma kind_some : forall e L,
  (0 <? Z.of_nat (length (filter (is_kind UL e) L)) + Z.of_nat (length (filter (is_kind DL e) L))) =
  existsb (fun t => Bool.eqb (t_egprs t) e) L.
Proof.
  intros e L. induction L as [|t L IH]; cbn [filter existsb]; [ reflexivity | ]. rewrite <- IH.
  assert (K : forall d, is_kind d e t = dir_eqb (t_dir t) d && Bool.eqb (t_egprs t) e) by reflexivity. rewrite !K.
  destruct (Bool.eqb (t_egprs t) e); [ | rewrite !andb_false_r; reflexivity ].
  rewrite !andb_true_r. cbn [orb]. apply Z.ltb_lt. destruct (t_dir t); cbn [dir_eqb is_ul Bool.eqb length]; lia.
Qed.
Lemma some_mode : forall L : list tbf,
  existsb (fun t => Bool.eqb (t_egprs t) false) L || existsb (fun t => Bool.eqb (t_egprs t) true) L = existsb (fun _ => true) L.
Proof.
  intros [|t L]; [ reflexivity | ]. cbn [existsb]. destruct (t_egprs t); cbn [Bool.eqb orb]; [ | reflexivity ]. apply orb_true_r.
Qed.
Lemma occ_used : forall ids c n ts, inv ids c -> 0 <= ts < 8 ->
  p_occ (c_bts c n ts) = used_by c (fun _ => true) n ts /\
  p_occ_g (c_bts c n ts) = used_by c (fun t => negb (t_egprs t)) n ts /\
  p_occ_e (c_bts c n ts) = used_by c t_egprs n ts.
Proof.
  intros ids c n ts V R. pose proof (i_mirror _ _ V n ts R) as M.
  assert (G : p_occ_g (c_bts c n ts) = existsb (fun t => Bool.eqb (t_egprs t) false) (here (c_tbfs c) n ts)).
  { unfold p_occ_g. rewrite !(mi_gprs _ _ _ M). apply kind_some. }
  assert (E : p_occ_e (c_bts c n ts) = existsb (fun t => Bool.eqb (t_egprs t) true) (here (c_tbfs c) n ts)).
  { unfold p_occ_e. rewrite !(mi_egprs _ _ _ M). apply kind_some. }
  assert (A : p_occ (c_bts c n ts) = p_occ_g (c_bts c n ts) || p_occ_e (c_bts c n ts)).
  { pose proof (inv_small ids c n ts V R) as S. pose proof (S UL). pose proof (S DL). unfold p_occ, p_occ_g, p_occ_e.
    repeat match goal with |- context [0 <? ?a] => destruct (Z.ltb_spec 0 a) end; cbn [orb]; try reflexivity; lia. }
  rewrite A, G, E, some_mode. unfold used_by, here. rewrite !existsb_filter. splits; [ reflexivity | | ].
  - apply existsb_same. intro t. destruct (usesb n ts t), (t_egprs t); reflexivity.
  - apply existsb_same. intro t. destruct (usesb n ts t), (t_egprs t); reflexivity.
Qed.
Lemma how_many_tally : forall f b P, (forall n ts, 0 <= n < 8 -> 0 <= ts < 8 -> f (b n ts) = P n ts) -> tally f b = how_many_ts P.
Proof.
  intros f b P H. unfold tally, how_many_ts. rewrite count_zsum. apply zsum_ext. intros [n ts] I. apply in_all_ts in I.
  cbn [fst snd]. rewrite H by tauto. reflexivity.
Qed.
Lemma whole_right : forall ids x, whole_inv ids x -> right_stats x.
Proof.
  intros ids x [V [O0 O1 O2 O3] [L1 L2]].
  split; [ rewrite O0 | rewrite O1 | rewrite O2 | rewrite O3 | exact L1 | exact L2 ]; apply how_many_tally; intros n ts _ R;
    [ reflexivity | | | ]; destruct (occ_used ids (sc_cell x) n ts V R) as (A & B & C); assumption.
Qed.
Lemma stats_history : forall def ids os, NoDup ids -> (length ids < 256)%nat ->
  exists x, srun def ids os init_scell = Some x /\ crun def ids (ops os) init_cell = Some (sc_cell x) /\ right_stats x.
Proof.
  intros def ids os ND LEN. destruct (srun_ok def ids os init_scell ND LEN (whole_init ids)) as (x & A & B & C).
  exists x. split; [ exact A | ]. split; [ exact C | ]. exact (whole_right ids x B).
Qed.
Lemma srun_whole : forall def ids os x, NoDup ids -> (length ids < 256)%nat -> srun def ids os init_scell = Some x -> whole_inv ids x.
Proof.
  intros def ids os x ND LEN E. destruct (srun_ok def ids os init_scell ND LEN (whole_init ids)) as (y & A & B & _). congruence.
Qed.

(** ** A request *)
Lemma stats_request : forall def ids os x a id m d single use_trx egprs, NoDup ids -> (length ids < 256)%nat ->
  srun def ids os init_scell = Some x -> In m ids -> ~ In id (map t_id (c_tbfs (sc_cell x))) ->
  let c := sc_cell x in let s := sc_stats x in
  exists x', sstep def ids (Op (New a id m d single use_trx egprs)) x = Some x' /\
    match fst (alloc a def (c_bts c) (c_dis c) (mk_req (c_ms c m) d single use_trx)) with
    | None => sc_stats x' = one_fail s
    | Some _ => s_new (sc_stats x') = dset (s_new s) d (s_new s d + 1) /\ s_freed (sc_stats x') = s_freed s /\
                s_fail (sc_stats x') = s_fail s
    end.
Proof.
  intros def ids os x a id m d single use_trx egprs ND LEN H I NI c s.
  destruct (srun_whole def ids os x ND LEN H) as [V O _]. fold c in V, O. fold s in O. cbn [sstep]. fold c s.
  assert (E : existsb (Z.eqb m) ids && negb (existsb (fun t => t_id t =? id) (c_tbfs c)) = true).
  { apply andb_true_iff. split; [ apply existsb_exists; exists m; split; [ exact I | apply Z.eqb_refl ] | ].
    apply negb_true_iff. destruct (existsb _ (c_tbfs c)) eqn:X; [ | reflexivity ]. exfalso. apply existsb_exists in X.
    destruct X as [t [It Et]]. apply NI. apply in_map_iff. exists t. split; [ lia | exact It ]. }
  rewrite E. destruct (inv_take a def ids c id m d single use_trx egprs ND LEN I V NI) as (r & dis & T & P).
  destruct (take_stat_ok a def ids c s id m d single use_trx egprs true r dis V I O T) as (s' & ES & Q). rewrite ES.
  destruct r as [c'|].
  - destruct P as [_ [r [A _]]]. rewrite A. eexists. split; [ reflexivity | ]. cbn [sc_stats]. destruct Q as [_ (Q1 & Q2 & Q3)]. auto.
  - rewrite P. eexists. split; [ reflexivity | ]. cbn [sc_stats]. exact Q.
Qed.

(** ** The words of a timeslot *)
Definition word (p : pdch) : Prop := forall d, 0 <= pd_tfi p d < 2 ^ 32.
Definition words (b : bts) : Prop := forall n ts, word (b n ts).
Lemma word_dset : forall (f : dmap Z) d v, 0 <= v < 2 ^ 32 -> (forall d, 0 <= f d < 2 ^ 32) -> forall d', 0 <= dset f d v d' < 2 ^ 32.
Proof. intros f d v R F d'. rewrite dset_eq. destruct (dir_eqb d d'); auto. Qed.
Lemma word_attach : forall ts t p, word p -> word (attach ts t p).
Proof.
  intros ts t p W. unfold word, attach, num_update. cbn [pd_tfi pd_enabled pd_tsc pd_gprs pd_egprs pd_res pd_usf pd_tbf].
  apply word_dset; [ apply Z.mod_pos_bound; reflexivity | exact W ].
Qed.
Lemma word_detach : forall ts t p p', detach ts t p = Some p' -> word p -> word p'.
Proof.
  intros ts t p p' E W. unfold detach in E. destruct (_ =? 0) in E; [ discriminate | ]. injection E as <-.
  unfold word, num_update. cbn [pd_tfi pd_enabled pd_tsc pd_gprs pd_egprs pd_res pd_usf pd_tbf].
  apply word_dset; [ apply Z.mod_pos_bound; reflexivity | exact W ].
Qed.
Lemma words_sbr : forall b b', all_sbr b b' -> words b -> words b'.
Proof. intros b b' S W n ts d. destruct (S n ts) as (_ & _ & _ & _ & _ & Q & _). rewrite Q. apply W. Qed.
Lemma words_slots : forall f b n mask b', (forall ts p p', f ts p = Some p' -> word p -> word p') ->
  on_slots f b n mask = Some b' -> words b -> words b'.
Proof.
  intros f b n mask b' F E W n' ts. pose proof (on_slots_keep (fun p p' => word p -> word p') f b n mask b' (fun _ w => w) F E n' ts) as K.
  exact (K (W n' ts)).
Qed.
Lemma words_drop : forall c t c', drop c t = Some c' -> words (c_bts c) -> words (c_bts c').
Proof.
  intros c t c' E W. unfold drop in E. destruct (on_slots _ _ _ _) as [b|] eqn:F in E; [ | discriminate ]. cbn [obind] in E.
  injection E as <-. cbn [c_bts]. refine (words_slots _ _ _ _ _ _ F W). intros ts p p'. apply word_detach.
Qed.
Lemma words_drop_all : forall l c c', drop_all l c = Some c' -> words (c_bts c) -> words (c_bts c').
Proof.
  intro l. induction l as [|id l IH]; intros c c' E W; cbn [drop_all] in E; [ injection E as <-; exact W | ].
  destruct (find_tbf c id) as [t|]; [ | exact (IH c c' E W) ]. destruct (drop c t) as [c1|] eqn:D; [ | discriminate ].
  cbn [obind] in E. exact (IH c1 c' E (words_drop c t c1 D W)).
Qed.
Lemma words_take : forall a def c id m d single use_trx egprs c' dis, take a def c id m d single use_trx egprs = Some (Some c', dis) ->
  words (c_bts c) -> words (c_bts c').
Proof.
  intros a def c id m d single use_trx egprs c' dis T W. unfold take in T.
  destruct (alloc a def (c_bts c) (c_dis c) (mk_req (c_ms c m) d single use_trx)) as [[q|] dis']; [ | discriminate ].
  cbn [c_bts c_tbfs c_ms c_dis] in T. set (c0 := mk_cell (c_bts c) (c_tbfs c) (c_ms c) dis') in T.
  set (first := if _ && _ then Some c0 else _) in T.
  assert (S : forall c1, first = Some c1 -> words (c_bts c1)).
  { intros c1 F. unfold first in F. destruct (_ && _) in F.
    - injection F as <-. exact W.
    - destruct (set_reserved_sbr _ _ _ _ _ _ F) as [X _]. exact (words_sbr _ _ X W). }
  destruct first as [c1|]; [ | discriminate ]. cbn [obind] in T. specialize (S c1 eq_refl).
  change (c_bts (set_common c1 m (Some (r_trx q, r_common q)))) with (c_bts c1) in T.
  destruct (is_ul d && _) in T; [ discriminate | ].
  destruct (on_slots _ _ _ _) as [b|] eqn:F in T; [ | discriminate ]. cbn [obind] in T. injection T as <- _. cbn [c_bts].
  refine (words_slots _ _ _ _ _ _ F S). intros ts p p' E. injection E as <-. apply word_attach.
Qed.
Lemma words_set : forall c n ts e tsc, words (c_bts c) -> let p := c_bts c n ts in
  words (c_bts (set_pdch c n ts (mk_pdch e tsc (pd_gprs p) (pd_egprs p) (pd_res p) (pd_usf p) (pd_tfi p) (pd_tbf p)))).
Proof.
  intros c n ts e tsc W p n' ts'. unfold set_pdch. cbn [c_bts]. rewrite upd_eq. destruct (Z.eqb_spec n' n) as [-> |]; [ | apply W ].
  rewrite upd_eq. destruct (Z.eqb_spec ts' ts) as [-> |]; [ | apply W ]. exact (W n ts).
Qed.
Lemma words_step : forall def ids o c c', cstep def ids o c = Some c' -> words (c_bts c) -> words (c_bts c').
Proof.
  intros def ids o c c' E W.
  assert (ST : Some c = Some c' -> words (c_bts c')) by (intro X; injection X as <-; exact W).
  destruct o as [a id m d single use_trx egprs|m n ts|id|a id|m|m cl|n ts tsc|n ts]; cbn [cstep] in E.
  - destruct (_ && _) in E; [ | exact (ST E) ].
    destruct (take a def c id m d single use_trx egprs) as [[[c1|] dis]|] eqn:T; [ | | discriminate ]; injection E as <-.
    + exact (words_take _ _ _ _ _ _ _ _ _ _ _ T W).
    + exact W.
  - destruct (_ && _) in E; [ | exact (ST E) ]. injection E as <-. exact W.
  - destruct (find_tbf c id) as [t|]; [ | exact (ST E) ]. exact (words_drop c t c' E W).
  - destruct (find_tbf c id) as [t|]; [ | exact (ST E) ]. destruct (is_ul (t_dir t)); [ exact (ST E) | ].
    destruct (drop c t) as [c1|] eqn:D; [ | discriminate ]. cbn [obind] in E. pose proof (words_drop c t c1 D W) as W1.
    destruct (take a def c1 id (t_ms t) DL false (-1) (t_egprs t)) as [[[c2|] dis]|] eqn:T; [ | | discriminate ]; injection E as <-.
    + exact (words_take _ _ _ _ _ _ _ _ _ _ _ T W1).
    + exact W1.
  - destruct (_ && _) in E; [ | exact (ST E) ]. destruct (set_reserved c m None 0 0) as [c1|] eqn:S; [ | discriminate ].
    cbn [obind] in E. injection E as <-. destruct (set_reserved_sbr _ _ _ _ _ _ S) as [X _]. exact (words_sbr _ _ X W).
  - injection E as <-. exact W.
  - destruct (_ && _) in E; [ | exact (ST E) ]. injection E as <-. now apply words_set.
  - destruct (_ && _) in E; [ | exact (ST E) ]. destruct (drop_all (table_ids (c_bts c n ts)) c) as [c1|] eqn:D; [ | discriminate ].
    cbn [obind] in E. destruct (unreserve_all ids n ts c1) as [c2|] eqn:U; [ | discriminate ]. cbn [obind] in E. injection E as <-.
    apply words_set. destruct (unreserve_all_sbr _ _ _ _ _ U) as [X _]. exact (words_sbr _ _ X (words_drop_all _ _ _ D W)).
Qed.
Lemma words_run : forall def ids os c c', crun def ids os c = Some c' -> words (c_bts c) -> words (c_bts c').
Proof.
  intros def ids os. induction os as [|o os IH]; intros c c' E W; cbn [crun] in E; [ injection E as <-; exact W | ].
  destruct (cstep def ids o c) as [c1|] eqn:S; [ | discriminate ]. cbn [obind] in E. exact (IH c1 c' E (words_step def ids o c c1 S W)).
Qed.
Lemma words_init : words (c_bts init_cell).
Proof. intros n ts d. cbn. lia. Qed.

(** ** Full timeslots *)
Definition numbers (n : nat) : list Z := map Z.of_nat (seq 0 n).
Lemma in_numbers : forall n k, In k (numbers n) <-> 0 <= k < Z.of_nat n.
Proof.
  intros n k. unfold numbers. rewrite in_map_iff. split.
  - intros [x [<- I]]. apply in_seq in I. lia.
  - intro R. exists (Z.to_nat k). split; [ lia | apply in_seq; lia ].
Qed.
Lemma numbers_length : forall n, length (numbers n) = n.
Proof. intro n. unfold numbers. rewrite map_length. apply seq_length. Qed.
Lemma numbers_nodup : forall n, NoDup (numbers n).
Proof. intro n. unfold numbers. apply Injective_map_NoDup; [ intros x y E; lia | apply seq_NoDup ]. Qed.
Lemma all_used : forall (l : list Z) n, NoDup l -> (forall k, In k l -> 0 <= k < Z.of_nat n) ->
  (length l = n <-> forall k, 0 <= k < Z.of_nat n -> In k l).
Proof.
  intros l n ND R. split.
  - intros E k K. apply (NoDup_length_incl ND (l' := numbers n)); [ rewrite numbers_length; lia | | now apply in_numbers ].
    intros x I. apply in_numbers. auto.
  - intro A. pose proof (nodup_range l n ND R).
    assert (n <= length l)%nat; [ | lia ]. rewrite <- (numbers_length n) at 1.
    apply NoDup_incl_length; [ apply numbers_nodup | ]. intros k I. apply A. now apply in_numbers.
Qed.
Lemma on_here : forall c n ts d, tbfs_on c n ts d = Z.of_nat (length (filter (fun t => dir_eqb (t_dir t) d) (here (c_tbfs c) n ts))).
Proof.
  intros c n ts d. unfold tbfs_on, here. f_equal. f_equal. induction (c_tbfs c) as [|t l IH]; [ reflexivity | ].
  cbn [filter]. destruct (usesb n ts t); cbn [filter andb]; destruct (dir_eqb (t_dir t) d); rewrite IH; reflexivity.
Qed.
Lemma tfi_full : forall ids c n ts d, inv ids c -> words (c_bts c) -> 0 <= ts < 8 ->
  (pd_tfi (c_bts c n ts) d = NO_FREE_TFI <-> tbfs_on c n ts d = 32).
Proof.
  intros ids c n ts d V W R. rewrite on_here. pose proof (i_mirror _ _ V n ts R) as M. pose proof (i_distinct _ _ V n ts R) as D.
  set (L := here (c_tbfs c) n ts) in *.
  pose proof (all_used (map t_tfi (filter (fun t => dir_eqb (t_dir t) d) L)) 32 (di_tfi _ _ D d)) as A.
  rewrite map_length in A. change (Z.of_nat 32) with 32 in A.
  assert (IN : forall k, 0 <= k < 32 -> (In k (map t_tfi (filter (fun t => dir_eqb (t_dir t) d) L)) <-> Z.testbit (pd_tfi (c_bts c n ts) d) k = true)).
  { intros k K. rewrite (mi_tfi _ _ _ M d k K), existsb_exists, in_map_iff. unfold is_tfi. split.
    - intros [t [E I]]. apply filter_In in I. destruct I as [I1 I2]. exists t. split; [ exact I1 | ]. rewrite I2. apply Z.eqb_eq in E. exact E.
    - intros [t [I E]]. apply andb_true_iff in E. destruct E as [E1 E2]. exists t. split; [ lia | ]. apply filter_In. auto. }
  assert (A' : length (filter (fun t => dir_eqb (t_dir t) d) L) = 32%nat <-> forall k, 0 <= k < 32 -> Z.testbit (pd_tfi (c_bts c n ts) d) k = true).
  { rewrite A.
    - split; intros H k K; apply IN; auto.
    - intros k I. apply in_map_iff in I. destruct I as [t [<- I]]. apply filter_In in I. exact (proj1 (di_range _ _ D t (proj1 I))). }
  split.
  - intro E. rewrite (proj2 A'); [ reflexivity | ]. intros k K. rewrite E. change NO_FREE_TFI with (Z.ones 32). apply Z.ones_spec_low. exact K.
  - intro E. assert (A2 := proj1 A' ltac:(lia)). pose proof (W n ts d) as WR. change NO_FREE_TFI with (Z.ones 32). apply Z.bits_inj'. intros k K.
    destruct (Z.lt_ge_cases k 32) as [LT|GE]; [ rewrite A2, Z.ones_spec_low by lia; reflexivity | ].
    rewrite Z.ones_spec_high by lia. rewrite <- (Z.mod_small _ _ WR). apply Z.mod_pow2_bits_high. lia.
Qed.
Lemma first_clear_none : forall n i x, first_clear n i x = None <-> forall k, i <= k < i + Z.of_nat n -> Z.testbit x k = true.
Proof.
  intro n. induction n as [|n IH]; intros i x; cbn [first_clear].
  - split; [ intros _ k K; lia | reflexivity ].
  - destruct (Z.testbit x i) eqn:B.
    + rewrite IH. split; intros H k K; [ | apply H; lia ]. destruct (Z.eq_dec k i) as [-> |]; [ exact B | apply H; lia ].
    + split; [ discriminate | ]. intro H. rewrite H in B by lia. discriminate.
Qed.
Lemma no_free_usf : forall x, find_free_usf x = None <-> forall u, 0 <= u < 7 -> Z.testbit x u = true.
Proof.
  intro x. unfold find_free_usf. destruct (Z.eqb_spec x 127) as [-> |].
  - split; [ | reflexivity ]. intros _ u K. change 127 with (Z.ones 7). now apply Z.ones_spec_low.
  - exact (first_clear_none 7 0 x).
Qed.
Lemma usf_full : forall ids c n ts, inv ids c -> 0 <= ts < 8 ->
  (find_free_usf (pd_usf (c_bts c n ts)) = None <-> tbfs_on c n ts UL = 7).
Proof.
  intros ids c n ts V R. rewrite on_here, no_free_usf. pose proof (i_mirror _ _ V n ts R) as M. pose proof (i_distinct _ _ V n ts R) as D.
  set (L := here (c_tbfs c) n ts) in *.
  assert (FE : filter (fun t => dir_eqb (t_dir t) UL) L = filter (fun t => is_ul (t_dir t)) L).
  { clear. induction L as [|t L IH]; [ reflexivity | ]. cbn [filter]. rewrite IH. destruct (t_dir t); reflexivity. }
  rewrite FE.
  pose proof (all_used (map (fun t => t_usf t ts) (filter (fun t => is_ul (t_dir t)) L)) 7 (di_usf _ _ D)) as A.
  rewrite map_length in A. change (Z.of_nat 7) with 7 in A.
  assert (IN : forall k, 0 <= k < 7 -> (In k (map (fun t => t_usf t ts) (filter (fun t => is_ul (t_dir t)) L)) <-> Z.testbit (pd_usf (c_bts c n ts)) k = true)).
  { intros k K. rewrite (mi_usf _ _ _ M k) by lia. rewrite existsb_exists, in_map_iff. unfold is_usf. split.
    - intros [t [E I]]. apply filter_In in I. destruct I as [I1 I2]. exists t. split; [ exact I1 | ]. rewrite I2. apply Z.eqb_eq in E. exact E.
    - intros [t [I E]]. apply andb_true_iff in E. destruct E as [E1 E2]. exists t. split; [ lia | ]. apply filter_In. auto. }
  assert (RG : forall k, In k (map (fun t => t_usf t ts) (filter (fun t => is_ul (t_dir t)) L)) -> 0 <= k < 7).
  { intros k I. apply in_map_iff in I. destruct I as [t [<- I]]. apply filter_In in I. destruct I as [I1 I2].
    apply (proj2 (di_range _ _ D t I1)). destruct (t_dir t); [ discriminate | reflexivity ]. }
  specialize (A RG). split.
  - intro H. rewrite (proj2 A); [ reflexivity | ]. intros k K. apply IN; auto.
  - intros E k K. apply IN; [ exact K | ]. apply (proj1 A); [ lia | exact K ].
Qed.
Lemma ul_at_most : forall ids c n ts, inv ids c -> 0 <= ts < 8 -> tbfs_on c n ts UL <= 7.
Proof.
  intros ids c n ts V R. rewrite on_here. pose proof (i_distinct _ _ V n ts R) as D. set (L := here (c_tbfs c) n ts) in *.
  assert (FE : filter (fun t => dir_eqb (t_dir t) UL) L = filter (fun t => is_ul (t_dir t)) L).
  { clear. induction L as [|t L IH]; [ reflexivity | ]. cbn [filter]. rewrite IH. destruct (t_dir t); reflexivity. }
  rewrite FE. pose proof (nodup_range (map (fun t => t_usf t ts) (filter (fun t => is_ul (t_dir t)) L)) 7 (di_usf _ _ D)) as A.
  rewrite map_length in A. change (Z.of_nat 7) with 7 in A. enough (length (filter (fun t => is_ul (t_dir t)) L) <= 7)%nat by lia.
  apply A. intros k I. apply in_map_iff in I. destruct I as [t [<- I]]. apply filter_In in I. destruct I as [I1 I2].
  apply (proj2 (di_range _ _ D t I1)). destruct (t_dir t); [ discriminate | reflexivity ].
Qed.
Lemma full_ok : forall ids c n ts, inv ids c -> words (c_bts c) -> 0 <= ts < 8 ->
  (pdch_is_full (c_bts c n ts) = true <-> tbfs_on c n ts UL = 7 \/ tbfs_on c n ts DL = 32).
Proof.
  intros ids c n ts V W R. unfold pdch_is_full. rewrite !orb_true_iff, !Z.eqb_eq.
  rewrite (tfi_full ids c n ts UL V W R), (tfi_full ids c n ts DL V W R).
  pose proof (usf_full ids c n ts V R) as U. pose proof (ul_at_most ids c n ts V R) as M.
  destruct (find_free_usf (pd_usf (c_bts c n ts))) as [u|]; split.
  - intros [[H|H]|H]; [ lia | auto | discriminate ].
  - intros [H|H]; [ | auto ]. apply U in H. discriminate.
  - intros _. left. now apply U.
  - auto.
Qed.
Lemma all_allocated_ok : forall def ids os c, NoDup ids -> (length ids < 256)%nat -> crun def ids os init_cell = Some c ->
  (all_pdch_allocated (c_bts c) = true <-> all_busy c).
Proof.
  intros def ids os c ND LEN H. pose proof (reached_inv def ids os c ND LEN H) as V.
  pose proof (words_run def ids os init_cell c H words_init) as W. unfold all_pdch_allocated, all_busy. rewrite forallb_forall. split.
  - intros A n ts Rn Rt E. specialize (A n (proj2 (in_slots8 n) Rn)). rewrite forallb_forall in A.
    specialize (A ts (proj2 (in_slots8 ts) Rt)). rewrite E in A. cbn [negb orb] in A. now apply (full_ok ids).
  - intros A n Rn. apply forallb_forall. intros ts Rt. apply in_slots8 in Rn, Rt. destruct (pd_enabled (c_bts c n ts)) eqn:E; [ | reflexivity ].
    cbn [negb orb]. apply (full_ok ids c n ts V W Rt). auto.
Qed.
(** With no room left in a direction nothing is allocated in it. *)
Lemma no_room : forall def ids os c a m d single use_trx, NoDup ids -> (length ids < 256)%nat -> crun def ids os init_cell = Some c -> In m ids ->
  (forall n ts, 0 <= n < 8 -> 0 <= ts < 8 -> pd_enabled (c_bts c n ts) = true -> tbfs_on c n ts d = if is_ul d then 7 else 32) ->
  fst (alloc a def (c_bts c) (c_dis c) (mk_req (c_ms c m) d single use_trx)) = None.
Proof.
  intros def ids os c a m d single use_trx ND LEN H I F. pose proof (reached_inv def ids os c ND LEN H) as V.
  pose proof (words_run def ids os init_cell c H words_init) as W.
  destruct (fst (alloc a def (c_bts c) (c_dis c) (mk_req (c_ms c m) d single use_trx))) as [r|] eqn:E; [ exfalso | reflexivity ].
  pose proof (proj1 (alloc_all_ok a def (c_bts c) (c_dis c) (mk_req (c_ms c m) d single use_trx) r (i_ms _ _ V m I) (inv_counters ids c V) E)) as G. cbn [q_dir] in G.
  assert (X : exists ts, on (r_mask r) ts).
  { exists (Z.log2 (r_mask r)). pose proof (g_mask _ _ _ G) as MK. split; [ | apply Z.bit_log2; lia ].
    split; [ apply Z.log2_nonneg | ]. change 8 with (Z.log2 256). apply Z.log2_lt_pow2; cbn; lia. }
  destruct X as [ts O]. specialize (F (r_trx r) ts (g_trx _ _ _ G) (proj1 O) (g_enabled _ _ _ G ts O)).
  destruct d; cbn [is_ul] in F.
  - apply (tfi_full ids c _ ts DL V W (proj1 O)) in F. destruct (g_tfi _ _ _ G ts O) as [K B]. rewrite F in B.
    change NO_FREE_TFI with (Z.ones 32) in B. rewrite Z.ones_spec_low in B by exact K. discriminate.
  - apply (usf_full ids c _ ts V (proj1 O)) in F. destruct (g_usf _ _ _ G eq_refl ts O) as [K B].
    rewrite (proj1 (no_free_usf _) F) in B by exact K. discriminate.
Qed.

(** ** Witnesses *)
Definition dl_only : list cop := en [3] ++ put_on DL 3 (rg 1 32).
Definition dl_only_look (c : cell) :=
  (all_pdch_allocated (c_bts c), existsb (fun ts => pd_enabled (c_bts c 0 ts)) slots8,
   option_map r_mask (fst (alloc AlgA 12 (c_bts c) (c_dis c) (mk_req (c_ms c 5) UL true (-1)))),
   option_map r_mask (fst (alloc AlgB 12 (c_bts c) (c_dis c) (mk_req (c_ms c 40) UL true (-1))))).
Lemma dl_only_seen : seen (cell_of dl_only) dl_only_look = Some (true, true, Some 8, Some 8).
Proof. vm_compute. reflexivity. Qed.
Lemma room_though_flag : exists os c r, cell_of os = Some c /\ all_pdch_allocated (c_bts c) = true /\
  fst (alloc AlgB 12 (c_bts c) (c_dis c) (mk_req (c_ms c 40) UL true (-1))) = Some r /\ r_mask r = 8.
Proof.
  destruct (seen_ok _ _ _ _ dl_only_seen) as (c & E & F). unfold dl_only_look in F.
  destruct (fst (alloc AlgB 12 (c_bts c) (c_dis c) (mk_req (c_ms c 40) UL true (-1)))) as [r|] eqn:A; [ | discriminate ].
  exists dl_only, c, r. cbn [option_map] in F. injection F as F1 _ _ F2. auto.
Qed.
Lemma flag_without_timeslots : exists c, cell_of [] = Some c /\ all_pdch_allocated (c_bts c) = true /\
  forall n ts, pd_enabled (c_bts c n ts) = false.
Proof. exists init_cell. split; [ reflexivity | ]. split; [ vm_compute; reflexivity | ]. intros n ts. reflexivity. Qed.
