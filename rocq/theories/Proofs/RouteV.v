(** Proofs about the routing of uplink blocks: reservations that are lost. *)
From Coq Require Import ZArith Lia List Bool.
From Verif Require Import Base.Arith Model.TbfFsm Spec.TbfFsmSpec Proofs.TbfFsmP Proofs.TbfFsmQ
  Model.TbfSub Spec.TbfSubSpec Proofs.TbfSubP Proofs.TbfSubQ Proofs.TbfSubR Model.Route Spec.RouteSpec
  Proofs.RouteP Proofs.RouteQ Proofs.RouteR Proofs.RouteS Proofs.RouteT Proofs.RouteU.
Import ListNotations.
Open Scope Z_scope.

(** ** A TBF whose last poll was taken *)
Definition stuck_t (t : tbf) : Prop :=
  f_dead (t_f t) = None /\ t_dir t = UL /\ f_st (t_f t) = FINISHED /\ t_uk t = UK_WAIT /\ f_tm (t_f t) = None /\ f_t31 (t_f t) = None /\
  t_ua t = UA_NONE /\ t_uatm t = None.

Definition harmless (o : sop) : Prop :=
  match o with
  | SUaSched | SUaRej | SAnswer P_UL_ACK _ | SUnanswered P_UL_ACK | SResReq => False
  | _ => True
  end.

Lemma stuck_life : forall c o t t', stuck_t t -> life_ok o = true \/ o = LUl (UEv MAX_N3101) -> life c o t = Some t' -> stuck_t t'.
Proof.
  intros c o t t' (A & B & C & D & E & F & G & H) OK L. unfold life in L. rewrite B in L. destruct o as [o|o]; [injection L as <-; unfold stuck_t; splits; assumption|].
  destruct (ul_op c o (t_f t)) as [[f l]|] eqn:U; [|discriminate]. cbn [option_map fst snd] in L. injection L as <-.
  assert (X : l = [] /\ (f = t_f t \/ exists n, f = set_now n (t_f t))).
  { destruct o as [e|d| |]; cbn [ul_op] in U.
    - unfold ul_dispatch in U. rewrite C in U. destruct e; cbn [ul_in] in U; try (injection U as <- <-; auto);
        destruct OK as [OK|OK]; discriminate.
    - injection U as <- <-. eauto.
    - rewrite E in U. cbn [due] in U. injection U as <- <-. auto.
    - rewrite F in U. cbn [due] in U. injection U as <- <-. auto. }
  destruct X as (-> & [-> | (n & ->)]); cbn [apply_effs]; unfold stuck_t; cbn; splits; assumption.
Qed.

Lemma stuck_step : forall c t o t' l, stuck_t t -> harmless o -> sub_step c t o = Some (t', l) -> stuck_t t'.
Proof.
  intros c t o t' l ST H S. pose proof ST as (A & B & C & D & E & F & G & K0). unfold sub_step in S. rewrite A in S.
  destruct o; cbn [sop_step harmless] in *; try contradiction; try (injection S as <- <-; exact ST).
  - destruct (life_ok o) eqn:OK; [|injection S as <- <-; exact ST].
    destruct (life c o t) as [t1|] eqn:L; [|discriminate]. injection S as <- <-. exact (stuck_life _ _ _ _ ST (or_introl OK) L).
  - injection S as <- <-. unfold ua_abort. rewrite G. exact ST.
  - unfold ua_rts in S. rewrite G in S. destruct (negb ctrl); injection S as <- <-; exact ST.
  - unfold ua_timer in S. rewrite K0 in S. injection S as <- <-. exact ST.
  - injection S as <- <-. unfold da_sched. destruct (t_da t); exact ST.
  - injection S as <- <-. unfold da_abort. destruct (t_da t); exact ST.
  - unfold da_rts in S. repeat match type of S with context [match ?x with _ => _ end] => destruct x end; try discriminate; injection S as <- <-; exact ST.
  - rewrite B in S. injection S as <- <-. unfold uk_sched. rewrite D. exact ST.
  - rewrite B in S. unfold uk_rts in S. rewrite D in S. destruct (negb ctrl); injection S as <- <-; exact ST.
  - rewrite B in S. injection S as <- <-. exact ST.
  - rewrite B in S. injection S as <- <-. exact ST.
  - rewrite B, C in S. injection S as <- <-. exact ST.
  - destruct (t_usf t) as [|n]; [injection S as <- <-; exact ST|]. unfold count in S.
    destruct (n_inc N3101 (set_usf n t)) as [[t2 b]|] eqn:NI; [|discriminate].
    assert (S2 : stuck_t t2) by (unfold n_inc in NI; destruct (right_dir _ _); [|discriminate]; injection NI as <- <-; exact ST).
    destruct b; [|injection S as <- <-; exact S2].
    destruct (life c _ t2) as [t3|] eqn:L; [|discriminate]. injection S as <- <-. exact (stuck_life _ _ _ _ S2 (or_intror eq_refl) L).
  - rewrite B in S. unfold n_reset in S. destruct (right_dir _ _); [|discriminate]. injection S as <- <-. exact ST.
  - rewrite B in S. unfold n_reset in S. destruct (right_dir _ _); [|discriminate]. injection S as <- <-. exact ST.
  - rewrite B, C in S. injection S as <- <-. exact ST.
  - destruct (outstanding r t); [injection S as <- <-; exact ST|]. unfold poll_answer in S. destruct r; try contradiction.
    + rewrite G in S. injection S as <- <-. exact ST.
    + destruct (t_da t) eqn:DA; try (injection S as <- <-; exact ST).
      unfold n_reset_dl in S. cbn [less_polls set_p t_dir] in S. rewrite B in S. cbn [option_map] in S. unfold da_ack in S.
      change (t_da (less_polls P_DL_ASS t)) with (t_da t) in S. rewrite DA in S.
      change (t_f (set_da DA_NONE (less_polls P_DL_ASS t))) with (t_f t) in S. rewrite C in S. injection S as <- <-. exact ST.
    + injection S as <- <-. exact ST.
  - destruct (outstanding r t); [injection S as <- <-; exact ST|]. unfold poll_timeout in S. destruct r; try contradiction; cbn [less_polls set_p t_ua t_dir t_da] in S.
    + rewrite G in S. injection S as <- <-. exact ST.
    + rewrite B in S. destruct (t_da t) eqn:DA; injection S as <- <-; try exact ST. unfold da_timeout. change (t_da (less_polls P_DL_ASS t)) with (t_da t). rewrite DA. exact ST.
    + rewrite B in S. discriminate.
Qed.

(** The TBF [id] of the mobile [m] with the TFI [k] is stuck. *)
Definition stuck_in (id m k : Z) (s : rst) : Prop :=
  NoDup (map r_id (s_tbfs s)) /\
  (exists x, get id s = Some x /\ r_ms x = m /\ r_tfi x = k /\ stuck_t (r_t x)) /\
  (forall fn, ~ In (fn, NPoll id P_UL_ACK) (s_nodes s)).

Lemma store_nodes : forall x t s p, In p (s_nodes (store x t s)) -> In p (s_nodes s).
Proof. intros x t s p I. unfold store in I. destruct (f_dead (t_f t)); [|exact I]. cbn in I. apply filter_In in I. tauto. Qed.

Lemma stuck_act : forall c id m k i o s s', stuck_in id m k s -> (i = id -> harmless o) -> act c i o s = Ok s' -> stuck_in id m k s'.
Proof.
  intros c id m k i o s s' (N & (x & G & EM & EK & ST) & NN) H A. unfold act in A. destruct (get i s) as [y|] eqn:GY; [|discriminate].
  destruct (sub_step c (r_t y) o) as [[t l]|] eqn:S; [|discriminate]. injection A as <-. destruct (get_in _ _ _ GY) as [IY EY].
  split; [apply store_ids; exact N|]. split; [|intros fn I; apply store_nodes in I; exact (NN fn I)].
  destruct (Z.eq_dec i id) as [E|E].
  - rewrite E, G in GY. injection GY as <-. pose proof (stuck_step _ _ _ _ _ ST (H E) S) as ST2.
    exists (with_t t x). split; [|split; [exact EM | split; [exact EK | exact ST2]]]. assert (EX : r_id x = id) by congruence. rewrite <- EX in G |- *. apply store_get_self; [exact G | apply ST2].
  - exists x. splits; try assumption. apply store_get; [exact G | congruence].
Qed.

Lemma stuck_calm : forall c id m k o s s', stuck_in id m k s -> calm id m o -> r_step c s o = Ok s' -> stuck_in id m k s'.
Proof.
  intros c id m k o s s' P CA E.
  refine (p_step c (stuck_in id m k) (fun i o => i = id -> harmless o) (fun i r => ~ (i = id /\ r = P_UL_ACK)) (fun x => r_id x <> id \/ r_ms x <> m) _ _ _ _ _ _ _ _ _ _ _ _ _ o s s' P _ E).
  - intros u fn i r (_ & _ & NN) N (-> & ->). apply node_at_in in N. exact (NN fn N).
  - intros i q S _. destruct q; try destruct S; exact Logic.I.
  - intros i r NP. splits.
    + intros nw EI. destruct r; try exact Logic.I. apply NP. auto.
    + intros EI. destruct r; try exact Logic.I. apply NP. auto.
    + intros ER EI. apply NP. auto.
  - intros u i q u' PU H A. exact (stuck_act c id m k i q u u' PU H A).
  - intros u fn (N & X & NN). split; [exact N|]. split; [exact X|]. intros f I. apply sub_nodes in I. exact (NN f I).
  - intros u x (N & (y & G & EM & EK & ST) & NN) I F. split; [apply nodup_filter; exact N|]. split.
    + exists y. splits; try assumption. destruct (get_in _ _ _ G) as [J EY].
      assert (NE : r_id y <> r_id x) by (intros Q; pose proof (same_ms u y x N J I Q); destruct F; congruence).
      rewrite <- EY. apply in_get; [apply nodup_filter; exact N|]. apply remove_in; assumption.
    + intros f Q. cbn in Q. apply filter_In in Q. exact (NN f (proj1 Q)).
  - intros u i (N & (y & G & EM & EK & ST) & NN) GN. split; [apply nodup_filter; exact N|]. split.
    + exists y. splits; try assumption. destruct (get_in _ _ _ G) as [J EY].
      assert (NE : r_id y <> i) by congruence. rewrite <- EY. apply in_get; [apply nodup_filter; exact N|]. apply remove_in; assumption.
    + intros f Q. cbn in Q. apply filter_In in Q. exact (NN f (proj1 Q)).
  - intros u fn n (N & X & NN) H. unfold reserve. destruct (node_at fn u); [split; auto|]. split; [exact N|]. split; [exact X|].
    intros f I. cbn in I. destruct I as [I|I]; [|exact (NN f I)]. injection I as _ ->. exact (H id P_UL_ACK eq_refl (conj eq_refl eq_refl)).
  - intros u n PU. exact PU.
  - intros u i x q t l r (N & (y & G & EM & EK & ST) & NN) GX S OW PL (-> & ->). rewrite G in GX. injection GX as <-.
    assert (AL : alive (r_t y)) by apply ST.
    destruct (step_K c (r_t y) q t l AL S) as [KE|(w & PO & KE)].
    + rewrite (own_after _ _ OW) in KE. apply K_inj in KE. rewrite placed_none in PL; [discriminate | tauto].
    + apply K_inj in KE. rewrite (placed_more _ _ w) in PL; [|tauto]. injection PL as ->.
      destruct q; try discriminate. destruct ST as (A & B & C & D & _). unfold sub_step in S. rewrite A in S. cbn [sop_step] in S. rewrite B in S.
      unfold uk_rts in S. rewrite D in S. destruct KE as (_ & KE & _).
      assert (t = r_t y) by (destruct (negb ctrl); congruence). subst t.
      apply (f_equal p_uk) in KE. cbn in KE. lia.
  - intros u d i j tfi w now l1 l3 l5 t (N & (y & G & EM & EK & ST) & NN) F S.
    assert (GN : get i u = None) by (unfold fresh in F; destruct (get i u); [discriminate | reflexivity]).
    split; [apply attach_ids; [exact N | exact GN]|]. split; [|exact NN].
    assert (NE : i <> id) by congruence.
    destruct (get_in _ _ _ G) as [J EY].
    exists (if is_cur (t_dir t) j y then with_cur false y else y). split.
    + assert (IA : In (if is_cur (t_dir t) j y then with_cur false y else y) (s_tbfs (attach (RT i j tfi true t) u))).
      { right. apply in_map_iff. exists y. split; [reflexivity | exact J]. }
      rewrite <- EY. replace (r_id y) with (r_id (if is_cur (t_dir t) j y then with_cur false y else y)) by (destruct (is_cur _ _ y); reflexivity).
      apply in_get; [|exact IA]. apply attach_ids; [exact N | exact GN].
    + destruct (is_cur _ _ y); splits; assumption.
  - intros u i j tfi t v y u' PU _ _ _ _ PA A. apply (stuck_act c id m k v SDaSched _ _ PA); [intros; exact Logic.I | exact A].
  - intros u d l n (N & (y & G & EM & EK & ST) & NN) PA. split; [|split; [|exact NN]]; cbn [set_time set_tbfs s_tbfs].
    + replace (map r_id l) with (map r_id (s_tbfs u)); [exact N|]. clear - PA. revert l PA.
      induction (s_tbfs u) as [|x r IH]; intros l PA; cbn [pass] in PA; [injection PA as <-; reflexivity|].
      destruct (sub_step c (r_t x) (time_op d x)) as [[t q]|]; [|discriminate]. destruct (pass c d r) as [r'|]; [|discriminate].
      injection PA as <-. cbn. f_equal. apply IH. reflexivity.
    + unfold get in *. cbn [set_time set_tbfs s_tbfs]. clear N NN. revert l PA G.
      induction (s_tbfs u) as [|x r IH]; intros l PA G; [discriminate|]. cbn [pass] in PA.
      destruct (sub_step c (r_t x) (time_op d x)) as [[t q]|] eqn:S; [|discriminate]. destruct (pass c d r) as [r'|]; [|discriminate].
      injection PA as <-. cbn [find] in *. change (is_id id (with_t t x)) with (is_id id x). destruct (is_id id x).
      * injection G as ->. exists (with_t t y). splits; auto. cbn. apply (stuck_step c (r_t y) (time_op d y) t q ST Logic.I S).
      * apply IH; [reflexivity | exact G].
  - destruct o; auto.
    + intros OW u x EI. cbn [calm] in CA. destruct o; try discriminate; cbn [informed]; try exact Logic.I; exact (CA EI).
    + destruct m0; auto. intros j MS y EY. right. cbn [calm] in CA. destruct w; try contradiction. cbn in MS. congruence.
    + intros x I EI. cbn [calm] in CA. left. congruence.
Qed.

Lemma stuck_run : forall c id m k ops s s', stuck_in id m k s -> (forall o, In o ops -> calm id m o) -> r_run c s ops = Ok s' -> stuck_in id m k s'.
Proof.
  intros c id m k ops. induction ops as [|o ops IH]; intros s s' P H R; [injection R as <-; exact P|]. cbn [r_run] in R.
  apply andthen_ok in R. destruct R as (u & E & R). apply (IH u s'); [|intros q I; apply H; right; exact I | exact R].
  exact (stuck_calm c id m k o s u P (H o (or_introl eq_refl)) E).
Qed.

(** ** Single block allocations *)
Lemma sba_filter : forall f (l : list (Z * node)), (forall p, In p l -> is_sba p = true -> f p = true) ->
  filter is_sba (filter f l) = filter is_sba l.
Proof. intros f l H. apply filter_filter_same. exact H. Qed.
Lemma remove_sba : forall id s, sba_frames (remove id s) = sba_frames s /\ s_sba (remove id s) = s_sba s.
Proof.
  intros id s. split; [|reflexivity]. unfold sba_frames. cbn [remove s_nodes]. rewrite sba_filter; [reflexivity|].
  intros [fn n] _ H. unfold is_sba in H. cbn in *. destruct n; try discriminate. reflexivity.
Qed.
Lemma store_sba : forall x t s, sba_frames (store x t s) = sba_frames s /\ s_sba (store x t s) = s_sba s.
Proof. intros x t s. unfold store. destruct (f_dead (t_f t)); [apply remove_sba | split; reflexivity]. Qed.
Lemma act_sba : forall c i o s s', act c i o s = Ok s' -> sba_frames s' = sba_frames s /\ s_sba s' = s_sba s.
Proof.
  intros c i o s s' A. unfold act in A. destruct (get i s) as [x|]; [|discriminate]. destruct (sub_step c (r_t x) o) as [[t l]|]; [|discriminate].
  injection A as <-. apply store_sba.
Qed.
Lemma tell_sba : forall c d m o s s', tell c d m o s = Ok s' -> sba_frames s' = sba_frames s /\ s_sba s' = s_sba s.
Proof. intros c d m o s s' T. unfold tell in T. destruct (current d m s); [exact (act_sba _ _ _ _ _ T) | injection T as <-; auto]. Qed.
Lemma cur_sba : forall d m s, sba_frames (remove_cur d m s) = sba_frames s /\ s_sba (remove_cur d m s) = s_sba s.
Proof. intros d m s. unfold remove_cur. destruct (current d m s); [apply remove_sba | auto]. Qed.
Lemma release_sba : forall s fn n, NoDup (map fst (s_nodes s)) -> node_at fn s = Some n ->
  sba_frames s = ((match n with NSba => 1 | _ => 0 end) + sba_frames (release fn s))%nat.
Proof.
  intros s fn n N A. apply node_at_in in A. unfold sba_frames. rewrite (filter_split is_sba fn _ n N A). cbn [release set_nodes s_nodes].
  destruct n; reflexivity.
Qed.
Lemma reserve_sba : forall s fn n, node_at fn s = None ->
  sba_frames (reserve fn n s) = ((match n with NSba => 1 | _ => 0 end) + sba_frames s)%nat /\ s_sba (reserve fn n s) = s_sba s.
Proof. intros s fn n N. unfold reserve. rewrite N. unfold sba_frames. cbn [set_nodes s_nodes filter s_sba]. destruct n; split; reflexivity. Qed.
Lemma store_none : forall x t s fn n, node_at fn s = None -> sba_frames (reserve fn n (store x t s)) = ((match n with NSba => 1 | _ => 0 end) + sba_frames s)%nat.
Proof. intros x t s fn n N. destruct (reserve_sba (store x t s) fn n (store_node x t s fn N)) as (R & _). rewrite R. destruct (store_sba x t s) as (-> & _). reflexivity. Qed.

Lemma step_sba : forall c s o s', sound c false e0 g0 s -> (sba_frames s <= s_sba s)%nat -> r_step c s o = Ok s' ->
  (s_sba s' + sba_frames s = s_sba s + sba_frames s' + if takes_sba s o then 1 else 0)%nat.
Proof.
  intros c s o s' SO LE E.
  assert (ND : NoDup (map fst (s_nodes s))) by apply SO.
  assert (SAME : forall u, sba_frames u = sba_frames s /\ s_sba u = s_sba s -> (s_sba u + sba_frames s = s_sba s + sba_frames u + 0)%nat) by (intros u (A & B); lia).
  assert (TWICE : forall u v, sba_frames u = sba_frames s /\ s_sba u = s_sba s -> sba_frames v = sba_frames u /\ s_sba v = s_sba u ->
     (s_sba v + sba_frames s = s_sba s + sba_frames v + 0)%nat) by (intros u v (A & B) (C & D); lia).
  assert (REL : forall fn n u, node_at fn s = Some n -> n <> NSba -> sba_frames u = sba_frames (release fn s) /\ s_sba u = s_sba (release fn s) ->
     (s_sba u + sba_frames s = s_sba s + sba_frames u + 0)%nat).
  { intros fn n u N NS (A & B). rewrite A, B, (release_sba s fn n ND N). destruct n; try congruence; cbn; lia. }
  assert (REL2 : forall fn n u v, node_at fn s = Some n -> n <> NSba -> sba_frames u = sba_frames (release fn s) /\ s_sba u = s_sba (release fn s) ->
     sba_frames v = sba_frames u /\ s_sba v = s_sba u -> (s_sba v + sba_frames s = s_sba s + sba_frames v + 0)%nat).
  { intros fn n u v N NS (A & B) (C & D). apply (REL fn n v N NS). split; congruence. }
  assert (RELS : forall fn u, node_at fn s = Some NSba -> sba_frames u = sba_frames (release fn s) -> s_sba u = pred (s_sba s) ->
     (s_sba u + sba_frames s = s_sba s + sba_frames u + 0)%nat).
  { intros fn u N A B. pose proof (release_sba s fn NSba ND N) as X. cbn [Nat.add] in X. rewrite A, B. lia. }
  assert (ID : (s_sba s + sba_frames s = s_sba s + sba_frames s + 0)%nat) by lia.
  destruct o; cbn [r_step takes_sba] in *.
  - destruct (fresh UL id tfi s); [|injection E as <-; exact ID]. unfold create in E. destruct (sub_new _ _ _ _ _ _ _); [|discriminate].
    injection E as <-. apply SAME. split; reflexivity.
  - destruct (negb (fresh DL id tfi s)); [injection E as <-; exact ID|]. unfold create in E. destruct via as [v|].
    + destruct (get v s) as [y|]; [|injection E as <-; exact ID]. destruct (may_assign m s y); [|injection E as <-; exact ID].
      apply andthen_ok in E. destruct E as (u & A & T). destruct (sub_new _ _ _ _ _ _ _); [|discriminate]. injection A as <-.
      apply act_sba in T. apply (SAME s'). exact T.
    + destruct (current UL m s); [injection E as <-; exact ID|]. destruct (needs_dl m s); [|injection E as <-; exact ID].
      destruct (sub_new _ _ _ _ _ _ _); [|discriminate]. injection E as <-. apply SAME. split; reflexivity.
  - destruct (get id s) as [x|]; [|injection E as <-; exact ID]. cbv zeta in E. set (o' := informed s x fn o) in *.
    destruct (_ || _); [injection E as <-; exact ID|]. destruct (sub_step c (r_t x) o') as [[t l]|]; [|discriminate].
    set (u := match placed (r_t x) t with Some r => reserve fn (NPoll id r) (store x t s) | None => store x t s end) in *.
    assert (U : sba_frames u = sba_frames s /\ s_sba u = s_sba s).
    { destruct (store_sba x t s) as (A & B). subst u. destruct (placed (r_t x) t) as [r|]; [|auto].
      destruct (node_at fn (store x t s)) eqn:NA; [unfold reserve; rewrite NA; auto|].
      destruct (reserve_sba (store x t s) fn (NPoll id r) NA) as (C & D). cbn in C. split; congruence. }
    destruct (f_dead (t_f t)) as [w|]; [|injection E as <-; exact (SAME _ U)].
    destruct w; try (injection E as <-; exact (SAME _ U)). apply tell_sba in E. exact (TWICE _ _ U E).
  - destruct (get id s) as [x|]; [|injection E as <-; exact ID]. destruct (node_at fn s) eqn:N; [injection E as <-; exact ID|].
    destruct (r_dir x); [injection E as <-; exact ID|]. destruct (f_st (t_f (r_t x))); try (injection E as <-; exact ID).
    apply andthen_ok in E. destruct E as (u & A & T). injection T as <-. apply act_sba in A.
    apply (TWICE u); [exact A|]. destruct (node_at fn u) eqn:NU; [unfold reserve; rewrite NU; auto|].
    destruct (reserve_sba u fn (NUsf id) NU) as (C & D). cbn in C. auto.
  - destruct (get id s); [|injection E as <-; exact ID]. destruct (node_at fn s) eqn:N; [injection E as <-; exact ID|]. injection E as <-.
    apply SAME. exact (reserve_sba s fn (NNacc id) N).
  - destruct (node_at fn s) eqn:N; [injection E as <-; exact ID|]. injection E as <-.
    destruct (reserve_sba s fn NSba N) as (C & D). cbn [set_sba s_sba]. unfold sba_frames in *. cbn [set_sba s_nodes]. lia.
  - destruct (pass c d (s_tbfs s)); [|discriminate]. injection E as <-. apply SAME. split; reflexivity.
  - destruct m; cbn [rcv takes_sba] in *.
    + unfold rcv_ack in E. destruct (node_at fn s) as [n|] eqn:N; [|injection E as <-; exact ID].
      destruct n as [id r | id | id | ]; try (injection E as <-; exact ID).
      2:{ destruct (get id s); [|discriminate]. destruct nacc; injection E as <-; [|exact ID]. apply (REL fn _ _ N); [discriminate | auto]. }
      destruct (get id s) as [x|]; [|discriminate].
      assert (F : (if negb (awaits r (r_t x)) then Ok s
       else let s := release fn s in
         match r with
         | P_UL_ACK => act c id (SAnswer r false) s
         | P_UL_ASS => andthen (act c id (SAnswer r false) s) (tell c UL (r_ms x) (ack_pacch UL))
         | P_DL_ASS =>
            match current DL (r_ms x) s with
            | None => act c id (SAnswer r false) s
            | Some y => andthen (act c id (SAnswer r (dir_eqb (r_dir x) DL)) s) (act c (r_id y) (ack_pacch DL))
            end
         | P_DL_ACK => Ok s
         end) = Ok s' -> (s_sba s' + sba_frames s = s_sba s + sba_frames s' + 0)%nat).
      2:{ destruct r, (r_dir x); try (exact (F E)); discriminate. }
      clear E. intros E. destruct (negb (awaits r (r_t x))); [injection E as <-; exact ID|]. cbv zeta in E.
      destruct r.
      * apply andthen_ok in E. destruct E as (u & A & T). apply act_sba in A. apply tell_sba in T. apply (REL2 fn _ u _ N); [discriminate | exact A | exact T].
      * destruct (current DL (r_ms x) (release fn s)) as [z|].
        -- apply andthen_ok in E. destruct E as (u & A & T). apply act_sba in A. apply act_sba in T. apply (REL2 fn _ u _ N); [discriminate | exact A | exact T].
        -- apply act_sba in E. apply (REL fn _ _ N); [discriminate | exact E].
      * apply act_sba in E. apply (REL fn _ _ N); [discriminate | exact E].
      * injection E as <-. apply (REL fn _ _ N); [discriminate | auto].
    + unfold rcv_dl_ack in E. destruct (node_at fn s) as [n|] eqn:N; [|injection E as <-; exact ID].
      destruct n as [id r | id | id | ]; try (injection E as <-; exact ID). destruct r; try (injection E as <-; exact ID).
      destruct (get id s) as [x|]; [|discriminate]. destruct (r_dir x); [|discriminate]. destruct (r_tfi x =? tfi); [|injection E as <-; exact ID].
      apply act_sba in E. apply (REL fn _ _ N); [discriminate | exact E].
    + unfold rcv_request in E. destruct (node_at fn s) as [n|] eqn:N; [|injection E as <-; exact ID].
      destruct (ms_of w s) as [k|]; [|injection E as <-; exact ID]. destruct n as [id r | id | id | ].
      * destruct (get id s) as [x|]; [|discriminate]. destruct r; try (injection E as <-; exact ID). destruct (r_dir x); [injection E as <-; exact ID|].
        destruct (r_ms x =? k); [|injection E as <-; exact ID]. apply act_sba in E. apply (REL fn _ _ N); [discriminate | exact E].
      * destruct (get id s) as [x|]; [|discriminate]. destruct (r_ms x =? k); injection E as <-; [|exact ID].
        apply (REL fn _ _ N); [discriminate | apply remove_sba].
      * destruct (get id s); [|discriminate]. injection E as <-. exact ID.
      * injection E as <-. set (u := set_sba (pred (s_sba s)) (release fn s)).
        destruct (cur_sba DL k (remove_cur UL k u)) as (A & B), (cur_sba UL k u) as (C & D).
        apply (RELS fn _ N); [rewrite A, C; reflexivity | rewrite B, D; reflexivity].
    + unfold rcv_meas in E. destruct (node_at fn s) as [n|] eqn:N; [|injection E as <-; exact ID].
      destruct n as [id r | id | id | ].
      * injection E as <-. apply (REL fn _ _ N); [discriminate | auto].
      * apply act_sba in E. apply (REL fn _ _ N); [discriminate | exact E].
      * injection E as <-. apply (REL fn _ _ N); [discriminate | auto].
      * injection E as <-. apply (RELS fn _ N); reflexivity.
    + unfold rcv_cell_change in E. destruct (by_tfi d tfi s) as [z|]; [|injection E as <-; exact ID].
      destruct (node_at fn s) as [n|] eqn:N.
      2:{ rewrite (release_nothing _ _ N) in E. injection E as <-. exact ID. }
      destruct n as [id r | id | id | ].
      * injection E as <-. apply (REL fn _ _ N); [discriminate | auto].
      * apply act_sba in E. apply (REL fn _ _ N); [discriminate | exact E].
      * injection E as <-. apply (REL fn _ _ N); [discriminate | auto].
      * injection E as <-. rewrite (release_sba s fn NSba ND N). change (s_sba (release fn s)) with (s_sba s). lia.
    + unfold rcv_data in E. destruct (by_tfi UL tfi s) as [z|]; [|injection E as <-; exact ID].
      destruct (node_at fn s) as [[id r | id | id | ]|] eqn:N; try (apply act_sba in E; exact (SAME _ E)).
      destruct (id =? r_id z); apply act_sba in E; [|exact (SAME _ E)]. apply (REL fn _ _ N); [discriminate | exact E].
    + injection E as <-. exact ID.
  - unfold expire in E. destruct (node_at fn s) as [n|] eqn:N; [|injection E as <-; exact ID].
    destruct n as [id r | id | id | ].
    + apply act_sba in E. apply (REL fn _ _ N); [discriminate | exact E].
    + apply act_sba in E. apply (REL fn _ _ N); [discriminate | exact E].
    + injection E as <-. apply (REL fn _ _ N); [discriminate | auto].
    + injection E as <-. apply (RELS fn _ N); reflexivity.
  - injection E as <-. apply SAME. apply remove_sba.
Qed.
