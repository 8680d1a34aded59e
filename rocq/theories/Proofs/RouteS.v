(** Proofs about the routing of uplink blocks: every history keeps the books. *)
From Coq Require Import ZArith Lia List Bool.
From Verif Require Import Base.Arith Model.TbfFsm Spec.TbfFsmSpec Proofs.TbfFsmP Proofs.TbfFsmQ
  Model.TbfSub Spec.TbfSubSpec Proofs.TbfSubP Proofs.TbfSubQ Proofs.TbfSubR Model.Route Spec.RouteSpec
  Proofs.RouteP Proofs.RouteQ Proofs.RouteR.
Import ListNotations.
Open Scope Z_scope.

(** ** A new TBF *)
Lemma attach_sound : forall c b s id m tfi t, sound c b e0 g0 s -> fresh (t_dir t) id tfi s = true ->
  born c t -> alive t -> t_p t = Polls 0 0 0 0 -> t_usf t = 0%nat ->
  sound c b e0 g0 (attach (RT id m tfi true t) s).
Proof.
  intros c b s id m tfi t SO FR BO AL TP TU. unfold fresh in FR.
  destruct (get id s) eqn:GN; [discriminate|]. destruct (by_tfi (t_dir t) tfi s) eqn:BN; [discriminate|].
  destruct SO as (A & B & C & D).
  set (f := fun y => if is_cur (t_dir t) m y then with_cur false y else y).
  assert (F : forall y, r_id (f y) = r_id y /\ r_ms (f y) = r_ms y /\ r_tfi (f y) = r_tfi y /\ r_dir (f y) = r_dir y /\
                        (r_cur (f y) = true -> r_cur y = true) /\ r_t (f y) = r_t y).
  { intros y. unfold f. destruct (is_cur (t_dir t) m y); cbn; auto 8. splits; auto. discriminate. }
  assert (NI : forall y, In y (s_tbfs s) -> r_id y <> id).
  { intros y I E. pose proof (find_none _ _ GN _ I) as X. unfold is_id in X. rewrite E, Z.eqb_refl in X. discriminate. }
  assert (T1 : s_tbfs (attach (RT id m tfi true t) s) = RT id m tfi true t :: map f (s_tbfs s)) by reflexivity.
  assert (T2 : s_nodes (attach (RT id m tfi true t) s) = s_nodes s) by reflexivity.
  unfold sound. rewrite T1, T2.
  assert (UM : unique (map f (s_tbfs s))) by (apply unique_map; [intros y I; destruct (F y) as (? & ? & ? & ? & ? & ?); auto 8 | exact A]).
  split; [|split; [exact B|split]].
  - destruct UM as (U1 & U2 & U3). split; [|split].
    + cbn [map r_id]. constructor; [|exact U1]. rewrite map_map. intros I. apply in_map_iff in I. destruct I as (y & E & I).
      destruct (F y) as (F1 & _). rewrite F1 in E. exact (NI y I E).
    + assert (X : forall d k y, is_tfi d k (RT id m tfi true t) = true -> In y (map f (s_tbfs s)) -> is_tfi d k y = true -> False).
      { intros d k y X I Y. apply in_map_iff in I. destruct I as (z & <- & I). destruct (F z) as (F1 & F2 & F3 & F4 & _).
        pose proof (find_none _ _ BN _ I) as N0. destruct (tfi_prop _ _ _ X) as (X1 & X2). cbn in X1, X2. subst k. unfold r_dir in X1. cbn in X1. subst d.
        unfold is_tfi in *. rewrite F3, F4 in Y. congruence. }
      intros x y d k [<-|I] [<-|J] HX HY; [reflexivity | exfalso; eauto | exfalso; eauto | exact (U2 x y d k I J HX HY)].
    + assert (X : forall d k y, is_cur d k (RT id m tfi true t) = true -> In y (map f (s_tbfs s)) -> is_cur d k y = true -> False).
      { intros d k y X I Y. apply in_map_iff in I. destruct I as (z & <- & I).
        destruct (cur_prop _ _ _ X) as (X1 & X2 & _). unfold r_dir in X1. cbn in X1, X2. subst d k.
        unfold f in Y. destruct (is_cur (t_dir t) m z) eqn:E; [|congruence].
        apply cur_prop in Y. cbn in Y. destruct Y as (_ & _ & Y). discriminate. }
      intros x y d k [<-|I] [<-|J] HX HY; [reflexivity | exfalso; eauto | exfalso; eauto | exact (U3 x y d k I J HX HY)].
  - intros fn n i I O. destruct (C fn n i I O) as (y & Y1 & Y2). exists (f y). split; [right; apply in_map; exact Y1|].
    destruct (F y) as (F1 & _). congruence.
  - intros x [<-|I].
    + clear T1. assert (NO : forall p, In p (s_nodes s) -> owned id (snd p) = false).
      { intros [fn n] I. unfold owned. cbn [snd]. destruct (owner n) as [i|] eqn:O; [|reflexivity].
        destruct (C fn n i I O) as (y & Y1 & Y2). apply Z.eqb_neq. intros ->. exact (NI y Y1 Y2). }
      unfold books. cbn [r_id r_t]. unfold polls_of, grants_of. rewrite T2.
      splits; try assumption.
      * intros r. rewrite filter_none.
        -- unfold outstanding. rewrite TP. unfold e0, leq. destruct r, b; cbn; lia.
        -- intros p I. specialize (NO p I). unfold poll_of, owned, owner in *. destruct (snd p); auto. rewrite NO. reflexivity.
      * rewrite filter_none.
        -- rewrite TU. reflexivity.
        -- intros p I. specialize (NO p I). unfold grant_of, owned, owner in *. destruct (snd p); auto.
    + apply in_map_iff in I. destruct I as (y & <- & I). destruct (F y) as (F1 & _ & _ & _ & _ & F6).
      destruct (D y I) as (D1 & D2 & D3 & D4). unfold books, polls_of, grants_of in *. rewrite F1, F6, T2. cut; assumption.
Qed.

Lemma create_kept : forall c b d id m tfi w l1 l3 l5 s, sound c b e0 g0 s -> fresh d id tfi s = true ->
  exists t, create c d id m tfi w l1 l3 l5 s = Ok (attach (RT id m tfi true t) s) /\
    sound c b e0 g0 (attach (RT id m tfi true t) s) /\ t_da t = DA_NONE /\ t_dir t = d /\ state t = ASSIGN.
Proof.
  intros c b d id m tfi w l1 l3 l5 s SO FR.
  destruct (new_inv c d w (s_now s) l1 l3 l5) as (t & N & V & AL & _ & _ & _ & _ & _ & _ & ST & TP & TU & DA & DI).
  exists t. unfold create. rewrite N. splits; try assumption; try reflexivity.
  apply attach_sound; try assumption; [rewrite DI; exact FR|].
  exists d, w, (s_now s), l1, l3, l5, t, [], []. split; [exact N | reflexivity].
Qed.

Lemma attach_get : forall x s i y, get i s = Some y -> r_id x <> i -> exists z, get i (attach x s) = Some z /\ r_t z = r_t y.
Proof.
  intros x s i y G NE. unfold get, attach in *. cbn [set_tbfs s_tbfs find]. unfold is_id at 1.
  apply Z.eqb_neq in NE. rewrite NE. clear NE. revert G. induction (s_tbfs s) as [|a l IH]; [discriminate|]. cbn [find map]. intros G.
  replace (is_id i (if is_cur (r_dir x) (r_ms x) a then with_cur false a else a)) with (is_id i a) by (destruct (is_cur _ _ a); reflexivity).
  destruct (is_id i a); [|exact (IH G)]. injection G as <-. eexists. split; [reflexivity|]. destruct (is_cur _ _ a); reflexivity.
Qed.

(** ** Reservations *)
Lemma reserve_nodes : forall fn n s, node_at fn s = None -> s_nodes (reserve fn n s) = (fn, n) :: s_nodes s /\ s_tbfs (reserve fn n s) = s_tbfs s.
Proof. intros fn n s N. unfold reserve. rewrite N. split; reflexivity. Qed.

Lemma reserve_gen : forall c b e g e' g' s fn n, sound c b e g s -> node_at fn s = None ->
  (forall id, owner n = Some id -> exists x, get id s = Some x) ->
  (forall i r, e i r = ((if poll_of i r (fn, n) then 1 else 0) + e' i r)%nat) ->
  (forall i, g i = ((if grant_of i (fn, n) then 1 else 0) + g' i)%nat) ->
  sound c b e' g' (reserve fn n s).
Proof.
  intros c b e g e' g' s fn n (A & B & C & D) N O HE HG. destruct (reserve_nodes fn n s N) as (R1 & R2).
  unfold sound. rewrite R1, R2. split; [exact A|]. split; [|split].
  - cbn [map fst]. constructor; [exact (node_none _ _ N) | exact B].
  - intros f k id [I|I] OK.
    + injection I as <- <-. destruct (O id OK) as (x & G). exists x. exact (get_in _ _ _ G).
    + exact (C f k id I OK).
  - intros x I. destruct (D x I) as (D1 & D2 & D3 & D4). unfold books, polls_of, grants_of in *. rewrite R1. cbn [filter].
    splits; try assumption.
    + intros r. specialize (D3 r). specialize (HE (r_id x) r). destruct (poll_of (r_id x) r (fn, n)); cbn [length]; unfold leq in *; destruct b; lia.
    + specialize (HG (r_id x)). destruct (grant_of (r_id x) (fn, n)); cbn [length]; lia.
Qed.

(** ** A poll is placed *)
Lemma placed_more : forall t t' r, t_p t' = t_p (more_polls r t) -> placed t t' = Some r.
Proof.
  intros t t' r E. unfold placed, outstanding. rewrite E. destruct t as [? ? ? ? ? ? ? ? ? ? [a b d e] ? ? ? ?].
  destruct r; cbn -[Nat.ltb]; rewrite ?Nat.ltb_irrefl; replace (Nat.ltb _ (S _)) with true by (symmetry; apply Nat.ltb_lt; lia); reflexivity.
Qed.
Lemma placed_none : forall t t', t_p t' = t_p t -> placed t t' = None.
Proof. intros t t' E. unfold placed, outstanding. rewrite E. cbn -[Nat.ltb]. rewrite !Nat.ltb_irrefl. reflexivity. Qed.

Lemma effs_dead : forall c l t, t_f (apply_effs c l t) = t_f t.
Proof.
  intros c l. induction l as [|e l IH]; intros t; [reflexivity|]. destruct e; cbn [apply_effs]; rewrite IH; try reflexivity.
  - unfold ua_abort, ua_none. destruct (t_ua t) eqn:E; try reflexivity; destruct (t_dir t); reflexivity.
  - unfold da_sched. destruct (t_da t); reflexivity.
Qed.

Lemma polling_alive : forall c t o t' l r, alive t -> sub_step c t o = Some (t', l) -> polling o = Some r -> alive t'.
Proof.
  intros c t o t' l r AL S P. unfold sub_step in S. unfold alive in *. rewrite AL in S.
  assert (NF : forall u, t_f (ua_none c u) = t_f u) by (intros u; unfold ua_none; destruct (t_ua u), (t_dir u); reflexivity).
  destruct o; try discriminate; cbn [sop_step] in S.
  - unfold ua_rts in S. destruct ctrl; cbn [negb] in S; [|injection S as <- <-; exact AL].
    destruct (t_ua t); try (injection S as <- <-; exact AL).
    + destruct poll; cbn [negb] in S; [|injection S as <- <-; exact AL].
      destruct peer; cbn [negb] in S; [|injection S as <- <-; rewrite NF; exact AL].
      destruct enc; cbn [negb] in S; injection S as <- <-; exact AL.
    + injection S as <- <-. rewrite NF. exact AL.
  - unfold da_rts in S. repeat match type of S with context [match ?x with _ => _ end] => destruct x end; try discriminate; injection S as <- <-; exact AL.
  - destruct (t_dir t) eqn:D; [injection S as <- <-; exact AL|]. unfold uk_rts in S.
    destruct ctrl; cbn [negb] in S; [|injection S as <- <-; exact AL].
    destruct (t_uk t); try (injection S as <- <-; exact AL).
    destruct (tst_eqb _ _ && negb poll); [injection S as <- <-; exact AL|].
    set (t1 := if tst_eqb _ _ then _ else _) in *.
    assert (F1 : t_f t1 = t_f t) by (subst t1; destruct (tst_eqb _ _); reflexivity).
    destruct tlli; [|injection S as <- <-; rewrite F1; exact AL].
    destruct (life c _ t1) as [t2|] eqn:L; [|discriminate]. cbn in S. injection S as <- <-.
    unfold life in L. destruct (t_dir t1); [injection L as <-; rewrite F1; exact AL|].
    destruct (ul_op c (UEv CONT_RES_SUCCESS) (t_f t1)) as [[f ef]|] eqn:U; [|discriminate]. cbn in L. injection L as <-.
    rewrite effs_dead. cbn [set_f t_f]. rewrite F1 in U. clear - U AL. unfold ul_op, ul_dispatch, ul_in, ul_action in U.
    repeat match type of U with context [match ?x with _ => _ end] => destruct x end; try discriminate; injection U as <- <-; assumption.
  - destruct (t_dir t); injection S as <- <-; exact AL.
Qed.

(** ** Time passes *)
Definition aged (c : tconf) (d : Z) (x : rtbf) : rtbf :=
  match sub_step c (r_t x) (time_op d x) with Some (t, _) => with_t t x | None => x end.

Lemma time_step : forall c d x t l, alive (r_t x) -> sub_step c (r_t x) (time_op d x) = Some (t, l) ->
  alive t /\ t_da t = t_da (r_t x) /\ t_uk t = t_uk (r_t x) /\ state t = state (r_t x).
Proof.
  intros c d x t l A S. unfold sub_step in S. unfold alive in *. rewrite A in S. unfold time_op, r_dir in S.
  destruct (t_dir (r_t x)) eqn:D; cbn [sop_step life_ok] in S; unfold life in S; rewrite D in S; cbn in S; injection S as <- <-; auto.
Qed.
Lemma pass_aged : forall c d l, (forall x, In x l -> born c (r_t x) /\ alive (r_t x)) -> pass c d l = Some (map (aged c d) l).
Proof.
  intros c d l H. induction l as [|x l IH]; [reflexivity|]. cbn [pass map]. unfold aged at 1.
  destruct (H x (or_introl eq_refl)) as (B & A). destruct (born_goes c (r_t x) (time_op d x) B A) as (t & q & S). rewrite S.
  rewrite IH; [reflexivity|]. intros y I. apply H. right. exact I.
Qed.
Lemma aged_prop : forall c d x, born c (r_t x) -> alive (r_t x) ->
  exists t, aged c d x = with_t t x /\ born c t /\ alive t /\ K t = K (r_t x) /\ t_da t = t_da (r_t x) /\
    t_uk t = t_uk (r_t x) /\ state t = state (r_t x).
Proof.
  intros c d x B A. unfold aged. destruct (born_goes c (r_t x) (time_op d x) B A) as (t & q & S). rewrite S.
  exists t. destruct (time_step _ _ _ _ _ A S) as (T1 & T2 & T3 & T4). splits; auto; [exact (born_step _ _ _ _ _ B S)|].
  destruct (step_K c (r_t x) _ t q A S) as [E|(r & P & _)]; [|unfold time_op in P; discriminate]. unfold time_op in E. exact E.
Qed.
Lemma pass_sound : forall c b s d, sound c b e0 g0 s -> sound c b e0 g0 (set_tbfs (map (aged c d) (s_tbfs s)) s).
Proof.
  intros c b s d (A & B & C & D). unfold sound. cbn [set_tbfs s_tbfs s_nodes].
  assert (AG : forall x, In x (s_tbfs s) -> exists t, aged c d x = with_t t x /\ born c t /\ alive t /\ K t = K (r_t x)).
  { intros x I. destruct (D x I) as (D1 & D2 & _). destruct (aged_prop c d x D1 D2) as (t & X). exists t. tauto. }
  split; [|split; [exact B|split]].
  - apply unique_map; [|exact A]. intros x I. destruct (AG x I) as (t & -> & _ & _ & E). apply K_inj in E. unfold r_dir. cbn. tauto.
  - intros fn n id I O. destruct (C fn n id I O) as (x & X1 & X2). exists (aged c d x). split; [apply in_map; exact X1|].
    destruct (AG x X1) as (t & -> & _). exact X2.
  - intros y I. apply in_map_iff in I. destruct I as (x & <- & I). destruct (AG x I) as (t & -> & T1 & T2 & T3).
    destruct (D x I) as (D1 & D2 & D3 & D4). apply K_inj in T3. destruct T3 as (_ & T3 & T4).
    unfold books, polls_of, grants_of in *. cbn [with_t r_id r_t set_tbfs s_nodes]. splits; try assumption; [|congruence].
    intros r. rewrite (out_p _ _ r T3). apply D3.
Qed.

Lemma own_after : forall o t, own_op o = true -> after o t = K t.
Proof. intros o t H. destruct o; try discriminate; reflexivity. Qed.
Lemma own_polling : forall o r, polling o = Some r -> own_op o = true.
Proof. intros o r H. destruct o; try discriminate; reflexivity. Qed.

Lemma store_node : forall x t s fn, node_at fn s = None -> node_at fn (store x t s) = None.
Proof.
  intros x t s fn N. unfold store. destruct (f_dead (t_f t)); [|exact N].
  destruct (node_at fn (remove (r_id x) s)) eqn:E; [|reflexivity]. apply node_at_in in E. cbn in E. apply filter_In in E. destruct E as [E _].
  exfalso. apply (node_none _ _ N). change fn with (fst (fn, n)). apply in_map. exact E.
Qed.

Lemma informed_own : forall s x fn o, own_op (informed s x fn o) = own_op o.
Proof. intros s x fn o. destruct o; reflexivity. Qed.

Lemma do_kept : forall c b s id o fn, sound c b e0 g0 s -> okay c b e0 g0 (r_step c s (RDo id o fn)).
Proof.
  intros c b s id o fn SO. cbn [r_step]. destruct (get id s) as [x|] eqn:G; [|exact SO].
  set (o' := informed s x fn o). cbv zeta.
  destruct (own_op o') eqn:OW; cbn [negb orb]; [|exact SO].
  destruct (match o' with SDlPoll => match node_at fn s with Some _ => true | None => false end | _ => false end) eqn:BU; [exact SO|].
  destruct (get_in _ _ _ G) as [IX EX].
  pose proof (x_alive c b s id x G _ _ SO) as AL.
  assert (BO : born c (r_t x)) by (destruct SO as (_ & _ & _ & D); apply (D x IX)).
  destruct (born_goes c (r_t x) o' BO AL) as (t & l & S). rewrite S.
  destruct (step_K c (r_t x) o' t l AL S) as [E|(r & P & E)].
  - rewrite (own_after _ _ OW) in E. apply K_inj in E. destruct E as (_ & E1 & E2).
    rewrite (placed_none _ _ E1).
    assert (S1 : sound c b e0 g0 (store x t s)).
    { eapply store_sound; [exact SO | exact IX | exact S | | lia | auto]. intros q. rewrite (out_p _ _ q E1). lia. }
    destruct (f_dead (t_f t)) as [w|]; [|exact S1]. destruct w; try exact S1.
    apply tell_sound; [exact S1 | split; reflexivity].
  - apply K_inj in E. destruct E as (_ & E1 & E2). rewrite more_usf in E2. rewrite (placed_more _ _ _ E1).
    pose proof (polling_alive c (r_t x) o' t l r AL S P) as AT. unfold alive in AT. rewrite AT.
    assert (S1 : sound c b (e1 id r) g0 (store x t s)).
    { eapply store_sound; [exact SO | exact IX | exact S | | unfold g0; lia |].
      - intros q. rewrite (out_p _ _ q E1), out_more. unfold e1, e0. rewrite EX, Z.eqb_refl. cbn [andb]. destruct (reason_eqb r q); lia.
      - intros i NE. unfold e1, e0. rewrite EX in NE. apply Z.eqb_neq in NE. rewrite NE. auto. }
    cbn [okay].
    assert (N : node_at fn s = None).
    { clear S1. revert S E1 BU. subst o'. destruct o; try discriminate; cbn [informed].
      - destruct (node_at fn s); [|reflexivity]. intros S E1 _. exfalso.
        assert (OUT : outstanding P_UL_ASS t = outstanding P_UL_ASS (r_t x)).
        { unfold sub_step in S. unfold alive in AL. rewrite AL in S. cbn [sop_step] in S. unfold ua_rts in S.
          destruct ctrl; cbn [negb] in S; [|injection S as <- <-; reflexivity].
          destruct (t_ua (r_t x)); try (injection S as <- <-; reflexivity).
          injection S as <- <-. apply out_p. pose proof (none_K c (r_t x)) as X. apply K_inj in X. tauto. }
        cbn in P. injection P as <-. rewrite (out_p _ _ P_UL_ASS E1), out_more in OUT. cbn [reason_eqb] in OUT. lia.
      - destruct (node_at fn s); [|reflexivity]. intros S E1 _. exfalso.
        assert (OUT : outstanding P_DL_ASS t = outstanding P_DL_ASS (r_t x)).
        { unfold sub_step in S. unfold alive in AL. rewrite AL in S. cbn [sop_step] in S. unfold da_rts in S. cbn [negb] in S.
          repeat match type of S with context [match ?x with _ => _ end] => destruct x end; try discriminate; injection S as <- <-; reflexivity. }
        cbn in P. injection P as <-. rewrite (out_p _ _ P_DL_ASS E1), out_more in OUT. cbn [reason_eqb] in OUT. lia.
      - destruct (node_at fn s); [|reflexivity]. intros S E1 _. exfalso.
        assert (OUT : outstanding P_UL_ACK t = outstanding P_UL_ACK (r_t x)).
        { unfold sub_step in S. unfold alive in AL. rewrite AL in S. cbn [sop_step] in S.
          destruct (t_dir (r_t x)); [injection S as <- <-; reflexivity|]. unfold uk_rts in S.
          destruct ctrl; cbn [negb] in S; [|injection S as <- <-; reflexivity].
          destruct (t_uk (r_t x)); try (injection S as <- <-; reflexivity).
          destruct (tst_eqb _ _); cbn [andb] in S; [injection S as <- <-; reflexivity|].
          destruct tlli; [|injection S as <- <-; reflexivity].
          pose proof (lifemap_K _ _ _ _ _ _ S) as X. apply K_inj in X. destruct X as (_ & X & _). apply out_p. exact X. }
        cbn in P. injection P as <-. rewrite (out_p _ _ P_UL_ACK E1), out_more in OUT. cbn [reason_eqb] in OUT. lia.
      - intros _ _ BU. destruct (node_at fn s); [discriminate | reflexivity]. }
    apply (reserve_gen c b (e1 id r) g0); [exact S1 | apply store_node; exact N | | | ].
    + intros i O. cbn in O. injection O as <-. exists (with_t t x). rewrite <- EX. apply store_get_self; [rewrite EX; exact G | exact AT].
    + intros i q. unfold e1, e0, poll_of. cbn [snd]. rewrite (Z.eqb_sym id i). destruct ((i =? id) && reason_eqb r q); reflexivity.
    + intros i. reflexivity.
Qed.

Lemma step_kept : forall c b s o, sound c b e0 g0 s -> (b = true -> taken s o = false) -> kept c b s o (r_step c s o).
Proof.
  intros c b s o SO T. destruct o; cbn [r_step].
  - apply okay_kept. destruct (fresh UL id tfi s) eqn:F; [|exact SO].
    destruct (create_kept c b UL id m tfi w l1 l3 l5 s SO F) as (t & -> & S1 & _). exact S1.
  - apply okay_kept. destruct (fresh DL id tfi s) eqn:F; cbn [negb]; [|exact SO].
    destruct via as [v|].
    + destruct (get v s) as [y|] eqn:G; [|exact SO]. destruct (may_assign m s y); [|exact SO].
      destruct (create_kept c b DL id m tfi OnPacch l1 l3 l5 s SO F) as (t & -> & S1 & _). cbn [andthen].
      assert (NE : id <> v). { intros ->. unfold fresh in F. rewrite G in F. discriminate. }
      destruct (attach_get (RT id m tfi true t) s v y G NE) as (z & GZ & _).
      exact (act_quiet c b _ v z GZ e0 g0 SDaSched S1 eq_refl eq_refl).
    + destruct (current UL m s); [exact SO|]. destruct (needs_dl m s); [|exact SO].
      destruct (create_kept c b DL id m tfi OnCcch l1 l3 l5 s SO F) as (t & -> & S1 & _). exact S1.
  - apply okay_kept. exact (do_kept c b s id o fn SO).
  - apply okay_kept. destruct (get id s) as [x|] eqn:G; [|exact SO]. destruct (node_at fn s) as [n|] eqn:N; [exact SO|].
    destruct (r_dir x) eqn:D; [exact SO|]. destruct (f_st (t_f (r_t x))) eqn:F; try exact SO.
    pose proof (act_usf c b s id x G SO D F) as S1. unfold act in *. rewrite G in *.
    destruct (sub_step c (r_t x) SUsf) as [[t l]|] eqn:S; [|destruct S1]. cbn [andthen okay] in *.
    pose proof (x_alive c b s id x G _ _ SO) as AL. destruct (get_in _ _ _ G) as [IX EX].
    assert (AT : f_dead (t_f t) = None).
    { unfold sub_step in S. unfold alive in AL. rewrite AL in S. cbn [sop_step] in S. unfold r_dir in D. rewrite D, F in S.
      injection S as <- <-. exact AL. }
    apply (reserve_gen c b e0 (g1 id)); [exact S1 | apply store_node; exact N | | reflexivity | ].
    + intros i O. cbn in O. injection O as <-. exists (with_t t x). rewrite <- EX. apply store_get_self; [rewrite EX; exact G | exact AT].
    + intros i. unfold g1, g0, grant_of. cbn [snd]. rewrite (Z.eqb_sym id i). destruct (i =? id); reflexivity.
  - apply okay_kept. destruct (get id s) as [x|] eqn:G; [|exact SO]. destruct (node_at fn s) as [n|] eqn:N; [exact SO|].
    cbn [okay]. apply (reserve_gen c b e0 g0); [exact SO | exact N | | reflexivity | reflexivity].
    intros i O. cbn in O. injection O as <-. eauto.
  - apply okay_kept. destruct (node_at fn s) as [n|] eqn:N; [exact SO|].
    cbn [okay]. apply (sound_eq c b e0 g0 (reserve fn NSba s)); [reflexivity | reflexivity |].
    apply (reserve_gen c b e0 g0); [exact SO | exact N | discriminate | reflexivity | reflexivity].
  - apply okay_kept. rewrite pass_aged.
    + cbn [okay]. apply (sound_eq c b e0 g0 (set_tbfs (map (aged c d) (s_tbfs s)) s)); [reflexivity | reflexivity |]. apply pass_sound. exact SO.
    + intros x I. destruct SO as (_ & _ & _ & D). destruct (D x I) as (D1 & D2 & _). auto.
  - destruct m; cbn [rcv].
    + apply rcv_ack_kept. exact SO.
    + apply okay_kept, rcv_dl_ack_kept. exact SO.
    + apply okay_kept, rcv_request_kept. exact SO.
    + apply okay_kept, rcv_meas_kept; assumption.
    + apply okay_kept, rcv_cell_change_kept; assumption.
    + apply okay_kept, rcv_data_kept. exact SO.
    + exact SO.
  - apply okay_kept, expire_kept. exact SO.
  - apply okay_kept. cbn [okay]. apply remove_sound. exact SO.
Qed.

Lemma run_kept : forall c b ops s, sound c b e0 g0 s -> (b = true -> none_taken c s ops) ->
  match r_run c s ops with Ok s' => sound c b e0 g0 s' | Halt => False | Fault => True end.
Proof.
  intros c b ops. induction ops as [|o ops IH]; intros s SO T; [exact SO|]. cbn [r_run].
  assert (T1 : b = true -> taken s o = false) by (intros E; apply (T E)).
  pose proof (step_kept c b s o SO T1) as KE. destruct (r_step c s o) as [s1| |] eqn:E; cbn [andthen kept] in *; auto.
  apply IH; [exact KE|]. intros B. specialize (T B). cbn [none_taken] in T. rewrite E in T. tauto.
Qed.

Lemma reach_sound : forall c s, reachable c s -> sound c false e0 g0 s.
Proof. intros c s (ops & R). pose proof (run_kept c false ops r_init (sound_init _ _)) as X. rewrite R in X. apply X. discriminate. Qed.
Lemma exact_sound : forall c s ops, r_run c r_init ops = Ok s -> none_taken c r_init ops -> sound c true e0 g0 s.
Proof. intros c s ops R T. pose proof (run_kept c true ops r_init (sound_init _ _)) as X. rewrite R in X. apply X. auto. Qed.
