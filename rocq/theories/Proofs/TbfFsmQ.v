(** More proofs about the life-cycle state machines: progress of the downlink
    machine, the uplink machine, and runs that break the expectations. *)
From Coq Require Import ZArith Lia List Bool.
From Verif Require Import Base.Arith Model.TbfFsm Spec.TbfFsmSpec Proofs.TbfFsmP.
Import ListNotations.
Open Scope Z_scope.

Lemma dl_now : forall c f o f', dl_step c f o = Some f' -> f_now f <= f_now f'.
Proof.
  intros c f o f' S. unfold dl_step in S. dlcases f. destruct dd; [injection S as <-; cbn; lia|].
  destruct o as [e|fin| |d|u|]; cbn [dl_op] in S.
  - destruct st, e; tick_simpl; try (injection S as <-; cbn; lia);
      destruct cc, pc, fst1; tick_simpl; try discriminate S; injection S as <-; cbn; lia.
  - destruct fin, st; tick_simpl; injection S as <-; cbn; lia.
  - injection S as <-; cbn; lia.
  - injection S as <-; cbn; lia.
  - cbn [f_tm f_now] in S. destruct (due tm nw); [|injection S as <-; cbn; lia].
    unfold dl_timer_cb in S. cbn [set_timer f_T] in S.
    repeat match type of S with context [?a =? ?b] => destruct (a =? b) end;
      try discriminate S; try (injection S as <-; cbn; lia);
      destruct st, u; tick_simpl; injection S as <-; cbn; lia.
  - cbn [f_t31 f_now] in S. destruct (due t31 nw); injection S as <-; cbn; lia.
Qed.

(** The guard timers run in the states that wait for them. *)
Definition dlpend (c : tconf) (f : fsm) : Prop :=
  match f_st f with
  | WAIT_RELEASE => exists x, f_T f = 3192 /\ f_tm f = Some x /\ x <= f_now f + c_t3192 c
  | WAIT_REUSE => exists x, f_T f = 3193 /\ f_tm f = Some x /\ x <= f_now f + Z.max 0 (c_t3193 c - c_t3192 c)
  | RELEASING => exists x, f_T f = 3195 /\ f_tm f = Some x /\ x <= f_now f + c_t3195 c
  | _ => True
  end.

Lemma dl_pending : forall c t ops f,
  c_t3192 c <> 0 -> c_t3195 c <> 0 ->
  dl_run c (fsm_new t) ops = Some f -> f_dead f = None -> dlpend c f.
Proof.
  intros c t ops f N1 N2. revert f. induction ops as [|o ops IH] using rev_ind; intros f R DL.
  - injection R as <-. exact I.
  - apply runs_snoc in R as (g & R & S).
    destruct (f_dead g) eqn:DD.
    { unfold dl_step in S. rewrite DD in S. congruence. }
    specialize (IH g R DD). pose proof (dl_now _ _ _ _ S) as NW.
    unfold dlpend in *.
    destruct (dl_kind_run _ _ _ _ _ _ R DD S)
      as [E1 E2 E3 X | s J N E1 E2 X | E0 E1 X E2 | Eo E0 E1 E2 E3 X | E0 E1 E2 X
       | Eo E0 E1 E2 E3 X | x X1 X2 E0 E1 E2 E3 X | Eo N E0 E1 E2 E3 X | x w1 E W L X].
    + rewrite E1, E2, E3. destruct (f_st g); try exact I;
        destruct IH as (y & A1 & A2 & A3); exists y; (split; [exact A1|]); (split; [exact A2|]); lia.
    + rewrite E1. destruct J as [<- | [<- | []]]; exact I.
    + rewrite E1. exact I.
    + rewrite E1. exact I.
    + rewrite E1. exact I.
    + rewrite E1. apply Z.eqb_neq in N1. rewrite N1 in E3. eexists.
      split; [exact E2|]. split; [exact E3|]. lia.
    + rewrite E1. eexists. split; [exact E2|]. split; [exact E3|]. lia.
    + rewrite E1. apply Z.eqb_neq in N2. rewrite N2 in E3. eexists.
      split; [exact E2|]. split; [exact E3|]. lia.
    + congruence.
Qed.

(** When the guard time has passed and the event loop serves the timers, the TBF
    is freed. *)
Lemma dl_freed_lost : forall c t ops f u,
  c_t3192 c <> 0 -> 0 < c_t3195 c ->
  dl_run c (fsm_new t) ops = Some f -> f_dead f = None -> f_st f = RELEASING ->
  exists f', dl_run c f [DTime (c_t3195 c); DTimer u] = Some f' /\ f_dead f' = Some By3195.
Proof.
  intros c t ops f u N1 N2 R DL ST.
  pose proof (dl_pending c t ops f N1 ltac:(lia) R DL) as P. unfold dlpend in P. rewrite ST in P.
  destruct P as (x & ET & TM & LE). dlcases f. subst.
  unfold dl_run. cbn [runs]. unfold dl_step at 1. cbn [f_dead dl_op option_map fst set_now f_now].
  unfold dl_step. cbn [f_dead dl_op f_tm f_now due set_now].
  replace (x <=? nw + Z.max 0 (c_t3195 c)) with true by (symmetry; apply Z.leb_le; lia).
  eexists. split; reflexivity.
Qed.

Lemma dl_freed_reuse : forall c t ops f u,
  c_t3192 c <> 0 -> c_t3195 c <> 0 ->
  dl_run c (fsm_new t) ops = Some f -> f_dead f = None -> f_st f = WAIT_REUSE ->
  exists f', dl_run c f [DTime (c_t3193 c - c_t3192 c); DTimer u] = Some f' /\ f_dead f' = Some By3193.
Proof.
  intros c t ops f u N1 N2 R DL ST.
  pose proof (dl_pending c t ops f N1 N2 R DL) as P. unfold dlpend in P. rewrite ST in P.
  destruct P as (x & ET & TM & LE). dlcases f. subst.
  unfold dl_run. cbn [runs]. unfold dl_step at 1. cbn [f_dead dl_op option_map fst set_now f_now].
  unfold dl_step. cbn [f_dead dl_op f_tm f_now due set_now].
  replace (x <=? nw + Z.max 0 (c_t3193 c - c_t3192 c)) with true by (symmetry; apply Z.leb_le; lia).
  eexists. split; reflexivity.
Qed.

Lemma dl_to_reuse : forall c t ops f u,
  0 < c_t3192 c -> c_t3195 c <> 0 ->
  dl_run c (fsm_new t) ops = Some f -> f_dead f = None -> f_st f = WAIT_RELEASE ->
  exists f', dl_run c f [DTime (c_t3192 c); DTimer u] = Some f' /\ f_dead f' = None /\ f_st f' = WAIT_REUSE.
Proof.
  intros c t ops f u N1 N2 R DL ST.
  pose proof (dl_pending c t ops f ltac:(lia) N2 R DL) as P. unfold dlpend in P. rewrite ST in P.
  destruct P as (x & ET & TM & LE). dlcases f. subst.
  unfold dl_run. cbn [runs]. unfold dl_step at 1. cbn [f_dead dl_op option_map fst set_now f_now].
  unfold dl_step. cbn [f_dead dl_op f_tm f_now due set_now f_st].
  replace (x <=? nw + Z.max 0 (c_t3192 c)) with true by (symmetry; apply Z.leb_le; lia).
  eexists. split; [reflexivity|]. split; reflexivity.
Qed.

Lemma dl_freed_final : forall c t ops f u1 u2,
  0 < c_t3192 c -> c_t3195 c <> 0 ->
  dl_run c (fsm_new t) ops = Some f -> f_dead f = None -> f_st f = WAIT_RELEASE ->
  exists f', dl_run c f [DTime (c_t3192 c); DTimer u1; DTime (c_t3193 c - c_t3192 c); DTimer u2] = Some f' /\
             f_dead f' = Some By3193.
Proof.
  intros c t ops f u1 u2 N1 N2 R DL ST.
  destruct (dl_to_reuse c t ops f u1 N1 N2 R DL ST) as (g & R1 & DG & SG).
  assert (RG : dl_run c (fsm_new t) (ops ++ [DTime (c_t3192 c); DTimer u1]) = Some g).
  { unfold dl_run in *. rewrite runs_app, R. exact R1. }
  destruct (dl_freed_reuse c t _ g u2 ltac:(lia) N2 RG DG SG) as (h & R2 & DH).
  exists h. split; [|exact DH]. unfold dl_run in *.
  change [DTime (c_t3192 c); DTimer u1; DTime (c_t3193 c - c_t3192 c); DTimer u2]
    with ([DTime (c_t3192 c); DTimer u1] ++ [DTime (c_t3193 c - c_t3192 c); DTimer u2]).
  rewrite runs_app, R1. exact R2.
Qed.

(** With T3192 = 0 no timer runs in WAIT_RELEASE: unless an assignment on the old
    TBF fails, the TFI is never released. *)
Definition stuck (f : fsm) : Prop :=
  f_st f = WAIT_RELEASE /\ f_tm f = None /\ f_t31 f = None /\ f_dead f = None.

Lemma stuck_step : forall c f o, stuck f -> o <> DEv MAX_N3105 -> o <> DFinalBlock ->
  exists f', dl_step c f o = Some f' /\ stuck f'.
Proof.
  intros c f o (E1 & E2 & E3 & E4) N1 N2. dlcases f. subst. unfold dl_step, stuck.
  destruct o as [e|fin| |d|u|]; cbn [f_dead dl_op f_tm f_now f_t31 due]; try congruence.
  - destruct e; try congruence; tick_simpl; eexists; (split; [reflexivity | cbn; auto]).
  - destruct fin; tick_simpl; eexists; (split; [reflexivity | cbn; auto]).
  - eexists; (split; [reflexivity | cbn; auto]).
  - eexists; (split; [reflexivity | cbn; auto]).
  - eexists; (split; [reflexivity | cbn; auto]).
Qed.

Lemma stuck_run : forall c ops f, stuck f ->
  ~ In (DEv MAX_N3105) ops -> ~ In DFinalBlock ops ->
  exists f', dl_run c f ops = Some f' /\ stuck f'.
Proof.
  intros c ops. induction ops as [|o ops IH]; intros f ST N1 N2.
  - exists f. split; [reflexivity | exact ST].
  - destruct (stuck_step c f o ST) as (f1 & S & ST1).
    { intros ->. apply N1. left. reflexivity. }
    { intros ->. apply N2. left. reflexivity. }
    destruct (IH f1 ST1) as (f2 & R & ST2).
    { intros H. apply N1. right. exact H. }
    { intros H. apply N2. right. exact H. }
    exists f2. split; [|exact ST2]. unfold dl_run in *. cbn [runs]. rewrite S. exact R.
Qed.

(** The defaults of src/bts.cpp:78-85 and src/gprs_pcu.c:32-48. *)
Definition conf_default : tconf := TConf 2000 200 1500 1600 5000 5000 4000 5000 10000 0.
(** The same with T3192 = 0, one of the eight values that SI13 can announce. *)
Definition conf_t3192_0 : tconf := TConf 2000 200 0 1600 5000 5000 4000 5000 10000 0.

(** A life of a downlink TBF up to the final acknowledgement. *)
Definition life : list dlop :=
  [DEv ADD_PACCH; DTime 100; DEv ACK_PACCH; DEv LAST_DL_DATA; DFinalBlock; DTime 200; DAckNack true].

Lemma t3192_zero : exists f,
  dl_run conf_t3192_0 (fsm_new 0) life = Some f /\
  (forall more, ~ In (DEv MAX_N3105) more -> ~ In DFinalBlock more ->
     exists f', dl_run conf_t3192_0 f more = Some f' /\ f_dead f' = None /\ f_st f' = WAIT_RELEASE).
Proof.
  eexists. split; [vm_compute; reflexivity|]. intros more N1 N2.
  destruct (stuck_run conf_t3192_0 more
    (Fsm WAIT_RELEASE 3192 None false true None true 300 None)) as (f' & R & (E1 & E2 & E3 & E4));
    [unfold stuck; cbn; auto | exact N1 | exact N2 |].
  exists f'. split; [exact R|]. split; [exact E4 | exact E1].
Qed.

(** A TBF whose upgrade fails is freed the moment the mobile begins to listen. *)
Definition upgrade_fails : list dlop :=
  [DEv ADD_CCCH; DTime 50; DEv PCUIF_CNF; DTime 200].

Lemma upgrade_unguarded : exists f f',
  dl_run conf_default (fsm_new 0) upgrade_fails = Some f /\ f_dead f = None /\
  dl_step conf_default f (DTimer UpgradeFail) = Some f' /\ f_dead f' <> None /\
  f_now f = 250 /\ f_now f < c_t3191 conf_default /\ f_now f < c_t3193 conf_default /\
  f_now f < c_t3195 conf_default /\ f_now f < c_x2001 conf_default.
Proof.
  do 2 eexists. split; [vm_compute; reflexivity|]. split; [reflexivity|].
  split; [vm_compute; reflexivity|]. splits; try reflexivity. discriminate.
Qed.

(** * Uplink *)
Ltac ul_simpl := cbn [f_st f_T f_tm f_ccch f_pacch f_t31 f_first f_now f_dead
  set_st set_timer set_ccch set_pacch set_t31 set_first set_now free start enter
  ul_timeout fst snd option_map ul_onenter ul_chg ul_out ul_in ul_action ul_dispatch due] in *.

Definition ultm (c : tconf) (f0 : fsm) (ops : list ulop) (st : tst) (T : Z) (tm : option Z) : Prop :=
  forall x, tm = Some x ->
  match st with
  | ASSIGN =>
      (T = 3168 /\ past (ul_step c) f0 ops (fun f o f' b =>
         f_st f = NEW /\ f_pacch f' = true /\ stays (ul_step c) ASSIGN f' b /\ f_now f + 4 * c_t3168 c = x))
      \/ T = -2002
  | RELEASING =>
      T = 3169 /\ past (ul_step c) f0 ops (fun f o f' b =>
         (o = UEv MAX_N3101 \/ o = UEv MAX_N3103) /\ f_st f <> RELEASING /\ f_st f' = RELEASING /\
         stays (ul_step c) RELEASING f' b /\ f_now f + c_t3169 c = x)
  | _ => False
  end.

Definition res_ok (f : fsm) (o : ulop) (f' : fsm) (b : list ulop) : Prop :=
  o = UEv CONT_RES_SUCCESS /\ (f_st f = FLOW \/ f_st f = FINISHED).

Definition ult31 (c : tconf) (f0 : fsm) (ops : list ulop) (t31 : option Z) : Prop :=
  forall x, t31 = Some x ->
    past (ul_step c) f0 ops (fun f o f' b =>
      o = UEv ADD_CCCH /\ f_st f = NEW /\ f_now f + c_t3141 c = x) /\
    ~ past (ul_step c) f0 ops res_ok.

(** In NEW no contention was resolved. *)
Definition ulnew (c : tconf) (f0 : fsm) (ops : list ulop) (st : tst) : Prop :=
  st = NEW -> ~ past (ul_step c) f0 ops res_ok.

Definition ulinv c f0 ops (f : fsm) : Prop :=
  ultm c f0 ops (f_st f) (f_T f) (f_tm f) /\ ult31 c f0 ops (f_t31 f) /\ ulnew c f0 ops (f_st f).

Inductive ulkind (c : tconf) (f : fsm) (o : ulop) (f' : fsm) : Prop :=
| U_keep : f_st f' = f_st f -> f_T f' = f_T f -> f_tm f' = f_tm f -> f_dead f' = None -> ulkind c f o f'
| U_plain s : In s [FLOW; FINISHED] -> ul_next (f_st f) s -> f_st f' = s -> f_tm f' = None -> f_dead f' = None -> ulkind c f o f'
| U_assign : f_st f = NEW -> f_st f' = ASSIGN -> f_dead f' = None ->
    (f_pacch f' = true /\ f_T f' = 3168 /\ f_tm f' = Some (f_now f + 4 * c_t3168 c)) \/
    (f_T f' = -2002 /\ f_tm f' = Some (f_now f + c_x2002 c)) -> ulkind c f o f'
| U_lost : o = UEv MAX_N3101 \/ o = UEv MAX_N3103 -> ul_next (f_st f) RELEASING -> f_st f <> RELEASING ->
    f_st f' = RELEASING -> f_T f' = 3169 ->
    f_tm f' = (if c_t3169 c =? 0 then None else Some (f_now f + c_t3169 c)) -> f_dead f' = None -> ulkind c f o f'
| U_final : o = UEv FINAL_UL_ACK -> f_st f = FINISHED -> f_st f' = f_st f -> f_dead f' = Some ByFinalUlAck -> ulkind c f o f'
| U_free x w : f_st f' = f_st f ->
    (o = UT3141 /\ f_t31 f = Some x /\ w = By3141) \/
    (o = UTimer /\ f_tm f = Some x /\ ((f_T f = 3168 /\ w = By3168) \/ (f_T f = 3169 /\ w = By3169))) ->
    x <= f_now f -> f_dead f' = Some w -> ulkind c f o f'.

Lemma ul_kind : forall c f0 ops f o,
  f_dead f = None -> ultm c f0 ops (f_st f) (f_T f) (f_tm f) ->
  exists f', ul_step c f o = Some f' /\ ulkind c f o f'.
Proof.
  intros c f0 ops f o DD D. unfold ul_step. rewrite DD.
  destruct o as [e|d| |]; cbn [ul_op].
  - dlcases f. subst dd. destruct st, e; ul_simpl;
      try (eexists; split; [reflexivity|]; apply U_keep; reflexivity);
      try (eexists; split; [reflexivity|]; eapply U_plain; cbn; try reflexivity; [tauto | constructor]; fail);
      try (eexists; split; [reflexivity|]; apply U_lost; cbn; try reflexivity; try discriminate; [tauto | constructor; cbn; tauto]).
    + destruct pc; ul_simpl; (eexists; split; [reflexivity|]); (apply U_assign; ul_simpl; try reflexivity).
      * left. splits; try reflexivity. f_equal. lia.
      * right. split; reflexivity.
    + eexists; split; [reflexivity|]. apply U_assign; ul_simpl; try reflexivity.
      left. splits; try reflexivity. f_equal. lia.
    + destruct cc; ul_simpl; (eexists; split; [reflexivity|]); (eapply U_plain with (s := FLOW); cbn; try reflexivity; [tauto | constructor]).
    + eexists; split; [reflexivity|]. apply U_final; reflexivity.
  - dlcases f. subst dd. eexists; split; [reflexivity|]; apply U_keep; reflexivity.
  - destruct (due (f_tm f) (f_now f)) eqn:DU;
      [|eexists; split; [reflexivity|]; apply U_keep; auto].
    destruct (f_tm f) as [x|] eqn:TM; [|discriminate]. cbn [due] in DU. apply Z.leb_le in DU.
    specialize (D x eq_refl). unfold ul_timer_cb. cbn [set_timer f_T].
    dlcases f. subst dd tm. destruct st; try contradiction.
    + destruct D as [[-> _]| ->]; cbn [Z.eqb]; ul_simpl.
      * eexists; split; [reflexivity|]. eapply U_free with (x := x) (w := By3168); cbn; eauto 10.
      * eexists; split; [reflexivity|].
        eapply U_plain with (s := FLOW); cbn; try reflexivity; [tauto | constructor].
    + destruct D as [-> _]. ul_simpl. eexists; split; [reflexivity|].
      eapply U_free with (x := x) (w := By3169); cbn; eauto 10.
  - destruct (due (f_t31 f) (f_now f)) eqn:DU;
      [|eexists; split; [reflexivity|]; apply U_keep; auto].
    destruct (f_t31 f) as [x|] eqn:TM; [|discriminate]. cbn [due] in DU. apply Z.leb_le in DU.
    eexists; split; [reflexivity|]. eapply U_free with (x := x) (w := By3141); cbn; auto.
Qed.

Lemma ultm_none : forall c f0 ops st T, ultm c f0 ops st T None.
Proof. intros c f0 ops st T x E. discriminate. Qed.

Lemma ultm_keep : forall c f0 ops o f f',
  runs (ul_step c) f0 ops = Some f -> ul_step c f o = Some f' ->
  ultm c f0 ops (f_st f) (f_T f) (f_tm f) ->
  f_st f' = f_st f -> f_T f' = f_T f -> f_tm f' = f_tm f ->
  ultm c f0 (ops ++ [o]) (f_st f') (f_T f') (f_tm f').
Proof.
  intros c f0 ops o f f' R S D E1 E2 E3 x Hx. rewrite E3 in Hx. specialize (D x Hx).
  rewrite E1, E2. destruct (f_st f) eqn:ST; try exact D.
  - destruct D as [[ET D]|D]; [left|right; exact D]. split; [exact ET|].
    eapply past_ext; [exact R | exact S | exact D|]. cbv beta.
    intros g o1 g' b RB (A1 & A2 & A3 & A4). split; [exact A1|]. split; [exact A2|].
    split; [|exact A4]. eapply stays_snoc; [exact A3 | exact RB | exact S | exact E1].
  - destruct D as [ET D]. split; [exact ET|].
    eapply past_ext; [exact R | exact S | exact D|]. cbv beta.
    intros g o1 g' b RB (A1 & A2 & A3 & A4 & A5).
    split; [exact A1|]. split; [exact A2|]. split; [exact A3|]. split; [|exact A5].
    eapply stays_snoc; [exact A4 | exact RB | exact S | exact E1].
Qed.

(** How T3141 changes. *)
Lemma ul_t31 : forall c f o f', f_dead f = None -> ul_step c f o = Some f' ->
  f_t31 f' = None \/
  (f_t31 f' = f_t31 f /\ ~ (o = UEv CONT_RES_SUCCESS /\ (f_st f = FLOW \/ f_st f = FINISHED))) \/
  (o = UEv ADD_CCCH /\ f_st f = NEW /\ f_t31 f' = Some (f_now f + c_t3141 c)).
Proof.
  intros c f o f' DD S. unfold ul_step in S. rewrite DD in S. dlcases f. subst dd.
  destruct o as [e|d| |]; cbn [ul_op] in S.
  - destruct st, e; ul_simpl; try (injection S as <-; cbn; auto; fail);
      try (injection S as <-; cbn; right; left; split; [reflexivity|];
           intros [Q1 [Q2|Q2]]; discriminate); destruct cc, pc; ul_simpl; injection S as <-; cbn;
      try (right; right; splits; reflexivity);
      right; left; (split; [reflexivity|]); intros [Q1 [Q2|Q2]]; discriminate.
  - injection S as <-. right; left. split; [reflexivity|]. intros [Q1 _]; discriminate.
  - cbn [f_tm f_now] in S. destruct (due tm nw).
    + unfold ul_timer_cb in S. cbn [set_timer f_T] in S.
      repeat match type of S with context [?a =? ?b] => destruct (a =? b) end;
        try discriminate S; try (injection S as <-; cbn; auto; fail);
        destruct st; ul_simpl; injection S as <-; right; left; (split; [reflexivity|]);
        intros [Q1 _]; discriminate.
    + injection S as <-. right; left. split; [reflexivity|]. intros [Q1 _]; discriminate.
  - cbn [f_t31 f_now] in S. destruct (due t31 nw); injection S as <-; cbn; auto.
    right; left. split; [reflexivity|]. intros [Q1 _]; discriminate.
Qed.

Lemma ulinv_step : forall c f0 ops f o f',
  runs (ul_step c) f0 ops = Some f -> f_dead f = None -> ulinv c f0 ops f ->
  ul_step c f o = Some f' -> f_dead f' = None -> ulinv c f0 (ops ++ [o]) f'.
Proof.
  intros c f0 ops f o f' R DD (D1 & D2 & D3) S DL.
  destruct (ul_kind c f0 ops f o DD D1) as (f2 & S2 & K). rewrite S in S2. injection S2 as <-.
  assert (NP : forall (H : ~ past (ul_step c) f0 ops res_ok),
    ~ (o = UEv CONT_RES_SUCCESS /\ (f_st f = FLOW \/ f_st f = FINISHED)) ->
    ~ past (ul_step c) f0 (ops ++ [o]) res_ok).
  { intros H N P. eapply past_snoc_inv in P; [|exact R | exact S | intros ? ? ? ? ? Q; exact Q].
    destruct P as [P|P]; [exact (H P) | exact (N P)]. }
  split; [|split].
  - destruct K as [E1 E2 E3 _ | s I N E1 E2 _ | E0 E1 _ E2 | Eo N E0 E1 E2 E3 _
                  | Eo E0 E1 F | x w _ _ _ F]; try congruence.
    + eapply ultm_keep; eauto.
    + intros y Hy. rewrite E1. destruct E2 as [(E2 & E3 & E4)|(E2 & E3)]; [left | right; exact E2].
      split; [exact E3|]. rewrite E4 in Hy. injection Hy as <-.
      eapply past_now; [exact R | exact S|]. split; [exact E0|]. split; [exact E2|].
      split; [apply stays_nil; exact E1 | reflexivity].
    + intros y Hy. rewrite E1. split; [exact E2|]. rewrite E3 in Hy.
      destruct (c_t3169 c =? 0); [discriminate|]. injection Hy as <-.
      eapply past_now; [exact R | exact S|].
      split; [exact Eo|]. split; [exact E0|]. split; [exact E1|].
      split; [apply stays_nil; exact E1 | reflexivity].
  - intros x Hx. destruct (ul_t31 c f o f' DD S) as [T|[[T N]|(Eo & ST & T)]].
    + congruence.
    + rewrite T in Hx. destruct (D2 x Hx) as [P Q]. split; [|apply NP; assumption].
      eapply past_ext; [exact R | exact S | exact P|]. intros; assumption.
    + rewrite T in Hx. injection Hx as <-. split.
      * eapply past_now; [exact R | exact S|]. splits; assumption || reflexivity.
      * apply NP; [apply D3; exact ST|]. intros [Q _]. congruence.
  - intros EN. destruct K as [E1 E2 E3 _ | s I N E1 E2 _ | E0 E1 _ E2 | Eo N E0 E1 E2 E3 _
                  | Eo E0 E1 F | x w _ _ _ F]; try congruence.
    + apply NP; [apply D3; congruence|]. intros [_ [Q|Q]]; congruence.
    + destruct I as [<-|[<-|[]]]; congruence.
Qed.

Lemma ul_reach : forall c t ops,
  exists f, ul_run c (fsm_new t) ops = Some f /\ (f_dead f = None -> ulinv c (fsm_new t) ops f).
Proof.
  intros c t ops. induction ops as [|o ops IH] using rev_ind.
  - exists (fsm_new t). split; [reflexivity|]. intros _.
    split; [intros x E; discriminate|]. split; [intros x E; discriminate|].
    intros _ (a & o & b & f & f' & E & _). destruct a; discriminate.
  - destruct IH as (f & R & I). unfold ul_run in *. rewrite runs_app, R. cbn [runs].
    destruct (f_dead f) eqn:DD.
    + unfold ul_step. rewrite DD. exists f. split; [reflexivity | congruence].
    + destruct (ul_kind c (fsm_new t) ops f o DD (proj1 (I eq_refl))) as (f' & S & _).
      rewrite S. exists f'. split; [reflexivity|]. intros DL.
      eapply ulinv_step; eauto.
Qed.

Lemma ul_no_assert : forall c t ops, ul_run c (fsm_new t) ops <> None.
Proof. intros c t ops E. destruct (ul_reach c t ops) as (f & R & _). congruence. Qed.

Lemma ul_kind_run : forall c t ops f o f',
  ul_run c (fsm_new t) ops = Some f -> f_dead f = None -> ul_step c f o = Some f' -> ulkind c f o f'.
Proof.
  intros c t ops f o f' R DD S. destruct (ul_reach c t ops) as (g & R2 & I).
  rewrite R in R2. injection R2 as <-.
  destruct (ul_kind c (fsm_new t) ops f o DD (proj1 (I DD))) as (f2 & S2 & K). congruence.
Qed.

Lemma ul_order : forall c t ops f o f',
  ul_run c (fsm_new t) ops = Some f -> ul_step c f o = Some f' ->
  f_st f' = f_st f \/ ul_next (f_st f) (f_st f').
Proof.
  intros c t ops f o f' R S. destruct (f_dead f) eqn:DD.
  { unfold ul_step in S. rewrite DD in S. left. congruence. }
  destruct (ul_kind_run _ _ _ _ _ _ R DD S)
    as [E1 E2 E3 _ | s I N E1 E2 _ | E0 E1 _ E2 | Eo N E0 E1 E2 E3 _ | Eo E0 E1 F | x w E _ _ F];
    try (left; congruence); right; rewrite ?E1; try assumption.
  rewrite E0. constructor.
Qed.

(** An uplink TBF is freed only by one of the guards. *)
Lemma ul_release : forall c t ops f o f' w,
  ul_run c (fsm_new t) ops = Some f -> f_dead f = None -> ul_step c f o = Some f' ->
  f_dead f' = Some w ->
  match w with
  | ByFinalUlAck => o = UEv FINAL_UL_ACK /\ f_st f = FINISHED
  | By3169 => f_st f = RELEASING /\ ul_lost_guard c (fsm_new t) ops (f_now f)
  | By3168 => f_st f = ASSIGN /\ ul_assign_guard c (fsm_new t) ops (f_now f)
  | By3141 => contention_guard c (fsm_new t) ops (f_now f)
  | _ => False
  end.
Proof.
  intros c t ops f o f' w R DD S DW.
  destruct (ul_reach c t ops) as (g & R2 & I). rewrite R in R2. injection R2 as <-.
  destruct (I DD) as (D1 & D2 & D3).
  destruct (ul_kind_run _ _ _ _ _ _ R DD S)
    as [E1 E2 E3 X | s J N E1 E2 X | E0 E1 X E2 | Eo N E0 E1 E2 E3 X | Eo E0 E1 X | x w1 E W L X];
    try congruence.
  - rewrite X in DW. injection DW as <-. split; [exact Eo | exact E0].
  - assert (w1 = w) by congruence. subst w1. clear DW X.
    destruct W as [(-> & T31 & ->)|(-> & TM & W)].
    + destruct (D2 x T31) as [P Q]. split; [|exact Q].
      eapply past_weak; [exact P|]. cbv beta. intros g o g' b (A1 & A2 & A3).
      splits; try assumption. lia.
    + specialize (D1 x TM).
      destruct W as [(ET & ->)|(ET & ->)]; rewrite ?ET in D1.
      * destruct (f_st f); try contradiction; try (destruct D1 as [D1 _]; discriminate D1).
        destruct D1 as [[_ D1]|D1]; [|discriminate D1]. split; [reflexivity|].
        eapply past_weak; [exact D1|]. cbv beta. intros g o g' b (A1 & A2 & A3 & A4).
        split; [exact A1|]. split; [exact A2|]. split; [exact A3|]. lia.
      * destruct (f_st f); try contradiction.
        -- destruct D1 as [[D1 _]|D1]; discriminate D1.
        -- destruct D1 as [_ D1]. split; [reflexivity|].
           eapply past_weak; [exact D1|]. cbv beta. intros g o g' b (A1 & A2 & A3 & A4 & A5).
           split; [exact A1|]. split; [exact A2|]. split; [exact A3|]. split; [exact A4|]. lia.
Qed.

Lemma ul_now : forall c f o f', ul_step c f o = Some f' -> f_now f <= f_now f'.
Proof.
  intros c f o f' S. unfold ul_step in S. dlcases f. destruct dd; [injection S as <-; cbn; lia|].
  destruct o as [e|d| |]; cbn [ul_op] in S.
  - destruct st, e; ul_simpl; try (injection S as <-; cbn; lia);
      destruct cc, pc; ul_simpl; try discriminate S; injection S as <-; cbn; lia.
  - injection S as <-; cbn; lia.
  - cbn [f_tm f_now] in S. destruct (due tm nw); [|injection S as <-; cbn; lia].
    unfold ul_timer_cb in S. cbn [set_timer f_T] in S.
    repeat match type of S with context [?a =? ?b] => destruct (a =? b) end;
      try discriminate S; try (injection S as <-; cbn; lia);
      destruct st; ul_simpl; injection S as <-; cbn; lia.
  - cbn [f_t31 f_now] in S. destruct (due t31 nw); injection S as <-; cbn; lia.
Qed.

Definition ulpend (c : tconf) (f : fsm) : Prop :=
  match f_st f with
  | ASSIGN => exists x, f_tm f = Some x /\
      ((f_T f = 3168 /\ x <= f_now f + 4 * c_t3168 c) \/ (f_T f = -2002 /\ x <= f_now f + c_x2002 c))
  | RELEASING => exists x, f_T f = 3169 /\ f_tm f = Some x /\ x <= f_now f + c_t3169 c
  | WAIT_RELEASE | WAIT_REUSE => False
  | _ => True
  end.

Lemma ul_pending : forall c t ops f,
  c_t3169 c <> 0 -> ul_run c (fsm_new t) ops = Some f -> f_dead f = None -> ulpend c f.
Proof.
  intros c t ops f N1. revert f. induction ops as [|o ops IH] using rev_ind; intros f R DL.
  - injection R as <-. exact I.
  - apply runs_snoc in R as (g & R & S).
    destruct (f_dead g) eqn:DD.
    { unfold ul_step in S. rewrite DD in S. congruence. }
    specialize (IH g R DD). pose proof (ul_now _ _ _ _ S) as NW.
    unfold ulpend in *.
    destruct (ul_kind_run _ _ _ _ _ _ R DD S)
      as [E1 E2 E3 X | s J N E1 E2 X | E0 E1 X E2 | Eo N E0 E1 E2 E3 X | Eo E0 E1 X | x w1 E W L X].
    + rewrite E1, E2, E3. destruct (f_st g); try exact I; try exact IH.
      * destruct IH as (y & A1 & [(A2 & A3)|(A2 & A3)]); exists y; (split; [exact A1|]); [left|right];
          (split; [exact A2|]); lia.
      * destruct IH as (y & A1 & A2 & A3); exists y; (split; [exact A1|]); (split; [exact A2|]); lia.
    + rewrite E1. destruct J as [<- | [<- | []]]; exact I.
    + rewrite E1. destruct E2 as [(A1 & A2 & A3)|(A2 & A3)]; eexists; (split; [exact A3|]); [left|right];
        (split; [exact A2|]); lia.
    + rewrite E1. apply Z.eqb_neq in N1. rewrite N1 in E3. eexists.
      split; [exact E2|]. split; [exact E3|]. lia.
    + congruence.
    + congruence.
Qed.

Lemma ul_freed_lost : forall c t ops f,
  0 < c_t3169 c ->
  ul_run c (fsm_new t) ops = Some f -> f_dead f = None -> f_st f = RELEASING ->
  exists f', ul_run c f [UTime (c_t3169 c); UTimer] = Some f' /\ f_dead f' = Some By3169.
Proof.
  intros c t ops f N1 R DL ST.
  pose proof (ul_pending c t ops f ltac:(lia) R DL) as P. unfold ulpend in P. rewrite ST in P.
  destruct P as (x & ET & TM & LE). dlcases f. subst.
  unfold ul_run. cbn [runs]. unfold ul_step at 1. cbn [f_dead ul_op option_map fst set_now f_now].
  unfold ul_step. cbn [f_dead ul_op f_tm f_now due set_now].
  replace (x <=? nw + Z.max 0 (c_t3169 c)) with true by (symmetry; apply Z.leb_le; lia).
  eexists. split; reflexivity.
Qed.

(** An uplink assignment either leads to data flow or to the end of the TBF. *)
Lemma ul_assigned : forall c t ops f,
  0 < c_t3169 c -> 0 <= c_t3168 c ->
  ul_run c (fsm_new t) ops = Some f -> f_dead f = None -> f_st f = ASSIGN ->
  exists f', ul_run c f [UTime (Z.max (4 * c_t3168 c) (c_x2002 c)); UTimer] = Some f' /\
    (f_dead f' = Some By3168 \/ (f_dead f' = None /\ f_st f' = FLOW)).
Proof.
  intros c t ops f N1 N2 R DL ST.
  pose proof (ul_pending c t ops f ltac:(lia) R DL) as P. unfold ulpend in P. rewrite ST in P.
  destruct P as (x & TM & P). dlcases f. subst.
  unfold ul_run. cbn [runs]. unfold ul_step at 1. cbn [f_dead ul_op option_map fst set_now f_now].
  unfold ul_step. cbn [f_dead ul_op f_tm f_now due set_now].
  replace (x <=? nw + Z.max 0 (Z.max (4 * c_t3168 c) (c_x2002 c))) with true
    by (symmetry; apply Z.leb_le; lia).
  destruct P as [[-> _]|[-> _]]; (eexists; split; [reflexivity|]); [left | right; split]; reflexivity.
Qed.

Lemma dl_first : forall c t ops f,
  dl_run c (fsm_new t) ops = Some f -> f_dead f = None -> f_first f = false ->
  forall x, ~ In (DAckNack x) ops.
Proof.
  intros c t ops f R DL FF x. revert f R DL FF.
  induction ops as [|o ops IH] using rev_ind; intros f R DL FF I; [exact I|].
  apply runs_snoc in R as (g & R & S).
  destruct (f_dead g) eqn:DD.
  { unfold dl_step in S. rewrite DD in S. congruence. }
  assert (FG : f_first g = false /\ o <> DAckNack x).
  { clear R IH I. unfold dl_step in S. rewrite DD in S. dlcases g. subst dd.
    destruct o as [e|fin| |d|u|]; cbn [dl_op] in S.
    - split; [|discriminate]. destruct st, e; tick_simpl; try (injection S as <-; cbn in FF; exact FF);
        destruct cc, pc, fst1; tick_simpl; try discriminate S; try (injection S as <-; cbn in FF); congruence.
    - destruct fin, st; tick_simpl; injection S as <-; cbn in FF; discriminate.
    - injection S as <-; cbn in FF; split; [exact FF | discriminate].
    - injection S as <-; cbn in FF; split; [exact FF | discriminate].
    - split; [|discriminate]. cbn [f_tm f_now] in S.
      destruct (due tm nw); [|injection S as <-; cbn in FF; exact FF].
      unfold dl_timer_cb in S. cbn [set_timer f_T] in S.
      repeat match type of S with context [?a =? ?b] => destruct (a =? b) end;
        try discriminate S; try (injection S as <-; cbn in FF; exact FF);
        destruct st, u; tick_simpl; injection S as <-; cbn in FF; exact FF.
    - split; [|discriminate]. cbn [f_t31 f_now] in S.
      destruct (due t31 nw); injection S as <-; cbn in FF; exact FF. }
  apply in_app_or in I as [I|[I|[]]].
  - exact (IH g R DD (proj1 FG) I).
  - apply (proj2 FG). exact I.
Qed.

Lemma dl_assigned_again : forall c t ops f o f',
  dl_run c (fsm_new t) ops = Some f -> dl_step c f o = Some f' ->
  f_st f = FLOW -> f_st f' = ASSIGN ->
  o = DEv ACKNACK_MISS /\ f_ccch f = true /\ (forall x, ~ In (DAckNack x) ops).
Proof.
  intros c t ops f o f' R S E1 E2. pose proof (dl_again _ _ _ _ S E1 E2) as [A1 A2].
  destruct (f_dead f) eqn:DD.
  { unfold dl_step in S. rewrite DD in S. congruence. }
  split; [|split; [exact A1 | exact (dl_first _ _ _ _ R DD A2)]].
  clear R A2. unfold dl_step in S. rewrite DD in S. dlcases f. subst.
  destruct o as [e|fin| |d|u|]; cbn [dl_op] in S.
  - destruct e; tick_simpl; try (injection S as <-; discriminate E2); reflexivity.
  - destruct fin; tick_simpl; injection S as <-; discriminate E2.
  - injection S as <-; discriminate E2.
  - injection S as <-; discriminate E2.
  - cbn [f_tm f_now] in S. destruct (due tm nw); [|injection S as <-; discriminate E2].
    unfold dl_timer_cb in S. cbn [set_timer f_T] in S.
    repeat match type of S with context [?a =? ?b] => destruct (a =? b) end;
      try discriminate S; destruct u; tick_simpl; injection S as <-; discriminate E2.
  - cbn [f_t31 f_now] in S. destruct (due t31 nw); injection S as <-; discriminate E2.
Qed.
