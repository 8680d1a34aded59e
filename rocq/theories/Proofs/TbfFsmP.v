(** Proofs about the life-cycle state machines of a TBF. *)
From Coq Require Import ZArith Lia List Bool.
From Verif Require Import Base.Arith Model.TbfFsm Spec.TbfFsmSpec.
Import ListNotations.
Open Scope Z_scope.

(** * Runs and their past *)
Section Past.
Context {O : Type}.
Variable step : fsm -> O -> option fsm.
Variable f0 : fsm.

Lemma runs_app : forall a b f,
  runs step f (a ++ b) = match runs step f a with Some g => runs step g b | None => None end.
Proof.
  induction a as [|o a IH]; intros b f; cbn [app runs]; [reflexivity|].
  destruct (step f o); [apply IH | reflexivity].
Qed.

Lemma runs_snoc : forall a o f g,
  runs step f (a ++ [o]) = Some g ->
  exists h, runs step f a = Some h /\ step h o = Some g.
Proof.
  intros a o f g R. rewrite runs_app in R. destruct (runs step f a) as [h|]; [|discriminate].
  cbn [runs] in R. exists h. split; [reflexivity|].
  destruct (step h o); [exact R | discriminate].
Qed.

Lemma past_now : forall ops o f f' (P : fsm -> O -> fsm -> list O -> Prop),
  runs step f0 ops = Some f -> step f o = Some f' -> P f o f' [] ->
  past step f0 (ops ++ [o]) P.
Proof.
  intros ops o f f' P R S H. exists ops, o, [], f, f'.
  split; [reflexivity|]. split; [exact R|]. split; [exact S | exact H].
Qed.

Lemma past_ext : forall ops o g g' (P Q : fsm -> O -> fsm -> list O -> Prop),
  runs step f0 ops = Some g -> step g o = Some g' -> past step f0 ops P ->
  (forall f o1 f' b, runs step f' b = Some g -> P f o1 f' b -> Q f o1 f' (b ++ [o])) ->
  past step f0 (ops ++ [o]) Q.
Proof.
  intros ops o g g' P Q R S (a & o1 & b & f & f' & E & R1 & S1 & H) W.
  exists a, o1, (b ++ [o]), f, f'.
  split; [rewrite E, <- app_assoc; reflexivity|]. split; [exact R1|]. split; [exact S1|].
  apply W; [|exact H].
  rewrite E, runs_app, R1 in R. cbn [runs] in R. rewrite S1 in R. exact R.
Qed.

Lemma past_snoc_inv : forall ops o g g' (P : fsm -> O -> fsm -> list O -> Prop),
  runs step f0 ops = Some g -> step g o = Some g' ->
  (forall f o f' b b', P f o f' b -> P f o f' b') ->
  past step f0 (ops ++ [o]) P -> past step f0 ops P \/ P g o g' [].
Proof.
  intros ops o g g' P R S W (a & o1 & b & f & f' & E & R1 & S1 & H).
  destruct (@exists_last _ (o1 :: b) ltac:(discriminate)) as (b1 & ol & EB).
  rewrite EB, app_assoc in E. apply app_inj_tail in E as [E ->].
  destruct b1 as [|o2 b1].
  - cbn in EB. injection EB as -> ->. rewrite app_nil_r in E. subst a.
    rewrite R in R1. injection R1 as ->. rewrite S in S1. injection S1 as ->.
    right. exact H.
  - cbn in EB. injection EB as -> ->. left.
    exists a, o2, b1, f, f'. split; [exact E|]. split; [exact R1|]. split; [exact S1|].
    eapply W. exact H.
Qed.

Lemma past_weak : forall ops (P Q : fsm -> O -> fsm -> list O -> Prop),
  past step f0 ops P -> (forall f o f' b, P f o f' b -> Q f o f' b) -> past step f0 ops Q.
Proof.
  intros ops P Q (a & o & b & f & f' & E & R & S & H) W.
  exists a, o, b, f, f'. split; [exact E|]. split; [exact R|]. split; [exact S|]. apply W. exact H.
Qed.

Lemma stays_nil : forall s f, f_st f = s -> stays step s f [].
Proof.
  intros s f H b1 b2 g E R. destruct b1; [|discriminate]. cbn [runs] in R. congruence.
Qed.

Lemma stays_snoc : forall s f b o g g',
  stays step s f b -> runs step f b = Some g -> step g o = Some g' -> f_st g' = s ->
  stays step s f (b ++ [o]).
Proof.
  intros s f b o g g' H R S1 E b1 b2 h EB RB.
  destruct b2 as [|o2 b2] using rev_ind.
  - rewrite app_nil_r in EB. subst b1. rewrite runs_app, R in RB. cbn [runs] in RB.
    rewrite S1 in RB. congruence.
  - rewrite app_assoc in EB. apply app_inj_tail in EB as [EB _]. exact (H _ _ _ EB RB).
Qed.
End Past.

(** * Downlink *)

Ltac dlcases f :=
  destruct f as [st T tm cc pc t31 fst1 nw dd];
  cbn [f_st f_T f_tm f_ccch f_pacch f_t31 f_first f_now f_dead] in *.

(** States of a reachable TBF that is not freed: the part about the timer. *)
Definition dltm (c : tconf) (f0 : fsm) (ops : list dlop) (st : tst) (T : Z) (tm : option Z) : Prop :=
  forall x, tm = Some x ->
  match st with
  | ASSIGN =>
      (T = -2001 /\ past (dl_step c) f0 ops (fun f o f' b =>
         f_st f <> ASSIGN /\ f_pacch f' = true /\ stays (dl_step c) ASSIGN f' b /\ f_now f + c_x2001 c = x))
      \/
      (T = -2002 /\ past (dl_step c) f0 ops (fun f o f' b =>
         o = DEv PCUIF_CNF /\ f_st f = ASSIGN /\ stays (dl_step c) ASSIGN f' b /\ f_now f + c_x2002 c = x))
  | WAIT_RELEASE =>
      T = 3192 /\ past (dl_step c) f0 ops (fun f o f' b =>
         (o = DEv FINAL_ACK \/ o = DAckNack true) /\ f_st f = FINISHED /\ f_st f' = WAIT_RELEASE /\
         f_now f + c_t3192 c = x)
  | WAIT_REUSE =>
      T = 3193 /\ past (dl_step c) f0 ops (fun f o f' b =>
         (o = DEv FINAL_ACK \/ o = DAckNack true) /\ f_st f = FINISHED /\ f_st f' = WAIT_RELEASE /\
         f_now f + Z.max (c_t3192 c) (c_t3193 c) <= x)
  | RELEASING =>
      T = 3195 /\ past (dl_step c) f0 ops (fun f o f' b =>
         o = DEv MAX_N3105 /\ f_st f <> RELEASING /\ f_st f' = RELEASING /\
         stays (dl_step c) RELEASING f' b /\ f_now f + c_t3195 c = x)
  | _ => False
  end.

Definition dlt31 (c : tconf) (f0 : fsm) (ops : list dlop) (t31 : option Z) : Prop :=
  forall x, t31 = Some x ->
    past (dl_step c) f0 ops (fun f o f' b =>
      o = DFinalBlock /\ (forall y, ~ In (DAckNack y) b) /\ f_now f + c_t3191 c = x).

Definition dlinv c f0 ops (f : fsm) : Prop :=
  dltm c f0 ops (f_st f) (f_T f) (f_tm f) /\ dlt31 c f0 ops (f_t31 f).

(** Nothing about state and timer changes. *)
Lemma dltm_keep : forall c f0 ops o f f',
  runs (dl_step c) f0 ops = Some f -> dl_step c f o = Some f' ->
  dltm c f0 ops (f_st f) (f_T f) (f_tm f) ->
  f_st f' = f_st f -> f_T f' = f_T f -> f_tm f' = f_tm f ->
  dltm c f0 (ops ++ [o]) (f_st f') (f_T f') (f_tm f').
Proof.
  intros c f0 ops o f f' R S D E1 E2 E3 x Hx. rewrite E3 in Hx. specialize (D x Hx).
  rewrite E1, E2. destruct (f_st f) eqn:ST; try exact D.
  - destruct D as [[ET D]|[ET D]]; [left|right]; (split; [exact ET|]);
      (eapply past_ext; [exact R | exact S | exact D|]); cbv beta;
      intros g o1 g' b RB (A1 & A2 & A3 & A4); (split; [exact A1|]); (split; [exact A2|]);
      (split; [|exact A4]); eapply stays_snoc; [exact A3 | exact RB | exact S | exact E1 | exact A3 | exact RB | exact S | exact E1].
  - destruct D as [ET D]. split; [exact ET|].
    eapply past_ext; [exact R | exact S | exact D|]. intros; assumption.
  - destruct D as [ET D]. split; [exact ET|].
    eapply past_ext; [exact R | exact S | exact D|]. intros; assumption.
  - destruct D as [ET D]. split; [exact ET|].
    eapply past_ext; [exact R | exact S | exact D|]. cbv beta.
    intros g o1 g' b RB (A1 & A2 & A3 & A4 & A5).
    split; [exact A1|]. split; [exact A2|]. split; [exact A3|]. split; [|exact A5].
    eapply stays_snoc; [exact A4 | exact RB | exact S | exact E1].
Qed.

Lemma dlt31_keep : forall c f0 ops o f f',
  runs (dl_step c) f0 ops = Some f -> dl_step c f o = Some f' ->
  dlt31 c f0 ops (f_t31 f) -> (forall y, o <> DAckNack y) ->
  f_t31 f' = f_t31 f \/ f_t31 f' = None ->
  dlt31 c f0 (ops ++ [o]) (f_t31 f').
Proof.
  intros c f0 ops o f f' R S D NA [E|E] x Hx; [|congruence].
  rewrite E in Hx. specialize (D x Hx).
  eapply past_ext; [exact R | exact S | exact D|]. cbv beta.
  intros g o1 g' b RB (A1 & A2 & A3). split; [exact A1|]. split; [|exact A3].
  intros y I. apply in_app_or in I as [I|[I|[]]]; [exact (A2 y I) | exact (NA y I)].
Qed.

Lemma dltm_none : forall c f0 ops st T, dltm c f0 ops st T None.
Proof. intros c f0 ops st T x E. discriminate. Qed.

Lemma dlt31_none : forall c f0 ops, dlt31 c f0 ops None.
Proof. intros c f0 ops x E. discriminate. Qed.

Ltac tick_simpl := cbn [f_st f_T f_tm f_ccch f_pacch f_t31 f_first f_now f_dead
  set_st set_timer set_ccch set_pacch set_t31 set_first set_now free start enter
  dl_timeout fst snd option_map effs dl_onenter dl_chg dl_out dl_in dl_action dl_dispatch
  dl_x2002 app due andb negb] in *.

(** What a downlink step does to state and timer, case by case. *)
Inductive dlkind (c : tconf) (f : fsm) (o : dlop) (f' : fsm) : Prop :=
| K_keep : f_st f' = f_st f -> f_T f' = f_T f -> f_tm f' = f_tm f -> f_dead f' = None -> dlkind c f o f'
| K_plain s : In s [FLOW; FINISHED] -> dl_next (f_st f) s -> f_st f' = s -> f_tm f' = None -> f_dead f' = None -> dlkind c f o f'
| K_assign : f_st f = NEW \/ f_st f = FLOW -> f_st f' = ASSIGN -> f_dead f' = None ->
    (f_pacch f' = true /\ f_T f' = -2001 /\ f_tm f' = Some (f_now f + c_x2001 c)) \/
    (f_ccch f' = true /\ f_tm f' = None) -> dlkind c f o f'
| K_cnf : o = DEv PCUIF_CNF -> f_st f = ASSIGN -> f_st f' = ASSIGN -> f_T f' = -2002 ->
    f_tm f' = Some (f_now f + c_x2002 c) -> f_dead f' = None -> dlkind c f o f'
| K_upgrade : f_st f = ASSIGN -> f_st f' = ASSIGN -> f_tm f' = None -> f_dead f' = None -> dlkind c f o f'
| K_final : o = DEv FINAL_ACK \/ o = DAckNack true -> f_st f = FINISHED -> f_st f' = WAIT_RELEASE ->
    f_T f' = 3192 -> f_tm f' = (if c_t3192 c =? 0 then None else Some (f_now f + c_t3192 c)) ->
    f_dead f' = None -> dlkind c f o f'
| K_reuse x : f_tm f = Some x -> x <= f_now f -> f_st f = WAIT_RELEASE -> f_st f' = WAIT_REUSE ->
    f_T f' = 3193 -> f_tm f' = Some (f_now f + Z.max 0 (c_t3193 c - c_t3192 c)) -> f_dead f' = None -> dlkind c f o f'
| K_lost : o = DEv MAX_N3105 -> dl_next (f_st f) RELEASING -> f_st f <> RELEASING ->
    f_st f' = RELEASING -> f_T f' = 3195 ->
    f_tm f' = (if c_t3195 c =? 0 then None else Some (f_now f + c_t3195 c)) -> f_dead f' = None -> dlkind c f o f'
| K_free x w : f_st f' = f_st f ->
    (o = DT3191 /\ f_t31 f = Some x /\ w = By3191) \/
    (exists u, o = DTimer u /\ f_tm f = Some x /\
      ((f_T f = -2001 /\ w = By2001) \/ (f_T f = 3193 /\ w = By3193) \/ (f_T f = 3195 /\ w = By3195) \/
       (f_T f = -2002 /\ f_st f = ASSIGN /\ u = UpgradeFail /\ w = ByUpgrade))) ->
    x <= f_now f -> f_dead f' = Some w -> dlkind c f o f'.

Ltac plain_tac := cbn; auto; try (constructor; cbn; tauto).

Lemma dl_kind : forall c f0 ops f o,
  f_dead f = None -> dltm c f0 ops (f_st f) (f_T f) (f_tm f) ->
  exists f', dl_step c f o = Some f' /\ dlkind c f o f'.
Proof.
  intros c f0 ops f o DD D. unfold dl_step. rewrite DD.
  destruct o as [e|fin| |d|u|]; cbn [dl_op].
  - dlcases f. subst dd. destruct st, e; tick_simpl;
      try (eexists; split; [reflexivity|]; apply K_keep; reflexivity);
      try (eexists; split; [reflexivity|]; eapply K_plain; cbn; try reflexivity; [tauto | constructor]; fail);
      try (eexists; split; [reflexivity|]; apply K_lost; cbn; try reflexivity; try discriminate; constructor; cbn; tauto).
    + destruct pc; tick_simpl; (eexists; split; [reflexivity|]); (apply K_assign; cbn; [tauto | reflexivity | reflexivity | tauto]).
    + eexists; split; [reflexivity|]. apply K_assign; cbn; tauto.
    + destruct cc; tick_simpl; (eexists; split; [reflexivity|]); (eapply K_plain with (s := FLOW); cbn; try reflexivity; [tauto | constructor]).
    + destruct cc; tick_simpl; (eexists; split; [reflexivity|]).
      * apply K_cnf; reflexivity.
      * apply K_keep; reflexivity.
    + destruct cc, fst1; tick_simpl; try (eexists; split; [reflexivity|]; apply K_keep; reflexivity).
      destruct pc; tick_simpl; (eexists; split; [reflexivity|]); (apply K_assign; cbn; [tauto | reflexivity | reflexivity | tauto]).
    + eexists; split; [reflexivity|]. apply K_final; cbn; auto.
  - dlcases f. subst dd. destruct fin, st; tick_simpl;
      try (eexists; split; [reflexivity|]; apply K_keep; reflexivity).
    eexists; split; [reflexivity|]. apply K_final; cbn; auto.
  - dlcases f. subst dd. eexists; split; [reflexivity|]; apply K_keep; reflexivity.
  - dlcases f. subst dd. eexists; split; [reflexivity|]; apply K_keep; reflexivity.
  - destruct (due (f_tm f) (f_now f)) eqn:DU;
      [|eexists; split; [reflexivity|]; apply K_keep; auto].
    destruct (f_tm f) as [x|] eqn:TM; [|discriminate]. cbn [due] in DU. apply Z.leb_le in DU.
    specialize (D x eq_refl). unfold dl_timer_cb. cbn [set_timer f_T].
    dlcases f. subst dd tm. destruct st; try contradiction.
    + destruct D as [[-> _]|[-> _]]; cbn [Z.eqb]; tick_simpl.
      * eexists; split; [reflexivity|]. eapply K_free with (x := x) (w := By2001); cbn; eauto 10.
      * destruct u; tick_simpl; (eexists; split; [reflexivity|]).
        -- eapply K_plain with (s := FLOW); cbn; try reflexivity; [tauto | constructor].
        -- apply K_upgrade; reflexivity.
        -- eapply K_free with (x := x) (w := ByUpgrade); cbn; eauto 10.
           right. exists UpgradeFail. split; [reflexivity|]. split; [reflexivity|]. tauto.
    + destruct D as [-> _]. tick_simpl. eexists; split; [reflexivity|].
      eapply K_reuse; cbn; eauto. f_equal. f_equal. destruct (c_t3192 c <=? c_t3193 c) eqn:E;
        [apply Z.leb_le in E | apply Z.leb_gt in E]; lia.
    + destruct D as [-> _]. tick_simpl. eexists; split; [reflexivity|].
      eapply K_free with (x := x) (w := By3193); cbn; eauto 10.
    + destruct D as [-> _]. tick_simpl. eexists; split; [reflexivity|].
      eapply K_free with (x := x) (w := By3195); cbn; eauto 10.
  - destruct (due (f_t31 f) (f_now f)) eqn:DU;
      [|eexists; split; [reflexivity|]; apply K_keep; auto].
    destruct (f_t31 f) as [x|] eqn:TM; [|discriminate]. cbn [due] in DU. apply Z.leb_le in DU.
    eexists; split; [reflexivity|]. eapply K_free with (x := x) (w := By3191); cbn; auto.
Qed.

(** The t31 part of a downlink step. *)
Lemma dlt31_step : forall c f0 ops f o f',
  runs (dl_step c) f0 ops = Some f -> f_dead f = None -> dl_step c f o = Some f' ->
  dlt31 c f0 ops (f_t31 f) -> dlt31 c f0 (ops ++ [o]) (f_t31 f').
Proof.
  intros c f0 ops f o f' R DD S D.
  assert (Q : (exists y, o = DAckNack y) /\ f_t31 f' = None \/
              o = DFinalBlock /\ f_t31 f' = Some (f_now f + c_t3191 c) \/
              (forall y, o <> DAckNack y) /\ (f_t31 f' = f_t31 f \/ f_t31 f' = None)).
  { clear R D. unfold dl_step in S. rewrite DD in S. dlcases f. subst dd.
    destruct o as [e|fin| |d|u|]; cbn [dl_op] in S.
    - right; right. split; [discriminate|].
      destruct st, e; tick_simpl; try (injection S as <-; cbn; auto; fail);
        destruct cc, pc, fst1; tick_simpl; injection S as <-; cbn; auto.
    - left. split; [eauto|]. destruct fin, st; tick_simpl; injection S as <-; reflexivity.
    - right; left. split; [reflexivity|]. injection S as <-. reflexivity.
    - right; right. split; [discriminate|]. injection S as <-. cbn. auto.
    - right; right. split; [discriminate|].
      cbn [f_tm f_now] in S. destruct (due tm nw); [|injection S as <-; cbn; auto].
      unfold dl_timer_cb in S. cbn [set_timer f_T] in S.
      repeat match type of S with context [?a =? ?b] => destruct (a =? b) end;
        try discriminate S; try (injection S as <-; cbn; auto);
        destruct st, u; tick_simpl; injection S as <-; cbn; auto.
    - right; right. split; [discriminate|].
      cbn [f_t31 f_now] in S. destruct (due t31 nw); injection S as <-; cbn; auto. }
  destruct Q as [[_ E]|[[E1 E2]|[E1 E2]]].
  - rewrite E. apply dlt31_none.
  - intros x Hx. rewrite E2 in Hx. injection Hx as <-. subst o.
    eapply past_now; [exact R | exact S|]. split; [reflexivity|]. split; [intros y []|reflexivity].
  - eapply dlt31_keep; eauto.
Qed.

Lemma dlinv_step : forall c f0 ops f o f',
  runs (dl_step c) f0 ops = Some f -> f_dead f = None -> dlinv c f0 ops f ->
  dl_step c f o = Some f' -> f_dead f' = None -> dlinv c f0 (ops ++ [o]) f'.
Proof.
  intros c f0 ops f o f' R DD [D1 D2] S DL.
  split; [|eapply dlt31_step; eauto].
  destruct (dl_kind c f0 ops f o DD D1) as (f2 & S2 & K). rewrite S in S2. injection S2 as <-.
  destruct K as [E1 E2 E3 _ | s I N E1 E2 _ | E0 E1 _ E2 | Eo E0 E1 E2 E3 _ | E0 E1 E2 _
                | Eo E0 E1 E2 E3 _ | x X1 X2 E0 E1 E2 E3 _ | Eo N E0 E1 E2 E3 _ | x w _ _ _ F].
  - eapply dltm_keep; eauto.
  - rewrite E2. apply dltm_none.
  - destruct E2 as [(E2 & E3 & E4)|(E2 & E3)]; [|rewrite E3; apply dltm_none].
    intros y Hy. rewrite E1. left. split; [exact E3|].
    rewrite E4 in Hy. injection Hy as <-.
    eapply past_now; [exact R | exact S|].
    split; [destruct E0 as [-> | ->]; discriminate|]. split; [exact E2|].
    split; [apply stays_nil; exact E1 | reflexivity].
  - intros y Hy. rewrite E1. right. split; [exact E2|].
    rewrite E3 in Hy. injection Hy as <-.
    eapply past_now; [exact R | exact S|].
    split; [exact Eo|]. split; [exact E0|]. split; [apply stays_nil; exact E1 | reflexivity].
  - rewrite E2. apply dltm_none.
  - intros y Hy. rewrite E1. split; [exact E2|]. rewrite E3 in Hy.
    destruct (c_t3192 c =? 0); [discriminate|]. injection Hy as <-.
    eapply past_now; [exact R | exact S|]. splits; [exact Eo | exact E0 | exact E1 | reflexivity].
  - intros y Hy. rewrite E1. split; [exact E2|]. rewrite E3 in Hy. injection Hy as <-.
    specialize (D1 x X1). rewrite E0 in D1. destruct D1 as [_ D1].
    eapply past_ext; [exact R | exact S | exact D1|]. cbv beta.
    intros g o1 g' b _ (A1 & A2 & A3 & A4). splits; try assumption. lia.
  - intros y Hy. rewrite E1. split; [exact E2|]. rewrite E3 in Hy.
    destruct (c_t3195 c =? 0); [discriminate|]. injection Hy as <-.
    eapply past_now; [exact R | exact S|].
    split; [exact Eo|]. split; [exact E0|]. split; [exact E1|].
    split; [apply stays_nil; exact E1 | reflexivity].
  - congruence.
Qed.

Lemma dl_reach : forall c t ops,
  exists f, dl_run c (fsm_new t) ops = Some f /\ (f_dead f = None -> dlinv c (fsm_new t) ops f).
Proof.
  intros c t ops. induction ops as [|o ops IH] using rev_ind.
  - exists (fsm_new t). split; [reflexivity|]. intros _. split; intros x E; discriminate.
  - destruct IH as (f & R & I). unfold dl_run in *. rewrite runs_app, R. cbn [runs].
    destruct (f_dead f) eqn:DD.
    + unfold dl_step. rewrite DD. exists f. split; [reflexivity | congruence].
    + destruct (dl_kind c (fsm_new t) ops f o DD (proj1 (I eq_refl))) as (f' & S & _).
      rewrite S. exists f'. split; [reflexivity|]. intros DL.
      eapply dlinv_step; eauto.
Qed.

(** No sequence of events reaches an assertion. *)
Lemma dl_no_assert : forall c t ops, dl_run c (fsm_new t) ops <> None.
Proof. intros c t ops E. destruct (dl_reach c t ops) as (f & R & _). congruence. Qed.

Lemma dl_kind_run : forall c t ops f o f',
  dl_run c (fsm_new t) ops = Some f -> f_dead f = None -> dl_step c f o = Some f' -> dlkind c f o f'.
Proof.
  intros c t ops f o f' R DD S. destruct (dl_reach c t ops) as (g & R2 & I).
  rewrite R in R2. injection R2 as <-.
  destruct (dl_kind c (fsm_new t) ops f o DD (proj1 (I DD))) as (f2 & S2 & K). congruence.
Qed.

Lemma dl_order : forall c t ops f o f',
  dl_run c (fsm_new t) ops = Some f -> dl_step c f o = Some f' ->
  f_st f' = f_st f \/ dl_next (f_st f) (f_st f').
Proof.
  intros c t ops f o f' R S. destruct (f_dead f) eqn:DD.
  { unfold dl_step in S. rewrite DD in S. left. congruence. }
  destruct (dl_kind_run _ _ _ _ _ _ R DD S)
    as [E1 E2 E3 _ | s I N E1 E2 _ | E0 E1 _ E2 | Eo E0 E1 E2 E3 _ | E0 E1 E2 _
       | Eo E0 E1 E2 E3 _ | x X1 X2 E0 E1 E2 E3 _ | Eo N E0 E1 E2 E3 _ | x w E _ _ F];
    try (left; congruence); right; rewrite ?E1; try assumption.
  - destruct E0 as [-> | ->]; constructor.
  - rewrite E0. constructor.
  - rewrite E0. constructor.
Qed.

(** Re-assignment happens only to a TBF assigned on CCCH that never answered. *)
Lemma dl_again : forall c f o f',
  dl_step c f o = Some f' -> f_st f = FLOW -> f_st f' = ASSIGN ->
  f_ccch f = true /\ f_first f = false.
Proof.
  intros c f o f' S E1 E2. unfold dl_step in S. dlcases f. destruct dd; [injection S as <-; cbn in E2; congruence|].
  subst st. destruct o as [e|fin| |d|u|]; cbn [dl_op] in S.
  - destruct e; tick_simpl; try (injection S as <-; discriminate E2).
    destruct cc, fst1; tick_simpl; try (injection S as <-; discriminate E2). auto.
  - destruct fin; tick_simpl; injection S as <-; discriminate E2.
  - injection S as <-; discriminate E2.
  - injection S as <-; discriminate E2.
  - cbn [f_tm f_now] in S. destruct (due tm nw); [|injection S as <-; discriminate E2].
    unfold dl_timer_cb in S. cbn [set_timer f_T] in S.
    repeat match type of S with context [?a =? ?b] => destruct (a =? b) end; tick_simpl;
      try discriminate S; injection S as <-; discriminate E2.
  - cbn [f_t31 f_now] in S. destruct (due t31 nw); injection S as <-; discriminate E2.
Qed.

(** A downlink TBF is freed only by one of the guards. *)
Lemma dl_release : forall c t ops f o f' w,
  dl_run c (fsm_new t) ops = Some f -> f_dead f = None -> dl_step c f o = Some f' ->
  f_dead f' = Some w ->
  match w with
  | By3193 => f_st f = WAIT_REUSE /\ final_ack_guard c (fsm_new t) ops (f_now f)
  | By3195 => f_st f = RELEASING /\ lost_guard c (fsm_new t) ops (f_now f)
  | By3191 => final_block_guard c (fsm_new t) ops (f_now f)
  | By2001 => f_st f = ASSIGN /\ assign_guard c (fsm_new t) ops (f_now f)
  | ByUpgrade => f_st f = ASSIGN /\ o = DTimer UpgradeFail /\ ccch_confirmed c (fsm_new t) ops (f_now f)
  | _ => False
  end.
Proof.
  intros c t ops f o f' w R DD S DW.
  destruct (dl_reach c t ops) as (g & R2 & I). rewrite R in R2. injection R2 as <-.
  destruct (I DD) as [D1 D2].
  destruct (dl_kind_run _ _ _ _ _ _ R DD S)
    as [E1 E2 E3 X | s J N E1 E2 X | E0 E1 X E2 | Eo E0 E1 E2 E3 X | E0 E1 E2 X
       | Eo E0 E1 E2 E3 X | x X1 X2 E0 E1 E2 E3 X | Eo N E0 E1 E2 E3 X | x w1 E W L X];
    try congruence.
  assert (w1 = w) by congruence. subst w1. clear DW X.
  destruct W as [(-> & T31 & ->)|(u & -> & TM & W)].
  - specialize (D2 x T31). eapply past_weak; [exact D2|]. cbv beta.
    intros g o g' b (A1 & A2 & A3). splits; try assumption. lia.
  - specialize (D1 x TM).
    destruct W as [(ET & ->)|[(ET & ->)|[(ET & ->)|(ET & ES & -> & ->)]]];
      rewrite ?ET in D1.
    + destruct (f_st f); try contradiction; try (destruct D1 as [D1 _]; discriminate D1).
      destruct D1 as [[_ D1]|[D1 _]]; [|discriminate D1]. split; [reflexivity|].
      eapply past_weak; [exact D1|]. cbv beta. intros g o g' b (A1 & A2 & A3 & A4).
      split; [exact A1|]. split; [exact A2|]. split; [exact A3|]. lia.
    + destruct (f_st f); try contradiction; try (destruct D1 as [D1 _]; discriminate D1).
      * destruct D1 as [[D1 _]|[D1 _]]; discriminate D1.
      * destruct D1 as [_ D1]. split; [reflexivity|].
        eapply past_weak; [exact D1|]. cbv beta. intros g o g' b (A1 & A2 & A3 & A4).
        splits; try assumption. lia.
    + destruct (f_st f); try contradiction; try (destruct D1 as [D1 _]; discriminate D1).
      * destruct D1 as [[D1 _]|[D1 _]]; discriminate D1.
      * destruct D1 as [_ D1]. split; [reflexivity|].
        eapply past_weak; [exact D1|]. cbv beta. intros g o g' b (A1 & A2 & A3 & A4 & A5).
        split; [exact A1|]. split; [exact A2|]. split; [exact A3|]. split; [exact A4|]. lia.
    + rewrite ES in D1 |- *. destruct D1 as [[D1 _]|[_ D1]]; [discriminate D1|].
      split; [reflexivity|]. split; [reflexivity|].
      eapply past_weak; [exact D1|]. cbv beta. intros g o g' b (A1 & A2 & A3 & A4).
      split; [exact A1|]. split; [exact A2|]. split; [exact A3|]. lia.
Qed.
