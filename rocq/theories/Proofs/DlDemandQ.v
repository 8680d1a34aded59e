(** More proofs about the demand for downlink TBFs (C78): queued data is sent, and where it is forgotten. *)
From Coq Require Import List Arith Bool Lia Wf_nat.
From Verif Require Import Model.DlDemand Spec.DlDemandSpec Proofs.DlDemandP.
Import ListNotations.

(** ** What happens by itself leads on *)
Definition w_dl (d : option dst) : nat :=
  match d with
  | None => 30 | Some DOff => 34 | Some DReuse => 33 | Some DRel => 34 | Some DFin => 22 | Some DPacch => 18
  | Some (DPch false) => 14 | Some (DPch true) => 13 | Some (DSelf Send) => 12 | Some (DSelf Sent) => 11
  | Some (DFlow true) => 10 | Some (DFlow false) => 9
  end.
Definition w_ass (a : option ass) : nat := match a with None => 0 | Some Send => 3 | Some Sent => 1 end.
Definition w_ul (u : option ult) : nat :=
  match u with
  | None => 0
  | Some u => 5 * u_left u + match u_st u with UAssign => 9 | UFlow => 6 | UFin => 3 | UOff => 0 end
              + match u_ack u with ASched => 2 | _ => 0 end + w_ass (u_ass u) + length (u_polls u)
  end.
Definition weight (s : mob) : nat := 100 * m_q s + w_dl (m_dl s) + w_ass (m_old s) + w_ul (m_ul s).

Ltac w := unfold weight; proj; cbn [w_dl w_ass w_ul u_left u_st u_ack u_ass u_polls length set_ass set_polls set_ack set_st sched assigned];
  rewrite ?app_length; cbn [length]; try lia.

Lemma w_by_ul : forall s u, need s = true -> m_ul s = Some u -> weight (by_ul true u s) < weight s.
Proof.
  intros [q d u' old] u N E. cbn [m_ul] in E. subst u'. unfold need in N. cbn [m_dl m_q] in N. unfold by_ul.
  destruct d as [[]|]; try discriminate; w; destruct (u_ass u) as [[]|]; w.
Qed.
Lemma w_by_pch : forall s, need s = true -> weight (by_pch true s) < weight s.
Proof.
  intros [q d u' old] N. unfold need in N. cbn [m_dl m_q] in N. unfold by_pch.
  destruct d as [[]|]; try discriminate; w.
Qed.

Lemma weight_step : forall s o s', calm s -> 0 < m_q s -> quiet o = true -> step s o = Some s' -> weight s' < weight s.
Proof.
  intros [q d u old] o s' [Hu Hd] Q A E. cbn [m_q m_dl m_ul m_old] in *.
  destruct o; cbn [quiet] in A; try discriminate; unfold step in E; cbn [m_q m_dl m_ul m_old] in E.
  - subst ok. destruct u as [u|]; [|discriminate]. destruct (u_st u) eqn:X; try discriminate. injection E as <-.
    assert (B : weight (set_ul (mk_mob q d (Some u) old) (Some (set_st u UFlow))) < weight (mk_mob q d (Some u) old)).
    { w. rewrite X. lia. }
    destruct (need _) eqn:N; [|exact B]. eapply Nat.lt_trans; [|exact B].
    exact (w_by_ul (set_ul (mk_mob q d (Some u) old) (Some (set_st u UFlow))) (set_st u UFlow) N eq_refl).
  - destruct u as [u|]; [|discriminate]. destruct u as [x cr n ack a ps]. cbn [u_st u_left] in E.
    destruct x; try discriminate. destruct n as [|k]; [discriminate|]. injection E as <-. destruct k, want, ack; cbn [after_block]; w.
  - subst ok. destruct u as [u|]; [|discriminate]. destruct u as [x cr n ack a ps].
    cbn [u_st u_cr u_left u_ack u_ass u_polls set_ack set_polls] in E. destruct ack; try discriminate.
    destruct x, cr; cbn [u_st u_cr u_left u_ack u_ass u_polls set_ack set_polls] in E; injection E as <-; try (w; fail);
      try solve [w].
    + match goal with |- weight (if need ?s && _ then _ else _) < weight ?t => assert (B : weight s < weight t) by w end.
      destruct (need _) eqn:N; cbn [andb negb]; [|exact B]. eapply Nat.lt_trans; [|exact B].
      refine (w_by_ul _ (mk_ul UFlow true n ANone a ps) N eq_refl).
    + rewrite andb_false_r. w.
  - destruct u as [u|]; [|discriminate]. destruct (u_ass u) as [[]|] eqn:X; try discriminate.
    destruct (u_cr u); [|discriminate]. destruct d as [d|]; injection E as <-; w; rewrite X; w.
  - subst ok. destruct u as [u|]; [|discriminate]. destruct u as [x cr n ack a ps]. cbn [u_st u_cr u_left u_ack u_ass u_polls] in E.
    destruct ps as [|[] ps]; [discriminate| |].
    + destruct ack, x; try (injection E as <-; w; fail).
      injection E as <-.
      match goal with |- weight (if need ?s then _ else _) < weight ?t => assert (B : weight s < weight t) by w end.
      destruct (need _) eqn:N; [|exact B]. eapply Nat.lt_trans; [|exact B]. now apply w_by_pch.
    + destruct a as [[]|]; injection E as <-; w. destruct d as [[[]|[]| |[]| | | |]|]; w.
  - destruct d as [[[]|[]| |[]| | | |]|]; try discriminate; injection E as <-; w.
  - destruct d as [[[]|[]| |[]| | | |]|]; try discriminate. destruct up as [[]|]; try discriminate; injection E as <-; w.
  - destruct d as [[[]|[]| |[]| | | |]|]; try discriminate; injection E as <-; w.
  - destruct d as [[[]|[]| |[]| | | |]|]; try discriminate; injection E as <-; w.
  - destruct old as [[]|]; try discriminate; injection E as <-; destruct d; w.
  - destruct old as [[]|]; try discriminate; injection E as <-. destruct d as [[[]|[]| |[]| | | |]|]; w.
  - destruct d as [[[]|[]| |[]| | | |]|]; try discriminate; destruct q; try discriminate; injection E as <-; w.
  - destruct d as [[[]|[]| |[]| | | |]|]; try discriminate; injection E as <-; w.
  - destruct d as [[[]|[]| |[]| | | |]|]; try discriminate; destruct q; try discriminate; lia.
  - subst ok. destruct d as [[[]|[]| |[]| | | |]|]; try discriminate; injection E as <-; destruct q; [lia|]. proj.
    cbn [Nat.ltb Nat.leb]. unfold by_dl. w.
  - destruct d as [[[]|[]| |[]| | | |]|]; try discriminate; injection E as <-; cbn in Hd; lia.
  - destruct d as [[[]|[]| |[]| | | |]|]; try discriminate; injection E as <-; w.
  - destruct d as [[[]|[]| |[]| | | |]|]; try discriminate; cbn in Hd; tauto.
Qed.

Lemma leads_on : forall s, calm s -> 0 < m_q s -> exists o s', quiet o = true /\ in_order s o /\ step s o = Some s'.
Proof.
  intros [q d u old] [Hu Hd] Q. cbn [m_q m_dl m_ul m_old] in *.
  assert (U : forall x, u = Some x -> exists o s', quiet o = true /\ in_order (mk_mob q d u old) o /\ step (mk_mob q d u old) o = Some s').
  { intros x ->. destruct x as [[] cr n ack a ps]; destruct Hu as (H1 & H2 & H3 & H4); cbn in H1, H2, H3, H4.
    - exists (UlAssigned true). eexists. split; [reflexivity|]. split; [exact I|]. reflexivity.
    - destruct n as [|k]; [lia|]. exists (UlBlock false). eexists. split; [reflexivity|]. split; [exact I|]. reflexivity.
    - destruct ack; [congruence| |].
      + destruct a as [[]|].
        * rewrite H2 by discriminate. exists SendAss. destruct d; eexists; (split; [reflexivity|]); (split; [exact I|]); reflexivity.
        * exists (SendAck true). cbn [step m_ul u_ack u_st]. destruct cr; eexists; (split; [reflexivity|]); (split; [cbn; congruence|]); reflexivity.
        * exists (SendAck true). cbn [step m_ul u_ack u_st]. destruct cr; eexists; (split; [reflexivity|]); (split; [cbn; congruence|]); reflexivity.
      + exists (Answer true). destruct a as [[]|]; cbn in H4; subst ps; eexists; (split; [reflexivity|]); (split; [exact I|]); reflexivity.
    - tauto. }
  destruct d as [[[]|[]| |f| | | |]|].
  - exists (X2002 None). eexists. split; [reflexivity|]. split; [exact I|]. reflexivity.
  - exists Cnf. eexists. split; [reflexivity|]. split; [exact I|]. reflexivity.
  - exists SelfSend. eexists. split; [reflexivity|]. split; [exact I|]. reflexivity.
  - exists SelfAnswer. eexists. split; [reflexivity|]. split; [exact I|]. reflexivity.
  - destruct old as [[]|].
    + exists OldSend. eexists. split; [reflexivity|]. split; [exact I|]. reflexivity.
    + exists OldAnswer. eexists. split; [reflexivity|]. split; [exact I|]. reflexivity.
    + cbn in Hd. destruct Hd as [Hd|Hd]; [congruence|]. destruct u as [x|]; [|cbn in Hd; congruence]. now apply (U x).
  - destruct q; [lia|]. exists Push. eexists. split; [reflexivity|]. split; [exact I|]. reflexivity.
  - exists (DlFinal true). eexists. split; [reflexivity|]. split; [exact I|]. reflexivity.
  - cbn in Hd. lia.
  - cbn in Hd. destruct u as [x|]; [now apply (U x)|]. destruct Hd; [lia|congruence].
  - cbn in Hd. tauto.
  - cbn in Hd. destruct u as [x|]; [now apply (U x)|]. destruct Hd; [lia|congruence].
Qed.

Lemma calm_delivered : forall s, calm s -> delivered s.
Proof.
  intros s. induction s as [s IH] using (well_founded_induction (well_founded_ltof _ weight)). intros C.
  destruct (Nat.eq_dec (m_q s) 0) as [Q|Q]; [now apply delivered_now|].
  apply delivered_later; [apply leads_on; [exact C|lia]|].
  intros o s' A I E. apply IH; [|eapply calm_step; eauto; unfold smooth; now rewrite A]. unfold ltof. eapply weight_step; eauto. lia.
Qed.

Lemma history_calm : forall s, history s -> calm s.
Proof.
  induction 1 as [|s o s' H C A I E]; [|eapply calm_step; eauto].
  split; cbn; [exact I | now left].
Qed.
Lemma history_delivered : forall s, history s -> delivered s.
Proof. intros s H. now apply calm_delivered, history_calm. Qed.

(** ** Where it is forgotten *)
Definition gone_ul (u : option ult) : Prop :=
  match u with None => True | Some u => u_st u = UOff /\ u_ass u = None end.
Definition dead (s : mob) : Prop :=
  gone_ul (m_ul s) /\
  match m_dl s with
  | None | Some DReuse | Some DOff | Some DRel => True
  | Some DPacch => m_old s = None
  | Some _ => False
  end.
Lemma dead_step : forall s o s', dead s -> demand o = false -> step s o = Some s' -> dead s' /\ m_q s' = m_q s.
Proof.
  intros [q d u old] o s' [Hu Hd] D E. unfold dead in *. cbn [m_q m_dl m_ul m_old] in *.
  assert (U : forall P : ult -> option mob, match u with Some x => P x | None => None end = Some s' ->
              exists x, u = Some x /\ u_st x = UOff /\ u_ass x = None /\ P x = Some s').
  { intros P H. destruct u as [x|]; [|discriminate]. exists x. destruct Hu. auto. }
  destruct o; cbn [demand] in D; try discriminate; unfold step in E; cbn [m_q m_dl m_ul m_old] in E;
    try (apply U in E; destruct E as ([x cr n ack a ps] & -> & H1 & H2 & E); cbn [u_st u_ass] in H1, H2; subst x a;
         cbn [u_st u_cr u_left u_ack u_ass u_polls set_ack set_polls set_st set_ass] in E).
  - discriminate.
  - discriminate.
  - discriminate.
  - discriminate.
  - destruct ack; try discriminate. destruct cr; injection E as <-; proj; cbn; tauto.
  - discriminate.
  - destruct ps as [|[] ps]; try discriminate; [destruct ack|]; injection E as <-; proj; cbn; tauto.
  - destruct ps as [|[] ps]; try discriminate; injection E as <-; proj; destruct ack; cbn; tauto.
  - discriminate.
  - discriminate.
  - injection E as <-. proj. cbn. tauto.
  - destruct d as [[[]|[]| |[]| | | |]|]; try discriminate; tauto.
  - destruct d as [[[]|[]| |[]| | | |]|]; try discriminate; tauto.
  - destruct d as [[[]|[]| |[]| | | |]|]; try discriminate; tauto.
  - destruct d as [[[]|[]| |[]| | | |]|]; try discriminate; tauto.
  - destruct d as [[[]|[]| |[]| | | |]|]; try discriminate; tauto.
  - destruct old as [[]|]; try discriminate. injection E as <-. proj. destruct d as [[]|]; try tauto; try discriminate.
  - destruct old as [[]|]; try discriminate. injection E as <-. proj. destruct d as [[]|]; cbn [assigned]; try tauto; try discriminate.
  - destruct old as [[]|]; try discriminate. injection E as <-. proj. destruct d as [[]|]; try tauto; try discriminate.
  - destruct old as [[]|]; try discriminate; injection E as <-; proj; destruct d as [[]|]; tauto.
  - destruct d as [[[]|[]| |[]| | | |]|]; try discriminate; tauto.
  - destruct d as [[[]|[]| |[]| | | |]|]; try discriminate; tauto.
  - destruct d as [[[]|[]| |[]| | | |]|]; try discriminate; tauto.
  - destruct d as [[[]|[]| |[]| | | |]|]; try discriminate; tauto.
  - destruct d as [[[]|[]| |[]| | | |]|]; try discriminate; tauto.
  - destruct d as [[[]|[]| |[]| | | |]|]; try discriminate; try tauto; injection E as <-; proj; tauto.
  - destruct d as [[[]|[]| |[]| | | |]|]; try discriminate; try tauto; injection E as <-; proj; tauto.
  - destruct d as [[[]|[]| |[]| | | |]|]; try discriminate; try tauto; injection E as <-; proj; tauto.
  - destruct d as [[[]|[]| |[]| | | |]|]; try discriminate; try tauto; injection E as <-; proj; tauto.
  - destruct d as [[[]|[]| |[]| | | |]|]; try discriminate; try tauto; injection E as <-; proj; tauto.
  - destruct d as [[[]|[]| |[]| | | |]|]; try discriminate. injection E as <-. proj.
    destruct u as [x|]; cbn in *; tauto.
Qed.
Lemma dead_forgotten : forall s, dead s -> 0 < m_q s -> forgotten s.
Proof.
  intros s D Q. split; [exact Q|]. intros os. revert s D Q. induction os as [|o os IH]; intros s D Q s' F E; cbn in E.
  - injection E as <-. reflexivity.
  - destruct (step s o) as [s1|] eqn:S1; [|discriminate]. inversion F as [|? ? F1 F2]. subst.
    destruct (dead_step s o s1 D F1 S1) as [D1 Q1]. rewrite <- Q1. apply IH; [exact D1 | lia | exact F2 | exact E].
Qed.

(** The uplink TBF ends before its assignment of the downlink TBF has been answered. *)
Lemma race : exists os s, forallb (fun o => quiet o || wish o) os = true /\ run mob0 os = Some s /\ forgotten s.
Proof.
  exists [Access 0 1; SendAck true; UlBlock true; Data true; SendAck true; SendAss; Answer true].
  eexists. split; [reflexivity|]. split; [vm_compute; reflexivity|]. apply dead_forgotten; [|cbn; lia]. cbn. easy.
Qed.

Lemma missed : exists s1 s2 s3, history s1 /\ step s1 Missed = Some s2 /\ step s2 (Answer true) = Some s3 /\ forgotten s3.
Proof.
  assert (R : forall os s s', history s -> run s os = Some s' -> story Missed s os s' -> forallb smooth os = true -> history s').
  { induction os as [|o os IH]; intros s s' Hs E S F; cbn in E, S, F; [now injection E as <-|].
    apply andb_prop in F. destruct F as [F1 F2]. destruct S as (_ & I & S). destruct (step s o) as [s1|] eqn:S1; [|discriminate].
    apply (IH s1); auto. eapply history_step; eauto. }
  do 3 eexists. split; [|split; [|split]].
  - apply (R [Access 0 1; SendAck true; UlBlock true; Data true; SendAss; SendAck true] mob0);
      [constructor | vm_compute; reflexivity | | reflexivity].
    repeat (split; [now left|]; split; [cbn; intros; congruence || exact I|]). reflexivity.
  - vm_compute; reflexivity.
  - vm_compute; reflexivity.
  - apply dead_forgotten; [|cbn; lia]. cbn. easy.
Qed.

Ltac told os := exists os; eexists; split;
  [ repeat (split; [first [now left | now right]|]; split; [cbn; intros; first [congruence | exact I]|]); reflexivity
  | apply dead_forgotten; [|cbn; lia]; cbn; easy ].

Lemma losses : Forall (fun o => exists os s, story o mob0 os s /\ forgotten s)
  [N3101; N3103; N3105; T3191; X2001; UlTimeout; Data false; Request false 0; AnswerReq false 0; Answer false; DlFinal false;
   X2002 (Some false)].
Proof.
  repeat constructor.
  - told [Access 0 1; Data true; N3101].
  - told [Access 0 0; Data true; SendAck true; N3103].
  - told [Data true; Cnf; X2002 None; Push; DlLast; Data true; N3105].
  - told [Data true; Cnf; X2002 None; Push; DlLast; Data true; T3191].
  - told [Data true; Cnf; X2002 None; Push; DlLast; DlFinal true; Data true; X2001].
  - told [Access 0 1; Data true; UlTimeout].
  - told [Data false].
  - told [Data true; Request false 0].
  - told [Access 0 0; Data true; SendAck true; AnswerReq false 0].
  - told [Access 0 0; Data true; SendAck true; Answer false].
  - told [Data true; Cnf; X2002 None; Push; DlLast; Data true; DlFinal false].
  - told [Data true; Cnf; X2002 (Some false)].
Qed.

(** No confirmation of an assignment on the paging channel: nothing else ever ends the wait for it. *)
Lemma unconfirmed : exists s, history s /\ m_q s = 1 /\ forall os s',
  Forall (fun o => match o with Cnf | Access _ _ | Request _ _ => False | _ => True end) os ->
  run s os = Some s' -> m_dl s' = m_dl s /\ m_q s' >= m_q s.
Proof.
  exists (mk_mob 1 (Some (DPch false)) None None). split; [|split; [reflexivity|]].
  { apply (history_step mob0 (Data true)); [constructor | reflexivity | exact I | reflexivity]. }
  assert (G : forall os q s', Forall (fun o => match o with Cnf | Access _ _ | Request _ _ => False | _ => True end) os ->
    run (mk_mob q (Some (DPch false)) None None) os = Some s' -> m_dl s' = Some (DPch false) /\ m_q s' >= q).
  { induction os as [|o os IH]; intros q s' F E; cbn [run] in E.
    - injection E as <-. cbn. split; [reflexivity | lia].
    - inversion F as [|? ? F1 F2]. subst. destruct o; try tauto; cbn in E; try discriminate.
      destruct (IH (S q) s' F2 E). split; [assumption | lia]. }
  intros os s' F E. exact (G os 1 s' F E).
Qed.
