(** Proofs about the demand for downlink TBFs (C78). *)
From Coq Require Import List Arith Bool Lia.
From Verif Require Import Model.DlDemand Spec.DlDemandSpec.
Import ListNotations.

(** ** The invariant of histories without losses *)
Definition okul (u : ult) : Prop :=
  match u_st u with
  | UAssign => u_cr u = true /\ u_ack u = ANone /\ 0 < u_left u
  | UFlow => u_ack u <> AWait /\ 0 < u_left u
  | UFin => u_ack u <> ANone
  | UOff => False
  end /\
  (u_ass u <> None -> u_cr u = true) /\
  (u_ack u = AWait -> u_cr u = true /\ u_ass u <> Some Send) /\
  u_polls u = (if match u_ass u with Some Sent => true | _ => false end then [PAss] else []) ++
              (if match u_ack u with AWait => true | _ => false end then [PAck] else []).
Definition ass_of (u : option ult) : option ass := match u with Some x => u_ass x | None => None end.
Definition okdl (q : nat) (d : option dst) (u : option ult) (o : option ass) : Prop :=
  match d with
  | None | Some DReuse => q = 0 \/ u <> None
  | Some DPacch => o <> None \/ ass_of u <> None
  | Some DRel => q = 0
  | Some DOff => False
  | Some _ => True
  end.
Definition okul' (u : option ult) : Prop := match u with Some u => okul u | None => True end.
Definition calm (s : mob) : Prop := okul' (m_ul s) /\ okdl (m_q s) (m_dl s) (m_ul s) (m_old s).

Ltac crunch := unfold okul; cbn [m_q m_dl m_ul m_old u_st u_cr u_left u_ack u_ass u_polls set_dl set_ul set_old set_q
  set_ass set_polls set_ack set_st sched app]; intuition (try congruence; try lia).

Lemma ul_sched : forall u, okul u -> u_cr u = true -> u_ack u <> AWait -> okul (set_ass u (sched (u_ass u))).
Proof. intros [st cr n ack [[]|] ps] (A & B & C & D) R W; revert A B C D R W; destruct st, ack; crunch. Qed.
Lemma ul_up : forall u, okul u -> u_st u = UAssign -> okul (set_st u UFlow).
Proof. intros [st cr n ack a ps] (A & B & C & D) E; revert A B C D E; destruct st; crunch. Qed.
Lemma ul_block : forall u k w, okul u -> u_st u = UFlow -> okul (after_block u k w).
Proof.
  intros [st cr n ack a ps] k w (A & B & C & D) E; revert A B C D E; destruct st, k, w, ack; unfold after_block; crunch.
Qed.
Lemma ul_sendass : forall u, okul u -> u_ass u = Some Send -> okul (set_polls (set_ass u (Some Sent)) (u_polls u ++ [PAss])).
Proof. 
  intros [st cr n ack a ps] (A & B & C & D) E; revert A B C D E; destruct st, ack, a as [[]|]; crunch; subst; reflexivity. 
Qed.
Lemma ul_noass : forall u, okul u -> u_ass u = Some Send -> okul (set_ass u None).
Proof. intros [st cr n ack a ps] (A & B & C & D) E; revert A B C D E; destruct st, ack, a as [[]|]; crunch. Qed.
Lemma ul_answer : forall u ps, okul u -> u_polls u = PAss :: ps -> u_ass u = Some Sent /\ okul (set_polls (set_ass u None) ps).
Proof.
  intros [st cr n ack a ps'] ps (A & B & C & D) E; revert A B C D E; destruct st, ack, a as [[]|]; crunch; subst; try discriminate;
    cbn [app] in *; try (injection E as <-); try reflexivity; try congruence.
Qed.
Lemma ul_new : forall k, okul (new_ul k).
Proof. intros k; unfold new_ul; crunch. Qed.
Lemma ul_access : forall k, okul (after_block (mk_ul UFlow false k ANone None []) k true).
Proof. intros [|k]; unfold after_block; crunch. Qed.

Lemma okdl_ul : forall q d u u' o, okdl q d u o -> (u <> None -> u' <> None) -> (ass_of u <> None -> ass_of u' <> None) ->
  okdl q d u' o.
Proof. intros q [[]|] u u' o A N S; cbn [okdl] in *; tauto. Qed.

(** ** Every step *)
Ltac proj := cbn [m_q m_dl m_ul m_old set_dl set_ul set_old set_q okul' ass_of u_ass set_ass set_polls set_ack set_st].
Ltac same := eapply okdl_ul; [eassumption | intros; discriminate | proj; congruence].

Lemma calm_by_ul : forall s u, okul u -> u_cr u = true -> u_ack u <> AWait -> calm (by_ul true u s).
Proof.
  intros s u U R W. unfold by_ul, calm; proj. split; [now apply ul_sched|].
  cbn [okdl]. right. proj. destruct (u_ass u) as [[]|]; cbn; congruence.
Qed.

Lemma calm_step1 : forall s o s', calm s -> quiet o = true \/ wish o = true -> in_order s o -> step s o = Some s' -> calm s'.
Proof.
  intros [q d u old] o s' [Hu Hd] A I E. cbn [m_q m_dl m_ul m_old] in *.
  destruct o; cbn [quiet wish] in A; try (destruct A; discriminate); unfold step in E;
    cbn [m_q m_dl m_ul m_old] in E.
  - (* Data *)
    destruct A as [A|A]; [discriminate|]. subst ok. injection E as <-. unfold data. proj.
    destruct d as [[]|]; try (unfold calm; proj; split; [exact Hu | exact Hd]).
    + (* wait release *) unfold calm, by_dl; proj. split; [exact Hu|]. cbn. left; discriminate.
    + destruct u as [u|].
      * unfold reachable. destruct (u_cr u) eqn:R; cbn [andb].
        -- destruct (u_ack u) eqn:K; destruct (u_st u) eqn:X; cbn [andb negb];
             try (apply calm_by_ul; [exact Hu | exact R | congruence]);
             unfold calm; proj; (split; [exact Hu | right; discriminate]).
        -- unfold calm; proj. split; [exact Hu | right; discriminate].
      * unfold calm, by_pch; proj. split; exact I.
    + destruct u as [u|].
      * unfold reachable. destruct (u_cr u) eqn:R; cbn [andb].
        -- destruct (u_ack u) eqn:K; destruct (u_st u) eqn:X; cbn [andb negb];
             try (apply calm_by_ul; [exact Hu | exact R | congruence]);
             unfold calm; proj; (split; [exact Hu | right; discriminate]).
        -- unfold calm; proj. split; [exact Hu | right; discriminate].
      * unfold calm, by_pch; proj. split; exact I.
  - (* Access *) injection E as <-. unfold calm; proj. split; [apply ul_access|]. right. discriminate.
  - (* Request *) destruct A as [A|A]; [discriminate|]. subst ok. injection E as <-. unfold calm; proj.
    split; [apply ul_new | right; discriminate].
  - (* Change *) destruct A as [A|A]; [discriminate|]. subst ok. destruct u as [u|]; [|discriminate].
    cbn in I. destruct u as [[] cr n ack a ps]; try discriminate. injection E as <-. cbn [u_ass] in I. subst a. unfold calm; proj.
    split; [apply ul_new|]. same.
  - (* AnswerReq *) destruct A as [A|A]; [discriminate|]. subst ok. destruct u as [u|]; [|discriminate].
    destruct u as [[] cr n [] a [|[] ps]]; try discriminate. injection E as <-. unfold calm; proj.
    split; [apply ul_new|]. destruct Hu as (H1 & H2 & H3 & H4). cbn in H3, H4. destruct H3 as [_ H3]; [reflexivity|].
    destruct a as [[]|]; [congruence | discriminate|]. same.
  - (* UlAssigned *) destruct A as [A|A]; [|discriminate]. subst ok. destruct u as [u|]; [|discriminate].
    destruct (u_st u) eqn:X; try discriminate. injection E as <-. pose proof (ul_up u Hu X) as Hu'.
    destruct (need _).
    + apply (calm_by_ul (set_ul (mk_mob q d (Some u) old) (Some (set_st u UFlow))) (set_st u UFlow)); [exact Hu'| |]; destruct Hu as (H1 & _); rewrite X in H1; cbn; [easy|]. destruct H1 as (_ & -> & _). discriminate.
    + unfold calm; proj. split; [exact Hu'|]. same.
  - (* UlBlock *) destruct u as [u|]; [|discriminate].
    destruct (u_st u) eqn:X; try discriminate. destruct (u_left u) as [|k]; [discriminate|]. injection E as <-.
    unfold calm; proj. split; [now apply ul_block|]. eapply okdl_ul; [exact Hd | discriminate|].
    proj. destruct k, want; cbn; congruence.
  - (* SendAck *) destruct A as [A|A]; [|discriminate]. subst ok. destruct u as [u|]; [|discriminate]. cbn in I.
    destruct u as [x cr n ack a ps]. cbn [u_st u_cr u_left u_ack u_ass u_polls set_ack set_polls] in *.
    destruct ack; try discriminate. destruct Hu as (H1 & H2 & H3 & H4). cbn in H1, H2, H3, H4.
    destruct x, cr; cbn [u_st u_cr u_left u_ack u_ass u_polls set_ack set_polls] in E; try tauto; try (destruct H1 as (? & ? & ?); discriminate).
    + injection E as <-. unfold calm; proj. split; [|same]. crunch.
    + assert (a = None) by (destruct a; [specialize (H2 ltac:(discriminate)); discriminate | reflexivity]). subst a. 
      injection E as <-. destruct (need _); cbn [andb negb].
      * apply (calm_by_ul (set_ul (mk_mob q d (Some (mk_ul UFlow false n ASched None ps)) old) (Some (mk_ul UFlow true n ANone None ps)))
                 (mk_ul UFlow true n ANone None ps)); crunch.
      * unfold calm; proj. split; [crunch|same].
    + injection E as <-. unfold calm; proj. split; [|same]. specialize (I eq_refl). destruct a as [[]|]; crunch; subst; reflexivity.
    + assert (a = None) by (destruct a; [specialize (H2 ltac:(discriminate)); discriminate | reflexivity]). subst a.
      injection E as <-. rewrite andb_false_r. unfold calm; proj. split; [crunch; subst; reflexivity | same].
  - (* SendAss *) destruct u as [u|]; [|discriminate]. destruct (u_ass u) as [[]|] eqn:X; try discriminate.
    destruct (u_cr u); [|discriminate]. destruct d as [d|]; injection E as <-; unfold calm; proj.
    + split; [now apply ul_sendass|]. same.
    + split; [now apply ul_noass|]. cbn [okdl]. right. discriminate.
  - (* Answer *) destruct A as [A|A]; [|discriminate]. subst ok. destruct u as [u|]; [|discriminate].
    destruct (u_polls u) as [|[] ps] eqn:P; [discriminate| |].
    + assert (K : u_ack u = AWait /\ u_st u = UFin /\ u_ass u = None).
      { destruct u as [x cr n ack a ps']. destruct Hu as (H1 & H2 & H3 & H4). cbn in *. subst ps'.
        destruct a as [[]|], ack; cbn in P; try discriminate; destruct H3 as [_ H3]; try reflexivity; try congruence.
        destruct x; intuition congruence. }
      destruct K as (K1 & K2 & K3). rewrite K1, K2 in E. injection E as <-.
      unfold need, by_pch; proj. destruct d as [[]|]; unfold calm; proj;
        try (split; [exact I | cbn [okdl] in *; proj; tauto]).
      * destruct q; cbn; (split; [exact I|]); cbn; tauto.
      * destruct Hd.
      * destruct q; cbn; (split; [exact I|]); cbn; tauto.
    + destruct (ul_answer u ps Hu P) as [K Hu']. rewrite K in E. injection E as <-. unfold calm; proj.
      split; [exact Hu'|]. destruct d as [[]|]; cbn [okdl assigned] in *; try tauto; right; discriminate.
  - (* Cnf *) destruct d as [[[]|[]| | | | | |]|]; try discriminate. injection E as <-. unfold calm; proj. now split.
  - (* X2002 *) destruct d as [[[]|[]| | | | | |]|]; try discriminate. destruct up as [[]|]; cbn in A; try (destruct A; discriminate);
      injection E as <-; unfold calm; proj; now split.
  - destruct d as [[[]|[]| | | | | |]|]; try discriminate. injection E as <-. unfold calm; proj. now split.
  - destruct d as [[[]|[]| | | | | |]|]; try discriminate. injection E as <-. unfold calm; proj. now split.
  - (* OldSend *) destruct old as [[]|]; try discriminate. injection E as <-. unfold calm; proj. split; [exact Hu|].
    destruct d as [[]|]; cbn [okdl] in *; try tauto. left. discriminate.
  - (* OldAnswer *) destruct old as [[]|]; try discriminate. injection E as <-. unfold calm; proj. split; [exact Hu|].
    destruct d as [[]|]; cbn [okdl assigned] in *; tauto.
  - (* Push *) destruct d as [[]|]; try discriminate. destruct q; [discriminate|]. injection E as <-. unfold calm; proj. now split.
  - destruct d as [[[]|[]| |[]| | | |]|]; try discriminate. injection E as <-. unfold calm; proj. now split.
  - (* DlLast *) destruct d as [[]|]; try discriminate. destruct q; [|discriminate]. injection E as <-. unfold calm; proj. now split.
  - (* DlFinal *) destruct A as [A|A]; [|discriminate]. subst ok. destruct d as [[]|]; try discriminate. injection E as <-. proj.
    destruct q; cbn [Nat.ltb Nat.leb]; unfold calm, by_dl; proj; (split; [exact Hu|]); cbn; [reflexivity | left; discriminate].
  - (* T3192 *) destruct d as [[]|]; try discriminate. injection E as <-. unfold calm; proj. split; [exact Hu|]. cbn in *. tauto.
  - destruct d as [[]|]; try discriminate. injection E as <-. unfold calm; proj. split; [exact Hu|]. cbn in *. tauto.
  - destruct d as [[]|]; try discriminate. cbn in Hd. tauto.
Qed.

Lemma calm_missing : forall s o s', calm s -> missing o = true -> in_order s o -> step s o = Some s' -> calm s'.
Proof.
  intros [q d u old] o s' [Hu Hd] A I E. cbn [m_q m_dl m_ul m_old] in *.
  destruct o; cbn [missing] in A; try discriminate; unfold step in E; cbn [m_q m_dl m_ul m_old] in E.
  - destruct u as [u|]; [|discriminate]. cbn in I. destruct u as [x cr n ack a ps]. cbn [u_polls u_ack u_ass] in *.
    destruct Hu as (H1 & H2 & H3 & H4). cbn in H1, H2, H3, H4. subst ps.
    destruct a as [[]|], ack; cbn [app] in *; try discriminate; cbn [hd_error] in I; try (specialize (I eq_refl); congruence);
      try (specialize (H3 eq_refl); destruct H3; congruence); injection E as <-; unfold calm; proj;
      (split; [|same]); destruct x; crunch.
  - destruct d as [[[]|[]| | | | | |]|]; try discriminate. injection E as <-. unfold calm; proj. now split.
  - destruct old as [[]|]; try discriminate. injection E as <-. unfold calm; proj. split; [exact Hu|].
    destruct d as [[]|]; cbn [okdl] in *; try tauto. left. discriminate.
  - destruct d as [[[]|[]| |[]| | | |]|]; try discriminate. injection E as <-. unfold calm; proj. now split.
Qed.
Lemma calm_step : forall s o s', calm s -> smooth o = true -> in_order s o -> step s o = Some s' -> calm s'.
Proof.
  intros s o s' C A I E. unfold smooth in A. rewrite !orb_true_iff in A. destruct A as [A|A];
  [now apply (calm_step1 s o) | now apply (calm_missing s o)].
Qed.
