(** Proofs about the routing of uplink blocks: properties that every part of a step keeps. *)
From Coq Require Import ZArith Lia List Bool.
From Verif Require Import Base.Arith Model.TbfFsm Spec.TbfFsmSpec Proofs.TbfFsmP Proofs.TbfFsmQ
  Model.TbfSub Spec.TbfSubSpec Proofs.TbfSubP Proofs.TbfSubQ Proofs.TbfSubR Model.Route Spec.RouteSpec
  Proofs.RouteP Proofs.RouteQ Proofs.RouteR Proofs.RouteS Proofs.RouteT.
Import ListNotations.
Open Scope Z_scope.

Definition std (o : sop) : Prop :=
  match o with
  | SLife (LDl (DEv ACK_PACCH) | LUl (UEv ACK_PACCH)) | SDlAck _ | SUsfUsed | SUlData | SUlStray | SUsfTimeout | SUsf | SDaAbort => True
  | _ => False
  end.

Section Parts.
Variables (c : tconf) (Inv : rst -> Prop) (ok : Z -> sop -> Prop) (pol : Z -> reason -> Prop) (far : rtbf -> Prop).
Hypothesis H_node : forall s fn i r, Inv s -> node_at fn s = Some (NPoll i r) -> pol i r.
Hypothesis H_std : forall i o, std o -> ok i o.
Hypothesis H_poll : forall i r, pol i r -> (forall nw, ok i (SAnswer r nw)) /\ ok i (SUnanswered r) /\ (r = P_UL_ACK -> ok i SResReq).
Hypothesis H_act : forall s i o s', Inv s -> ok i o -> act c i o s = Ok s' -> Inv s'.
Hypothesis H_rel : forall s fn, Inv s -> Inv (release fn s).
Hypothesis H_rem : forall s x, Inv s -> In x (s_tbfs s) -> far x -> Inv (remove (r_id x) s).
Hypothesis H_gone : forall s i, Inv s -> get i s = None -> Inv (remove i s).
Hypothesis H_res : forall s fn n, Inv s -> (forall i r, n = NPoll i r -> pol i r) -> Inv (reserve fn n s).
Hypothesis H_sba : forall s n, Inv s -> Inv (set_sba n s).
Hypothesis H_place : forall s i x o t l r, Inv s -> get i s = Some x -> sub_step c (r_t x) o = Some (t, l) -> own_op o = true ->
  placed (r_t x) t = Some r -> pol i r.
Hypothesis H_new : forall s d i k tfi w now l1 l3 l5 t, Inv s -> fresh d i tfi s = true -> sub_new c d w now l1 l3 l5 = Some t ->
  Inv (attach (RT i k tfi true t) s).
Hypothesis H_via : forall s i k tfi t v y s', Inv s -> get v s = Some y -> get i s = None -> t_dir t = DL -> may_assign k s y = true ->
  Inv (attach (RT i k tfi true t) s) -> act c v SDaSched (attach (RT i k tfi true t) s) = Ok s' -> Inv s'.
Hypothesis H_pass : forall s d l n, Inv s -> pass c d (s_tbfs s) = Some l -> Inv (set_time n (set_tbfs l s)).

Lemma p_tell : forall d m o s s', Inv s -> std o -> tell c d m o s = Ok s' -> Inv s'.
Proof.
  intros d m o s s' I S T. unfold tell in T. destruct (current d m s) as [y|]; [|injection T as <-; exact I].
  exact (H_act _ _ _ _ I (H_std _ _ S) T).
Qed.
Lemma p_cur : forall d m s, Inv s -> (forall y, r_ms y = m -> far y) -> Inv (remove_cur d m s).
Proof.
  intros d m s I F. unfold remove_cur. destruct (current d m s) as [y|] eqn:C; [|exact I].
  destruct (current_in _ _ _ _ C) as [J Z0]. destruct (cur_prop _ _ _ Z0) as (_ & E & _).
  apply H_rem; [exact I | exact J | exact (F y E)].
Qed.

Ltac same E I := injection E as <-; exact I.

Lemma p_ack : forall fn nacc s s', Inv s -> rcv_ack c fn nacc s = Ok s' -> Inv s'.
Proof.
  intros fn nacc s s' I E. unfold rcv_ack in E. destruct (node_at fn s) as [n|] eqn:N; [|same E I].
  destruct n as [id r | id | id | ]; try same E I.
  2:{ destruct (get id s); [|discriminate]. destruct nacc; [injection E as <-; apply H_rel; exact I | same E I]. }
  destruct (get id s) as [x|]; [|discriminate].
  destruct (H_poll _ _ (H_node _ _ _ _ I N)) as (P1 & P2 & P3).
  assert (F : (if negb (awaits r (r_t x)) then Ok s
     else let s := release fn s in
       match r with
       | P_UL_ACK => act c id (SAnswer r false) s
       | P_UL_ASS => andthen (act c id (SAnswer r false) s) (tell c UL (r_ms x) (ack_pacch UL))
       | P_DL_ASS =>
          match current DL (r_ms x) s with
          | None => act c id (SAnswer r false) s
          | Some y => andthen (act c id (SAnswer r (dir_eqb (r_dir x) DL)) s) (act c (r_id y) (ack_pacch DL))
          end
       | P_DL_ACK => Ok s
       end) = Ok s' -> Inv s').
  2:{ destruct r, (r_dir x); try (exact (F E)); discriminate. }
  clear E. intros E. destruct (awaits r (r_t x)); cbn [negb] in E; [|same E I]. cbv zeta in E.
  pose proof (H_rel s fn I) as I1. destruct r.
  - apply andthen_ok in E. destruct E as (u & A & T). exact (p_tell _ _ (ack_pacch UL) _ _ (H_act _ _ _ _ I1 (P1 _) A) Logic.I T).
  - destruct (current DL (r_ms x) (release fn s)) as [z|]; [|exact (H_act _ _ _ _ I1 (P1 _) E)].
    apply andthen_ok in E. destruct E as (u & A & T). exact (H_act _ _ _ _ (H_act _ _ _ _ I1 (P1 _) A) (H_std _ (ack_pacch DL) Logic.I) T).
  - exact (H_act _ _ _ _ I1 (P1 _) E).
  - injection E as <-. exact I1.
Qed.

Lemma p_rcv : forall fn m s s', Inv s -> (forall w k, m = MRequest w -> ms_of w s = Some k -> forall y, r_ms y = k -> far y) ->
  rcv c fn m s = Ok s' -> Inv s'.
Proof.
  intros fn m s s' I F E. destruct m; cbn [rcv] in E.
  - exact (p_ack _ _ _ _ I E).
  - unfold rcv_dl_ack in E. destruct (node_at fn s) as [n|] eqn:N; [|same E I].
    destruct n as [id r | id | id | ]; try same E I. destruct r; try same E I.
    destruct (get id s) as [x|]; [|discriminate]. destruct (r_dir x); [|discriminate]. destruct (r_tfi x =? tfi); [|same E I].
    exact (H_act _ _ _ _ (H_rel s fn I) (H_std _ (SDlAck _) Logic.I) E).
  - unfold rcv_request in E. destruct (node_at fn s) as [n|] eqn:N; [|same E I].
    destruct (ms_of w s) as [k|] eqn:MS; [|same E I]. pose proof (F w k eq_refl MS) as FK.
    destruct n as [id r | id | id | ].
    + destruct (get id s) as [x|]; [|discriminate]. destruct r; try same E I. destruct (r_dir x); [same E I|].
      destruct (r_ms x =? k); [|same E I]. destruct (H_poll _ _ (H_node _ _ _ _ I N)) as (P1 & P2 & P3).
      exact (H_act _ _ _ _ (H_rel s fn I) (P3 eq_refl) E).
    + destruct (get id s) as [x|] eqn:G; [|discriminate]. destruct (r_ms x =? k) eqn:EK; [|same E I]. injection E as <-.
      destruct (get_in _ _ _ G) as [J EX]. apply Z.eqb_eq in EK. rewrite <- EX. apply H_rem; [apply H_rel; exact I | exact J | exact (FK x EK)].
    + destruct (get id s); [|discriminate]. same E I.
    + injection E as <-. apply p_cur; [apply p_cur; [apply H_sba, H_rel; exact I|]|]; exact FK.
  - unfold rcv_meas in E. destruct (node_at fn s) as [n|] eqn:N; [|same E I].
    destruct n as [id r | id | id | ]; try (injection E as <-; apply H_rel; exact I).
    + exact (H_act _ _ _ _ (H_rel s fn I) (H_std _ SUsfUsed Logic.I) E).
    + injection E as <-. apply H_sba, H_rel; exact I.
  - unfold rcv_cell_change in E. destruct (by_tfi d tfi s) as [z|]; [|same E I].
    destruct (node_at fn s) as [n|] eqn:N; [|injection E as <-; apply H_rel; exact I].
    destruct n as [id r | id | id | ]; try (injection E as <-; apply H_rel; exact I).
    exact (H_act _ _ _ _ (H_rel s fn I) (H_std _ SUsfUsed Logic.I) E).
  - unfold rcv_data in E. destruct (by_tfi UL tfi s) as [z|]; [|same E I].
    destruct (node_at fn s) as [[id r | id | id | ]|]; try exact (H_act _ _ _ _ I (H_std _ SUlStray Logic.I) E).
    destruct (id =? r_id z); [exact (H_act _ _ _ _ (H_rel s fn I) (H_std _ SUlData Logic.I) E) | exact (H_act _ _ _ _ I (H_std _ SUlStray Logic.I) E)].
  - same E I.
Qed.

Lemma p_step : forall o s s', Inv s ->
  match o with
  | RDo i o fn => own_op o = true -> forall s x, ok i (informed s x fn o)
  | RBlock _ (MRequest w) => forall k, ms_of w s = Some k -> forall y, r_ms y = k -> far y
  | RFree i => forall x, In x (s_tbfs s) -> r_id x = i -> far x
  | _ => True
  end -> r_step c s o = Ok s' -> Inv s'.
Proof.
  intros o s s' I P E. destruct o; cbn [r_step] in E.
  - destruct (fresh UL id tfi s) eqn:F; [|same E I]. unfold create in E.
    destruct (sub_new c UL w (s_now s) l1 l3 l5) as [t|] eqn:N; [|discriminate]. injection E as <-. eapply H_new; eassumption.
  - destruct (fresh DL id tfi s) eqn:F; cbn [negb] in E; [|same E I]. unfold create in E. destruct via as [v|].
    + destruct (get v s) as [y|] eqn:G; [|same E I]. destruct (may_assign m s y) eqn:MA; [|same E I].
      apply andthen_ok in E. destruct E as (u & A & T).
      destruct (sub_new c DL OnPacch (s_now s) l1 l3 l5) as [t|] eqn:N; [|discriminate]. injection A as <-.
      assert (IA : Inv (attach (RT id m tfi true t) s)) by (eapply H_new; eassumption).
      assert (GN : get id s = None) by (unfold fresh in F; destruct (get id s); [discriminate | reflexivity]).
      refine (H_via _ _ _ _ _ _ _ _ I G GN _ MA IA T).
      destruct (new_inv c DL OnPacch (s_now s) l1 l3 l5) as (t0 & N0 & H0). rewrite N in N0. injection N0 as <-. apply H0.
    + destruct (current UL m s); [same E I|]. destruct (needs_dl m s); [|same E I].
      destruct (sub_new c DL OnCcch (s_now s) l1 l3 l5) as [t|] eqn:N; [|discriminate]. injection E as <-. eapply H_new; eassumption.
  - destruct (get id s) as [x|] eqn:G; [|same E I]. cbv zeta in E. rewrite informed_own in E.
    destruct (own_op o) eqn:OW; cbn [negb orb] in E; [|same E I]. specialize (P eq_refl s x).
    rewrite <- (informed_own s x fn) in OW. set (o' := informed s x fn o) in *.
    destruct (match o' with SDlPoll => match node_at fn s with Some _ => true | None => false end | _ => false end); [same E I|].
    destruct (sub_step c (r_t x) o') as [[t l]|] eqn:S; [|discriminate].
    assert (I1 : Inv (store x t s)). { apply (H_act s id o'); [exact I | exact P |]. unfold act. rewrite G, S. reflexivity. }
    assert (I2 : Inv (match placed (r_t x) t with Some r => reserve fn (NPoll id r) (store x t s) | None => store x t s end)).
    { destruct (placed (r_t x) t) as [r|] eqn:PL; [|exact I1]. apply H_res; [exact I1|].
      intros i q X. injection X as <- <-. exact (H_place _ _ _ _ _ _ _ I G S OW PL). }
    destruct (f_dead (t_f t)) as [w|]; [|same E I2]. destruct w; try same E I2.
    exact (p_tell _ _ SDaAbort _ _ I2 Logic.I E).
  - destruct (get id s) as [x|] eqn:G; [|same E I]. destruct (node_at fn s) as [n|] eqn:N; [same E I|].
    destruct (r_dir x); [same E I|]. destruct (f_st (t_f (r_t x))); try same E I.
    apply andthen_ok in E. destruct E as (u & A & T). injection T as <-.
    apply H_res; [exact (H_act _ _ _ _ I (H_std _ SUsf Logic.I) A) | discriminate].
  - destruct (get id s); [|same E I]. destruct (node_at fn s); [same E I|]. injection E as <-. apply H_res; [exact I | discriminate].
  - destruct (node_at fn s); [same E I|]. injection E as <-. apply H_sba, H_res; [exact I | discriminate].
  - destruct (pass c d (s_tbfs s)) as [l|] eqn:PA; [|discriminate]. injection E as <-. apply (H_pass s d l _ I PA).
  - apply (p_rcv fn m s s' I); [|exact E]. intros w k -> MS. apply (P k MS).
  - unfold expire in E. destruct (node_at fn s) as [n|] eqn:N; [|same E I].
    destruct n as [id r | id | id | ].
    + destruct (H_poll _ _ (H_node _ _ _ _ I N)) as (P1 & P2 & P3). exact (H_act _ _ _ _ (H_rel s fn I) P2 E).
    + exact (H_act _ _ _ _ (H_rel s fn I) (H_std _ SUsfTimeout Logic.I) E).
    + injection E as <-. apply H_rel. exact I.
    + injection E as <-. apply H_sba, H_rel. exact I.
  - injection E as <-. destruct (get id s) as [x|] eqn:G.
    + destruct (get_in _ _ _ G) as [J EX]. rewrite <- EX. apply H_rem; [exact I | exact J | exact (P x J EX)].
    + exact (H_gone s id I G).
Qed.
End Parts.

(** ** No downlink TBF is its own successor *)
Lemma apply_da : forall c l t, ~ In EUpgrade l -> t_da (apply_effs c l t) = t_da t.
Proof.
  intros c l. induction l as [|e l IH]; intros t N; [reflexivity|].
  assert (N1 : ~ In EUpgrade l) by (intros X; apply N; right; exact X).
  destruct e; cbn [apply_effs]; rewrite IH; auto.
  - unfold ua_abort, ua_none. destruct (t_ua t); try reflexivity; destruct (t_dir t); reflexivity.
  - exfalso. apply N. left. reflexivity.
Qed.
Definition noup (r : option (fsm * list teff)) : Prop := forall f l, r = Some (f, l) -> ~ In EUpgrade l.
Lemma noup_some : forall f l, ~ In EUpgrade l -> noup (Some (f, l)).
Proof. intros f l N g m E. injection E as <- <-. exact N. Qed.
Lemma noup_none : noup None. Proof. intros f l E. discriminate. Qed.
Lemma noup_effs : forall l r, ~ In EUpgrade l -> noup r -> noup (effs l r).
Proof.
  intros l [[f m]|] N H; [|exact noup_none]. cbn. apply noup_some. intros I. apply in_app_or in I. destruct I as [I|I]; [exact (N I) | exact (H f m eq_refl I)].
Qed.
Ltac nu := first [ exact noup_none | apply noup_some; cbn; intuition discriminate ].
Lemma noup_chg : forall c s f, noup (dl_chg c s f).
Proof.
  intros c s f. unfold dl_chg. destruct (dl_out _ _); [|nu]. unfold dl_onenter.
  destruct (f_st _); try nu. destruct (f_pacch _); [nu|]. destruct (f_ccch _); nu.
Qed.
Lemma noup_dispatch : forall c e f, noup (dl_dispatch c e f).
Proof.
  intros c e f. unfold dl_dispatch. destruct (dl_in _ _); [|nu]. unfold dl_action.
  destruct (f_st f), e; try nu; cbv zeta; try apply noup_chg.
  - apply noup_effs; [cbn; intuition discriminate | apply noup_chg].
  - destruct (f_ccch f); nu.
  - destruct (f_ccch f && negb (f_first f)); [apply noup_chg | nu].
Qed.
Lemma noup_op : forall c o f, o <> DTimer UpgradeOk -> noup (dl_op c o f).
Proof.
  intros c o f N. destruct o as [e|final| |d|u|]; cbn [dl_op]; try nu.
  - apply noup_dispatch.
  - destruct final; [apply noup_dispatch | nu].
  - destruct (due _ _); [|nu]. unfold dl_timer_cb.
    destruct (_ =? -2002).
    { unfold dl_x2002. destruct (f_st _); try nu. destruct u; [apply noup_dispatch | congruence | nu]. }
    destruct (_ =? 3192); [apply noup_chg|]. destruct (_ =? -2001); [nu|]. destruct (_ =? 3193); [nu|]. destruct (_ =? 3195); nu.
  - destruct (due _ _); nu.
Qed.
Lemma noup_ul : forall c o f, noup (ul_op c o f).
Proof.
  assert (D : forall c e f, noup (ul_dispatch c e f)).
  { intros c e f. unfold ul_dispatch. destruct (ul_in _ _); [|nu]. unfold ul_action. destruct (f_st f), e; nu. }
  intros c o f. destruct o; cbn [ul_op]; try nu.
  - apply D.
  - destruct (due _ _); [|nu]. unfold ul_timer_cb. destruct (_ =? -2002); [apply D|]. destruct (_ =? 3168); [nu|]. destruct (_ =? 3169); nu.
  - destruct (due _ _); nu.
Qed.
Lemma life_da : forall c o t t', life c o t = Some t' -> o <> LDl (DTimer UpgradeOk) -> t_da t' = t_da t.
Proof.
  intros c o t t' L N. unfold life in L. destruct (t_dir t), o as [o|o]; try (injection L as <-; reflexivity).
  - destruct (dl_op c o (t_f t)) as [[f l]|] eqn:D; [|discriminate]. cbn [option_map fst snd] in L. injection L as <-.
    rewrite apply_da; [reflexivity|]. apply (noup_op c o (t_f t)) in D; [exact D | congruence].
  - destruct (ul_op c o (t_f t)) as [[f l]|] eqn:D; [|discriminate]. cbn [option_map fst snd] in L. injection L as <-.
    rewrite apply_da; [reflexivity|]. apply (noup_ul c o (t_f t)) in D. exact D.
Qed.
Lemma lifemap_da : forall c t o (m : list sout) t' l,
  option_map (fun t => (t, m)) (life c o t) = Some (t', l) -> o <> LDl (DTimer UpgradeOk) -> t_da t' = t_da t.
Proof.
  intros c t o m t' l E N. destruct (life c o t) as [x|] eqn:L; [|discriminate]. cbn in E. injection E as <- <-. exact (life_da _ _ _ _ L N).
Qed.
Lemma reset_da : forall n t t', n_reset n t = Some t' -> t_da t' = t_da t.
Proof. intros n t t' E. unfold n_reset in E. destruct (right_dir n t); [|discriminate]. destruct n; injection E as <-; reflexivity. Qed.
Lemma reset_dl_da : forall t t', n_reset_dl t = Some t' -> t_da t' = t_da t.
Proof. intros t t' E. unfold n_reset_dl in E. destruct (t_dir t); [exact (reset_da _ _ _ E) | injection E as <-; reflexivity]. Qed.
Lemma count_da : forall c n e k t t' l v, t_da t = v -> e <> LDl (DTimer UpgradeOk) ->
  (forall t2, t_da t2 = v -> k t2 = Some (t', l) -> t_da t' = v) ->
  count c n e k t = Some (t', l) -> t_da t' = v.
Proof.
  intros c n e k t t' l v E NE H S. unfold count in S. destruct (n_inc n t) as [[t2 b]|] eqn:NI; [|discriminate].
  assert (E2 : t_da t2 = v).
  { unfold n_inc in NI. destruct (right_dir n t); [|discriminate]. destruct n; injection NI as <- <-; exact E. }
  destruct b; [rewrite (lifemap_da _ _ _ _ _ _ S NE); exact E2 | exact (H t2 E2 S)].
Qed.
Lemma none_da : forall c t, t_da (ua_none c t) = t_da t.
Proof. intros c t. unfold ua_none. destruct (t_ua t), (t_dir t) eqn:D; reflexivity. Qed.
Lemma ret_da : forall t t' l, ret t = Some (t', l) -> t_da t' = t_da t.
Proof. intros t t' l E. injection E as <- <-. reflexivity. Qed.

Definition fine (o : sop) : Prop := o <> SDaSched /\ o <> SLife (LDl (DTimer UpgradeOk)).

Lemma step_da : forall c t o t' l, t_da t = DA_NONE -> fine o -> sub_step c t o = Some (t', l) -> t_da t' = DA_NONE.
Proof.
  intros c t o t' l Z0 (F1 & F2) E. unfold sub_step in E. destruct (f_dead (t_f t)); [injection E as <- <-; exact Z0|].
  destruct o; cbn [sop_step] in *; try (rewrite (ret_da _ _ _ E); exact Z0).
  - destruct (life_ok o); [rewrite (lifemap_da _ _ _ _ _ _ E); [exact Z0 | congruence] | rewrite (ret_da _ _ _ E); exact Z0].
  - rewrite (ret_da _ _ _ E). unfold ua_sched. destruct (t_ua t); exact Z0.
  - rewrite (ret_da _ _ _ E). unfold ua_rej. destruct (t_ua t); exact Z0.
  - rewrite (ret_da _ _ _ E). unfold ua_abort. destruct (t_ua t); rewrite ?none_da; exact Z0.
  - unfold ua_rts in E. destruct ctrl; cbn [negb] in E; [|rewrite (ret_da _ _ _ E); exact Z0].
    destruct (t_ua t); try (rewrite (ret_da _ _ _ E); exact Z0).
    + destruct poll; cbn [negb] in E; [|rewrite (ret_da _ _ _ E); exact Z0].
      destruct peer; cbn [negb] in E; [|injection E as <- <-; rewrite none_da; exact Z0].
      destruct enc; cbn [negb] in E; injection E as <- <-; exact Z0.
    + injection E as <- <-. rewrite none_da. exact Z0.
  - unfold ua_timer in E.
    repeat match type of E with context [if ?x then _ else _] => destruct x end; try discriminate; injection E as <- <-; exact Z0.
  - congruence.
  - rewrite (ret_da _ _ _ E). unfold da_abort. rewrite Z0. exact Z0.
  - unfold da_rts in E. rewrite Z0 in E. destruct (negb ctrl); injection E as <- <-; exact Z0.
  - destruct (t_dir t) eqn:D; rewrite (ret_da _ _ _ E); [exact Z0|]. unfold uk_sched. destruct (t_uk t); exact Z0.
  - destruct (t_dir t) eqn:D; [rewrite (ret_da _ _ _ E); exact Z0|].
    unfold uk_rts in E. destruct ctrl; cbn [negb] in E; [|rewrite (ret_da _ _ _ E); exact Z0].
    destruct (t_uk t); try (rewrite (ret_da _ _ _ E); exact Z0).
    destruct (tst_eqb (f_st (t_f t)) FINISHED) eqn:F; cbn [andb] in E.
    + destruct (negb poll); [rewrite (ret_da _ _ _ E); exact Z0|].
      destruct tlli; [rewrite (lifemap_da _ _ _ _ _ _ E); [exact Z0 | discriminate] | injection E as <- <-; exact Z0].
    + destruct tlli; [rewrite (lifemap_da _ _ _ _ _ _ E); [exact Z0 | discriminate] | injection E as <- <-; exact Z0].
  - destruct (t_dir t) eqn:D; rewrite (ret_da _ _ _ E); exact Z0.
  - destruct (t_dir t) eqn:D; [|rewrite (ret_da _ _ _ E); exact Z0].
    destruct (n_reset N3105 _) as [t1|] eqn:N; [|discriminate].
    rewrite (lifemap_da _ _ _ _ _ _ E); [|discriminate]. rewrite (reset_da _ _ _ N). exact Z0.
  - destruct (t_dir t), (f_st (t_f t)); rewrite (ret_da _ _ _ E); exact Z0.
  - destruct (t_usf t) as [|n] eqn:U; [rewrite (ret_da _ _ _ E); exact Z0|].
    refine (count_da _ _ _ _ _ _ _ _ _ _ _ E); [exact Z0 | discriminate |]. intros t2 X Y. rewrite (ret_da _ _ _ Y). exact X.
  - destruct (t_dir t) eqn:D; [rewrite (ret_da _ _ _ E); exact Z0|].
    destruct (n_reset N3101 _) as [t1|] eqn:N; [|discriminate]. injection E as <- <-. rewrite (reset_da _ _ _ N). exact Z0.
  - destruct (t_dir t) eqn:D; [rewrite (ret_da _ _ _ E); exact Z0|].
    destruct (n_reset N3101 _) as [t1|] eqn:N; [|discriminate]. injection E as <- <-. rewrite (reset_da _ _ _ N). exact Z0.
  - destruct (t_dir t) eqn:D; [rewrite (ret_da _ _ _ E); exact Z0|].
    destruct (f_st (t_f t)); try (rewrite (ret_da _ _ _ E); exact Z0).
    destruct (life c _ t) as [t1|] eqn:L; [|discriminate].
    destruct (n_reset N3103 t1) as [t2|] eqn:N; [|discriminate]. injection E as <- <-.
    rewrite (reset_da _ _ _ N), (life_da _ _ _ _ L); [exact Z0 | discriminate].
  - destruct (outstanding r t) as [|k] eqn:OS; [rewrite (ret_da _ _ _ E); exact Z0|].
    unfold poll_answer in E. destruct r.
    + destruct (t_ua t) eqn:UA; try (rewrite (ret_da _ _ _ E); exact Z0).
      destruct (n_reset_dl _) as [t1|] eqn:N; [|discriminate]. injection E as <- <-.
      unfold ua_ack. destruct (t_ua t1); rewrite ?none_da, (reset_dl_da _ _ N); exact Z0.
    + rewrite Z0 in E. rewrite (ret_da _ _ _ E). exact Z0.
    + destruct (t_dir t) eqn:D; [discriminate|].
      destruct (t_uk t) eqn:UK; try (rewrite (ret_da _ _ _ E); exact Z0).
      assert (X : t_da (uk_ack (less_polls P_UL_ACK t)) = DA_NONE) by (unfold uk_ack; cbn [t_uk less_polls set_p]; rewrite UK; exact Z0).
      destruct (tst_eqb _ _); [rewrite (lifemap_da _ _ _ _ _ _ E); [exact X | discriminate] | rewrite (ret_da _ _ _ E); exact X].
    + rewrite (ret_da _ _ _ E). exact Z0.
  - destruct (outstanding r t) as [|k] eqn:OS; [rewrite (ret_da _ _ _ E); exact Z0|].
    unfold poll_timeout in E. assert (Z1 : t_da (less_polls r t) = DA_NONE) by exact Z0. set (t1 := less_polls r t) in *. clearbody t1.
    destruct r.
    + destruct (t_ua t1), (t_dir t1); try (rewrite (ret_da _ _ _ E); exact Z1).
      * refine (count_da _ _ _ _ _ _ _ _ Z1 _ _ E); [discriminate|]. intros t2 X Y. rewrite (ret_da _ _ _ Y), <- X.
        unfold ua_timeout. destruct (t_ua t2); try reflexivity. destruct (tst_eqb _ _); [reflexivity | apply none_da].
      * rewrite (ret_da _ _ _ E), <- Z1. unfold ua_timeout. destruct (t_ua t1); try reflexivity. destruct (tst_eqb _ _); [reflexivity | apply none_da].
    + rewrite Z1 in E. rewrite (ret_da _ _ _ E). exact Z1.
    + destruct (t_dir t1), (t_uk t1); try discriminate; try (rewrite (ret_da _ _ _ E); exact Z1).
      assert (X0 : forall t2, t_da (uk_timeout t2) = t_da t2) by (intros t2; unfold uk_timeout; destruct (t_uk t2); reflexivity).
      destruct (tst_eqb _ _).
      * refine (count_da _ _ _ _ _ _ _ _ Z1 _ _ E); [discriminate|]. intros t2 X Y. rewrite (ret_da _ _ _ Y), X0. exact X.
      * rewrite (ret_da _ _ _ E), X0. exact Z1.
    + destruct (t_dir t1); [|discriminate].
      refine (count_da _ _ _ _ _ _ _ _ Z1 _ _ E); [discriminate|]. intros t2 X Y. rewrite (lifemap_da _ _ _ _ _ _ Y); [exact X | discriminate].
  - destruct (t_dir t) eqn:D; [rewrite (ret_da _ _ _ E); exact Z0|].
    destruct (outstanding P_UL_ACK t) as [|k] eqn:OS; [rewrite (ret_da _ _ _ E); exact Z0|].
    destruct (n_reset N3103 t) as [t1|] eqn:N; [|discriminate].
    assert (X : t_da (less_polls P_UL_ACK t1) = DA_NONE) by (cbn; rewrite (reset_da _ _ _ N); exact Z0).
    cbv zeta in E. destruct (tst_eqb _ _); [rewrite (lifemap_da _ _ _ _ _ _ E); [exact X | discriminate] | rewrite (ret_da _ _ _ E); exact X].
Qed.

(** A current downlink TBF has no assignment of its own under way. *)
Definition plain (s : rst) : Prop := forall x, In x (s_tbfs s) -> r_dir x = DL -> r_cur x = true -> t_da (r_t x) = DA_NONE.

Lemma plain_store : forall x t s, plain s -> (r_dir x = DL -> r_cur x = true -> t_da t = DA_NONE) -> t_dir t = r_dir x ->
  get (r_id x) s = Some x -> NoDup (map r_id (s_tbfs s)) -> plain (store x t s).
Proof.
  intros x t s P H D G N z I DZ CZ. destruct (Z.eq_dec (r_id z) (r_id x)) as [E|E].
  - destruct (store_self_in _ _ _ _ I E) as (ET & FD). unfold store in I. rewrite FD in I. cbn [set_tbfs s_tbfs] in I.
    apply in_map_iff in I. destruct I as (y & EY & I). destruct (is_id (r_id x) y) eqn:Q.
    + unfold is_id in Q. apply Z.eqb_eq in Q. destruct (get_in _ _ _ G) as [J _]. pose proof (same_ms s y x N I J Q). subst y. subst z.
      cbn [with_t r_t r_cur r_dir] in *. apply H; [|exact CZ]. rewrite <- D. exact DZ.
    + subst y. unfold is_id in Q. apply Z.eqb_neq in Q. contradiction.
  - apply P; auto. exact (store_other_in _ _ _ _ I E).
Qed.
Lemma store_ids : forall x t s, NoDup (map r_id (s_tbfs s)) -> NoDup (map r_id (s_tbfs (store x t s))).
Proof.
  intros x t s N. unfold store. destruct (f_dead (t_f t)); cbn [remove set_tbfs s_tbfs]; [apply nodup_filter; exact N|].
  rewrite map_map. rewrite (map_ext _ r_id); [exact N|]. intros y. destruct (is_id (r_id x) y); reflexivity.
Qed.
Lemma attach_ids : forall x s, NoDup (map r_id (s_tbfs s)) -> get (r_id x) s = None -> NoDup (map r_id (s_tbfs (attach x s))).
Proof.
  intros x s N G. cbn [attach set_tbfs s_tbfs map]. rewrite map_map. rewrite (map_ext _ r_id).
  2:{ intros y. destruct (is_cur _ _ y); reflexivity. }
  constructor; [|exact N]. intros I. apply in_map_iff in I. destruct I as (y & E & I).
  pose proof (find_none _ _ G _ I) as X. unfold is_id in X. rewrite E, Z.eqb_refl in X. discriminate.
Qed.
Lemma step_dir2 : forall c t o t' l, sub_step c t o = Some (t', l) -> t_dir t' = t_dir t.
Proof.
  intros c t o t' l S. destruct (f_dead (t_f t)) eqn:D; [unfold sub_step in S; rewrite D in S; injection S as <- <-; reflexivity|].
  exact (step_dir _ _ _ _ _ D S).
Qed.

Definition plainer (s : rst) : Prop := plain s /\ NoDup (map r_id (s_tbfs s)).

Lemma plain_act : forall c i o s s', plainer s -> act c i o s = Ok s' ->
  (fine o \/ forall x, get i s = Some x -> r_dir x = DL -> r_cur x = false) -> plainer s'.
Proof.
  intros c i o s s' (P & N) A H. unfold act in A. destruct (get i s) as [x|] eqn:G; [|discriminate].
  destruct (sub_step c (r_t x) o) as [[t l]|] eqn:S; [|discriminate]. injection A as <-. destruct (get_in _ _ _ G) as [I E].
  split; [|apply store_ids; exact N].
  apply plain_store; [exact P | | exact (step_dir2 _ _ _ _ _ S) | rewrite E; exact G | exact N].
  intros D C. destruct H as [F|H].
  - exact (step_da _ _ _ _ _ (P x I D C) F S).
  - rewrite (H x eq_refl D) in C. discriminate.
Qed.

Lemma new_da : forall c d w now l1 l3 l5 t, sub_new c d w now l1 l3 l5 = Some t -> t_da t = DA_NONE /\ t_dir t = d.
Proof.
  intros c d w now l1 l3 l5 t N. destruct (new_inv c d w now l1 l3 l5) as (t0 & N0 & H). rewrite N in N0. injection N0 as <-. split; apply H.
Qed.

Definition no_up (o : rop) : Prop := forall id fn, o <> RDo id (SLife (LDl (DTimer UpgradeOk))) fn.

Lemma plain_step : forall c o s s', plainer s -> no_up o -> r_step c s o = Ok s' -> plainer s'.
Proof.
  intros c o s s' P NU E.
  refine (p_step c plainer (fun _ o => fine o) (fun _ _ => True) (fun _ => True) _ _ _ _ _ _ _ _ _ _ _ _ _ o s s' P _ E).
  - auto.
  - intros i q S. split; intros ->; exact S.
  - intros i r _. repeat split; discriminate.
  - intros u i q u' PU F A. apply (plain_act c i q u u' PU A). left. exact F.
  - auto.
  - intros u x (PU & N) _ _. split; [|apply nodup_filter; exact N]. intros z I. cbn in I. apply filter_In in I. apply PU. tauto.
  - intros u i (PU & N) _. split; [|apply nodup_filter; exact N]. intros z I. cbn in I. apply filter_In in I. apply PU. tauto.
  - intros u fn n (PU & N) _. unfold reserve. destruct (node_at fn u); split; auto.
  - auto.
  - auto.
  - intros u d i k tfi w now l1 l3 l5 t (PU & N) F S.
    assert (GN : get i u = None) by (unfold fresh in F; destruct (get i u); [discriminate | reflexivity]).
    split; [|apply attach_ids; [exact N | exact GN]].
    intros z I D C. cbn [attach set_tbfs s_tbfs] in I. destruct I as [<-|I]; [apply (new_da _ _ _ _ _ _ _ _ S)|].
    apply in_map_iff in I. destruct I as (y & EY & I). destruct (is_cur _ _ y); subst z; [discriminate|]. exact (PU y I D C).
  - intros u i k tfi t v y u' (PU & N) G GN D MA PA A. apply (plain_act c v SDaSched _ u' PA A). right.
    intros x GX DX. destruct (get_in _ _ _ GX) as [IX EX]. cbn [attach set_tbfs s_tbfs] in IX. destruct IX as [<-|IX]; [cbn in EX; congruence|].
    apply in_map_iff in IX. destruct IX as (z & EZ & IZ). unfold r_dir in EZ at 1. cbn [r_ms r_t] in EZ. rewrite D in EZ.
    destruct (is_cur DL k z) eqn:CU; subst x; [reflexivity|].
    destruct (get_in _ _ _ G) as [IY EY]. assert (z = y) by (apply (same_ms u); congruence). subst z.
    destruct (r_cur y) eqn:RC; [|reflexivity]. exfalso. unfold may_assign in MA. unfold is_cur in CU. rewrite DX, RC in *.
    apply andb_true_iff in MA. destruct MA as [MA _]. apply andb_true_iff in MA. destruct MA as [MA _]. rewrite MA in CU. discriminate.
  - intros u d l n (PU & N) PA. assert (X : Forall2 (fun x y => exists t q, y = with_t t x /\ sub_step c (r_t x) (time_op d x) = Some (t, q)) (s_tbfs u) l).
    { clear - PA. revert l PA. induction (s_tbfs u) as [|x r IH]; intros l PA; cbn [pass] in PA; [injection PA as <-; constructor|].
      destruct (sub_step c (r_t x) (time_op d x)) as [[t q]|] eqn:S; [|discriminate]. destruct (pass c d r) as [r'|]; [|discriminate].
      injection PA as <-. constructor; eauto. }
    split; cbn [set_time set_tbfs s_tbfs].
    + intros y I DY CY. cbn [set_time set_tbfs s_tbfs] in I. clear - X I DY CY PU. unfold plain in PU.
      revert I. induction X as [|x y' r r' (t & q & -> & S) X IH]; intros I; [destruct I|].
      destruct I as [<-|I].
      * refine (step_da c (r_t x) (time_op d x) t q _ _ S).
        -- apply PU; [left; reflexivity | | exact CY]. unfold r_dir in *. cbn in DY. rewrite <- (step_dir2 _ _ _ _ _ S). exact DY.
        -- unfold time_op. split; destruct (r_dir x); discriminate.
      * apply IH; [|exact I]. intros z J. apply PU. right. exact J.
    + replace (map r_id l) with (map r_id (s_tbfs u)); [exact N|]. clear - X. induction X as [|x y r r' (t & q & -> & S) X IH]; [reflexivity|]. cbn. f_equal. exact IH.
  - destruct o; auto.
    + intros OW u x. unfold no_up in NU. split; intros X; destruct o; try discriminate. cbn [informed] in X. injection X as X. apply (NU id fn). congruence.
    + destruct m; auto.
Qed.

Lemma no_fault : forall c ops s, sound c false e0 g0 s -> plainer s -> no_upgrade ops -> r_run c s ops <> Fault.
Proof.
  intros c ops. induction ops as [|o ops IH]; intros s SO P NU; [discriminate|]. cbn [r_run].
  pose proof (step_kept c false s o SO) as KE. destruct (r_step c s o) as [s1| |] eqn:E; cbn [andthen kept] in *.
  - apply IH; [apply KE; discriminate | | intros id fn I; apply (NU id fn); right; exact I].
    apply (plain_step c o s s1 P); [|exact E]. intros id fn ->. apply (NU id fn). left. reflexivity.
  - discriminate.
  - exfalso. destruct (KE ltac:(discriminate)) as (fn & nacc & id & x & _ & _ & G & D & C & DA & _).
    destruct P as (P & _). destruct (get_in _ _ _ G) as [I _]. rewrite (P x I D C) in DA. discriminate.
Qed.
