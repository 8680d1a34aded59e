(** Reference counting of contexts. *)
From Coq Require Import ZArith List Bool Lia.
From Verif Require Import Base.Arith Model.MsRef Spec.MsRefSpec.
Import ListNotations.
Open Scope Z_scope.

Definition ntbf (m : ms) : Z := Z.of_nat (length (tbfs m)).

Record inv (m : ms) : Prop := Inv {
  i_cnt : m_tbf m = ntbf m;
  i_del : 0 <= m_delay m;
  i_tim : 0 < ntbf m -> m_timer m = None;
  i_idl : 0 <= m_idled m;
  i_rel : m_idled m > 0 -> total m = 0 -> exists d, m_timer m = Some d }.

Lemma is_idle_iff : forall m, is_idle m = true <-> ntbf m = 0.
Proof.
  intros m. unfold is_idle, ntbf, tbfs. destruct (m_ul m), (m_dl m), (m_old m); cbn [app length]; split; intros H;
    try reflexivity; try discriminate; lia.
Qed.
Lemma existsb_In : forall t l, existsb (Z.eqb t) l = true <-> In t l.
Proof.
  intros. rewrite existsb_exists. split.
  - intros (x & A & B). apply Z.eqb_eq in B. congruence.
  - intros A. exists t. rewrite Z.eqb_refl. auto.
Qed.
Lemma eqo_iff : forall o t, eqo o t = true <-> o = Some t.
Proof.
  intros o t. destruct o as [x|]; cbn; [rewrite Z.eqb_eq; split; congruence|split; discriminate].
Qed.
Lemma attached_In : forall m t, attached_b m t = true <-> In t (tbfs m).
Proof.
  intros m t. unfold attached_b, tbfs. rewrite !orb_true_iff, !eqo_iff, existsb_In, !in_app_iff.
  destruct (m_ul m), (m_dl m); cbn [In]; intuition congruence.
Qed.
Lemma remove1_length : forall t l, In t l -> Z.of_nat (length (remove1 t l)) = Z.of_nat (length l) - 1.
Proof.
  intros t l. induction l as [|x l IH]; intros H; [contradiction|]. cbn [remove1]. destruct (t =? x) eqn:E.
  - cbn [length]. lia.
  - destruct H as [H|H]; [subst; rewrite Z.eqb_refl in E; discriminate|]. cbn [length]. specialize (IH H). lia.
Qed.

(** The state part of a result. *)
Definition st (r : res) : option ms := match r with Run m | Freed m => Some m | Bad _ => None end.

(** Giving back: from a state [m] whose counters are right except for the callback. *)
Lemma use_cb_ok : forall m, m_tbf m = ntbf m -> 0 <= m_delay m -> (0 < ntbf m -> m_timer m = None) -> 0 <= m_idled m ->
  (total m <> 0 /\ use_cb m = Run m) \/
  (total m = 0 /\ ntbf m = 0 /\ m_holds m = [] /\
   ((use_cb m = Freed (set_idled (m_idled m + 1) m) /\ (m_delay m = 0 \/ m_known m = false)) \/
    (use_cb m = Run (set_timer (Some (m_now m + m_delay m)) (set_idled (m_idled m + 1) m)) /\ 0 < m_delay m /\ m_known m = true))).
Proof.
  intros m C D T I. unfold use_cb. destruct (total m =? 0) eqn:E; [|left; apply Z.eqb_neq in E; auto].
  right. apply Z.eqb_eq in E. unfold total in E.
  assert (N : 0 <= ntbf m) by (unfold ntbf; lia).
  assert (N0 : ntbf m = 0) by lia.
  assert (H0 : m_holds m = []) by (destruct (m_holds m); [reflexivity|cbn [length] in E; lia]).
  splits; [unfold total; exact E|exact N0|exact H0|].
  rewrite (proj2 (is_idle_iff m) N0). unfold becomes_idle. cbn [set_idled m_delay m_known m_now].
  destruct (m_delay m =? 0) eqn:Z0; [left; split; [reflexivity|left; apply Z.eqb_eq; exact Z0]|].
  apply Z.eqb_neq in Z0. destruct (m_known m) eqn:K; cbn [negb].
  - right. splits; [reflexivity|lia|reflexivity].
  - left. split; [reflexivity|auto].
Qed.

Ltac nt := unfold ntbf, tbfs, total in *; cbn [set_ul set_dl set_old set_tbf set_holds set_known set_timer set_now set_delay set_idled
  m_ul m_dl m_old m_tbf m_holds m_known m_timer m_now m_delay m_idled] in *.

Lemma detach_state : forall t m, In t (tbfs m) ->
  let m' := if eqo (m_ul m) t then set_ul None m
            else if eqo (m_dl m) t then set_dl None m
            else set_old (remove1 t (m_old m)) m in
  ntbf m' = ntbf m - 1 /\ m_tbf m' = m_tbf m /\ m_holds m' = m_holds m /\ m_delay m' = m_delay m /\
  m_timer m' = m_timer m /\ m_idled m' = m_idled m /\ m_now m' = m_now m /\ m_known m' = m_known m.
Proof.
  intros t m A. cbv zeta. destruct (eqo (m_ul m) t) eqn:E1.
  - apply eqo_iff in E1. nt. rewrite E1. splits; try reflexivity. rewrite !app_length. cbn [length]. lia.
  - destruct (eqo (m_dl m) t) eqn:E2.
    + apply eqo_iff in E2. nt. rewrite E2. splits; try reflexivity. rewrite !app_length. cbn [length]. lia.
    + assert (O : In t (m_old m)).
      { unfold tbfs in A. rewrite !in_app_iff in A. destruct A as [A|[A|A]]; [| |exact A].
        - destruct (m_ul m) as [x|]; [destruct A as [A|[]]|destruct A]. subst. cbn in E1. rewrite Z.eqb_refl in E1. discriminate.
        - destruct (m_dl m) as [x|]; [destruct A as [A|[]]|destruct A]. subst. cbn in E2. rewrite Z.eqb_refl in E2. discriminate. }
      nt. splits; try reflexivity. rewrite !app_length, !Nat2Z.inj_add, remove1_length by exact O. lia.
Qed.

(** What every operation does to the number of users and to idleness. *)
Definition effect (m : ms) (r : res) : Prop :=
  match r with
  | Run m' => inv m' /\
      ((m_idled m' = m_idled m /\ ~ (0 < users m /\ users m' = 0)) \/
       (m_idled m' = m_idled m + 1 /\ 0 < users m /\ users m' = 0 /\ m_timer m' = Some (m_now m' + m_delay m') /\
        0 < m_delay m' /\ m_known m' = true))
  | Freed m' => m_idled m' = m_idled m + 1 /\ 0 < users m /\ users m' = 0 /\ (m_delay m' = 0 \/ m_known m' = false)
  | Bad _ => True
  end.

Lemma users_total : forall m, m_tbf m = ntbf m -> users m = total m.
Proof. intros m C. unfold users, total. rewrite C. reflexivity. Qed.

Lemma cb_effect : forall m m1, 0 < users m -> m_idled m1 = m_idled m -> 0 <= m_idled m ->
  m_tbf m1 = ntbf m1 -> 0 <= m_delay m1 -> (0 < ntbf m1 -> m_timer m1 = None) ->
  effect m (use_cb m1) /\ (forall w, use_cb m1 <> Bad w).
Proof.
  intros m m1 U Ei I C D T.
  destruct (use_cb_ok m1 C D T) as [(N & ->)|(T0 & N0 & H0 & [(-> & Z0)|(-> & Z0 & K)])]; [lia| | |].
  - split; [|discriminate]. cbn [effect]. split.
    + split; auto; try lia.
    + left. split; [exact Ei|]. rewrite (users_total m1 C). lia.
  - split; [|discriminate]. cbn [effect]. splits; [nt; lia|exact U| |].
    + rewrite (users_total _ ); [nt; lia|nt; lia].
    + destruct Z0; nt; auto.
  - split; [|discriminate]. cbn [effect]. split.
    + split; try solve [nt; lia].
      intros _ _. eexists. reflexivity.
    + right. splits; [nt; lia|exact U| |reflexivity|nt; exact Z0|nt; exact K].
      rewrite users_total; nt; lia.
Qed.

Lemma detach_effect : forall t m, inv m -> effect m (detach t m) /\ (forall w, detach t m <> Bad w) /\
  (m_holds m <> [] -> exists m', detach t m = Run m' /\ m_holds m' = m_holds m /\ m_idled m' = m_idled m).
Proof.
  intros t m I. unfold detach. destruct (attached_b m t) eqn:A; cbn [negb].
  2: { splits; [|discriminate|intros _; exists m; auto]. cbn [effect]. split; [exact I|]. left. split; [reflexivity|]. lia. }
  apply attached_In in A. destruct I as [C D T Id R].
  destruct (detach_state t m A) as (N & B & H & De & Ti & Idl & No & Kn). cbv zeta in *.
  set (m1 := if eqo (m_ul m) t then _ else _) in *.
  assert (P : 0 < ntbf m).
  { unfold ntbf. destruct (tbfs m); [contradiction|]. cbn [length]. lia. }
  destruct (m_tbf m1 <=? 0) eqn:Z0; [apply Z.leb_le in Z0; lia|].
  assert (U : 0 < users m) by (unfold users; fold (ntbf m); lia).
  assert (N2 : ntbf (set_tbf (m_tbf m1 - 1) m1) = ntbf m - 1) by exact N.
  destruct (cb_effect m (set_tbf (m_tbf m1 - 1) m1)) as (E1 & E2); try exact U; try exact Id; try exact Idl.
  - rewrite N2. nt. lia.
  - nt. lia.
  - intros _. nt. rewrite Ti. apply T. exact P.
  - splits; [exact E1|exact E2|]. intros Hh. exists (set_tbf (m_tbf m1 - 1) m1).
    splits; [|exact H|exact Idl]. unfold use_cb.
    destruct (total _ =? 0) eqn:T0; [|reflexivity]. apply Z.eqb_eq in T0. unfold total in T0. cbn [set_tbf m_tbf m_holds] in T0.
    rewrite H in T0. destruct (m_holds m); [congruence|]. cbn [length] in T0.
    assert (0 <= ntbf m - 1) by lia. lia.
Qed.

(** Operations under a use. *)
Definition kept (m m' : ms) : Prop := inv m' /\ m_holds m' = m_holds m /\ m_idled m' = m_idled m.
Lemma detach_kept : forall t m, inv m -> m_holds m <> [] -> exists m', detach t m = Run m' /\ kept m m'.
Proof.
  intros t m I H. destruct (detach_effect t m I) as (E & _ & K). destruct (K H) as (m' & E' & K1 & K2).
  exists m'. split; [exact E'|]. rewrite E' in E. cbn [effect] in E. unfold kept. tauto.
Qed.
Lemma detach_opt_kept : forall pend o m, inv m -> m_holds m <> [] -> exists m', detach_opt pend o m = Run m' /\ kept m m'.
Proof.
  intros pend o m I H. destruct o as [t|]; cbn [detach_opt]; [|exists m; unfold kept; auto].
  destruct (existsb (Z.eqb t) pend); [exists m; unfold kept; auto|]. apply detach_kept; assumption.
Qed.
Lemma reset_old_kept : forall pend l m, inv m -> m_holds m <> [] ->
  reset_old pend l m = Bad Endless \/ exists m', reset_old pend l m = Run m' /\ kept m m'.
Proof.
  intros pend l. induction l as [|t l IH]; intros m I H; cbn [reset_old]; [right; exists m; unfold kept; auto|].
  destruct (existsb (Z.eqb t) pend); [left; reflexivity|].
  destruct (detach_kept t m I H) as (m1 & -> & K1 & K2 & K3). cbn [bind].
  destruct (IH m1 K1) as [->|(m2 & -> & J1 & J2 & J3)]; [congruence|left; reflexivity|].
  right. exists m2. split; [reflexivity|]. unfold kept. splits; congruence || auto.
Qed.

Lemma kept_trans : forall a b c, kept a b -> kept b c -> kept a c.
Proof. unfold kept. intros a b c (A1 & A2 & A3) (B1 & B2 & B3). splits; congruence || auto. Qed.

Lemma reset_effect : forall pend m, inv m ->
  effect m (reset pend m) /\ (m_holds m <> [] -> forall m', reset pend m <> Freed m').
Proof.
  intros pend m I. unfold reset. destruct (m_holds m) as [|h hs] eqn:H; [split; [exact Logic.I|congruence]|].
  assert (N : m_holds m <> []) by congruence.
  destruct (detach_opt_kept pend (m_ul m) m I N) as (m1 & -> & K1). cbn [bind].
  assert (N1 : m_holds m1 <> []) by (destruct K1 as (_ & K & _); congruence).
  destruct (detach_opt_kept pend (m_dl m1) m1 (proj1 K1) N1) as (m2 & -> & K2). cbn [bind].
  assert (N2 : m_holds m2 <> []) by (destruct K2 as (_ & K & _); congruence).
  destruct (reset_old_kept pend (m_old m2) m2 (proj1 K2) N2) as [->|(m3 & -> & K3)]; cbn [bind]; [split; [exact Logic.I|discriminate]|].
  split; [|discriminate]. pose proof (kept_trans _ _ _ (kept_trans _ _ _ K1 K2) K3) as ([C D T Id R] & Kh & Ki).
  cbn [effect]. split.
  - split; nt; auto.
  - left. split; [exact Ki|]. intros (_ & U). unfold users in U. cbn [set_known m_holds] in U.
    rewrite Kh, H in U. cbn [length] in U. lia.
Qed.

Lemma attach_effect : forall d t m, inv m -> effect m (attach d t m) /\ (forall m', attach d t m <> Freed m') /\
  (~ In t (tbfs m) -> forall w, attach d t m <> Bad w).
Proof.
  intros d t m I. unfold attach. destruct (attached_b m t) eqn:A.
  - splits; [exact Logic.I|discriminate|]. apply attached_In in A. intros N. contradiction.
  - destruct I as [C D T Id R]. set (m1 := if d then _ else _). cbv zeta.
    assert (N1 : ntbf m1 = ntbf m + 1 /\ m_tbf m1 = m_tbf m /\ m_holds m1 = m_holds m /\ m_delay m1 = m_delay m /\ m_idled m1 = m_idled m).
    { unfold m1. clear m1. destruct d; nt; splits; try reflexivity.
      - destruct (m_ul m), (m_dl m); unfold to_old; rewrite !app_length; cbn [length]; lia.
      - destruct (m_ul m), (m_dl m); unfold to_old; rewrite ?app_length; cbn [length]; rewrite ?app_length; cbn [length]; lia. }
    destruct N1 as (N1 & B1 & H1 & D1 & I1).
    assert (P : 0 <= ntbf m) by (unfold ntbf; lia).
    unfold use_cb. assert (X : total (set_tbf (m_tbf m1 + 1) m1) <> 0).
    { unfold total. cbn [set_tbf m_tbf m_holds]. rewrite B1. lia. }
    apply Z.eqb_neq in X. rewrite X. cbn [bind].
    splits; [|discriminate|intros _; discriminate]. cbn [effect]. split.
    + split.
      * nt. lia.
      * nt. lia.
      * reflexivity.
      * nt. lia.
      * intros _ T0. exfalso. unfold total in T0. cbn [set_timer set_tbf m_tbf m_holds] in T0. lia.
    + left. split; [nt; lia|]. intros (_ & U). unfold users in U.
      change (tbfs (set_timer None (set_tbf (m_tbf m1 + 1) m1))) with (tbfs m1) in U.
      cbn [set_timer set_tbf m_holds] in U. fold (ntbf m1) in U. lia.
Qed.

Lemma hold_effect : forall h m, inv m -> exists m', hold h m = Run m' /\ effect m (Run m').
Proof.
  intros h m [C D T Id R]. unfold hold, use_cb.
  assert (X : total (set_holds (h :: m_holds m) m) <> 0).
  { unfold total. cbn [set_holds m_tbf m_holds length]. assert (0 <= ntbf m) by (unfold ntbf; lia). lia. }
  apply Z.eqb_neq in X. rewrite X. eexists. split; [reflexivity|]. cbn [effect]. split.
  - split; nt; auto. intros _ T0. apply Z.eqb_neq in X. contradiction.
  - left. split; [reflexivity|]. intros (_ & U). unfold users in U. cbn [set_holds m_holds length] in U. lia.
Qed.

Lemma unhold_effect : forall h m, inv m -> effect m (unhold h m) /\ (In h (m_holds m) -> forall w, unhold h m <> Bad w).
Proof.
  intros h m [C D T Id R]. unfold unhold. destruct (existsb (Z.eqb h) (m_holds m)) eqn:E.
  - apply existsb_In in E. destruct (cb_effect m (set_holds (remove1 h (m_holds m)) m)) as (E1 & E2); try (nt; auto; fail).
    unfold users. assert (0 < Z.of_nat (length (m_holds m))) by (destruct (m_holds m); [contradiction|cbn [length]; lia]). lia.
  - split; [exact Logic.I|]. intros X. apply existsb_In in X. congruence.
Qed.

Lemma step_effect : forall m o, inv m -> sane o -> o <> RTimer -> effect m (r_step m o).
Proof.
  intros m o I S NT. destruct o; cbn [r_step].
  - apply attach_effect; exact I.
  - apply detach_effect; exact I.
  - destruct (hold_effect h m I) as (m' & -> & E). exact E.
  - apply unhold_effect; exact I.
  - apply reset_effect; exact I.
  - destruct I as [C D T Id R]. cbn [effect]. split; [split; nt; auto|]. left. split; [reflexivity|]. change (users (set_known known m)) with (users m). lia.
  - destruct I as [C D T Id R]. cbn [effect]. split; [split; nt; auto|]. left. split; [reflexivity|]. change (users (set_now (m_now m + dt) m)) with (users m). lia.
  - congruence.
  - destruct I as [C D T Id R]. cbn [sane] in S. cbn [effect]. split; [split; nt; auto|]. left. split; [reflexivity|]. change (users (set_delay d m)) with (users m). lia.
Qed.

Lemma timer_cases : forall m, (timer m = Run m /\ (forall d, m_timer m = Some d -> m_now m < d)) \/
  (exists d, m_timer m = Some d /\ d <= m_now m /\ timer m = Freed (set_timer None m)).
Proof.
  intros m. unfold timer. destruct (m_timer m) as [d|]; [|left; split; [reflexivity|discriminate]].
  destruct (d <=? m_now m) eqn:E; [apply Z.leb_le in E; right; eauto|].
  apply Z.leb_gt in E. left. split; [reflexivity|]. intros x X. injection X as <-. exact E.
Qed.

Lemma step_inv : forall m o m', inv m -> sane o -> r_step m o = Run m' -> inv m'.
Proof.
  intros m o m' I S E. assert (NT : o = RTimer \/ o <> RTimer) by (destruct o; (left; reflexivity) || (right; discriminate)).
  destruct NT as [->|NT].
  - cbn [r_step] in E. destruct (timer_cases m) as [(T & _)|(d & _ & _ & T)]; rewrite T in E; [injection E as <-; exact I|discriminate].
  - pose proof (step_effect m o I S NT) as F. rewrite E in F. exact (proj1 F).
Qed.

Lemma alloc_inv : forall h now d, 0 <= d -> inv (ms_alloc h now d).
Proof. intros h now d D. split; unfold ms_alloc; nt; cbn [app length]; try lia. Qed.

Lemma run_inv : forall ops m m', inv m -> Forall sane ops -> r_run m ops = Run m' -> inv m'.
Proof.
  induction ops as [|o ops IH]; intros m m' I F E; cbn [r_run] in E; [injection E as <-; exact I|].
  inversion F; subst. destruct (r_step m o) as [m1| |] eqn:S; cbn [bind] in E; try discriminate.
  apply (IH m1); auto. exact (step_inv m o m1 I H1 S).
Qed.
Lemma reached_inv : forall m, reached m -> inv m.
Proof.
  intros m (h & now & d & ops & D & E & F). apply (run_inv ops (ms_alloc h now d)); [apply alloc_inv; exact D|exact F|exact E].
Qed.

(** ** The property *)

Lemma count_is_users : forall m, reached m -> total m = users m /\ m_tbf m = Z.of_nat (length (tbfs m)).
Proof.
  intros m R. apply reached_inv in R. destruct R as [C _ _ _ _]. split; [symmetry; apply users_total; exact C|exact C].
Qed.

Lemma idle_exactly : forall m o m', reached m -> sane o -> (r_step m o = Run m' \/ r_step m o = Freed m') -> o <> RTimer ->
  (m_idled m' = m_idled m \/ m_idled m' = m_idled m + 1) /\
  (m_idled m' = m_idled m + 1 <-> 0 < users m /\ users m' = 0).
Proof.
  intros m o m' R S E NT. pose proof (step_effect m o (reached_inv m R) S NT) as F.
  destruct E as [E|E]; rewrite E in F; cbn [effect] in F.
  - destruct F as (_ & [(F1 & F2)|(F1 & F2 & F3 & _)]); split; [left; exact F1| |right; exact F1|tauto].
    split; [lia|contradiction].
  - destruct F as (F1 & F2 & F3 & _). split; [right; exact F1|tauto].
Qed.

Lemma not_in_use : forall m o m', reached m -> sane o -> outside m o -> r_step m o = Freed m' ->
  tbfs m' = [] /\ m_holds m' = [].
Proof.
  intros m o m' R S O E. assert (I := reached_inv m R).
  assert (NT : o = RTimer \/ o <> RTimer) by (destruct o; (left; reflexivity) || (right; discriminate)).
  destruct NT as [->|NT].
  - cbn [r_step] in E. destruct (timer_cases m) as [(T & _)|(d & T1 & _ & T)]; rewrite T in E; [discriminate|].
    injection E as <-. split; [|cbn; apply O; reflexivity].
    change (tbfs (set_timer None m)) with (tbfs m). destruct (tbfs m) as [|t l] eqn:L; [reflexivity|].
    assert (P : 0 < ntbf m) by (unfold ntbf; rewrite L; cbn [length]; lia).
    rewrite (i_tim m I P) in T1. discriminate.
  - pose proof (step_effect m o I S NT) as F. rewrite E in F. cbn [effect] in F.
    destruct F as (_ & _ & U & _). unfold users in U.
    split; [destruct (tbfs m')|destruct (m_holds m')]; cbn [length] in U; try reflexivity; lia.
Qed.

Lemma idle_timer : forall m o m', reached m -> sane o -> o <> RTimer -> 0 < users m -> r_step m o = Run m' -> users m' = 0 ->
  m_timer m' = Some (m_now m' + m_delay m').
Proof.
  intros m o m' R S NT U E U'. pose proof (step_effect m o (reached_inv m R) S NT) as F. rewrite E in F.
  cbn [effect] in F. destruct F as (_ & [(_ & F)|F]); tauto.
Qed.

Lemma at_once : forall m o m', reached m -> sane o -> o <> RTimer -> r_step m o = Freed m' ->
  m_delay m' = 0 \/ m_known m' = false.
Proof.
  intros m o m' R S NT E. pose proof (step_effect m o (reached_inv m R) S NT) as F. rewrite E in F. cbn [effect] in F. tauto.
Qed.

(** No use and idle once: it is freed when the timer's time has come. *)
Lemma not_kept : forall m, reached m -> users m = 0 -> m_idled m > 0 ->
  exists d, m_timer m = Some d /\ forall dt, d <= m_now m + dt ->
    r_run m [RTime dt; RTimer] = Freed (set_timer None (set_now (m_now m + dt) m)).
Proof.
  intros m R U Id. assert (I := reached_inv m R). destruct (i_rel m I Id) as (d & E).
  { rewrite <- (users_total m (i_cnt m I)). exact U. }
  exists d. split; [exact E|]. intros dt L. cbn [r_run r_step bind]. unfold timer. cbn [set_now m_timer m_now]. rewrite E.
  apply Z.leb_le in L. rewrite L. reflexivity.
Qed.

(** A context that has had a user and has none now has been idle. *)
Lemma users_idled : forall ops m m', inv m -> Forall sane ops -> r_run m ops = Run m' -> 0 < users m -> users m' = 0 ->
  m_idled m' > 0.
Proof.
  assert (M : forall ops m m', inv m -> Forall sane ops -> r_run m ops = Run m' -> m_idled m <= m_idled m').
  { induction ops as [|o ops IH]; intros m m' I F E; cbn [r_run] in E; [injection E as <-; lia|].
    inversion F; subst. destruct (r_step m o) as [m1| |] eqn:S; cbn [bind] in E; try discriminate.
    specialize (IH m1 m' (step_inv m o m1 I H1 S) H2 E).
    assert (NT : o = RTimer \/ o <> RTimer) by (destruct o; (left; reflexivity) || (right; discriminate)).
    destruct NT as [->|NT].
    - cbn [r_step] in S. destruct (timer_cases m) as [(T & _)|(d & _ & _ & T)]; rewrite T in S; [injection S as <-; exact IH|discriminate].
    - pose proof (step_effect m o I H1 NT) as G. rewrite S in G. cbn [effect] in G. lia. }
  induction ops as [|o ops IH]; intros m m' I F E U U'; cbn [r_run] in E; [injection E as <-; lia|].
  inversion F; subst. destruct (r_step m o) as [m1| |] eqn:S; cbn [bind] in E; try discriminate.
  assert (I1 := step_inv m o m1 I H1 S).
  assert (U1 : 0 < users m1 \/ users m1 = 0) by (unfold users; lia). destruct U1 as [U1|U1]; [exact (IH m1 m' I1 H2 E U1 U')|].
  assert (NT : o = RTimer \/ o <> RTimer) by (destruct o; (left; reflexivity) || (right; discriminate)).
  destruct NT as [->|NT].
  - cbn [r_step] in S. destruct (timer_cases m) as [(T & _)|(d & _ & _ & T)]; rewrite T in S; [injection S as <-; lia|discriminate].
  - pose proof (step_effect m o I H1 NT) as G. rewrite S in G. cbn [effect] in G.
    pose proof (M ops m1 m' I1 H2 E). destruct G as (_ & [(_ & G)|(G & _)]); [tauto|]. pose proof (i_idl m I). lia.
Qed.

Lemma released : forall h now d ops m, 0 <= d -> Forall sane ops -> r_run (ms_alloc (Some h) now d) ops = Run m ->
  users m = 0 -> exists e, m_timer m = Some e /\
    forall dt, e <= m_now m + dt -> exists m', r_run m [RTime dt; RTimer] = Freed m'.
Proof.
  intros h now d ops m D F E U.
  assert (R : reached m) by (exists (Some h), now, d, ops; auto).
  destruct (not_kept m R U) as (e & T & G).
  - apply (users_idled ops (ms_alloc (Some h) now d)); auto; [apply alloc_inv; exact D|unfold users; cbn; lia].
  - exists e. split; [exact T|]. intros dt L. eexists. exact (G dt L).
Qed.

Lemma no_bad : forall m o, reached m -> allowed m o -> forall w, r_step m o <> Bad w.
Proof.
  intros m o R A w. assert (I := reached_inv m R). destruct o; cbn [r_step allowed] in *; try discriminate.
  - apply attach_effect; assumption.
  - apply detach_effect; exact I.
  - destruct (hold_effect h m I) as (m' & -> & _). discriminate.
  - apply unhold_effect; assumption.
  - destruct A as (N & P). unfold reset. destruct (m_holds m) as [|h hs] eqn:H; [congruence|]. rewrite <- H in N.
    assert (OK : forall l m0, inv m0 -> m_holds m0 <> [] -> (forall t, In t l -> ~ In t pend) ->
      exists m', reset_old pend l m0 = Run m' /\ kept m0 m').
    { clear. induction l as [|t l IH]; intros m0 I H P; cbn [reset_old]; [exists m0; unfold kept; auto|].
      destruct (existsb (Z.eqb t) pend) eqn:E; [apply existsb_In in E; exfalso; exact (P t (or_introl eq_refl) E)|].
      destruct (detach_kept t m0 I H) as (m1 & -> & K). cbn [bind].
      destruct (IH m1 (proj1 K)) as (m2 & -> & K2); [destruct K as (_ & K & _); congruence|intros x X; apply P; right; exact X|].
      exists m2. split; [reflexivity|]. exact (kept_trans _ _ _ K K2). }
    assert (OLD : forall t m0, inv m0 -> m_holds m0 <> [] -> forall m1, detach_opt pend t m0 = Run m1 ->
      forall x, In x (m_old m1) -> In x (m_old m0)).
    { clear. intros t m0 I H m1 E x X. destruct t as [t|]; cbn [detach_opt] in E; [|injection E as <-; exact X].
      destruct (existsb (Z.eqb t) pend); [injection E as <-; exact X|]. unfold detach in E.
      destruct (negb (attached_b m0 t)); [injection E as <-; exact X|].
      set (m2 := if eqo (m_ul m0) t then _ else _) in *. cbv zeta in E.
      destruct (m_tbf m2 <=? 0); [discriminate|].
      assert (E3 : m_old m1 = m_old m2).
      { unfold use_cb in E. destruct (total _ =? 0).
        - destruct (is_idle _); [|discriminate]. unfold becomes_idle in E. cbv zeta in E.
          destruct (_ =? 0); [discriminate|]. destruct (negb _); [discriminate|]. injection E as <-. reflexivity.
        - injection E as <-. reflexivity. }
      rewrite E3 in X. unfold m2 in X. destruct (eqo (m_ul m0) t); [exact X|]. destruct (eqo (m_dl m0) t); [exact X|].
      cbn [set_old m_old] in X. clear - X. induction (m_old m0) as [|y l IH]; [exact X|]. cbn [remove1] in X.
      destruct (t =? y); [right; exact X|]. destruct X as [X|X]; [left; exact X|right; exact (IH X)]. }
    destruct (detach_opt_kept pend (m_ul m) m I N) as (m1 & E1 & K1). rewrite E1. cbn [bind].
    assert (N1 : m_holds m1 <> []) by (destruct K1 as (_ & K & _); congruence).
    destruct (detach_opt_kept pend (m_dl m1) m1 (proj1 K1) N1) as (m2 & E2 & K2). rewrite E2. cbn [bind].
    assert (N2 : m_holds m2 <> []) by (destruct K2 as (_ & K & _); congruence).
    destruct (OK (m_old m2) m2 (proj1 K2) N2) as (m3 & -> & _).
    + intros t T. apply P. apply (OLD _ m I N m1 E1). apply (OLD _ m1 (proj1 K1) N1 m2 E2). exact T.
    + cbn [bind]. discriminate.
  - destruct (timer_cases m) as [(-> & _)|(d & _ & _ & ->)]; discriminate.
Qed.

(** ** What does not hold *)

(** A hold does not stop the release timer. *)
Lemma hold_timer : exists m m', reached m /\ m_holds m = [7] /\ r_step m RTimer = Freed m' /\ m_holds m' = [7].
Proof.
  assert (E : r_run (ms_alloc (Some 1) 0 60) [RTlli true; RUnhold 1; RTime 60; RHold 7] =
    Run (Ms None None [] 0 [7] true (Some 60) 60 60 1)) by (vm_compute; reflexivity).
  exists (Ms None None [] 0 [7] true (Some 60) 60 60 1), (Ms None None [] 0 [7] true None 60 60 1).
  splits; try reflexivity.
  exists (Some 1), 0, 60, [RTlli true; RUnhold 1; RTime 60; RHold 7]. splits; [lia|exact E|]. repeat constructor; cbn; lia.
Qed.

(** A reset with a timer pending in an old TBF. *)
Lemma reset_endless : exists m, reached m /\ m_holds m <> [] /\ m_old m = [10] /\ r_step m (RReset [10]) = Bad Endless.
Proof.
  assert (E : r_run (ms_alloc (Some 1) 0 60) [RAttach true 10; RAttach true 11] =
    Run (Ms None (Some 11) [10] 2 [1] false None 0 60 0)) by (vm_compute; reflexivity).
  exists (Ms None (Some 11) [10] 2 [1] false None 0 60 0). splits; try reflexivity; [|discriminate].
  exists (Some 1), 0, 60, [RAttach true 10; RAttach true 11]. splits; [lia|exact E|]. repeat constructor; cbn; lia.
Qed.

(** A context never used is kept. *)
Lemma never_used : forall now d ops, Forall (fun o => match o with RTime _ | RTimer | RTlli _ | RDelay _ => True | _ => False end) ops ->
  exists m, r_run (ms_alloc None now d) ops = Run m /\ users m = 0 /\ m_timer m = None.
Proof.
  intros now d ops F. assert (G : forall m, users m = 0 -> m_timer m = None ->
    exists m', r_run m ops = Run m' /\ users m' = 0 /\ m_timer m' = None).
  { induction F as [|o ops Ho F IH]; intros m U T; [exists m; auto|]. cbn [r_run].
    destruct o; try contradiction; cbn [r_step bind]; try (apply IH; assumption).
    unfold timer. rewrite T. cbn [bind]. apply IH; assumption. }
  apply G; reflexivity.
Qed.

(** Freed with the cell, it leaves its timer behind. *)
Lemma destroy_timer : exists m, reached m /\ m_timer m = None /\ m_timer (destroy m) = Some 60.
Proof.
  assert (E : r_run (ms_alloc (Some 1) 0 60) [RTlli true; RAttach true 10; RUnhold 1] =
    Run (Ms None (Some 10) [] 1 [] true None 0 60 0)) by (vm_compute; reflexivity).
  exists (Ms None (Some 10) [] 1 [] true None 0 60 0). splits; try reflexivity.
  exists (Some 1), 0, 60, [RTlli true; RAttach true 10; RUnhold 1]. splits; [lia|exact E|]. repeat constructor; cbn; lia.
Qed.
