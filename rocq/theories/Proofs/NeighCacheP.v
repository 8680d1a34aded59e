(** Proofs about the caches. *)
From Coq Require Import ZArith List Bool Lia Sorted.
From Verif Require Import Base.Arith Model.NeighCache Spec.NeighCacheSpec.
Import ListNotations.
Open Scope Z_scope.

Lemma nkey_eq_spec a b : nkey_eq a b = true <-> a = b.
Proof.
  destruct a, b. unfold nkey_eq. cbn. rewrite !andb_true_iff, !Z.eqb_eq.
  split; [intros [[[? ?] ?] ?]; congruence|intro H; injection H; intros; auto].
Qed.
Lemma cgi_eq_spec a b : cgi_eq a b = true <-> a = b.
Proof.
  destruct a, b. unfold cgi_eq. cbn. rewrite !andb_true_iff, !Z.eqb_eq, eqb_true_iff.
  split; [intros [[[[[? ?] ?] ?] ?] ?]; congruence|intro H; injection H; intros; repeat split; auto].
Qed.

Section P.
Context {K V : Type} (eq : K -> K -> bool) (eq_spec : forall a b, eq a b = true <-> a = b).
Notation entry := (entry K V).
Notation cache := (cache K V).
Notation cop := (cop K V).

Definition keys (l : list entry) : list K := map e_key l.
Definition older (a b : entry) : Prop := e_ts a <= e_ts b.

Record inv (c : cache) : Prop := {
  i_keys : NoDup (keys (c_list c));
  i_sort : StronglySorted older (c_list c);
  i_past : Forall (fun e => e_ts e <= c_now c) (c_list c);
  i_timer : forall e l, c_list c = e :: l ->
    exists t, c_timer c = Some t /\ (t <= c_now c \/ t <= e_ts e + c_keep c) }.

Lemma keq_refl k : eq k k = true. Proof. now apply eq_spec. Qed.

Lemma lookup_in k l (e : entry) : lookup_entry eq k l = Some e -> In e l /\ e_key e = k.
Proof. intro H. apply find_some in H. destruct H as [A B]. split; [exact A|now apply eq_spec]. Qed.
Lemma lookup_none k (l : list entry) : lookup_entry eq k l = None -> ~ In k (keys l).
Proof.
  intros H I. apply in_map_iff in I. destruct I as (e & E & I).
  pose proof (find_none _ _ H e I) as B. cbv beta in B. rewrite E, keq_refl in B. discriminate.
Qed.
Lemma lookup_has k l (e : entry) : NoDup (keys l) -> In e l -> e_key e = k -> lookup_entry eq k l = Some e.
Proof.
  induction l as [|x l IH]; intros N I E; [destruct I|]. unfold lookup_entry, keys in *. cbn [find map] in *.
  inversion N as [|? ? Nx Nl]; subst. destruct (eq (e_key x) (e_key e)) eqn:Q.
  - apply eq_spec in Q. destruct I as [->|I]; [reflexivity|]. exfalso. apply Nx. rewrite Q. now apply in_map.
  - destruct I as [->|I]; [rewrite keq_refl in Q; discriminate|]. auto.
Qed.

Lemma unlink_in k l (e : entry) : NoDup (keys l) -> (In e (unlink eq k l) <-> In e l /\ e_key e <> k).
Proof.
  induction l as [|x l IH]; intro N; cbn [unlink]; [split; [intros []|intros [[] _]]|].
  unfold keys in *. cbn [map] in N. inversion N as [|? ? Nx Nl]; subst. specialize (IH Nl).
  destruct (eq (e_key x) k) eqn:Q.
  - apply eq_spec in Q. split.
    + intro I. split; [now right|]. intro E. apply Nx. rewrite Q, <- E. now apply in_map.
    + intros [[->|I] E]; [congruence|exact I].
  - assert (e_key x <> k) by (intro E; apply eq_spec in E; congruence).
    cbn [In]. split.
    + intros [->|I]; [tauto|]. apply IH in I. tauto.
    + intros [[->|I] E]; [tauto|]. right. apply IH. tauto.
Qed.
Lemma unlink_keys k (l : list entry) : NoDup (keys l) -> NoDup (keys (unlink eq k l)).
Proof.
  induction l as [|x l IH]; intro N; cbn [unlink]; [exact N|]. unfold keys in *. cbn [map] in N.
  inversion N as [|? ? Nx Nl]; subst. destruct (eq (e_key x) k); [exact Nl|]. cbn [map]. constructor; [|auto].
  intro I. apply Nx. apply in_map_iff in I. destruct I as (e & E & I). rewrite <- E. apply in_map.
  now apply (unlink_in k l e Nl) in I.
Qed.
Lemma unlink_sub k l (e : entry) : In e (unlink eq k l) -> In e l.
Proof. induction l as [|x l IH]; cbn [unlink]; [tauto|]. destruct (eq (e_key x) k); cbn [In]; tauto. Qed.
Lemma unlink_sorted k (l : list entry) : StronglySorted older l -> StronglySorted older (unlink eq k l).
Proof.
  induction l as [|x l IH]; intro N; cbn [unlink]; [exact N|]. inversion N as [|? ? Nl Nx]; subst.
  destruct (eq (e_key x) k); [exact Nl|]. constructor; [auto|]. apply Forall_forall. intros e I.
  apply unlink_sub in I. rewrite Forall_forall in Nx. auto.
Qed.
Lemma sorted_app (l : list entry) x : StronglySorted older l -> Forall (fun e => older e x) l -> StronglySorted older (l ++ [x]).
Proof.
  induction l as [|y l IH]; intros S F; cbn [app]; [repeat constructor|].
  inversion S; inversion F; subst. constructor; [auto|]. apply Forall_app. split; [assumption|]. repeat constructor; assumption.
Qed.

Lemma drop_sub th l (e : entry) : In e (drop_old th l) -> In e l.
Proof. induction l as [|x l IH]; cbn [drop_old]; [tauto|]. destruct (th <? e_ts x); cbn [In]; tauto. Qed.
Lemma drop_in th l (e : entry) : StronglySorted older l -> (In e (drop_old th l) <-> In e l /\ th < e_ts e).
Proof.
  induction l as [|x l IH]; intro S; cbn [drop_old]; [split; [intros []|intros [[] _]]|].
  inversion S as [|? ? Sl Sx]; subst. specialize (IH Sl). rewrite Forall_forall in Sx. unfold older in Sx.
  destruct (Z.ltb_spec th (e_ts x)) as [H|H].
  - cbn [In]. split; [|tauto]. intros [->|I]; [tauto|]. specialize (Sx e I). split; [tauto|lia].
  - rewrite IH. cbn [In]. split; [tauto|]. intros [[->|I] E]; [lia|tauto].
Qed.
Lemma drop_keys th (l : list entry) : NoDup (keys l) -> NoDup (keys (drop_old th l)).
Proof.
  induction l as [|x l IH]; intro N; cbn [drop_old]; [exact N|]. destruct (th <? e_ts x); [exact N|].
  unfold keys in N. cbn [map] in N. inversion N; subst. auto.
Qed.
Lemma drop_sorted th (l : list entry) : StronglySorted older l -> StronglySorted older (drop_old th l).
Proof.
  induction l as [|x l IH]; intro S; cbn [drop_old]; [exact S|]. destruct (th <? e_ts x); [exact S|]. inversion S; subst. auto.
Qed.

Lemma schedule_list (c : cache) : c_list (schedule c) = c_list c /\ c_keep (schedule c) = c_keep c /\ c_now (schedule c) = c_now c.
Proof. unfold schedule. destruct (c_list c) eqn:L; cbn; rewrite ?L; auto. Qed.

Lemma schedule_inv c : NoDup (keys (c_list c)) -> StronglySorted older (c_list c) ->
  Forall (fun e : entry => e_ts e <= c_now c) (c_list c) -> inv (schedule c).
Proof.
  intros N S F. pose proof (schedule_list c) as (L & Kp & Nw).
  constructor; rewrite ?L, ?Kp, ?Nw; auto.
  intros e l E. unfold schedule. rewrite E. cbn [c_timer].
  eexists. split; [reflexivity|]. destruct (Z.leb_spec (e_ts e + c_keep c) (c_now c)) as [H|H].
  - left. change (0 / 1000) with 0. lia.
  - right. pose proof (Z.mul_div_le (e_ts e + c_keep c - c_now c) 1000). lia.
Qed.

Lemma add_list k v (c : cache) : inv c -> forall e, In e (c_list (add eq k v c)) <->
  e = En k v (c_now c) \/ (In e (c_list c) /\ e_key e <> k).
Proof.
  intros I e. unfold add. rewrite (proj1 (schedule_list _)). cbn [c_list].
  destruct (lookup_entry eq k (c_list c)) as [x|] eqn:Q.
  - pose proof (lookup_in _ _ _ Q) as [_ Ek]. rewrite Ek, in_app_iff, (unlink_in k _ e (i_keys _ I)). cbn [In].
    split; [intros [H|[H|[]]]; auto|intros [H|H]; auto].
  - apply lookup_none in Q. rewrite in_app_iff. cbn [In]. split.
    + intros [H|[H|[]]]; auto. right. split; [exact H|]. intro E. apply Q. rewrite <- E. now apply in_map.
    + intros [H|[H _]]; auto.
Qed.

Lemma add_inv k v (c : cache) : inv c -> inv (add eq k v c).
Proof.
  intros I. unfold add. destruct (lookup_entry eq k (c_list c)) as [x|] eqn:Q.
  - pose proof (lookup_in _ _ _ Q) as [_ Ek]. apply schedule_inv; cbn [c_list c_now].
    + unfold keys. rewrite map_app. cbn [map].
      pose proof (unlink_keys k _ (i_keys _ I)) as N. rewrite <- (rev_involutive (map e_key _ ++ _)).
      apply NoDup_rev. rewrite rev_app_distr. cbn [rev app]. constructor; [|now apply NoDup_rev].
      rewrite <- in_rev. intro H. apply in_map_iff in H. destruct H as (e & E & H).
      apply (unlink_in k _ e (i_keys _ I)) in H. destruct H as [_ H]. cbn in E. congruence.
    + apply sorted_app; [apply unlink_sorted, (i_sort _ I)|]. apply Forall_forall. intros e H. apply unlink_sub in H.
      pose proof (i_past _ I) as P. rewrite Forall_forall in P. exact (P e H).
    + apply Forall_app. split; [|repeat constructor; cbn; lia]. apply Forall_forall. intros e H. apply unlink_sub in H.
      pose proof (i_past _ I) as P. rewrite Forall_forall in P. exact (P e H).
  - apply lookup_none in Q. apply schedule_inv; cbn [c_list c_now].
    + unfold keys. rewrite map_app. cbn [map]. rewrite <- (rev_involutive (map e_key _ ++ _)).
      apply NoDup_rev. rewrite rev_app_distr. cbn [rev app]. constructor; [|apply NoDup_rev, (i_keys _ I)].
      now rewrite <- in_rev.
    + apply sorted_app; [apply (i_sort _ I)|]. exact (i_past _ I).
    + apply Forall_app. split; [exact (i_past _ I)|repeat constructor; cbn; lia].
Qed.

Lemma step_inv (c : cache) o : sane o -> inv c -> inv (c_step eq c o).
Proof.
  intros So I. destruct o as [k v|s|d|]; cbn [c_step].
  - now apply add_inv.
  - apply schedule_inv; cbn [c_list c_now]; apply I.
  - cbn in So. destruct I as [A B C D]. constructor; cbn [c_list c_now c_timer c_keep]; auto.
    + eapply Forall_impl; [|exact C]. cbv beta. intros; lia.
    + intros e l E. destruct (D e l E) as (t & T & [H|H]); exists t; split; auto. left; lia.
  - destruct (c_timer c) as [t|] eqn:T; [|exact I]. destruct (t <=? c_now c); [|exact I].
    unfold cleanup. cbn [c_list c_now c_timer c_keep]. apply schedule_inv; cbn [c_list c_now].
    + apply drop_keys, I.
    + apply drop_sorted, I.
    + apply Forall_forall. intros e H. apply drop_sub in H. pose proof (i_past _ I) as P. rewrite Forall_forall in P. auto.
Qed.
Lemma new_inv t s : inv (cache_new t s).
Proof. constructor; cbn; try constructor. discriminate. Qed.
Lemma run_inv (c : cache) ops : Forall sane ops -> inv c -> inv (c_run eq c ops).
Proof.
  unfold c_run. revert c. induction ops as [|o ops IH]; intros c F I; cbn [fold_left]; [exact I|].
  inversion F; subst. apply IH; [assumption|]. now apply step_inv.
Qed.
Lemma run_app (c : cache) a b : c_run eq c (a ++ b) = c_run eq (c_run eq c a) b.
Proof. apply fold_left_app. Qed.

(** What one event does to the entries. *)
Lemma timers_in (c : cache) e : inv c -> In e (c_list (c_step eq c Timers)) ->  In e (c_list c).
Proof.
  intros I. cbn [c_step]. destruct (c_timer c) as [t|]; [|tauto]. destruct (t <=? c_now c); [|tauto].
  unfold cleanup. rewrite (proj1 (schedule_list _)). cbn [c_list]. apply drop_sub.
Qed.
Lemma timers_keep (c : cache) e : inv c -> In e (c_list c) -> c_now c < e_ts e + c_keep c -> In e (c_list (c_step eq c Timers)).
Proof.
  intros I H L. cbn [c_step]. destruct (c_timer c) as [t|]; [|tauto]. destruct (t <=? c_now c); [|tauto].
  unfold cleanup. rewrite (proj1 (schedule_list _)). cbn [c_list c_now c_keep]. apply drop_in; [apply I|]. split; [exact H|lia].
Qed.
Lemma overdue_due (c : cache) e : inv c -> In e (c_list c) -> e_ts e + c_keep c <= c_now c ->
  exists t, c_timer c = Some t /\ t <= c_now c.
Proof.
  intros I H L. destruct (c_list c) as [|x l] eqn:Q; [destruct H|].
  destruct (i_timer _ I x l Q) as (t & T & [D|D]); exists t; split; auto.
  pose proof (i_sort _ I) as S. rewrite Q in S. inversion S as [|? ? _ F]; subst.
  destruct H as [->|H]; [lia|]. rewrite Forall_forall in F. specialize (F e H). unfold older in F. lia.
Qed.
Lemma timers_gone (c : cache) e : inv c -> e_ts e + c_keep c <= c_now c -> ~ In e (c_list (c_step eq c Timers)).
Proof.
  intros I L H. pose proof (timers_in c e I H) as H0. destruct (overdue_due c e I H0 L) as (t & T & D).
  cbn [c_step] in H. rewrite T in H. rewrite (proj2 (Z.leb_le _ _) D) in H. unfold cleanup in H.
  rewrite (proj1 (schedule_list _)) in H. cbn [c_list c_now c_keep] in H. apply drop_in in H; [lia|apply I].
Qed.

Lemma step_now (c : cache) o : c_now (c_step eq c o) = c_now c + elapsed [o].
Proof.
  destruct o as [k v|s|d|]; cbn [c_step elapsed].
  - unfold add. rewrite (proj2 (proj2 (schedule_list _))). cbn. lia.
  - unfold set_keep. rewrite (proj2 (proj2 (schedule_list _))). cbn. lia.
  - cbn. lia.
  - destruct (c_timer c) as [t|]; [destruct (t <=? c_now c)|]; try lia.
    unfold cleanup. rewrite (proj2 (proj2 (schedule_list _))). cbn. lia.
Qed.
Lemma step_keep (c : cache) o s : c_keep c = s * SEC -> c_keep (c_step eq c o) = keep_after s [o] * SEC.
Proof.
  intro H. destruct o as [k v|s'|d|]; cbn [c_step keep_after].
  - unfold add. rewrite (proj1 (proj2 (schedule_list _))). exact H.
  - unfold set_keep. rewrite (proj1 (proj2 (schedule_list _))). reflexivity.
  - exact H.
  - destruct (c_timer c) as [t|]; [destruct (t <=? c_now c)|]; try exact H.
    unfold cleanup. rewrite (proj1 (proj2 (schedule_list _))). exact H.
Qed.
Lemma elapsed_cons o (ops : list cop) : elapsed (o :: ops) = elapsed [o] + elapsed ops.
Proof. destruct o; cbn; lia. Qed.
Lemma keep_cons o (ops : list cop) s : keep_after s (o :: ops) = keep_after (keep_after s [o]) ops.
Proof. destruct o; reflexivity. Qed.
Lemma elapsed_nonneg (ops : list cop) : Forall sane ops -> 0 <= elapsed ops.
Proof. induction 1 as [|o l H F IH]; [cbn; lia|]. rewrite elapsed_cons. destruct o; cbn in *; lia. Qed.
Lemma run_now (c : cache) ops : c_now (c_run eq c ops) = c_now c + elapsed ops.
Proof.
  unfold c_run. revert c. induction ops as [|o ops IH]; intro c; cbn [fold_left]; [cbn; lia|].
  rewrite IH, step_now, (elapsed_cons o ops). lia.
Qed.
Lemma run_keep (c : cache) ops s : c_keep c = s * SEC -> c_keep (c_run eq c ops) = keep_after s ops * SEC.
Proof.
  unfold c_run. revert c s. induction ops as [|o ops IH]; intros c s H; cbn [fold_left]; [exact H|].
  rewrite keep_cons. apply IH. now apply step_keep.
Qed.

Lemma step_other (c : cache) o e : inv c -> (forall v, o <> Add (e_key e) v) -> (o = Timers -> c_now c < e_ts e + c_keep c) ->
  In e (c_list c) -> In e (c_list (c_step eq c o)).
Proof.
  intros I N L H. destruct o as [k v|s|d|].
  - cbn [c_step]. apply (add_list k v c I). right. split; [exact H|]. intro E. apply (N v). now rewrite E.
  - cbn [c_step]. unfold set_keep. now rewrite (proj1 (schedule_list _)).
  - exact H.
  - apply timers_keep; auto.
Qed.
Lemma step_back (c : cache) o e : inv c -> In e (c_list (c_step eq c o)) ->
  In e (c_list c) \/ (exists v, o = Add (e_key e) v /\ e = En (e_key e) v (c_now c)).
Proof.
  intros I H. destruct o as [k v|s|d|].
  - cbn [c_step] in H. apply (add_list k v c I) in H. destruct H as [->|[H _]]; [right; exists v; split; reflexivity|now left].
  - cbn [c_step] in H. unfold set_keep in H. rewrite (proj1 (schedule_list _)) in H. now left.
  - now left.
  - left. now apply timers_in in H.
Qed.
Lemma step_back_other (c : cache) k v e : inv c -> In e (c_list (c_step eq c (Add k v))) -> e_key e = k -> e = En k v (c_now c).
Proof. intros I H E. cbn [c_step] in H. apply (add_list k v c I) in H. destruct H as [H|[_ H]]; [exact H|congruence]. Qed.

Lemma run_present (c : cache) ops e n : inv c -> Forall sane ops -> In e (c_list c) -> not_stored (e_key e) ops ->
  n * SEC <= c_keep c -> keep_at_least n ops -> c_now c + elapsed ops < e_ts e + n * SEC -> In e (c_list (c_run eq c ops)).
Proof.
  unfold c_run. revert c. induction ops as [|o ops IH]; intros c I F H N Kp Ka L; cbn [fold_left]; [exact H|].
  inversion F as [|? ? Fo Fl]; subst. rewrite elapsed_cons in L. pose proof (elapsed_nonneg _ Fl) as P.
  apply IH.
  - now apply step_inv.
  - exact Fl.
  - apply step_other; auto.
    + intros v E. apply (N v). now left.
    + intros ->. cbn in L. lia.
  - intros v E. apply (N v). now right.
  - destruct o as [k v|s|d|]; cbn [c_step].
    + unfold add. now rewrite (proj1 (proj2 (schedule_list _))).
    + unfold set_keep. rewrite (proj1 (proj2 (schedule_list _))). cbn [c_keep]. assert (n <= s) by (apply Ka; now left).
      unfold SEC in *. lia.
    + exact Kp.
    + destruct (c_timer c) as [t|]; [destruct (t <=? c_now c)|]; try exact Kp.
      unfold cleanup. now rewrite (proj1 (proj2 (schedule_list _))).
  - intros s E. apply Ka. now right.
  - rewrite step_now. lia.
Qed.

Lemma run_back (c : cache) ops e : inv c -> Forall sane ops -> In e (c_list (c_run eq c ops)) -> not_stored (e_key e) ops -> In e (c_list c).
Proof.
  unfold c_run. revert c. induction ops as [|o ops IH]; intros c I F H N; cbn [fold_left] in *; [exact H|].
  inversion F as [|? ? Fo Fl]; subst. assert (N' : not_stored (e_key e) ops) by (intros v E; apply (N v); now right).
  pose proof (IH _ (step_inv c o Fo I) Fl H N') as Q.
  destruct (step_back c o e I Q) as [R|(v & E & _)]; [exact R|]. exfalso. apply (N v). rewrite E. now left.
Qed.

Lemma reach_inv t s (ops : list cop) : Forall sane ops -> inv (c_run eq (cache_new t s) ops).
Proof. intro F. apply run_inv; [exact F|apply new_inv]. Qed.

Theorem unique : forall t s (ops : list cop), Forall sane ops -> NoDup (map e_key (c_list (c_run eq (cache_new t s) ops))).
Proof. intros t s ops F. apply (reach_inv t s ops F). Qed.

Theorem returns : forall t s (pre : list cop) k v post n, Forall sane pre -> Forall sane post -> not_stored k post ->
  n <= keep_after s pre -> keep_at_least n post -> elapsed post < n * SEC ->
  lookup eq k (c_run eq (cache_new t s) (pre ++ Add k v :: post)) = Some v.
Proof.
  intros t s pre k v post n Fp Fq N Kp Ka L. rewrite run_app.
  set (c := c_run eq (cache_new t s) pre). pose proof (reach_inv t s pre Fp) as I. fold c in I.
  change (c_run eq c (Add k v :: post)) with (c_run eq (c_step eq c (Add k v)) post).
  pose proof (step_inv c (Add k v) Logic.I I) as I'. set (c' := c_step eq c (Add k v)) in *.
  assert (H : In (En k v (c_now c)) (c_list (c_run eq c' post))).
  { apply (run_present c' post (En k v (c_now c)) n); auto.
    - unfold c'. cbn [c_step]. apply (add_list k v c I). now left.
    - unfold c'. rewrite (step_keep c (Add k v) (keep_after s pre)); [cbn [keep_after]; unfold SEC; lia|].
      unfold c. now apply run_keep.
    - unfold c'. rewrite step_now. cbn. lia. }
  unfold lookup. rewrite (lookup_has k _ (En k v (c_now c))); [reflexivity| |exact H|reflexivity].
  apply (run_inv c' post Fq I').
Qed.

Theorem latest : forall t s (ops : list cop) k v, Forall sane ops -> lookup eq k (c_run eq (cache_new t s) ops) = Some v ->
  exists pre post, ops = pre ++ Add k v :: post /\ not_stored k post.
Proof.
  intros t s ops k v F. induction ops as [|o ops IH] using rev_ind; [discriminate|].
  apply Forall_app in F. destruct F as [F Fo]. inversion Fo as [|? ? So _]; subst.
  rewrite run_app. set (c := c_run eq (cache_new t s) ops) in *. pose proof (reach_inv t s ops F) as I. fold c in I.
  change (c_run eq c [o]) with (c_step eq c o). unfold lookup at 1. intro H.
  destruct (lookup_entry eq k (c_list (c_step eq c o))) as [e|] eqn:Q; [|discriminate]. injection H as Hv.
  apply lookup_in in Q. destruct Q as [Q Ek].
  destruct o as [k' v'|s'|d|].
  - destruct (eq k' k) eqn:Ekk.
    + apply eq_spec in Ekk. subst k'. pose proof (step_back_other c k v' e I Q Ek) as E. rewrite E in Hv. cbn in Hv. subst v'.
      exists ops, []. split; [reflexivity|]. intros ? [].
    + assert (Nk : k' <> k) by (intro X; apply eq_spec in X; congruence).
      destruct (step_back c (Add k' v') e I Q) as [R|(w & E & _)]; [|injection E; congruence].
      assert (Lk : lookup eq k c = Some v) by (unfold lookup; rewrite (lookup_has k _ e (i_keys _ I) R Ek); cbn [option_map]; rewrite Hv; reflexivity).
      destruct (IH F Lk) as (pre & post & -> & N). exists pre, (post ++ [Add k' v']). rewrite <- app_assoc. split; [reflexivity|].
      intros w H. apply in_app_iff in H. destruct H as [H|[H|[]]]; [now apply (N w)|congruence].
  - destruct (step_back c _ e I Q) as [R|(w & E & _)]; [|discriminate].
    assert (Lk : lookup eq k c = Some v) by (unfold lookup; rewrite (lookup_has k _ e (i_keys _ I) R Ek); cbn [option_map]; rewrite Hv; reflexivity).
    destruct (IH F Lk) as (pre & post & -> & N). exists pre, (post ++ [SetKeep s']). rewrite <- app_assoc. split; [reflexivity|].
    intros w H. apply in_app_iff in H. destruct H as [H|[H|[]]]; [now apply (N w)|congruence].
  - destruct (step_back c _ e I Q) as [R|(w & E & _)]; [|discriminate].
    assert (Lk : lookup eq k c = Some v) by (unfold lookup; rewrite (lookup_has k _ e (i_keys _ I) R Ek); cbn [option_map]; rewrite Hv; reflexivity).
    destruct (IH F Lk) as (pre & post & -> & N). exists pre, (post ++ [Wait d]). rewrite <- app_assoc. split; [reflexivity|].
    intros w H. apply in_app_iff in H. destruct H as [H|[H|[]]]; [now apply (N w)|congruence].
  - destruct (step_back c _ e I Q) as [R|(w & E & _)]; [|discriminate].
    assert (Lk : lookup eq k c = Some v) by (unfold lookup; rewrite (lookup_has k _ e (i_keys _ I) R Ek); cbn [option_map]; rewrite Hv; reflexivity).
    destruct (IH F Lk) as (pre & post & -> & N). exists pre, (post ++ [Timers]). rewrite <- app_assoc. split; [reflexivity|].
    intros w H. apply in_app_iff in H. destruct H as [H|[H|[]]]; [now apply (N w)|congruence].
Qed.

Theorem removed : forall t s (pre : list cop) k v post, Forall sane pre -> Forall sane post -> not_stored k post ->
  keep_after s (pre ++ Add k v :: post) * SEC <= elapsed post ->
  lookup eq k (c_run eq (cache_new t s) (pre ++ Add k v :: post ++ [Timers])) = None.
Proof.
  intros t s pre k v post Fp Fq N L.
  change (pre ++ Add k v :: post ++ [Timers]) with (pre ++ (Add k v :: post) ++ [Timers]). rewrite app_assoc, run_app.
  set (c := c_run eq (cache_new t s) (pre ++ Add k v :: post)).
  assert (F : Forall sane (pre ++ Add k v :: post)) by (apply Forall_app; split; [exact Fp|constructor; [exact Logic.I|exact Fq]]).
  pose proof (reach_inv t s _ F) as I. fold c in I.
  change (c_run eq c [Timers]) with (c_step eq c Timers). unfold lookup.
  destruct (lookup_entry eq k (c_list (c_step eq c Timers))) as [e|] eqn:Q; [|reflexivity]. exfalso.
  apply lookup_in in Q. destruct Q as [Q Ek]. refine (timers_gone c e I _ Q).
  apply (timers_in c e I) in Q. unfold c in Q. rewrite run_app in Q.
  set (c0 := c_run eq (cache_new t s) pre) in *. pose proof (reach_inv t s pre Fp) as I0. fold c0 in I0.
  change (c_run eq c0 (Add k v :: post)) with (c_run eq (c_step eq c0 (Add k v)) post) in Q.
  apply run_back in Q; [|now apply step_inv|exact Fq|now rewrite Ek].
  apply step_back_other in Q; [|exact I0|exact Ek]. rewrite Q. cbn [e_ts].
  replace (c_keep c) with (keep_after s (pre ++ Add k v :: post) * SEC) by (symmetry; unfold c; now apply run_keep).
  unfold c. rewrite run_app. fold c0. rewrite run_now. cbn [elapsed]. lia.
Qed.

Theorem overdue : forall t s (ops : list cop) e, Forall sane ops -> let c := c_run eq (cache_new t s) ops in
  In e (c_list c) -> e_ts e + c_keep c <= c_now c -> exists d, c_timer c = Some d /\ d <= c_now c.
Proof. intros t s ops e F c H L. apply (overdue_due c e); auto. now apply reach_inv. Qed.
End P.
