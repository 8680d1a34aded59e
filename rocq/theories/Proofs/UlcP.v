(** The uplink controller refines a reservation table. *)
From Coq Require Import ZArith List Bool Lia Sorted.
From Verif Require Import Base.Arith Model.FrameNo Model.UlController Spec.FrameSpec Proofs.FrameP.
Import ListNotations.
Local Open Scope Z_scope.

Definition HALF : Z := 1357824.
Lemma HALF_eq : HYP / 2 = HALF. Proof. reflexivity. Qed.

Lemma fncmp_eq a b : fncmp a b = 0 <-> a = b.
Proof.
  unfold fncmp. destruct (a =? b) eqn:E; [lia|].
  destruct (_ || _); split; intros; lia.
Qed.
Lemma ahead_val now x : in_hyper now -> in_hyper x ->
  ahead now x = if now <=? x then x - now else x - now + HYP.
Proof.
  unfold in_hyper, ahead; intros. destruct (now <=? x) eqn:E.
  - apply Z.mod_small; lia.
  - symmetry; apply (Z.mod_unique_pos _ _ (-1)); lia.
Qed.
Lemma fncmp_ahead now a b : in_hyper now -> in_hyper a -> in_hyper b ->
  ahead now a < HALF -> ahead now b < HALF ->
  (fncmp a b < 0 <-> ahead now a < ahead now b) /\ (0 < fncmp a b <-> ahead now b < ahead now a).
Proof.
  intros Hn Ha Hb. rewrite !ahead_val by auto. unfold in_hyper, fncmp in *.
  rewrite HALF_eq. unfold HALF. rewrite H_val in *. intros A B.
  destruct (now <=? a) eqn:E1; destruct (now <=? b) eqn:E2; destruct (a =? b) eqn:E3;
    destruct (((a <? b) && (b - a <? 1357824)) || ((b <? a) && (1357824 <? a - b))) eqn:E4; lia.
Qed.

Definition lt_at (now : Z) (a b : item) : Prop := ahead now (i_fn a) < ahead now (i_fn b).
Definition srt (now : Z) := StronglySorted (lt_at now).
Definition inwin (now : Z) (it : item) : Prop := in_hyper (i_fn it) /\ ahead now (i_fn it) < HALF.

Lemma srt_app now l1 l2 : srt now (l1 ++ l2) <->
  srt now l1 /\ srt now l2 /\ forall x y, In x l1 -> In y l2 -> lt_at now x y.
Proof.
  unfold srt. induction l1 as [|a l IH]; cbn [app].
  - split; [intros S; splits; auto; [constructor|intros ? ? []]|tauto].
  - split.
    + intros S. inversion S as [|? ? S1 F]; subst. apply IH in S1 as (A & B & C).
      rewrite Forall_app in F. destruct F as [F1 F2]. splits; auto.
      * constructor; auto.
      * intros x y [<-|I] J; [rewrite Forall_forall in F2; auto|auto].
    + intros (A & B & C). inversion A as [|? ? S1 F]; subst. constructor.
      * apply IH. splits; auto. intros; apply C; cbn; auto.
      * apply Forall_app; split; auto. apply Forall_forall. intros y J. apply C; cbn; auto.
Qed.
Lemma srt_filter now f l : srt now l -> srt now (filter f l).
Proof.
  unfold srt. induction l as [|a l IH]; cbn [filter]; auto. intros S. inversion S as [|? ? S1 F]; subst.
  destruct (f a); auto. constructor; auto. rewrite Forall_forall in *. intros x I. apply filter_In in I.
  apply F, I.
Qed.
Lemma srt_fn_inj now l a b : srt now l -> In a l -> In b l -> i_fn a = i_fn b -> a = b.
Proof.
  unfold srt. induction l as [|x l IH]; intros S A B E; [destruct A|].
  inversion S as [|? ? S1 F]; subst. rewrite Forall_forall in F. unfold lt_at in F.
  destruct A as [<-|A], B as [<-|B]; auto.
  - specialize (F b B). rewrite E in F. lia.
  - specialize (F a A). rewrite E in F. lia.
Qed.

(** The table of a list of entries. *)
Definition tab (l : list item) : table :=
  fun fn => option_map i_own (find (fun it => i_fn it =? fn) l).
Lemma tab_some now l fn o : srt now l -> (tab l fn = Some o <-> In (mk_item fn o) l).
Proof.
  intros S. unfold tab. split.
  - destruct (find _ l) as [it|] eqn:F; cbn [option_map]; [|discriminate].
    apply find_some in F as [I E]. apply Z.eqb_eq in E. intros [= <-]. subst. destruct it; exact I.
  - intros I. destruct (find (fun it => i_fn it =? fn) l) as [it|] eqn:F.
    + apply find_some in F as [J E]. apply Z.eqb_eq in E.
      rewrite (srt_fn_inj now l it (mk_item fn o) S J I E). reflexivity.
    + apply (find_none _ _ F) in I. cbn [i_fn] in I. rewrite Z.eqb_refl in I. discriminate.
Qed.
Lemma tab_none l fn : tab l fn = None <-> forall it, In it l -> i_fn it <> fn.
Proof.
  unfold tab. split.
  - destruct (find _ l) eqn:F; [discriminate|]. intros _ it I. apply (find_none _ _ F) in I.
    apply Z.eqb_neq in I. auto.
  - intros A. destruct (find _ l) as [it|] eqn:F; [|reflexivity].
    apply find_some in F as [I E]. apply Z.eqb_eq in E. destruct (A it I E).
Qed.
(** Two tables with the same entries are the same. *)
Lemma tab_ext now l (m : table) : srt now l ->
  (forall fn o, m fn = Some o <-> In (mk_item fn o) l) -> forall fn, m fn = tab l fn.
Proof.
  intros S A fn. destruct (tab l fn) as [o|] eqn:E.
  - apply A. apply (tab_some now); auto.
  - destruct (m fn) as [o|] eqn:M; [|reflexivity]. apply A in M. rewrite tab_none in E.
    specialize (E _ M). destruct E; reflexivity.
Qed.

(** ** Lookup *)
Lemma get_sound t fn it : get_node t fn = Some it -> In it (inorder t) /\ i_fn it = fn.
Proof.
  induction t as [|l IHl x r IHr]; cbn [get_node inorder]; [discriminate|].
  rewrite in_app_iff. cbn [In].
  destruct (0 <? fncmp (i_fn x) fn) eqn:E1; [intros G; destruct (IHl G); auto|].
  destruct (fncmp (i_fn x) fn <? 0) eqn:E2; [intros G; destruct (IHr G); auto|].
  intros [= <-]. split; auto. apply fncmp_eq. lia.
Qed.
Lemma get_complete now t it : in_hyper now -> srt now (inorder t) -> Forall (inwin now) (inorder t) ->
  In it (inorder t) -> get_node t (i_fn it) = Some it.
Proof.
  intros Hn. induction t as [|l IHl x r IHr]; cbn [get_node inorder]; [intros _ _ []|].
  intros S W I. apply srt_app in S as (S1 & S2 & S3).
  inversion S2 as [|? ? S4 F]; subst. rewrite Forall_forall in F.
  apply Forall_app in W as [W1 W2]. inversion W2 as [|? ? Wx W3]; subst.
  rewrite in_app_iff in I. cbn [In] in I.
  assert (Wi : inwin now it).
  { destruct I as [I|[<-|I]]; auto; [rewrite Forall_forall in W1|rewrite Forall_forall in W3]; auto. }
  destruct Wi as [Ri Ai]. destruct Wx as [Rx Ax].
  pose proof (fncmp_ahead now (i_fn x) (i_fn it) Hn Rx Ri Ax Ai) as [C1 C2].
  pose proof (fncmp_eq (i_fn x) (i_fn it)) as C3.
  destruct I as [I|[<-|I]].
  - specialize (S3 it x I (or_introl eq_refl)). unfold lt_at in S3.
    destruct (0 <? fncmp (i_fn x) (i_fn it)) eqn:E1; [auto|]. lia.
  - assert (X : fncmp (i_fn x) (i_fn x) = 0) by (apply fncmp_eq; reflexivity). rewrite X. reflexivity.
  - specialize (F it I). unfold lt_at in F.
    destruct (0 <? fncmp (i_fn x) (i_fn it)) eqn:E1; [lia|].
    destruct (fncmp (i_fn x) (i_fn it) <? 0) eqn:E2; [auto|lia].
Qed.
Lemma get_tab now t fn : in_hyper now -> srt now (inorder t) -> Forall (inwin now) (inorder t) ->
  get_node t fn = option_map (mk_item fn) (tab (inorder t) fn).
Proof.
  intros Hn S W. destruct (tab (inorder t) fn) as [o|] eqn:E; cbn [option_map].
  - apply (tab_some now) in E; auto. exact (get_complete now t _ Hn S W E).
  - destruct (get_node t fn) as [it|] eqn:G; [|reflexivity].
    apply get_sound in G as [I F]. rewrite tab_none in E. destruct (E it I F).
Qed.

(** ** Insertion *)
Lemma insert_some now t x t' : in_hyper now -> srt now (inorder t) -> Forall (inwin now) (inorder t) ->
  inwin now x -> tree_insert t x = Some t' ->
  exists l1 l2, inorder t = l1 ++ l2 /\ inorder t' = l1 ++ x :: l2 /\
    (forall y, In y l1 -> lt_at now y x) /\ (forall y, In y l2 -> lt_at now x y).
Proof.
  intros Hn. revert t'. induction t as [|l IHl y r IHr]; cbn [tree_insert inorder]; intros t' S W Wx.
  - intros [= <-]. exists [], []. cbn [inorder app]. splits; auto; intros ? [].
  - apply srt_app in S as (S1 & S2 & S3). inversion S2 as [|? ? S4 F]; subst. rewrite Forall_forall in F.
    apply Forall_app in W as [W1 W2]. inversion W2 as [|? ? Wy W3]; subst.
    destruct Wx as [Rx Ax], Wy as [Ry Ay].
    pose proof (fncmp_ahead now (i_fn x) (i_fn y) Hn Rx Ry Ax Ay) as [C1 C2].
    destruct (fncmp (i_fn x) (i_fn y) <? 0) eqn:E1.
    + destruct (tree_insert l x) as [l'|] eqn:I; [|discriminate]. intros [= <-].
      destruct (IHl l' S1 W1 (conj Rx Ax) eq_refl) as (a & b & A & B & C & D).
      exists a, (b ++ y :: inorder r). cbn [inorder]. rewrite A, B.
      split; [rewrite <- app_assoc; reflexivity|]. split; [rewrite <- app_assoc; reflexivity|]. split; auto.
      intros z. rewrite in_app_iff. cbn [In].
      assert (X : lt_at now x y) by (unfold lt_at; lia).
      intros [J|[<-|J]]; auto. specialize (F z J). unfold lt_at in *; lia.
    + destruct (0 <? fncmp (i_fn x) (i_fn y)) eqn:E2; [|discriminate].
      destruct (tree_insert r x) as [r'|] eqn:I; [|discriminate]. intros [= <-].
      destruct (IHr r' S4 W3 (conj Rx Ax) eq_refl) as (a & b & A & B & C & D).
      exists (inorder l ++ y :: a), b. cbn [inorder]. rewrite A, B.
      split; [rewrite <- app_assoc; reflexivity|]. split; [rewrite <- app_assoc; reflexivity|]. split; auto.
      intros z. rewrite in_app_iff. cbn [In].
      assert (X : lt_at now y x) by (unfold lt_at; lia).
      intros [J|[<-|J]]; auto. specialize (S3 z y J (or_introl eq_refl)). unfold lt_at in *; lia.
Qed.
Lemma insert_iff now t x : in_hyper now -> srt now (inorder t) -> Forall (inwin now) (inorder t) ->
  inwin now x -> (tree_insert t x = None <-> exists y, In y (inorder t) /\ i_fn y = i_fn x).
Proof.
  intros Hn S W Wx. split.
  - clear S W Wx. induction t as [|l IHl y r IHr]; cbn [tree_insert inorder]; [discriminate|].
    destruct (fncmp (i_fn x) (i_fn y) <? 0) eqn:E1.
    + destruct (tree_insert l x); [discriminate|]. intros _. destruct (IHl eq_refl) as (z & I & E).
      exists z. rewrite in_app_iff; auto.
    + destruct (0 <? fncmp (i_fn x) (i_fn y)) eqn:E2.
      * destruct (tree_insert r x); [discriminate|]. intros _. destruct (IHr eq_refl) as (z & I & E).
        exists z. rewrite in_app_iff; cbn [In]; auto.
      * intros _. exists y. rewrite in_app_iff; cbn [In]. split; auto. symmetry. apply fncmp_eq. lia.
  - intros (y & I & E). destruct (tree_insert t x) as [t'|] eqn:T; [|reflexivity]. exfalso.
    destruct (insert_some now t x t' Hn S W Wx T) as (a & b & A & B & C & D).
    rewrite A in I. apply in_app_iff in I as [I|I].
    + specialize (C y I). unfold lt_at in C. rewrite E in C. lia.
    + specialize (D y I). unfold lt_at in D. rewrite E in D. lia.
Qed.

Lemma comb_inorder l : inorder (comb l) = l.
Proof. induction l; cbn [comb inorder app]; congruence. Qed.

(** ** The relation between tree and table *)
Record rel (now : Z) (t : tree) (m : table) : Prop := {
  r_now : in_hyper now;
  r_srt : srt now (inorder t);
  r_win : Forall (inwin now) (inorder t);
  r_tab : forall fn o, m fn = Some o <-> In (mk_item fn o) (inorder t) }.

Lemma rel_get now t m fn : rel now t m -> get_node t fn = option_map (mk_item fn) (m fn).
Proof.
  intros [Hn S W T]. rewrite (get_tab now) by auto. rewrite (tab_ext now _ m S T). reflexivity.
Qed.

Section Bal.
Variable bal : tree -> tree.
Hypothesis KO : keeps_order bal.

Lemma rel_reserve now t m fn o : rel now t m -> in_hyper fn -> ahead now fn < HALF ->
  match m fn with
  | None => exists t', reserve bal t fn o = (t', true) /\ rel now t' (t_set m fn (Some o))
  | Some _ => reserve bal t fn o = (t, false)
  end.
Proof.
  intros [Hn S W T] F A. unfold reserve.
  assert (Wx : inwin now (mk_item fn o)) by (split; auto).
  pose proof (insert_iff now t _ Hn S W Wx) as I. cbn [i_fn] in I.
  destruct (m fn) as [o'|] eqn:M.
  - apply T in M. destruct (tree_insert t (mk_item fn o)); [|reflexivity].
    destruct I as [_ I]. discriminate I. eexists; split; [exact M|reflexivity].
  - destruct (tree_insert t (mk_item fn o)) as [t'|] eqn:E.
    + exists (bal t'). split; [reflexivity|].
      destruct (insert_some now t _ t' Hn S W Wx E) as (a & b & P & Q & C & D).
      assert (IO : inorder (bal t') = a ++ mk_item fn o :: b) by (rewrite KO; exact Q).
      rewrite P in S, W, T. apply srt_app in S as (S1 & S2 & S3). apply Forall_app in W as [W1 W2].
      constructor; auto; rewrite IO.
      * apply srt_app. splits; auto.
        -- constructor; auto. apply Forall_forall. auto.
        -- intros x y X [<-|Y]; auto.
      * apply Forall_app; split; auto.
      * intros fn' o'. unfold t_set. rewrite in_app_iff. cbn [In].
        destruct (fn' =? fn) eqn:EE.
        -- apply Z.eqb_eq in EE. subst fn'. split; [intros [= ->]; auto|].
           intros [J|[J|J]]; [| |].
           ++ exfalso. assert (X : m fn = Some o') by (apply T, in_app_iff; auto). congruence.
           ++ congruence.
           ++ exfalso. assert (X : m fn = Some o') by (apply T, in_app_iff; auto). congruence.
        -- apply Z.eqb_neq in EE. rewrite T, in_app_iff. split; [tauto|].
           intros [J|[J|J]]; auto. congruence.
    + destruct I as [I _]. destruct (I eq_refl) as (y & J & K). destruct y as [fy oy]. cbn [i_fn] in K. subst fy.
      apply T in J. congruence.
Qed.

Lemma rel_filter now t m t' m' (f : item -> bool) : rel now t m -> inorder t' = filter f (inorder t) ->
  (forall fn, m' fn = match m fn with Some o => if f (mk_item fn o) then Some o else None | None => None end) ->
  rel now t' m'.
Proof.
  intros [Hn S W T] E M. constructor; auto; rewrite E.
  - apply srt_filter; auto.
  - rewrite Forall_forall in *. intros x I. apply filter_In in I. apply W, I.
  - intros fn o. rewrite filter_In, M, <- T. destruct (m fn) as [o'|]; [|intuition congruence].
    destruct (f (mk_item fn o')) eqn:F; split; intros X.
    + injection X as <-. auto.
    + destruct X as [X _]. exact X.
    + discriminate.
    + destruct X as [[= <-] X]. congruence.
Qed.
Lemma release_node_inorder t it : inorder (release_node bal t it) = without (i_fn it) (inorder t).
Proof. unfold release_node. rewrite KO, comb_inorder. reflexivity. Qed.
Lemma rel_release_node now t m fn o : rel now t m -> rel now (release_node bal t (mk_item fn o)) (t_set m fn None).
Proof.
  intros R. eapply rel_filter; [exact R|apply release_node_inorder|].
  intros x. unfold t_set. cbn [i_fn]. destruct (x =? fn) eqn:E; cbn [negb]; destruct (m x); reflexivity.
Qed.

Lemma rel_release_fn now t m fn : rel now t m ->
  match m fn with
  | None => release_fn bal t fn = (t, false)
  | Some _ => exists t', release_fn bal t fn = (t', true) /\ rel now t' (t_set m fn None)
  end.
Proof.
  intros R. unfold release_fn. rewrite (rel_get now t m fn R).
  destruct (m fn) as [o|]; cbn [option_map]; [|reflexivity].
  eexists; split; [reflexivity|]. apply rel_release_node; auto.
Qed.

Lemma find_none_filter (f : item -> bool) l : find f l = None -> filter (fun x => negb (f x)) l = l.
Proof.
  intros F. induction l as [|a l IH]; cbn [find filter] in *; auto.
  destruct (f a); [discriminate|]. cbn [negb]. f_equal. auto.
Qed.
Lemma filter_comm (f g : item -> bool) l : filter f (filter g l) = filter (fun x => g x && f x) l.
Proof.
  induction l as [|a l IH]; cbn [filter]; auto. destruct (g a) eqn:E; cbn [andb filter]; [|auto].
  destruct (f a); congruence.
Qed.
Lemma filter_length_le (f : item -> bool) l : (length (filter f l) <= length l)%nat.
Proof. induction l as [|a l IH]; cbn [filter length]; [lia|]. destruct (f a); cbn [length]; lia. Qed.
Lemma filter_len_lt (f : item -> bool) l x : In x l -> f x = false -> (length (filter f l) < length l)%nat.
Proof.
  induction l as [|a l IH]; intros I E; [destruct I|]. cbn [filter].
  assert (L : (length (filter f l) <= length l)%nat).
  { clear. induction l as [|a l IH]; cbn [filter length]; [lia|]. destruct (f a); cbn [length]; lia. }
  destruct I as [<-|I].
  - rewrite E. cbn [length]. lia.
  - specialize (IH I E). destruct (f a); cbn [length]; lia.
Qed.
Lemma release_tbf_loop_spec now tbf fuel t : srt now (inorder t) -> (length (inorder t) <= fuel)%nat ->
  exists t', release_tbf_loop fuel bal t tbf = Some t' /\
    inorder t' = filter (fun it => negb (owned_by tbf (i_own it))) (inorder t).
Proof.
  revert t. induction fuel as [|n IH]; intros t S L; cbn [release_tbf_loop].
  - destruct (inorder t) eqn:E; [|cbn [length] in L; lia]. cbn [find filter].
    exists t. rewrite E. auto.
  - destruct (find _ (inorder t)) as [it|] eqn:F.
    + apply find_some in F as [I O].
      pose proof (release_node_inorder t it) as RI.
      destruct (IH (release_node bal t it)) as (t' & A & B).
      * rewrite RI. apply srt_filter; auto.
      * rewrite RI. unfold without.
        pose proof (filter_len_lt (fun x => negb (i_fn x =? i_fn it)) (inorder t) it I) as X.
        cbv beta in X. rewrite Z.eqb_refl in X. specialize (X eq_refl). lia.
      * exists t'. split; [exact A|]. rewrite B, RI. unfold without. rewrite filter_comm.
        apply filter_ext_in. intros x J. destruct (i_fn x =? i_fn it) eqn:E; cbn [negb andb]; [|reflexivity].
        apply Z.eqb_eq in E. rewrite (srt_fn_inj now _ x it S J I E). rewrite O. reflexivity.
    + exists t. split; [reflexivity|]. symmetry. apply find_none_filter. exact F.
Qed.
Lemma rel_release_tbf now t m tbf : rel now t m ->
  exists t', release_tbf bal t tbf = Some t' /\ rel now t' (t_release_tbf m tbf).
Proof.
  intros R. destruct (release_tbf_loop_spec now tbf (length (inorder t)) t (r_srt _ _ _ R) (le_n _)) as (t' & A & B).
  exists t'. split; [exact A|]. eapply rel_filter; [exact R|exact B|].
  intros fn. unfold t_release_tbf. cbn [i_own]. destruct (m fn) as [o|]; [|reflexivity].
  destruct (owned_by tbf o); reflexivity.
Qed.
Lemma rel_release_tbfs now l t m : rel now t m ->
  exists t', release_tbfs bal t l = Some t' /\ rel now t' (t_release_tbfs m l) /\
    (length (inorder t') <= length (inorder t))%nat.
Proof.
  unfold t_release_tbfs. revert t m. induction l as [|b l IH]; intros t m R; cbn [release_tbfs fold_left].
  - exists t. auto.
  - destruct (release_tbf_loop_spec now b (length (inorder t)) t (r_srt _ _ _ R) (le_n _)) as (t1 & A & B).
    destruct (rel_release_tbf now t m b R) as (t1' & A' & R1).
    unfold release_tbf in A'. rewrite A in A'. injection A' as <-.
    destruct (IH t1 _ R1) as (t2 & C & R2 & L). exists t2. unfold release_tbf. rewrite A. splits; auto.
    rewrite B in L. pose proof (filter_length_le (fun it => negb (owned_by b (i_own it))) (inorder t)). lia.
Qed.

(** A table emptied of entries before offset [j]. *)
Definition from (now : Z) (m : table) (j : Z) : Prop :=
  forall fn o, m fn = Some o -> j <= ahead now fn.
Lemma t_release_tbfs_sub l m fn o : t_release_tbfs m l fn = Some o -> m fn = Some o.
Proof.
  unfold t_release_tbfs. revert m. induction l as [|b l IH]; intros m; cbn [fold_left]; auto.
  intros X. apply IH in X. unfold t_release_tbf in X. destruct (m fn) as [o'|]; [|discriminate].
  destruct (owned_by b o'); [discriminate|exact X].
Qed.

Lemma expire_ok frees now n : forall fuel t m j fn,
  rel now t m -> from now m j -> 0 <= j -> j + Z.of_nat n <= HALF ->
  in_hyper fn -> ahead now fn = j + Z.of_nat n - 1 -> (length (inorder t) <= fuel)%nat ->
  (n > 0)%nat ->
  exists t' rep m', expire_loop fuel bal frees t fn = Some (t', rep) /\
    t_expire frees m ((now + j) mod HYP) n = (m', rep) /\
    rel now t' m' /\ from now m' (j + Z.of_nat n).
Proof.
  induction n as [|n IH]; [intros; lia|].
  intros fuel t m j fn R F J0 JH HF AF L _.
  pose proof R as [Hn SS W T].
  assert (JJ : ahead now ((now + j) mod HYP) = j).
  { apply ahead_add. rewrite H_val. unfold HALF in JH. lia. }
  assert (NX : ((now + j) mod HYP + 1) mod HYP = (now + (j + 1)) mod HYP).
  { rewrite Zplus_mod_idemp_l. f_equal. lia. }
  assert (DONE : forall t1 m1, rel now t1 m1 -> from now m1 (j + Z.of_nat (S n)) -> forall f,
             expire_loop f bal frees t1 fn = Some (t1, [])).
  { intros t1 m1 R1 F1 f. destruct R1 as [_ S1 W1 T1].
    assert (X : match inorder t1 with [] => True | it :: _ => (0 <? fncmp (i_fn it) fn) = true end).
    { destruct (inorder t1) as [|it l1] eqn:E; [exact I|].
      apply Z.ltb_lt. inversion W1 as [|? ? [Wa Wb] _]; subst.
      apply (fncmp_ahead now (i_fn it) fn); auto; [lia|].
      assert (M : m1 (i_fn it) = Some (i_own it)) by (apply T1; left; destruct it; reflexivity).
      apply F1 in M. lia. }
    destruct f; cbn [expire_loop]; destruct (inorder t1); auto; rewrite X; reflexivity. }
  cbn [t_expire]. rewrite NX.
  destruct (m ((now + j) mod HYP)) as [o|] eqn:M.
  - (* an entry in this frame: it is the first of the tree *)
    set (c := (now + j) mod HYP) in *. set (it := mk_item c o) in *.
    assert (HD : exists r, inorder t = it :: r).
    { pose proof M as I. apply T in I. apply in_split in I as (a & b & E). destruct a as [|x a].
      - exists b. exact E.
      - exfalso. rewrite E in SS. cbn [app] in SS. apply StronglySorted_inv in SS as [_ FF].
        rewrite Forall_forall in FF. specialize (FF it ltac:(apply in_app_iff; right; left; reflexivity)).
        unfold lt_at in FF. unfold it in FF. cbn [i_fn] in FF. rewrite JJ in FF.
        assert (M1 : m (i_fn x) = Some (i_own x)) by (apply T; rewrite E; left; destruct x; reflexivity).
        apply F in M1. lia. }
    destruct HD as [r E].
    destruct fuel as [|fuel]; [rewrite E in L; cbn [length] in L; lia|].
    pose proof (rel_release_node now t m c o R) as R1. fold it in R1.
    destruct (rel_release_tbfs now (frees it) _ _ R1) as (t2 & A2 & R2 & L2).
    assert (L3 : (length (inorder t2) <= fuel)%nat).
    { rewrite release_node_inorder in L2. unfold without in L2.
      pose proof (filter_len_lt (fun x => negb (i_fn x =? i_fn it)) (inorder t) it ltac:(rewrite E; left; reflexivity)) as X.
      cbv beta in X. rewrite Z.eqb_refl in X. specialize (X eq_refl). lia. }
    set (m1 := t_release_tbfs (t_set m c None) (frees it)) in *.
    assert (F1 : from now m1 (j + 1)).
    { intros x ox X. unfold m1 in X. apply t_release_tbfs_sub in X. unfold t_set in X.
      destruct (x =? c) eqn:XE; [discriminate|]. apply Z.eqb_neq in XE.
      pose proof (F x ox X) as FX.
      assert (in_hyper x).
      { apply T in X. rewrite Forall_forall in W. apply W in X. apply X. }
      assert (ahead now x <> j).
      { intros EQ. apply XE. apply (ahead_inj now); auto; [apply in_hyper_mod|]. rewrite JJ. exact EQ. }
      lia. }
    cbn [expire_loop]. rewrite E.
    assert (CMP : (0 <? fncmp (i_fn it) fn) = false).
    { apply Z.ltb_ge. unfold it; cbn [i_fn].
      pose proof (fncmp_ahead now c fn Hn ltac:(apply in_hyper_mod) HF ltac:(rewrite JJ; lia) ltac:(lia)) as [_ C2].
      rewrite JJ in C2. lia. }
    rewrite CMP, A2.
    destruct n as [|n].
    + rewrite (DONE t2 m1 R2) by (replace (j + Z.of_nat 1) with (j + 1) by lia; exact F1).
      exists t2, [it], m1. cbn [t_expire]. splits; auto; replace (j + Z.of_nat 1) with (j + 1) by lia; exact F1.
    + destruct (IH fuel t2 m1 (j + 1) fn R2 F1) as (t3 & rep & m3 & P & Q & U & V); try lia; auto.
      exists t3, (it :: rep), m3. rewrite P, Q. splits; auto; replace (j + Z.of_nat (S (S n))) with (j + 1 + Z.of_nat (S n)) by lia; exact V.
  - assert (F1 : from now m (j + 1)).
    { intros x ox X. pose proof (F x ox X) as FX.
      assert (in_hyper x).
      { apply T in X. rewrite Forall_forall in W. apply W in X. apply X. }
      assert (ahead now x <> j).
      { intros EQ. assert (x = (now + j) mod HYP); [|congruence].
        apply (ahead_inj now); auto; [apply in_hyper_mod|]. rewrite JJ. exact EQ. }
      lia. }
    destruct n as [|n].
    + rewrite (DONE t m R) by (replace (j + Z.of_nat 1) with (j + 1) by lia; exact F1).
      exists t, [], m. cbn [t_expire]. splits; auto; replace (j + Z.of_nat 1) with (j + 1) by lia; exact F1.
    + destruct (IH fuel t m (j + 1) fn R F1) as (t3 & rep & m3 & P & Q & U & V); try lia; auto.
      exists t3, rep, m3. rewrite P, Q. splits; auto; replace (j + Z.of_nat (S (S n))) with (j + 1 + Z.of_nat (S n)) by lia; exact V.
Qed.

Lemma rel_rebase now fn t m : rel now t m -> in_hyper fn -> ahead now fn < HALF ->
  from now m (ahead now fn + 1) -> rel fn t m.
Proof.
  intros [Hn S W T] HF A F.
  assert (X : forall it, In it (inorder t) -> ahead fn (i_fn it) = ahead now (i_fn it) - ahead now fn).
  { intros it I. apply ahead_shift.
    assert (M : m (i_fn it) = Some (i_own it)) by (apply T; destruct it; exact I). apply F in M. lia. }
  constructor; auto.
  - unfold srt in *. clear W T F. induction S as [|a l S IH FA]; constructor.
    + apply IH. intros; apply X; right; auto.
    + rewrite Forall_forall in *. intros y Y. unfold lt_at in *. rewrite (X a (or_introl eq_refl)), (X y (or_intror Y)).
      specialize (FA y Y). lia.
  - rewrite Forall_forall in *. intros it I. destruct (W it I) as [W1 W2]. split; auto. rewrite X by auto.
    pose proof (ahead_range now fn). lia.
Qed.

Lemma rel_expire frees now t m fn : rel now t m -> in_hyper fn -> ahead now fn < HALF ->
  exists t' rep m', expire_fn bal frees t fn = Some (t', rep) /\
    t_expire frees m now (S (Z.to_nat (ahead now fn))) = (m', rep) /\ rel fn t' m'.
Proof.
  intros R HF A. pose proof (ahead_range now fn) as AR.
  destruct (expire_ok frees now (S (Z.to_nat (ahead now fn))) (length (inorder t)) t m 0 fn R)
    as (t' & rep & m' & P & Q & U & V); try lia; auto.
  - intros x ox _. apply ahead_range.
  - exists t', rep, m'. rewrite Z.add_0_r, (Z.mod_small now) in Q by apply (r_now _ _ _ R). splits; auto.
    apply (rel_rebase now); auto.
    replace (ahead now fn + 1) with (0 + Z.of_nat (S (Z.to_nat (ahead now fn)))) by lia. exact V.
Qed.

Lemma step_ok frees t s op : rel (ts_now s) t (ts_m s) -> op_in_time s op ->
  exists t', ul_step bal frees t op = Some (t', snd (t_step frees s op)) /\
    rel (ts_now (fst (t_step frees s op))) t' (ts_m (fst (t_step frees s op))).
Proof.
  intros R O. destruct op as [fn o|fn|b|fn]; cbn [op_in_time ul_step t_step] in *; rewrite ?HALF_eq in O.
  - destruct O as [O1 O2]. pose proof (rel_reserve _ t _ fn o R O1 O2) as X.
    destruct (ts_m s fn).
    + rewrite X. exists t. cbn [fst snd]. auto.
    + destruct X as (t' & E & R'). rewrite E. exists t'. cbn [fst snd ts_now ts_m]. auto.
  - pose proof (rel_release_fn _ t _ fn R) as X. destruct (ts_m s fn).
    + destruct X as (t' & E & R'). rewrite E. exists t'. cbn [fst snd ts_now ts_m]. auto.
    + rewrite X. exists t. cbn [fst snd]. auto.
  - destruct (rel_release_tbf _ t _ b R) as (t' & E & R'). rewrite E. exists t'. cbn [fst snd ts_now ts_m]. auto.
  - destruct O as [O1 O2]. destruct (rel_expire frees _ t _ fn R O1 O2) as (t' & rep & m' & P & Q & U).
    rewrite P, Q. exists t'. cbn [fst snd ts_now ts_m]. auto.
Qed.
Lemma run_ok frees ops : forall t s, rel (ts_now s) t (ts_m s) -> ops_in_time frees s ops ->
  exists t', ul_run bal frees t ops = Some (t', snd (t_run frees s ops)) /\
    rel (ts_now (fst (t_run frees s ops))) t' (ts_m (fst (t_run frees s ops))).
Proof.
  induction ops as [|op r IH]; intros t s R O; cbn [ul_run t_run].
  - exists t. auto.
  - destruct O as [O1 O2]. destruct (step_ok frees t s op R O1) as (t1 & E & R1). rewrite E.
    destruct (t_step frees s op) as [s1 x]. cbn [fst snd] in *.
    destruct (IH t1 s1 R1 O2) as (t2 & E2 & R2). rewrite E2.
    destruct (t_run frees s1 r) as [s2 xs]. cbn [fst snd] in *. exists t2. auto.
Qed.
Lemma rel_empty now : in_hyper now -> rel now Leaf t_empty.
Proof.
  intros Hn. constructor; auto; cbn [inorder]; [constructor|constructor|].
  intros fn o. unfold t_empty. split; [discriminate|intros []].
Qed.
Lemma reach_rel frees t s : ulc_reach bal frees t s -> rel (ts_now s) t (ts_m s).
Proof.
  intros (now & ops & res & Hn & O & E & <-).
  destruct (run_ok frees ops Leaf (mk_ts t_empty now) (rel_empty now Hn) O) as (t' & E' & R).
  rewrite E in E'. injection E' as -> _. exact R.
Qed.

(** ** Free frames *)
Lemma rrbp_search_spec t fn l : in_hyper fn -> (forall o c, In (o, c) l -> 0 <= o <= 26) ->
  match rrbp_search t fn l with
  | Some (p, v) => exists o, In (o, v) l /\ p = (fn + o) mod HYP /\ block_start p /\ get_node t p = None
  | None => forall o v, In (o, v) l -> block_start ((fn + o) mod HYP) -> get_node t ((fn + o) mod HYP) <> None
  end.
Proof.
  intros HF. induction l as [|[o c] l IH]; intros B; cbn [rrbp_search]; [intros ? ? []|].
  assert (Bo : 0 <= o <= 26) by (apply (B o c); left; reflexivity).
  assert (Bl : forall o' c', In (o', c') l -> 0 <= o' <= 26) by (intros; eapply B; right; eauto).
  specialize (IH Bl). rewrite next_fn_spec by (auto; lia).
  pose proof (fn_valid_iff ((fn + o) mod HYP)) as V.
  assert (STEP : (block_start ((fn + o) mod HYP) -> get_node t ((fn + o) mod HYP) <> None) ->
    match rrbp_search t fn l with
    | Some (p, v) => exists o', In (o', v) ((o, c) :: l) /\ p = (fn + o') mod HYP /\ block_start p /\ get_node t p = None
    | None => forall o' v, In (o', v) ((o, c) :: l) -> block_start ((fn + o') mod HYP) -> get_node t ((fn + o') mod HYP) <> None
    end).
  { intros N. destruct (rrbp_search t fn l) as [[p v]|].
    - destruct IH as (o' & I & X). exists o'. split; [right; exact I|exact X].
    - intros o' v [E|I]; [injection E as <- <-; exact N|apply (IH o' v I)]. }
  destruct (fn_valid ((fn + o) mod HYP)) eqn:E; cbn [negb].
  - destruct (fn_is_free t ((fn + o) mod HYP)) eqn:F.
    + exists o. split; [left; reflexivity|]. split; [reflexivity|]. split; [apply V; reflexivity|].
      unfold fn_is_free in F. destruct (get_node t _); [discriminate|reflexivity].
    + apply STEP. intros _. unfold fn_is_free in F. destruct (get_node t _); [congruence|discriminate].
  - apply STEP. intros X. apply V in X. discriminate.
Qed.

Lemma rrbp_in o v : In (o, v) rrbp_list <-> In o (rrbp_offsets v) /\ 0 <= v <= 3.
Proof.
  unfold rrbp_list, rrbp_offsets. cbn [In]. split.
  - intros I. repeat (destruct I as [I|I]; [injection I as <- <-; cbn [Z.eqb Pos.eqb In]; split; [tauto|lia]|]).
    destruct I.
  - intros [I V]. assert (C : v = 0 \/ v = 1 \/ v = 2 \/ v = 3) by lia.
    destruct C as [-> | [-> | [-> | ->]]]; cbn [Z.eqb Pos.eqb In] in I;
      repeat (destruct I as [<-|I]); try contradiction; tauto.
Qed.

Lemma rrbp_unique_chk :
  forallb (fun r => implb (bsb r) (negb (bsb ((r + 17) mod 52) && bsb ((r + 18) mod 52)) &&
                                   negb (bsb ((r + 21) mod 52) && bsb ((r + 22) mod 52)))) (zrange 52) = true.
Proof. vm_compute; reflexivity. Qed.
Lemma rrbp_exists_chk :
  forallb (fun r => implb (bsb r) (bsb ((r + 13) mod 52) && (bsb ((r + 17) mod 52) || bsb ((r + 18) mod 52)) &&
                                   (bsb ((r + 21) mod 52) || bsb ((r + 22) mod 52)) && bsb ((r + 26) mod 52))) (zrange 52) = true.
Proof. vm_compute; reflexivity. Qed.

Lemma bs_off fn o : block_start ((fn + o) mod HYP) <-> bsb ((fn mod 52 + o) mod 52) = true.
Proof. rewrite block_start_mod. unfold block_start. rewrite add_mod52, bsb_iff. tauto. Qed.
Lemma answer_unique fn v p p' : block_start fn -> answers_in fn v p -> answers_in fn v p' -> p = p'.
Proof.
  intros B (o & I & -> & S) (o' & I' & -> & S'). apply bs_off in S. apply bs_off in S'.
  pose proof (zrange_forall 52 _ rrbp_unique_chk (fn mod 52) (mod52_range fn)) as C. cbv beta in C.
  rewrite (proj2 (bsb_iff _) B) in C. cbn [implb] in C. apply andb_prop in C as [C1 C2].
  apply negb_true_iff in C1. apply negb_true_iff in C2.
  unfold rrbp_offsets in *. destruct (v =? 0); [|destruct (v =? 1); [|destruct (v =? 2); [|destruct (v =? 3)]]];
    cbn [In] in *; repeat (destruct I as [<-|I]); try contradiction;
    repeat (destruct I' as [<-|I']); try contradiction; try reflexivity; exfalso;
    rewrite ?S, ?S' in *; cbn [andb] in *; congruence.
Qed.
Lemma answer_exists fn v : block_start fn -> 0 <= v <= 3 -> exists p, answers_in fn v p.
Proof.
  intros B V. pose proof (zrange_forall 52 _ rrbp_exists_chk (fn mod 52) (mod52_range fn)) as C. cbv beta in C.
  rewrite (proj2 (bsb_iff _) B) in C. cbn [implb] in C.
  apply andb_prop in C as [C C4]. apply andb_prop in C as [C C3]. apply andb_prop in C as [C1 C2].
  apply orb_prop in C2. apply orb_prop in C3.
  assert (X : forall o, In o (rrbp_offsets v) -> bsb ((fn mod 52 + o) mod 52) = true -> exists p, answers_in fn v p).
  { intros o I E. exists ((fn + o) mod HYP), o. split; [exact I|]. split; [reflexivity|]. apply bs_off. exact E. }
  assert (K : v = 0 \/ v = 1 \/ v = 2 \/ v = 3) by lia.
  destruct K as [-> | [-> | [-> | ->]]].
  - apply (X 13); cbn; auto.
  - destruct C2 as [C2|C2]; [apply (X 17)|apply (X 18)]; cbn; auto.
  - destruct C3 as [C3|C3]; [apply (X 21)|apply (X 22)]; cbn; auto.
  - apply (X 26); cbn; auto.
Qed.

(** The walk for the next free frame. *)
Lemma walk_ok now l c : in_hyper now -> srt now l -> Forall (inwin now) l ->
  in_hyper c -> block_start c -> ahead now c + 5 * Z.of_nat (length l) < HALF ->
  let f := next_free_walk l c in
  in_hyper f /\ block_start f /\ ahead now c <= ahead now f <= ahead now c + 5 * Z.of_nat (length l) /\
  (forall it, In it l -> i_fn it <> f) /\
  (forall x, in_hyper x -> block_start x -> ahead now c <= ahead now x < ahead now f ->
     exists it, In it l /\ i_fn it = x).
Proof.
  intros Hn. revert c. induction l as [|it l IH]; intros c S W Hc Bc A; cbn [next_free_walk length] in *.
  - cbv zeta. splits; auto; try lia; intros x _ _ X; lia.
  - inversion S as [|? ? S1 F]; subst. rewrite Forall_forall in F. inversion W as [|? ? [Wa Wb] W1]; subst.
    assert (Ac : ahead now c < HALF) by lia.
    pose proof (fncmp_ahead now (i_fn it) c Hn Wa Hc Wb Ac) as [C1 C2].
    pose proof (fncmp_eq (i_fn it) c) as C3.
    destruct (0 <? fncmp (i_fn it) c) eqn:E1.
    + cbv zeta. splits; auto; try lia.
      intros y [<-|Y]; [intros X; rewrite X in C2; lia|].
      intros X. specialize (F y Y). unfold lt_at in F. rewrite X in F. lia.
    + destruct (fncmp (i_fn it) c =? 0) eqn:E2.
      * assert (EQ : i_fn it = c) by (apply C3; lia).
        destruct (next_block_ok c Hc Bc) as (N1 & N2 & N3 & N4 & _).
        assert (AN : ahead now (fn_next_block c) = ahead now c + ahead c (fn_next_block c)).
        { pose proof (ahead_back c _ N1) as AB. pose proof (ahead_back now c Hc) as AC.
          rewrite <- AB at 1. rewrite <- AC at 1. rewrite Zplus_mod_idemp_l, <- Z.add_assoc. apply ahead_add.
          pose proof (ahead_range now c). rewrite H_val. unfold HALF in *. lia. }
        specialize (IH (fn_next_block c) S1 W1 N1 N2 ltac:(lia)). cbv zeta in IH.
        destruct IH as (P1 & P2 & P3 & P4 & P5). cbv zeta. splits; auto; try lia.
        -- intros y [<-|Y]; [|auto]. intros X. rewrite EQ in X. rewrite <- X in P3. lia.
        -- intros x Hx Bx X. destruct (Z.lt_ge_cases (ahead now x) (ahead now (fn_next_block c))) as [L|G].
           ++ destruct (Z.eq_dec (ahead now x) (ahead now c)) as [D|D].
              ** exists it. split; [left; reflexivity|]. rewrite EQ. symmetry. apply (ahead_inj now); auto.
              ** exfalso. apply (N4 (ahead now x - ahead now c)); [lia|].
                 pose proof (ahead_back now c Hc) as AC.
                 replace ((c + (ahead now x - ahead now c)) mod HYP) with x; [exact Bx|].
                 rewrite <- AC at 1. rewrite Zplus_mod_idemp_l.
                 replace (now + ahead now c + (ahead now x - ahead now c)) with (now + ahead now x) by lia.
                 symmetry. apply ahead_back; auto.
           ++ destruct (P5 x Hx Bx ltac:(lia)) as (y & Y & E). exists y. split; [right; exact Y|exact E].
      * assert (LT : ahead now (i_fn it) < ahead now c) by lia.
        specialize (IH c S1 W1 Hc Bc ltac:(lia)). cbv zeta in IH.
        destruct IH as (P1 & P2 & P3 & P4 & P5). cbv zeta. splits; auto; try lia.
        -- intros y [<-|Y]; [|auto]. intros X. rewrite X in LT. lia.
        -- intros x Hx Bx X. destruct (P5 x Hx Bx X) as (y & Y & E). exists y. split; [right; exact Y|exact E].
Qed.
End Bal.

(** ** What expiry does, in terms of entries *)
Lemma t_release_tbfs_val l m fn :
  t_release_tbfs m l fn =
  match m fn with Some o => if existsb (fun b => owned_by b o) l then None else Some o | None => None end.
Proof.
  unfold t_release_tbfs. revert m. induction l as [|b l IH]; intros m; cbn [fold_left existsb].
  - destruct (m fn); reflexivity.
  - rewrite IH. unfold t_release_tbf. destruct (m fn) as [o|]; [|reflexivity].
    destruct (owned_by b o); cbn [orb]; [reflexivity|]. reflexivity.
Qed.

(** Entries at offsets [j .. j+n) from [now]: either reported (once, in order) or released
    by an earlier reaction; the others are kept unless released by a reaction. *)
Lemma t_expire_exact frees now n : forall m j m' rep,
  0 <= j -> j + Z.of_nat n <= HYP -> in_hyper now ->
  t_expire frees m ((now + j) mod HYP) n = (m', rep) ->
  StronglySorted (fun a b => ahead now (i_fn a) < ahead now (i_fn b)) rep /\
  Forall (fun it => m (i_fn it) = Some (i_own it) /\ in_hyper (i_fn it) /\
                    j <= ahead now (i_fn it) < j + Z.of_nat n) rep /\
  (forall fn, in_hyper fn -> j <= ahead now fn < j + Z.of_nat n ->
     m' fn = None /\
     forall o, m fn = Some o -> In (mk_item fn o) rep \/
       exists it, In it rep /\ ahead now (i_fn it) < ahead now fn /\
                  exists b, In b (frees it) /\ owned_by b o = true) /\
  (forall fn, in_hyper fn -> ~ (j <= ahead now fn < j + Z.of_nat n) ->
     m' fn = match m fn with Some o => if freed_by frees rep o then None else Some o | None => None end).
Proof.
  induction n as [|n IH]; intros m j m' rep J0 JH Hn E; cbn [t_expire] in E.
  - injection E as <- <-. splits; try constructor; try (intros; lia).
    intros fn _ _. cbn. destruct (m fn); reflexivity.
  - assert (JJ : ahead now ((now + j) mod HYP) = j) by (apply ahead_add; lia).
    assert (NX : ((now + j) mod HYP + 1) mod HYP = (now + (j + 1)) mod HYP).
    { rewrite Zplus_mod_idemp_l. f_equal. lia. }
    rewrite NX in E. set (c := (now + j) mod HYP) in *.
    assert (HC : in_hyper c) by apply in_hyper_mod.
    destruct (m c) as [o|] eqn:M.
    + set (it := mk_item c o) in *. set (m1 := t_release_tbfs (t_set m c None) (frees it)) in *.
      destruct (t_expire frees m1 ((now + (j + 1)) mod HYP) n) as [m2 rep2] eqn:E2.
      injection E as <- <-.
      destruct (IH m1 (j + 1) m2 rep2 ltac:(lia) ltac:(lia) Hn E2) as (A & B & C & D).
      assert (V : forall fn, m1 fn = if fn =? c then None else
                 match m fn with Some o' => if existsb (fun b => owned_by b o') (frees it) then None else Some o' | None => None end).
      { intros fn. unfold m1. rewrite t_release_tbfs_val. unfold t_set. destruct (fn =? c); reflexivity. }
      splits.
      * constructor; auto. rewrite Forall_forall in *. intros y Y. destruct (B y Y) as (_ & _ & L).
        unfold it; cbn [i_fn]. rewrite JJ. lia.
      * constructor.
        -- unfold it; cbn [i_fn i_own]. rewrite JJ. splits; auto; lia.
        -- rewrite Forall_forall in *. intros y Y. destruct (B y Y) as (Q & R & L). splits; auto; try lia.
           rewrite V in Q. destruct (i_fn y =? c); [discriminate|]. destruct (m (i_fn y)) as [o'|]; [|discriminate].
           destruct (existsb _ (frees it)); [discriminate|exact Q].
      * intros fn Hf L. destruct (Z.eq_dec (ahead now fn) j) as [EQ|NE].
        -- assert (fn = c) by (apply (ahead_inj now); auto; rewrite JJ; exact EQ). subst fn.
           rewrite (D c HC) by lia. rewrite V, Z.eqb_refl. split; [reflexivity|].
           intros o' Eo. left. left. unfold it. congruence.
        -- destruct (C fn Hf ltac:(lia)) as [C1 C2]. split; [exact C1|].
           intros o' Eo. specialize (C2 o'). rewrite V in C2.
           destruct (fn =? c) eqn:FC; [apply Z.eqb_eq in FC; subst fn; lia|].
           rewrite Eo in C2. destruct (existsb (fun b => owned_by b o') (frees it)) eqn:X.
           ++ right. exists it. split; [left; reflexivity|]. split; [unfold it; cbn [i_fn]; lia|].
              apply existsb_exists in X. exact X.
           ++ destruct (C2 eq_refl) as [I|(y & Y & Z)]; [left; right; exact I|right; exists y; split; [right; exact Y|exact Z]].
      * intros fn Hf L. rewrite (D fn Hf) by lia. rewrite V.
        destruct (fn =? c) eqn:FC; [apply Z.eqb_eq in FC; subst fn; lia|].
        destruct (m fn) as [o'|]; [|reflexivity].
        unfold freed_by. cbn [flat_map]. rewrite existsb_app.
        destruct (existsb (fun b => owned_by b o') (frees it)); reflexivity.
    + destruct (IH m (j + 1) m' rep ltac:(lia) ltac:(lia) Hn E) as (A & B & C & D).
      splits; auto.
      * rewrite Forall_forall in *. intros y Y. destruct (B y Y) as (Q & R & L). splits; auto; lia.
      * intros fn Hf L. destruct (Z.eq_dec (ahead now fn) j) as [EQ|NE].
        -- assert (fn = c) by (apply (ahead_inj now); auto; rewrite JJ; exact EQ). subst fn.
           rewrite (D c HC) by lia. rewrite M. split; [reflexivity|intros; congruence].
        -- apply C; auto. lia.
      * intros fn Hf L. apply D; auto. lia.
Qed.
