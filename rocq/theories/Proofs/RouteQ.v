(** Proofs about the routing of uplink blocks: the books of the timeslot. *)
From Coq Require Import ZArith Lia List Bool.
From Verif Require Import Base.Arith Model.TbfFsm Spec.TbfFsmSpec Proofs.TbfFsmP Proofs.TbfFsmQ
  Model.TbfSub Spec.TbfSubSpec Proofs.TbfSubP Proofs.TbfSubQ Proofs.TbfSubR Model.Route Spec.RouteSpec Proofs.RouteP.
Import ListNotations.
Open Scope Z_scope.

(** * Lists *)
Lemma find_app1 : forall {A} (f : A -> bool) l x, find f l = Some x -> In x l /\ f x = true.
Proof. intros A f l x H. apply find_some in H. exact H. Qed.

Lemma get_in : forall id s x, get id s = Some x -> In x (s_tbfs s) /\ r_id x = id.
Proof. intros id s x H. apply find_some in H. destruct H as [A B]. split; [exact A|]. apply Z.eqb_eq. exact B. Qed.

Lemma find_nodup : forall {A} (k : A -> Z) l x, NoDup (map k l) -> In x l -> find (fun y => k y =? k x) l = Some x.
Proof.
  intros A k l x. induction l as [|a l IH]; intros N I; [destruct I|]. cbn in *. inversion N as [|? ? N1 N2]; subst.
  destruct (k a =? k x) eqn:E.
  - apply Z.eqb_eq in E. destruct I as [<-|I]; [reflexivity|]. exfalso. apply N1. rewrite E. apply in_map. exact I.
  - destruct I as [->|I]; [rewrite Z.eqb_refl in E; discriminate | exact (IH N2 I)].
Qed.

Lemma in_get : forall s x, NoDup (map r_id (s_tbfs s)) -> In x (s_tbfs s) -> get (r_id x) s = Some x.
Proof. intros s x N I. exact (find_nodup r_id _ _ N I). Qed.

Lemma node_at_in : forall fn s n, node_at fn s = Some n -> In (fn, n) (s_nodes s).
Proof.
  intros fn s n H. unfold node_at in H. destruct (find _ _) as [[f m]|] eqn:F; [|discriminate]. cbn in H. injection H as ->.
  apply find_some in F. destruct F as [F1 F2]. cbn in F2. apply Z.eqb_eq in F2. subst f. exact F1.
Qed.
Lemma in_node_at : forall fn s n, NoDup (map fst (s_nodes s)) -> In (fn, n) (s_nodes s) -> node_at fn s = Some n.
Proof. intros fn s n N I. unfold node_at. pose proof (find_nodup fst _ _ N I) as X. cbn [fst] in X. rewrite X. reflexivity. Qed.
Lemma node_none : forall fn s, node_at fn s = None -> ~ In fn (map fst (s_nodes s)).
Proof.
  intros fn s H I. apply in_map_iff in I. destruct I as ([f n] & E & I). cbn in E. subst f.
  unfold node_at in H. destruct (find _ _) eqn:F; [discriminate|].
  pose proof (find_none _ _ F _ I) as X. cbn in X. rewrite Z.eqb_refl in X. discriminate.
Qed.

Lemma filter_split : forall (f : Z * node -> bool) fn l n, NoDup (map fst l) -> In (fn, n) l ->
  length (filter f l) = Nat.add (if f (fn, n) then 1%nat else 0%nat) (length (filter f (filter (fun q => negb (fst q =? fn)) l))).
Proof.
  intros f fn l n. induction l as [|[g m] l IH]; intros N I; [destruct I|].
  cbn [map fst] in N. inversion N as [|? ? N1 N2]; subst. cbn [filter fst].
  destruct (g =? fn) eqn:E; cbn [negb].
  - apply Z.eqb_eq in E. subst g.
    assert (X : filter (fun q : Z * node => negb (fst q =? fn)) l = l).
    { clear - N1. induction l as [|[g m] l IH]; [reflexivity|]. cbn [filter fst] in *. cbn in N1.
      destruct (g =? fn) eqn:E; [apply Z.eqb_eq in E; tauto|]. cbn [negb]. rewrite IH; tauto. }
    rewrite X. destruct I as [I|I].
    + injection I as ->. destruct (f (fn, n)); reflexivity.
    + exfalso. apply N1. change fn with (fst (fn, n)). apply in_map. exact I.
  - destruct I as [I|I]; [injection I as -> ->; rewrite Z.eqb_refl in E; discriminate|].
    cbn [filter]. specialize (IH N2 I). destruct (f (g, m)); cbn [length]; lia.
Qed.

Lemma filter_same : forall {A} (f : A -> bool) l, (forall x, In x l -> f x = true) -> filter f l = l.
Proof.
  intros A f l H. induction l as [|a l IH]; [reflexivity|]. cbn. rewrite (H a (or_introl eq_refl)), IH; [reflexivity|].
  intros x I. apply H. right. exact I.
Qed.
Lemma filter_none : forall {A} (f : A -> bool) l, (forall x, In x l -> f x = false) -> filter f l = [].
Proof.
  intros A f l H. induction l as [|a l IH]; [reflexivity|]. cbn. rewrite (H a (or_introl eq_refl)). apply IH.
  intros x I. apply H. right. exact I.
Qed.
Lemma nodup_filter : forall {A B} (k : A -> B) f l, NoDup (map k l) -> NoDup (map k (filter f l)).
Proof.
  intros A B k f l. induction l as [|a l IH]; intros N; [exact N|]. cbn in *. inversion N as [|? ? N1 N2]; subst.
  destruct (f a); [|exact (IH N2)]. cbn. constructor; [|exact (IH N2)].
  intros I. apply N1. apply in_map_iff in I. destruct I as (y & <- & I). apply filter_In in I. apply in_map. tauto.
Qed.
Lemma filter_filter_same : forall (f g : Z * node -> bool) l, (forall x, In x l -> f x = true -> g x = true) ->
  filter f (filter g l) = filter f l.
Proof.
  intros f g l H. induction l as [|a l IH]; [reflexivity|]. cbn.
  assert (IH' : filter f (filter g l) = filter f l) by (apply IH; intros x I; apply H; right; exact I).
  destruct (g a) eqn:G; cbn; [destruct (f a); rewrite IH'; reflexivity|].
  destruct (f a) eqn:F; [|exact IH']. rewrite (H a (or_introl eq_refl) F) in G. discriminate.
Qed.

(** * TBFs that were born *)
Lemma run_snoc : forall c ops t o t1 l1, sub_run c t ops = Some (t1, l1) ->
  forall t2 l2, sub_step c t1 o = Some (t2, l2) -> sub_run c t (ops ++ [o]) = Some (t2, l1 ++ l2).
Proof.
  intros c ops. induction ops as [|p ops IH]; intros t o t1 l1 R t2 l2 S.
  - cbn in R. injection R as <- <-. cbn [app sub_run]. rewrite S. cbn. rewrite app_nil_r. reflexivity.
  - cbn [sub_run app] in *. destruct (sub_step c t p) as [[x m]|]; [|discriminate].
    destruct (sub_run c x ops) as [[y k]|] eqn:R1; [|discriminate]. injection R as <- <-.
    rewrite (IH x o y k R1 t2 l2 S). rewrite app_assoc. reflexivity.
Qed.
Lemma born_step : forall c t o t' l, born c t -> sub_step c t o = Some (t', l) -> born c t'.
Proof.
  intros c t o t' l (d & w & now & l1 & l3 & l5 & t0 & ops & outs & N & R) S.
  exists d, w, now, l1, l3, l5, t0, (ops ++ [o]), (outs ++ l). split; [exact N|]. exact (run_snoc _ _ _ _ _ _ R _ _ S).
Qed.
Lemma born_inv : forall c t, born c t -> alive t -> inv c t.
Proof. intros c t (d & w & now & l1 & l3 & l5 & t0 & ops & outs & N & R) A. exact (run_reach _ _ _ _ _ _ _ _ _ _ _ N R A). Qed.
Lemma born_goes : forall c t o, born c t -> alive t -> exists t' l, sub_step c t o = Some (t', l).
Proof. intros c t o B A. destruct (good_step c t o (born_inv _ _ B A) A) as (t' & l & S & _). eauto. Qed.
Lemma step_dir : forall c t o t' l, alive t -> sub_step c t o = Some (t', l) -> t_dir t' = t_dir t.
Proof.
  intros c t o t' l A S. destruct (step_K c t o t' l A S) as [E|(r & _ & E)].
  - unfold after, K in E. destruct o; try (injection E; congruence).
    all: repeat match type of E with context [match ?x with _ => _ end] => destruct x eqn:? end; cbn in E; injection E; congruence.
  - unfold K in E. cbn in E. injection E. congruence.
Qed.

(** * The books *)
Definition leq (b : bool) (m n : nat) : Prop := if b then m = n else (m <= n)%nat.

Definition books (c : tconf) (b : bool) (e : Z -> reason -> nat) (g : Z -> nat) (s : rst) (x : rtbf) : Prop :=
  born c (r_t x) /\ alive (r_t x) /\
  (forall r, leq b (polls_of s (r_id x) r + e (r_id x) r) (outstanding r (r_t x))) /\
  (grants_of s (r_id x) + g (r_id x) = t_usf (r_t x))%nat.

Definition unique (l : list rtbf) : Prop :=
  NoDup (map r_id l) /\
  (forall x y d tfi, In x l -> In y l -> is_tfi d tfi x = true -> is_tfi d tfi y = true -> r_id x = r_id y) /\
  (forall x y d m, In x l -> In y l -> is_cur d m x = true -> is_cur d m y = true -> r_id x = r_id y).

Definition sound (c : tconf) (b : bool) (e : Z -> reason -> nat) (g : Z -> nat) (s : rst) : Prop :=
  unique (s_tbfs s) /\ NoDup (map fst (s_nodes s)) /\
  (forall fn n id, In (fn, n) (s_nodes s) -> owner n = Some id -> exists x, In x (s_tbfs s) /\ r_id x = id) /\
  (forall x, In x (s_tbfs s) -> books c b e g s x).

Ltac cut := try unfold sound; try unfold books; repeat match goal with |- _ /\ _ => split end.

Definition e0 : Z -> reason -> nat := fun _ _ => 0%nat.
Definition g0 : Z -> nat := fun _ => 0%nat.
Definition e1 (id : Z) (r : reason) : Z -> reason -> nat := fun i q => if (i =? id) && reason_eqb r q then 1%nat else 0%nat.
Definition g1 (id : Z) : Z -> nat := fun i => if i =? id then 1%nat else 0%nat.

Lemma reason_eqb_eq : forall a b, reason_eqb a b = true <-> a = b.
Proof. intros [] []; cbn; split; congruence. Qed.

Lemma sound_init : forall c b, sound c b e0 g0 r_init.
Proof.
  intros c b. unfold sound, unique, r_init. cbn. cut; try constructor; intros; try contradiction.
Qed.

(** Only the TBFs and the nodes matter. *)
Lemma sound_eq : forall c b e g s s', s_tbfs s' = s_tbfs s -> s_nodes s' = s_nodes s ->
  sound c b e g s -> sound c b e g s'.
Proof.
  intros c b e g s s' E F (A & B & C & D). unfold sound. rewrite E, F. cut; try assumption.
  intros x I. specialize (D x I). unfold books, polls_of, grants_of in *. rewrite F. exact D.
Qed.
Lemma sound_debt : forall c b e g e' g' s,
  (forall x, In x (s_tbfs s) -> (forall r, e' (r_id x) r = e (r_id x) r) /\ g' (r_id x) = g (r_id x)) ->
  sound c b e g s -> sound c b e' g' s.
Proof.
  intros c b e g e' g' s H (A & B & C & D). cut; try assumption. intros x I.
  destruct (D x I) as (D1 & D2 & D3 & D4), (H x I) as (H1 & H2). cut; try assumption.
  - intros r. rewrite H1. apply D3.
  - rewrite H2. exact D4.
Qed.

Lemma sub_nodes : forall fn s p, In p (s_nodes (release fn s)) -> In p (s_nodes s).
Proof. intros fn s p I. cbn in I. apply filter_In in I. tauto. Qed.

Lemma release_poll : forall c b s fn id r, sound c b e0 g0 s -> node_at fn s = Some (NPoll id r) ->
  sound c b (e1 id r) g0 (release fn s).
Proof.
  intros c b s fn id r (A & B & C & D) N. apply node_at_in in N. unfold sound.
  split; [exact A|]. split; [apply nodup_filter; exact B|]. split.
  - intros f n i I O. exact (C f n i (sub_nodes _ _ _ I) O).
  - intros x I. destruct (D x I) as (D1 & D2 & D3 & D4). cut; try assumption.
    + intros q. specialize (D3 q). unfold polls_of, e0, e1 in *. rewrite (filter_split _ _ _ _ B N) in D3.
      unfold poll_of at 1 in D3. cbn [snd] in D3. cbn [release s_nodes set_nodes].
      rewrite (Z.eqb_sym (r_id x) id). destruct ((id =? r_id x) && reason_eqb r q); unfold leq in *; destruct b; lia.
    + rewrite <- D4. unfold grants_of, g0. rewrite (filter_split _ _ _ _ B N). reflexivity.
Qed.
Lemma release_usf : forall c b s fn id, sound c b e0 g0 s -> node_at fn s = Some (NUsf id) ->
  sound c b e0 (g1 id) (release fn s).
Proof.
  intros c b s fn id (A & B & C & D) N. apply node_at_in in N. unfold sound.
  split; [exact A|]. split; [apply nodup_filter; exact B|]. split.
  - intros f n i I O. exact (C f n i (sub_nodes _ _ _ I) O).
  - intros x I. destruct (D x I) as (D1 & D2 & D3 & D4). cut; try assumption.
    + intros q. specialize (D3 q). unfold polls_of, e0 in *. rewrite (filter_split _ _ _ _ B N) in D3. exact D3.
    + rewrite <- D4. unfold grants_of, g0, g1. rewrite (filter_split _ _ _ _ B N).
      unfold grant_of at 2. cbn [snd]. cbn [release s_nodes set_nodes].
      rewrite (Z.eqb_sym (r_id x) id). destruct (id =? r_id x); lia.
Qed.
Lemma release_other : forall c b s fn n, sound c b e0 g0 s -> node_at fn s = Some n ->
  match n with NPoll _ _ => b = false | NUsf _ => False | _ => True end ->
  sound c b e0 g0 (release fn s).
Proof.
  intros c b s fn n SO N H. destruct n as [id r | id | id | ].
  - subst b. pose proof (release_poll _ _ _ _ _ _ SO N) as (A & B & C & D). cut; try assumption.
    intros x I. destruct (D x I) as (D1 & D2 & D3 & D4). cut; try assumption.
    intros q. specialize (D3 q). unfold leq, e0 in *. lia.
  - destruct H.
  - destruct SO as (A & B & C & D). apply node_at_in in N. unfold sound.
    split; [exact A|]. split; [apply nodup_filter; exact B|]. split.
    + intros f n i I O. exact (C f n i (sub_nodes _ _ _ I) O).
    + intros x I. destruct (D x I) as (D1 & D2 & D3 & D4). cut; try assumption.
      * intros q. specialize (D3 q). unfold polls_of, e0 in *. rewrite (filter_split _ _ _ _ B N) in D3. exact D3.
      * rewrite <- D4. unfold grants_of, g0. rewrite (filter_split _ _ _ _ B N). reflexivity.
  - destruct SO as (A & B & C & D). apply node_at_in in N. unfold sound.
    split; [exact A|]. split; [apply nodup_filter; exact B|]. split.
    + intros f n i I O. exact (C f n i (sub_nodes _ _ _ I) O).
    + intros x I. destruct (D x I) as (D1 & D2 & D3 & D4). cut; try assumption.
      * intros q. specialize (D3 q). unfold polls_of, e0 in *. rewrite (filter_split _ _ _ _ B N) in D3. exact D3.
      * rewrite <- D4. unfold grants_of, g0. rewrite (filter_split _ _ _ _ B N). reflexivity.
Qed.
Lemma release_nothing : forall fn s, node_at fn s = None -> release fn s = s.
Proof.
  intros fn s N. unfold release. rewrite filter_same; [destruct s; reflexivity|].
  intros [f n] I. cbn. destruct (f =? fn) eqn:E; [|reflexivity]. apply Z.eqb_eq in E. subst f.
  exfalso. apply (node_none _ _ N). change fn with (fst (fn, n)). apply in_map. exact I.
Qed.

Lemma unique_sub : forall f l, unique l -> unique (filter f l).
Proof.
  intros f l (A & B & C). unfold unique. split; [apply nodup_filter; exact A|].
  split; [intros x y d k I J | intros x y d k I J]; apply filter_In in I, J; [apply B | apply C]; tauto.
Qed.

Lemma remove_sound : forall c b e g s id, sound c b e g s -> sound c b e g (remove id s).
Proof.
  intros c b e g s id (A & B & C & D). unfold sound. cbn [remove s_tbfs s_nodes].
  split; [apply unique_sub; exact A|]. split; [apply nodup_filter; exact B|]. split.
  - intros fn n i I O. apply filter_In in I. destruct I as [I J]. destruct (C fn n i I O) as (x & X & E).
    exists x. split; [|exact E]. apply filter_In. split; [exact X|]. unfold is_id. cbn in J. unfold owned in J. rewrite O in J.
    rewrite E. exact J.
  - intros x I. apply filter_In in I. destruct I as [I J]. destruct (D x I) as (D1 & D2 & D3 & D4).
    unfold is_id in J. apply negb_true_iff in J.
    assert (NE : r_id x <> id) by (apply Z.eqb_neq; exact J).
    cut; try assumption.
    + intros r. specialize (D3 r). unfold polls_of in *. cbn [remove s_nodes].
      rewrite filter_filter_same; [exact D3|]. intros [f n] _ P. unfold poll_of in P. cbn [snd] in *.
      destruct n as [i q| | |]; try discriminate. apply andb_true_iff in P. destruct P as [P _]. apply Z.eqb_eq in P. subst i.
      unfold owned. cbn. rewrite J. reflexivity.
    + rewrite <- D4. unfold grants_of. cbn [remove s_nodes]. f_equal. f_equal.
      apply filter_filter_same. intros [f n] _ P. unfold grant_of in P. cbn [snd] in *.
      destruct n as [ | i | |]; try discriminate. apply Z.eqb_eq in P. subst i. unfold owned. cbn. rewrite J. reflexivity.
Qed.

Lemma unique_map : forall f l, (forall x, In x l -> r_id (f x) = r_id x /\ r_ms (f x) = r_ms x /\ r_tfi (f x) = r_tfi x /\
  r_dir (f x) = r_dir x /\ (r_cur (f x) = true -> r_cur x = true)) -> unique l -> unique (map f l).
Proof.
  intros f l H (A & B & C). unfold unique. split.
  - rewrite map_map. rewrite (map_ext_in _ r_id); [exact A|]. intros x I. apply H. exact I.
  - split; intros x y d k I J X Y; apply in_map_iff in I, J; destruct I as (u & <- & I), J as (v & <- & J);
      destruct (H u I) as (U1 & U2 & U3 & U4 & U5), (H v J) as (V1 & V2 & V3 & V4 & V5); rewrite U1, V1.
    + apply (B u v d k I J); unfold is_tfi in *; congruence.
    + apply (C u v d k I J).
      * unfold is_cur in *. rewrite U4, U2 in X. apply andb_true_iff in X. destruct X as [X1 X2]. rewrite X1, (U5 X2). reflexivity.
      * unfold is_cur in *. rewrite V4, V2 in Y. apply andb_true_iff in Y. destruct Y as [Y1 Y2]. rewrite Y1, (V5 Y2). reflexivity.
Qed.

Lemma store_sound : forall c b e g e' g' s x t l o, sound c b e g s -> In x (s_tbfs s) ->
  sub_step c (r_t x) o = Some (t, l) ->
  (forall r, outstanding r t + e (r_id x) r = outstanding r (r_t x) + e' (r_id x) r)%nat ->
  (t_usf t + g (r_id x) = t_usf (r_t x) + g' (r_id x))%nat ->
  (forall i, i <> r_id x -> (forall r, e' i r = e i r) /\ g' i = g i) ->
  sound c b e' g' (store x t s).
Proof.
  intros c b e g e' g' s x t l o SO IX S HE HG HO.
  destruct SO as (A & B & C & D). pose proof (D x IX) as (X1 & X2 & X3 & X4).
  unfold store. destruct (f_dead (t_f t)) eqn:DD.
  - apply (sound_debt c b e g).
    + cbn [remove s_tbfs]. intros y I. apply filter_In in I. destruct I as [_ I]. unfold is_id in I.
      apply negb_true_iff in I. apply Z.eqb_neq in I. apply HO. exact I.
    + apply remove_sound. cut; assumption.
  - pose proof (step_dir _ _ _ _ _ X2 S) as DI.
    assert (OWN : forall y, In y (s_tbfs s) -> is_id (r_id x) y = true -> y = x).
    { intros y I E. unfold is_id in E. apply Z.eqb_eq in E.
      pose proof (in_get s y (proj1 A) I) as G1. pose proof (in_get s x (proj1 A) IX) as G2. rewrite E in G1. congruence. }
    unfold sound. cbn [set_tbfs s_tbfs s_nodes]. split; [|split; [exact B|split]].
    + apply unique_map; [|exact A]. intros y I. destruct (is_id (r_id x) y) eqn:E; [|auto 8].
      rewrite (OWN y I E). unfold r_dir. cbn. auto 8.
    + intros fn n id I O. destruct (C fn n id I O) as (y & Y1 & Y2).
      exists (if is_id (r_id x) y then with_t t y else y). split.
      * apply in_map_iff. exists y. auto.
      * destruct (is_id (r_id x) y); exact Y2.
    + intros z I. apply in_map_iff in I. destruct I as (y & <- & I). destruct (is_id (r_id x) y) eqn:E.
      * rewrite (OWN y I E). unfold books. cbn [with_t r_t r_id]. unfold polls_of, grants_of in *. cbn [s_nodes set_tbfs].
        cut; [exact (born_step _ _ _ _ _ X1 S) | exact DD | | lia].
        intros r. specialize (X3 r). specialize (HE r). unfold leq in *. destruct b; lia.
      * unfold is_id in E. apply Z.eqb_neq in E. destruct (D y I) as (Y1 & Y2 & Y3 & Y4). destruct (HO (r_id y) E) as (H1 & H2).
        unfold books, polls_of, grants_of in *. cbn [s_nodes set_tbfs]. cut; try assumption.
        -- intros r. rewrite H1. apply Y3.
        -- rewrite H2. exact Y4.
Qed.
