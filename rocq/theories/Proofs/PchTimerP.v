(** Proofs about the paging timers. *)
From Coq Require Import ZArith List Bool Lia.
From Verif Require Import Base.Arith Model.PchTimer Spec.PchTimerSpec.
Import ListNotations.
Open Scope Z_scope.

Lemma str_eq_spec a b : str_eq a b = true <-> a = b.
Proof. unfold str_eq. destruct (list_eq_dec Z.eq_dec a b); split; congruence. Qed.
Lemma str_eq_refl a : str_eq a a = true. Proof. now apply str_eq_spec. Qed.
Lemma str_eq_no a b : a <> b -> str_eq a b = false.
Proof. intro H. destruct (str_eq a b) eqn:E; [apply str_eq_spec in E; congruence|reflexivity]. Qed.

Definition ids (l : list pch) : list imsi := map p_imsi l.

Lemma by_imsi_some i l x : by_imsi i l = Some x -> In x l /\ p_imsi x = i.
Proof. intro H. apply find_some in H. destruct H as [A B]. now apply str_eq_spec in B. Qed.
Lemma by_imsi_none i l : by_imsi i l = None -> ~ In i (ids l).
Proof.
  intros H I. apply in_map_iff in I. destruct I as (x & E & I). pose proof (find_none _ _ H x I) as B.
  cbv beta in B. rewrite E, str_eq_refl in B. discriminate.
Qed.
Lemma by_imsi_in i l x : NoDup (ids l) -> In x l -> p_imsi x = i -> by_imsi i l = Some x.
Proof.
  induction l as [|y l IH]; intros N I E; [destruct I|]. unfold by_imsi, ids in *. cbn [find map] in *.
  inversion N as [|? ? Ny Nl]; subst. destruct (str_eq (p_imsi y) (p_imsi x)) eqn:Q.
  - apply str_eq_spec in Q. destruct I as [->|I]; [reflexivity|]. exfalso. apply Ny. rewrite Q. now apply in_map.
  - destruct I as [->|I]; [rewrite str_eq_refl in Q; discriminate|]. auto.
Qed.
Lemma by_imsi_out i l : ~ In i (ids l) -> by_imsi i l = None.
Proof.
  intro H. destruct (by_imsi i l) as [x|] eqn:Q; [|reflexivity]. exfalso. apply by_imsi_some in Q. destruct Q as [A B].
  apply H. rewrite <- B. now apply in_map.
Qed.

Lemma remove_sub f l x : In x (pch_remove f l) -> In x l.
Proof. induction l as [|y l IH]; cbn [pch_remove]; [tauto|]. destruct (f y); cbn [In]; tauto. Qed.
Lemma remove_ids f l : NoDup (ids l) -> NoDup (ids (pch_remove f l)).
Proof.
  induction l as [|y l IH]; intro N; cbn [pch_remove]; [exact N|]. unfold ids in *. cbn [map] in N. inversion N; subst.
  destruct (f y); [assumption|]. cbn [map]. constructor; [|auto]. intro I. apply H1. apply in_map_iff in I.
  destruct I as (x & E & I). rewrite <- E. apply in_map. now apply remove_sub in I.
Qed.
(** The removed entry is the first one selected. *)
Lemma remove_first f l x : NoDup (ids l) -> find f l = Some x ->
  forall y, In y (pch_remove f l) <-> In y l /\ p_imsi y <> p_imsi x.
Proof.
  induction l as [|z l IH]; intros N H y; [discriminate|]. unfold ids in *. cbn [find map pch_remove] in *.
  inversion N as [|? ? Nz Nl]; subst. destruct (f z) eqn:F.
  - injection H as <-. split.
    + intro I. split; [now right|]. intro E. apply Nz. rewrite <- E. now apply in_map.
    + intros [[->|I] E]; [congruence|exact I].
  - specialize (IH Nl H). assert (Hz : p_imsi z <> p_imsi x).
    { intro E. apply Nz. rewrite E. apply in_map. now apply find_some in H. }
    cbn [In]. rewrite IH. split; [intros [->|I]; tauto|intros [[->|I] E]; tauto].
Qed.

Lemma filter_ids f l : NoDup (ids l) -> NoDup (ids (filter f l)).
Proof.
  induction l as [|y l IH]; intro N; cbn [filter]; [exact N|]. unfold ids in *. cbn [map] in N. inversion N; subst.
  destruct (f y); [|auto]. cbn [map]. constructor; [|auto]. intro I. apply H1. apply in_map_iff in I.
  destruct I as (x & E & I). rewrite <- E. apply in_map. now apply filter_In in I.
Qed.

Lemma step_ids c o c' : NoDup (ids (pl c)) -> p_step c o = Some c' -> NoDup (ids (pl c')).
Proof.
  intros N H. destruct o as [s p i|t i|d| |t]; cbn [p_step] in H.
  - injection H as <-. unfold page_ps. destruct (by_imsi i (pl c)) eqn:Q; [exact N|]. destruct s; [|exact N].
    unfold pch_start. cbn [pl]. unfold ids. rewrite map_app. cbn [map p_imsi].
    rewrite <- (rev_involutive (map p_imsi _ ++ _)). apply NoDup_rev. rewrite rev_app_distr. cbn [rev app].
    constructor; [|now apply NoDup_rev]. rewrite <- in_rev. now apply by_imsi_none.
  - unfold pch_stop in H.
    destruct (if negb (t =? RESERVED) then by_ptmsi t (pl c) else Some None) as [[x|]|]; [| |discriminate].
    + injection H as <-. now apply remove_ids.
    + destruct i as [|d i]; [injection H as <-; exact N|]. destruct (by_imsi (d :: i) (pl c)); injection H as <-; [now apply remove_ids|exact N].
  - injection H as <-. exact N.
  - injection H as <-. now apply filter_ids.
  - injection H as <-. exact N.
Qed.
Lemma step_ok c o : exists c', p_step c o = Some c'.
Proof.
  destruct o as [s p i|t i|d| |t]; cbn [p_step]; eauto. unfold pch_stop.
  destruct (t =? RESERVED) eqn:E; cbn [negb].
  - destruct i as [|d i]; eauto. destruct (by_imsi (d :: i) (pl c)); eauto.
  - unfold by_ptmsi. rewrite E. destruct (find _ (pl c)); eauto. destruct i as [|d i]; eauto.
    destruct (by_imsi (d :: i) (pl c)); eauto.
Qed.
Theorem never_asserts : forall n t ops, exists c, p_run (cell_new n t) ops = Some c.
Proof.
  intros n t ops. generalize (cell_new n t). induction ops as [|o ops IH]; intro c; cbn [p_run]; [eauto|].
  destruct (step_ok c o) as (c' & ->). apply IH.
Qed.
Theorem one_timer : forall n t ops c, p_run (cell_new n t) ops = Some c -> NoDup (map p_imsi (pl c)).
Proof.
  intros n t ops c. assert (N : NoDup (ids (pl (cell_new n t)))) by constructor. revert N. generalize (cell_new n t).
  induction ops as [|o ops IH]; intros c0 N H; cbn [p_run] in H; [injection H as <-; exact N|].
  destruct (step_ok c0 o) as (c' & E). rewrite E in H. apply (IH c'); [|exact H]. now apply (step_ids c0 o).
Qed.

Lemma find_app {A} f (a b : list A) : find f (a ++ b) = match find f a with Some x => Some x | None => find f b end.
Proof. induction a as [|x a IH]; cbn [app find]; [reflexivity|]. destruct (f x); auto. Qed.

(** The abstraction to one subscriber. *)
Definition view (i : imsi) (c : cell) : sub :=
  Sub (option_map (fun x => (if p_ptmsi x =? RESERVED then None else Some (p_ptmsi x), p_end x)) (by_imsi i (pl c))) (now c) (t3113 c).

Definition inv (c : cell) : Prop := NoDup (ids (pl c)) /\ ~ In [] (ids (pl c)).

Lemma step_inv c o c' : proper o -> inv c -> p_step c o = Some c' -> inv c'.
Proof.
  intros P [N E] H. split; [now apply (step_ids c o)|]. intro I. apply E. clear E.
  destruct o as [s p i|t i|d| |t]; cbn [p_step] in H.
  - injection H as <-. unfold page_ps in I. destruct (by_imsi i (pl c)); [exact I|]. destruct s; [|exact I].
    unfold pch_start, ids in I. cbn [pl] in I. rewrite map_app in I. apply in_app_iff in I. destruct I as [I|[I|[]]]; [exact I|].
    cbn in I. subst i. destruct p; cbn in P; tauto.
  - unfold pch_stop in H.
    assert (G : forall f, In [] (ids (pch_remove f (pl c))) -> In [] (ids (pl c))).
    { intros f X. apply in_map_iff in X. destruct X as (x & Ex & X). apply remove_sub in X. rewrite <- Ex. now apply in_map. }
    destruct (if negb (t =? RESERVED) then by_ptmsi t (pl c) else Some None) as [[x|]|]; [| |discriminate].
    + injection H as <-. now apply G in I.
    + destruct i as [|d i]; [injection H as <-; exact I|]. destruct (by_imsi (d :: i) (pl c)); injection H as <-; [now apply G in I|exact I].
  - injection H as <-. exact I.
  - injection H as <-. cbn [pch_timers pl] in I. unfold ids in *. apply in_map_iff in I. destruct I as (x & Ex & X).
    apply filter_In in X. rewrite <- Ex. apply in_map. tauto.
  - injection H as <-. exact I.
Qed.

Lemma by_imsi_eq i l l' : NoDup (ids l) -> NoDup (ids l') -> (forall x, p_imsi x = i -> (In x l <-> In x l')) -> by_imsi i l = by_imsi i l'.
Proof.
  intros N N' H. destruct (by_imsi i l') as [x|] eqn:Q.
  - apply by_imsi_some in Q. destruct Q as [A B]. apply by_imsi_in; [exact N| |exact B]. now apply H.
  - apply by_imsi_none in Q. apply by_imsi_out. intro I. apply Q. apply in_map_iff in I. destruct I as (x & E & I).
    rewrite <- E. apply in_map. apply H; auto.
Qed.

Lemma same_spec i x tlli j : tlli <> RESERVED \/ p_ptmsi x = RESERVED ->
  is_same i (if p_ptmsi x =? RESERVED then None else Some (p_ptmsi x)) tlli j = true <->
  (p_ptmsi x = tlli /\ tlli <> RESERVED) \/ (j <> [] /\ j = i).
Proof.
  intro D. unfold is_same. rewrite orb_true_iff, andb_true_iff, negb_true_iff, str_eq_spec.
  assert (Ej : str_eq j [] = false <-> j <> []).
  { destruct (str_eq j []) eqn:E; [apply str_eq_spec in E|]; split; try congruence. intros _ F. rewrite F, str_eq_refl in E. discriminate. }
  rewrite Ej. destruct (Z.eqb_spec (p_ptmsi x) RESERVED) as [H|H].
  - split; [intros [A|A]; [discriminate|now right]|intros [A|A]; [exfalso; destruct A; congruence|now right]].
  - rewrite Z.eqb_eq. destruct D as [D|D]; [|congruence]. tauto.
Qed.

Lemma ptmsi_find t l : find (fun x => negb (p_ptmsi x =? RESERVED) && (p_ptmsi x =? t)) l = None -> t <> RESERVED ->
  forall x, In x l -> p_ptmsi x <> t.
Proof.
  intros H T x I E. pose proof (find_none _ _ H x I) as B. cbv beta in B. rewrite E in B.
  rewrite Z.eqb_refl, (proj2 (Z.eqb_neq _ _) T) in B. discriminate.
Qed.

Lemma step_view i c o c' : i <> [] -> proper o -> inv c -> clear_stop c o -> p_step c o = Some c' ->
  view i c' = s_step i (view i c) o.
Proof.
  intros Hi P [N E0] C H. pose proof (step_ids c o c' N H) as N'. destruct o as [s p j|t j|d| |t]; cbn [p_step] in H.
  - injection H as <-. unfold page_ps in *. unfold view at 2. cbn [s_step s_page s_now s_t].
    destruct (by_imsi j (pl c)) as [x|] eqn:Qj.
    + unfold view. destruct (by_imsi i (pl c)) as [y|] eqn:Qi; [reflexivity|]. cbn [option_map].
      rewrite (str_eq_no j i) by congruence. reflexivity.
    + destruct s.
      * unfold view, pch_start. cbn [pl now t3113]. unfold by_imsi. rewrite find_app. fold (by_imsi i (pl c)).
        destruct (by_imsi i (pl c)) as [y|] eqn:Qi; [reflexivity|]. cbn [find p_imsi option_map].
        rewrite andb_true_r. destruct (str_eq j i) eqn:Q; [|reflexivity]. cbn [option_map p_ptmsi p_end].
        destruct p as [p|]; cbn [proper] in P; [rewrite (proj2 (Z.eqb_neq p RESERVED)) by tauto; reflexivity|reflexivity].
      * rewrite andb_false_r. unfold view. destruct (by_imsi i (pl c)); reflexivity.
  - unfold pch_stop in H. cbn [clear_stop] in C.
    (* an entry was found under the P-TMSI *)
    assert (A : t = RESERVED \/ t <> RESERVED) by lia.
    assert (G : (t <> RESERVED /\ exists x, find (fun x => negb (p_ptmsi x =? RESERVED) && (p_ptmsi x =? t)) (pl c) = Some x /\
                   Some c' = Some (Cell (pch_remove (fun x => negb (p_ptmsi x =? RESERVED) && (p_ptmsi x =? t)) (pl c)) (now c) (t3113 c))) \/
                ((t = RESERVED \/ forall x, In x (pl c) -> p_ptmsi x <> t) /\
                  match j with [] => Some c | _ => match by_imsi j (pl c) with
                    | Some _ => Some (Cell (pch_remove (fun x => str_eq (p_imsi x) j) (pl c)) (now c) (t3113 c)) | None => Some c end end = Some c')).
    { destruct A as [->|A].
      - right. rewrite Z.eqb_refl in H. cbn [negb] in H. split; [now left|exact H].
      - rewrite (proj2 (Z.eqb_neq _ _) A) in H. cbn [negb] in H. unfold by_ptmsi in H. rewrite (proj2 (Z.eqb_neq _ _) A) in H.
        destruct (find _ (pl c)) as [x|] eqn:F.
        + left. split; [exact A|]. exists x. split; [reflexivity|now symmetry].
        + right. split; [right; now apply ptmsi_find|exact H]. }
    destruct G as [(T & x & F & Ec)|(T & Ec)].
    + injection Ec as ->. cbn [pl] in N'. pose proof (remove_first _ _ _ N F) as R.
      apply find_some in F. destruct F as [Ix Ex]. apply andb_true_iff in Ex. destruct Ex as [_ Ex]. apply Z.eqb_eq in Ex.
      unfold view. cbn [pl now t3113 s_step s_page s_now s_t].
      destruct (by_imsi i (pl c)) as [y|] eqn:Qi; cbn [option_map].
      * apply by_imsi_some in Qi. destruct Qi as [Iy Ey].
        destruct (C x y Ix Iy T Ex) as [C1 C2].
        destruct (list_eq_dec Z.eq_dec (p_imsi x) i) as [D|D].
        -- assert (y = x) by (pose proof (by_imsi_in i _ y N Iy Ey); pose proof (by_imsi_in i _ x N Ix D); congruence). subst y.
           rewrite (proj2 (same_spec i x t j (or_introl T))) by (left; tauto).
           rewrite by_imsi_out; [reflexivity|]. intro I. apply in_map_iff in I. destruct I as (z & Ez & I). apply R in I. rewrite D in I. tauto.
        -- assert (Hn : is_same i (if p_ptmsi y =? RESERVED then None else Some (p_ptmsi y)) t j = false).
           { apply not_true_is_false. intro S. apply same_spec in S; [|now left]. destruct S as [[S _]|[S1 S2]].
             - apply D. rewrite <- Ey. symmetry. now apply C1.
             - destruct C2; congruence. }
           rewrite Hn. rewrite (by_imsi_in i _ y N'); [reflexivity| |exact Ey]. apply R. split; [exact Iy|congruence].
      * rewrite by_imsi_out; [reflexivity|]. apply by_imsi_none in Qi. intro I. apply Qi. apply in_map_iff in I.
        destruct I as (z & Ez & I). rewrite <- Ez. apply in_map. now apply remove_sub in I.
    + assert (Sm : forall y, In y (pl c) -> is_same i (if p_ptmsi y =? RESERVED then None else Some (p_ptmsi y)) t j = negb (str_eq j []) && str_eq j i).
      { intros y Iy. unfold is_same. destruct (Z.eqb_spec (p_ptmsi y) RESERVED) as [Q|Q]; [reflexivity|].
        destruct T as [T|T]; [|specialize (T y Iy)]; rewrite (proj2 (Z.eqb_neq _ _)) by congruence; reflexivity. }
      unfold view. cbn [s_step s_page s_now s_t].
      destruct j as [|d j].
      * injection Ec as <-. destruct (by_imsi i (pl c)) as [y|] eqn:Qi; cbn [option_map]; [|reflexivity].
        pose proof (by_imsi_some _ _ _ Qi) as [Iy _]. rewrite (Sm y Iy), str_eq_refl. reflexivity.
      * destruct (by_imsi (d :: j) (pl c)) as [x|] eqn:Qj.
        -- injection Ec as <-. cbn [pl now t3113] in *. pose proof (remove_first _ _ _ N Qj) as R.
           pose proof (by_imsi_some _ _ _ Qj) as [Ix Ex].
           destruct (by_imsi i (pl c)) as [y|] eqn:Qi; cbn [option_map].
           ++ pose proof (by_imsi_some _ _ _ Qi) as [Iy Ey]. rewrite (Sm y Iy). rewrite (str_eq_no (d :: j) []) by discriminate. cbn [negb andb].
              destruct (str_eq (d :: j) i) eqn:Q.
              ** apply str_eq_spec in Q. rewrite by_imsi_out; [reflexivity|]. intro I. apply in_map_iff in I. destruct I as (z & Ez & I). apply R in I.
                 destruct I as [_ I]. congruence.
              ** rewrite (by_imsi_in i _ y N'); [reflexivity| |exact Ey]. apply R. split; [exact Iy|]. intro X. rewrite <- Ey, X, Ex, str_eq_refl in Q. discriminate.
           ++ rewrite by_imsi_out; [reflexivity|]. apply by_imsi_none in Qi. intro I. apply Qi. apply in_map_iff in I.
              destruct I as (z & Ez & I). rewrite <- Ez. apply in_map. now apply remove_sub in I.
        -- injection Ec as <-. destruct (by_imsi i (pl c)) as [y|] eqn:Qi; cbn [option_map]; [|reflexivity].
           pose proof (by_imsi_some _ _ _ Qi) as [Iy Ey]. rewrite (Sm y Iy). rewrite (str_eq_no (d :: j) i) by congruence. rewrite andb_false_r. reflexivity.
  - injection H as <-. reflexivity.
  - injection H as <-. unfold view. cbn [pch_timers pl now t3113 s_step s_page s_now s_t] in *.
    destruct (by_imsi i (pl c)) as [y|] eqn:Qi; cbn [option_map].
    + pose proof (by_imsi_some _ _ _ Qi) as [Iy Ey]. destruct (Z.leb_spec (p_end y) (now c)) as [L|L].
      * rewrite by_imsi_out; [reflexivity|]. intro I. apply in_map_iff in I. destruct I as (z & Ez & I). apply filter_In in I.
        destruct I as [Iz Lz]. rewrite (by_imsi_in i _ z N Iz Ez) in Qi. injection Qi as ->. lia.
      * rewrite (by_imsi_in i _ y N'); [reflexivity| |exact Ey]. apply filter_In. split; [exact Iy|]. now apply Z.ltb_lt.
    + rewrite by_imsi_out; [reflexivity|]. apply by_imsi_none in Qi. intro I. apply Qi. apply in_map_iff in I.
      destruct I as (z & Ez & I). apply filter_In in I. rewrite <- Ez. apply in_map. tauto.
  - injection H as <-. reflexivity.
Qed.

Theorem refines : forall i n t ops c, i <> [] -> Forall proper ops -> clear_run (cell_new n t) ops ->
  p_run (cell_new n t) ops = Some c -> view i c = s_run i (Sub None n t) ops.
Proof.
  intros i n t ops c Hi. change (Sub None n t) with (view i (cell_new n t)).
  assert (I : inv (cell_new n t)) by (split; [constructor|intros []]). revert I. generalize (cell_new n t). unfold s_run.
  induction ops as [|o ops IH]; intros c0 I P C H; cbn [p_run fold_left] in *; [injection H as <-; reflexivity|].
  inversion P as [|? ? Po Pl]; subst. destruct C as [Co Cl]. destruct (p_step c0 o) as [c'|] eqn:E; [|discriminate].
  rewrite <- (step_view i c0 o c' Hi Po I Co E). apply IH; auto. now apply (step_inv c0 o).
Qed.

Theorem reported_exactly : forall i n t ops c, i <> [] -> Forall proper ops -> clear_run (cell_new n t) ops ->
  p_run (cell_new n t) ops = Some c -> (reported i c = true <-> s_page (s_run i (Sub None n t) ops) <> None).
Proof.
  intros i n t ops c Hi P C H. rewrite <- (refines i n t ops c Hi P C H). unfold view, reported. cbn [s_page].
  destruct (by_imsi i (pl c)); cbn [option_map]; split; congruence.
Qed.

(** Stopping, whatever the P-TMSIs. *)
Theorem stop_other : forall t j c c', NoDup (map p_imsi (pl c)) -> pch_stop t j c = Some c' ->
  exists gone, (length gone <= 1)%nat /\ forall i, reported i c' = true <-> reported i c = true /\ ~ In i gone.
Proof.
  intros t j c c' N H. pose proof (step_ids c (Stop t j) c' N H) as N'. unfold pch_stop in H.
  assert (R0 : forall c, forall i, reported i c = true <-> In i (ids (pl c))).
  { intros c0 i. unfold reported. destruct (by_imsi i (pl c0)) as [x|] eqn:Q.
    - pose proof (by_imsi_some _ _ _ Q) as [A B]. split; [intros _; rewrite <- B; now apply in_map|reflexivity].
    - apply by_imsi_none in Q. split; [discriminate|tauto]. }
  assert (G : forall f x, find f (pl c) = Some x -> forall i, In i (ids (pch_remove f (pl c))) <-> In i (ids (pl c)) /\ ~ In i [p_imsi x]).
  { intros f x F i. pose proof (remove_first _ _ _ N F) as R. unfold ids. rewrite !in_map_iff. cbn [In]. split.
    - intros (y & <- & I). apply R in I. split; [exists y; tauto|]. intros [X|[]]. destruct I as [_ I]. congruence.
    - intros [(y & <- & I) X]. exists y. split; [reflexivity|]. apply R. split; [exact I|]. intro Y. apply X. left. congruence. }
  destruct (if negb (t =? RESERVED) then by_ptmsi t (pl c) else Some None) as [[x|]|] eqn:Q; [| |discriminate].
  - injection H as <-. unfold by_ptmsi in Q. destruct (t =? RESERVED); cbn [negb] in Q; [discriminate|]. injection Q as Q.
    exists [p_imsi x]. split; [auto|]. intro i. rewrite !R0. cbn [pl]. now apply G.
  - destruct j as [|d j]; [injection H as <-; exists []; split; [auto|]; intro i; cbn; tauto|].
    destruct (by_imsi (d :: j) (pl c)) as [x|] eqn:Qj; injection H as <-.
    + exists [p_imsi x]. split; [auto|]. intro i. rewrite !R0. cbn [pl]. now apply G.
    + exists []. split; [auto|]. intro i. cbn. tauto.
Qed.
