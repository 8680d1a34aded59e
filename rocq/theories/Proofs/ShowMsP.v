(** Lemmas about the display of mobiles. *)
From Coq Require Import ZArith List Bool Lia.
From Verif Require Import Base.Arith Model.MsTlli Model.ShowPdch Model.ShowMs Spec.MsTlliSpec Spec.ShowPdchSpec Spec.ShowMsSpec.
From Verif Require Import Proofs.MsTlliP Proofs.ShowPdchP.
Import ListNotations.
Local Open Scope Z_scope.

Definition ids (s : store) : list Z := map c_id (st_list s).
Lemma modify_ids i f s : (forall c, c_id (f c) = c_id c) -> ids (modify i f s) = ids s.
Proof.
  intros F. unfold ids, modify. cbn [st_list]. rewrite map_map. apply map_ext. intros c. destruct (c_id c =? i); auto.
Qed.
Lemma merge_ids c o s s' : merge c o s = Some s' -> ids s' = ids s.
Proof.
  unfold merge. destruct (c =? o); [discriminate|]. intros X. apply some_same in X. subst s'. rewrite !modify_ids; auto.
  intros x. destruct (_ && _); reflexivity.
Qed.
Lemma announce_ids i x s s' : announce i x s = Some s' -> ids s' = ids s.
Proof.
  unfold announce. destruct (x =? RES); [intros X; apply some_same in X; now subst|].
  destruct (find_id i s) as [c|]; [|intros X; apply some_same in X; now subst].
  destruct (if check_tlli (c_tl c) x then None else get_ms x RES 0 s) as [o|]; intros X.
  - rewrite (merge_ids _ _ _ _ X). now apply modify_ids.
  - apply some_same in X. subst s'. now apply modify_ids.
Qed.
Lemma set_imsi_ids i m s s' : set_imsi i m s = Some s' -> ids s' = ids s.
Proof.
  unfold set_imsi. destruct (find_id i s) as [c|]; [|intros X; apply some_same in X; now subst].
  destruct (c_imsi c =? m); [intros X; apply some_same in X; now subst|].
  destruct (get_by_imsi m s) as [o|].
  - destruct (merge i (c_id o) s) as [s1|] eqn:M; [|discriminate]. intros X. apply some_same in X. subst s'.
    rewrite modify_ids by auto. exact (merge_ids _ _ _ _ M).
  - intros X. apply some_same in X. subst s'. now apply modify_ids.
Qed.
Definition grown (b : bool) (s : store) : list Z := if b then st_next s :: ids s else ids s.
Definition is_none {A} (o : option A) : bool := match o with Some _ => false | None => true end.
Lemma dl_ids x old m s s' j : dl_handle x old m s = Some (s', j) -> ids s' = grown (is_none (get_ms x old m s)) s.
Proof.
  unfold dl_handle. set (fd := match get_ms x old m s with Some c => _ | None => _ end).
  assert (F : forall s1 i1, fd = Some (s1, i1) -> ids s1 = grown (is_none (get_ms x old m s)) s).
  { intros s1 i1. unfold fd. destruct (get_ms x old m s) as [c|]; cbn [is_none grown].
    - destruct (_ && _); [|intros X; injection X as <- _; reflexivity].
      destruct (get_by_imsi m s) as [o|]; [|intros X; injection X as <- _; reflexivity].
      destruct (c_id o =? c_id c); [intros X; injection X as <- _; reflexivity|].
      destruct (merge (c_id c) (c_id o) s) as [s2|] eqn:M; [|discriminate]. cbn [option_map]. intros X. injection X as <- _.
      exact (merge_ids _ _ _ _ M).
    - intros X. injection X as <- _. reflexivity. }
  clearbody fd. destruct fd as [[s1 i1]|]; [|discriminate]. specialize (F s1 i1 eq_refl). rewrite <- F.
  destruct (m =? 0).
  - intros X. apply some_same in X. injection X as <- _. now apply modify_ids.
  - destruct (set_imsi i1 m s1) as [s2|] eqn:I; [|discriminate]. intros X. apply some_same in X. injection X as <- _.
    rewrite modify_ids by auto. exact (set_imsi_ids _ _ _ _ I).
Qed.
Lemma named_ids x s : ids (ul_named x s) = grown (is_none (get_ms x RES 0 s)) s.
Proof.
  unfold ul_named. destruct (get_ms x RES 0 s); cbn [is_none grown]; [reflexivity|]. cbn [alloc]. rewrite modify_ids by auto. reflexivity.
Qed.
Lemma filter_ids i l : map c_id (filter (fun c => negb (c_id c =? i)) l) = filter (fun k => negb (k =? i)) (map c_id l).
Proof. induction l as [|c l IH]; [reflexivity|]. cbn [filter map]. destruct (negb (c_id c =? i)); cbn [map]; now rewrite IH. Qed.
Lemma find_id_none i s : find_id i s = None <-> ~ In i (ids s).
Proof.
  unfold find_id, ids. induction (st_list s) as [|c l IH]; cbn [find map In]; [tauto|].
  destruct (Z.eqb_spec (c_id c) i) as [E|E]; [split; [discriminate|intros X; elim X; now left]|]. rewrite IH. tauto.
Qed.
Lemma filter_none i l : ~ In i l -> filter (fun k => negb (k =? i)) l = l.
Proof.
  induction l as [|k l IH]; [reflexivity|]. cbn [In filter]. intros N. destruct (Z.eqb_spec k i) as [E|E]; [elim N; now left|]. cbn [negb].
  rewrite IH; tauto.
Qed.
Lemma filter_one i l : NoDup l -> In i l -> Z.of_nat (length (filter (fun k => negb (k =? i)) l)) = Z.of_nat (length l) - 1.
Proof.
  induction 1 as [|k l N D IH]; [intros []|]. cbn [In filter]. intros I. destruct (Z.eqb_spec k i) as [E|E]; cbn [negb length].
  - subst k. rewrite filter_none by exact N. lia.
  - destruct I as [I|I]; [congruence|]. rewrite !Nat2Z.inj_succ, IH by exact I. lia.
Qed.

Definition good (s : store) (k : Z) : Prop := inv s /\ NoDup (ids s) /\ k = Z.of_nat (length (st_list s)).
Lemma len_ids s : length (st_list s) = length (ids s).
Proof. unfold ids. now rewrite map_length. Qed.
Lemma grown_good s s' k b : good s k -> inv s' -> ids s' = grown b s -> good s' (k + if b then 1 else 0).
Proof.
  intros (I & D & ->) I' E. split; [exact I'|]. rewrite !len_ids, E. destruct b; cbn [grown length].
  - split; [|lia]. constructor; [|exact D]. unfold ids. rewrite in_map_iff. intros (c & E2 & J). pose proof (i_next _ I c J). lia.
  - split; [exact D|lia].
Qed.
Lemma good_step s k o : good s k -> real_op o -> exists s', m_step s o = Some s' /\ good s' (k + present_delta s o).
Proof.
  intros G R. pose proof G as (I & D & K). destruct (step_inv s o I R) as (s' & E & I'). exists s'. split; [exact E|].
  destruct o as [i x|x two ie m|x| |i]; cbn [m_step present_delta] in *.
  - apply (grown_good s s' k false G I'). exact (announce_ids _ _ _ _ E).
  - destruct (dl_handle x (old_tlli two ie) m s) as [[s1 j]|] eqn:H1; [|discriminate]. cbn [option_map fst] in E. apply some_same in E. subst s1.
    pose proof (grown_good s s' k _ G I' (dl_ids _ _ _ _ _ _ H1)) as Q. destruct (get_ms x (old_tlli two ie) m s); exact Q.
  - apply some_same in E. subst s'. pose proof (grown_good s _ k _ G I' (named_ids x s)) as Q. destruct (get_ms x RES 0 s); exact Q.
  - apply some_same in E. subst s'. exact (grown_good s _ k true G I' eq_refl).
  - apply some_same in E. subst s'. split; [exact I'|]. rewrite len_ids. unfold ids at 1 2. cbn [st_list]. rewrite filter_ids. fold (ids s).
    split; [now apply NoDup_filter|]. rewrite K, len_ids. destruct (find_id i s) as [c|] eqn:F.
    + rewrite filter_one; [lia|exact D|]. apply find_id_some in F. destruct F as (J & <-). unfold ids. now apply in_map.
    + rewrite filter_none by now apply find_id_none. lia.
Qed.
Lemma good_run ops : forall s k, good s k -> Forall real_op ops ->
  exists s' k', present_run s k ops = Some (s', k') /\ m_run s ops = Some s' /\ good s' k'.
Proof.
  induction ops as [|o ops IH]; intros s k G F; [exists s, k; auto|]. inversion F; subst. cbn [present_run m_run].
  destruct (good_step s k o G H1) as (s' & -> & G'). now apply IH.
Qed.
Lemma good_empty : good m_empty 0.
Proof. split; [exact empty_inv|]. split; [constructor|reflexivity]. Qed.

Lemma get_tlli_iff s c x : inv s -> (get_ms x RES 0 s = Some c <-> In c (st_list s) /\ has_tlli c x).
Proof.
  intros I. unfold has_tlli. rewrite <- check_iff. split.
  - intros G. apply get_ms_tlli in G. tauto.
  - intros (J & K). destruct (proj2 (found_iff s x c I J) K) as (d & G & E). rewrite G. f_equal.
    apply get_ms_tlli in G. apply (i_ids _ I); tauto.
Qed.
Lemma get_imsi_iff s c i : inv s -> (get_ms RES RES i s = Some c <-> In c (st_list s) /\ c_imsi c = i /\ i <> 0).
Proof.
  intros I. unfold get_ms. rewrite !Z.eqb_refl. cbn [negb orb]. split.
  - intros G. apply get_by_imsi_some in G. tauto.
  - intros (J & E & N). destruct (get_by_imsi i s) as [d|] eqn:G.
    + f_equal. apply get_by_imsi_some in G. destruct G as (_ & Jd & Ed). apply (i_ids _ I); auto. apply (i_imsi _ I); auto; congruence.
    + elim (get_by_imsi_none i s N G c J E).
Qed.
Lemma ms_tlli_has c : ms_tlli (c_tl c) <> RES -> has_tlli c (ms_tlli (c_tl c)).
Proof.
  unfold ms_tlli, has_tlli. intros V. split; [exact V|]. destruct (negb _); [auto|]. destruct (negb _); auto.
Qed.
Lemma ms_tlli_none c : ms_tlli (c_tl c) = RES -> forall x, ~ has_tlli c x.
Proof.
  unfold ms_tlli, has_tlli. intros E x (V & X). destruct (Z.eqb_spec (new_ul (c_tl c)) RES) as [A|A]; cbn [negb] in E; [|congruence].
  destruct (Z.eqb_spec (tlli (c_tl c)) RES) as [B|B]; cbn [negb] in E; [|congruence]. intuition congruence.
Qed.
Lemma show_one_inj s c d : inv s -> In c (st_list s) -> In d (st_list s) -> show_one c = show_one d -> c = d.
Proof. intros I A B E. apply (i_ids _ I); auto. exact (f_equal ml_id E). Qed.

Lemma show_history : forall ops, Forall real_op ops ->
  exists s k, present_run m_empty 0 ops = Some (s, k) /\ m_run m_empty ops = Some s /\
    k = Z.of_nat (length (show_all s)) /\ NoDup (map ml_id (show_all s)) /\
    (forall c, In c (st_list s) -> ml_tlli (show_one c) <> tlli_text RES -> show_by_tlli (ml_tlli (show_one c)) s = Shown (show_one c)) /\
    (forall c, In c (st_list s) -> (ml_tlli (show_one c) = tlli_text RES <-> forall x, ~ has_tlli c x)) /\
    (forall arg c, arg <> [] -> In c (st_list s) ->
       (show_by_tlli arg s = Shown (show_one c) <-> exists x, numeral_of arg x /\ has_tlli c x)) /\
    (forall i c, In c (st_list s) -> (show_by_imsi i s = Shown (show_one c) <-> c_imsi c = i /\ i <> 0)).
Proof.
  intros ops F. destruct (good_run ops m_empty 0 good_empty F) as (s & k & P & R & I & D & K).
  assert (RG : forall c, In c (st_list s) -> 0 <= ms_tlli (c_tl c) < 2 ^ 32).
  { intros c J. destruct (Z.eq_dec (ms_tlli (c_tl c)) RES) as [E|E]; [rewrite E; unfold RES; lia|].
    pose proof (ms_tlli_has c E) as Q. pose proof (i_real _ I c _ J (proj2 (check_iff _ _) Q)) as Y. unfold real, RES in Y. lia. }
  assert (TX : forall c, In c (st_list s) -> (ml_tlli (show_one c) = tlli_text RES <-> ms_tlli (c_tl c) = RES)).
  { intros c J. cbn [show_one ml_tlli]. split; [|now intros ->]. intros E. pose proof (text_read _ (RG c J)) as T. rewrite E, text_read in T by (unfold RES; lia).
    now apply some_same in T. }
  assert (LK : forall arg c, arg <> [] -> In c (st_list s) ->
       (show_by_tlli arg s = Shown (show_one c) <-> exists x, numeral_of arg x /\ has_tlli c x)).
  { intros arg c NE J. unfold show_by_tlli. split.
    - destruct (tlli_arg arg) as [x|] eqn:A; [|discriminate]. apply (tlli_arg_iff arg x NE) in A. unfold answer_of.
      destruct (get_ms x RES 0 s) as [d|] eqn:G; [|discriminate]. intros E. assert (E2 : show_one d = show_one c) by congruence.
      apply (get_tlli_iff s d x I) in G. destruct G as (Jd & Hd). rewrite (show_one_inj s d c I Jd J E2) in Hd. exists x. tauto.
    - intros (x & Nx & Hx). pose proof (i_real _ I c x J (proj2 (check_iff _ _) Hx)) as Y. unfold real, RES in Y.
      rewrite (proj2 (tlli_arg_iff arg x NE)) by (split; [exact Nx|lia]). rewrite (proj2 (get_tlli_iff s c x I)) by auto. reflexivity. }
  exists s, k. split; [exact P|]. split; [exact R|]. split; [unfold show_all; now rewrite map_length|].
  split; [unfold show_all; rewrite map_map; exact D|].
  split; [|split; [|split; [exact LK|]]].
  - intros c J N. apply (LK _ c); [discriminate|exact J|]. rewrite TX in N by exact J. exists (ms_tlli (c_tl c)).
    split; [apply text_numeral; auto|now apply ms_tlli_has].
  - intros c J. rewrite TX by exact J. split; [apply ms_tlli_none|]. intros N. destruct (Z.eq_dec (ms_tlli (c_tl c)) RES) as [E|E]; [exact E|].
    elim (N _ (ms_tlli_has c E)).
  - intros i c J. unfold show_by_imsi. split.
    + unfold answer_of. destruct (get_ms RES RES i s) as [d|] eqn:G; [|discriminate]. intros E. assert (E2 : show_one d = show_one c) by congruence.
      apply (get_imsi_iff s d i I) in G. destruct G as (Jd & Q). now rewrite (show_one_inj s d c I Jd J E2) in Q.
    + intros Q. rewrite (proj2 (get_imsi_iff s c i I)) by tauto. reflexivity.
Qed.
