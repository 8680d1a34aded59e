(** Application information: proofs. *)
From Coq Require Import ZArith List Bool Lia.
From Verif Require Import Model.CodingScheme Model.Sched Model.Csn1Enc Model.AppInfo
  Model.Paging Spec.PagingSpec Proofs.PagingP Spec.AppInfoSpec.
Import ListNotations.
Local Open Scope Z_scope.

(** ** Never sent *)
Lemma rot_loop_kind : forall n make k i m, rot_loop n make k i = Some m -> m_kind m <> KApp.
Proof.
  induction n; intros make k i m; cbn [rot_loop]; [discriminate|].
  destruct (next_list k i) as [t|]; [|apply IHn].
  destruct (rot_kind k t) as [kd|] eqn:R; [|apply IHn].
  destruct (make kd (t_id t)); [|apply IHn].
  intros E; injection E as <-. cbn [m_kind]. unfold rot_kind in R.
  repeat (destruct (_ && _) in R; [injection R as <-; discriminate|]).
  destruct (opt_is (k_ul_ack k) t); [injection R as <-; discriminate|].
  destruct (opt_is (k_nacc k) t); [injection R as <-; discriminate|discriminate].
Qed.
Lemma select_not_app : forall make st pg k p m, r_sent (select_ctrl make st pg k p) = Some m -> m_kind m <> KApp.
Proof.
  intros make st pg k p m. unfold select_ctrl.
  destruct (_ && st); [discriminate|].
  destruct (rot_loop 4 make k (p mod 4)) as [x|] eqn:R.
  { cbn [r_sent]. intros E; injection E as <-. eapply rot_loop_kind; eauto. }
  set (late := match k_dl_ass k with Some t => _ | None => _ end).
  assert (L : forall x, late = Some x -> m_kind x <> KApp).
  { intros x. subst late. destruct (k_dl_ass k) as [t|].
    - destruct (make KDlAss (t_id t)); [|discriminate]. intros E; injection E as <-. discriminate.
    - destruct (k_ul_ass k) as [t|]; [|discriminate]. destruct (make KUlAss (t_id t)); [|discriminate].
      intros E; injection E as <-. discriminate. }
  destruct late as [x|].
  - cbn [r_sent]. intros E; injection E as <-. now apply L.
  - destruct pg; cbn [r_sent]; [|discriminate]. intros E; injection E as <-. discriminate.
Qed.
Lemma step_not_app : forall o s m, o_sent (snd (astep o s)) = Some m -> m_kind m <> KApp.
Proof.
  intros o s m. destruct o as [a|a b|a|ty data|b]; cbn [astep snd o_sent]; try discriminate.
  - destruct (app_request ty data s); discriminate.
  - destruct (app_block b s) as [[s1 c] x] eqn:E. cbn [snd o_sent]. intros ->. unfold app_block in E.
    destruct (k_dl_ass _) as [t|]; [destruct (t_app t)|]; injection E as _ _ E; eapply select_not_app; eauto.
Qed.
Lemma never_sent : forall ops s x m, In x (snd (arun ops s)) -> o_sent x = Some m -> m_kind m <> KApp.
Proof.
  induction ops as [|o r IH]; intros s x m; cbn [arun]; [intros []|].
  destruct (astep o s) as [s1 y] eqn:E. destruct (arun r s1) as [s2 ys] eqn:R. cbn [snd In].
  intros [<-|H] X.
  - eapply step_not_app with (o := o) (s := s). now rewrite E.
  - eapply (IH s1); [rewrite R; exact H|exact X].
Qed.
(** When a copy is made nothing is sent at all in that block's control part. *)
Lemma copy_silent : forall o s c, o_copy (snd (astep o s)) = Some c -> o_sent (snd (astep o s)) = None.
Proof.
  intros o s c. destruct o as [a|a b|a|ty data|b]; cbn [astep snd o_copy o_sent]; try discriminate.
  - destruct (app_request ty data s); discriminate.
  - unfold app_block. destruct (k_dl_ass (a_cands b (c_ms s))) as [t|] eqn:K; [|discriminate].
    destruct (t_app t) eqn:T; [|discriminate]. cbn [snd o_copy o_sent].
    destruct (c_msg s) as [x|]; [|discriminate]. intros _. unfold select_ctrl. rewrite K, T. reflexivity.
Qed.

(** ** The candidate of the downlink assignment *)
Section Cand.
Context (f : ctbf -> ctbf).
Context (F : forall t, t_dl_ass (f t) = t_dl_ass t).
Lemma fold_ul : forall l k k', k_dl_ass k' = option_map f (k_dl_ass k) ->
  k_dl_ass (fold_left cand_ul (map f l) k') = option_map f (k_dl_ass (fold_left cand_ul l k)).
Proof.
  induction l as [|t l IH]; intros k k' E; cbn [map fold_left]; [exact E|]. apply IH. cbn [cand_ul k_dl_ass].
  rewrite F. destruct (t_dl_ass t); [reflexivity|exact E].
Qed.
Lemma fold_dl : forall l k k', k_dl_ass k' = option_map f (k_dl_ass k) ->
  k_dl_ass (fold_left cand_dl (map f l) k') = option_map f (k_dl_ass (fold_left cand_dl l k)).
Proof.
  induction l as [|t l IH]; intros k k' E; cbn [map fold_left]; [exact E|]. apply IH. cbn [cand_dl k_dl_ass].
  rewrite F. destruct (t_dl_ass t); [reflexivity|exact E].
Qed.
Lemma cand_map : forall ul dl,
  k_dl_ass (candidates (map f ul) (map f dl)) = option_map f (k_dl_ass (candidates ul dl)).
Proof. intros. unfold candidates. apply fold_dl, fold_ul. reflexivity. Qed.
End Cand.

(** ** Simulation *)
Definition mark (w : who) : ams := mk_ams (w_id w) (w_dl w) (is_some (w_due w)).
Definition dues (l : list who) : list who := filter (fun w => is_some (w_due w)) l.
Definition sim (s : acell) (l : list who) : Prop :=
  c_ms s = map mark l /\ NoDup (map w_id l) /\
  c_left s = Z.of_nat (length (dues l)) /\ c_left s < 4294967296 /\
  (forall w x, In w l -> w_due w = Some x -> c_msg s = Some x) /\
  (c_msg s <> None -> dues l <> []).

Lemma has_mark : forall l m, has_ms (map mark l) m = existsb (fun x => w_id x =? m) l.
Proof. induction l as [|w l IH]; intros m; cbn; [reflexivity|]. unfold has_ms in IH. now rewrite IH. Qed.
Lemma due_none_in : forall l m, NoDup (map w_id l) -> due_of l m = None -> forall w, In w l -> w_id w = m -> w_due w = None.
Proof.
  induction l as [|w l IH]; intros m N D y I E; [destruct I|]. cbn [map] in N. inversion N as [|? ? A B]; subst.
  unfold due_of in D. cbn [find] in D. destruct I as [->|I].
  - rewrite Z.eqb_refl in D. exact D.
  - destruct (Z.eqb_spec (w_id w) (w_id y)) as [X|X].
    + exfalso. apply A. rewrite X. now apply in_map.
    + exact (IH _ B D y I eq_refl).
Qed.
Lemma due_some_in : forall l m x, due_of l m = Some x -> exists w, In w l /\ w_id w = m /\ w_due w = Some x.
Proof.
  intros l m x. unfold due_of. destruct (find _ l) as [w|] eqn:E; [|discriminate].
  apply find_some in E as [I E]. apply Z.eqb_eq in E. intros D. eauto.
Qed.
Lemma flagged_mark : forall l m, NoDup (map w_id l) -> flagged (map mark l) m = is_some (due_of l m).
Proof.
  intros l m N. destruct (due_of l m) as [x|] eqn:D.
  - destruct (due_some_in _ _ _ D) as (w & I & E & X). cbn [is_some]. unfold flagged. apply existsb_exists.
    exists (mark w). split; [now apply in_map|]. cbn. rewrite X, E, Z.eqb_refl. reflexivity.
  - cbn [is_some]. unfold flagged. destruct (existsb _ _) eqn:X; [|reflexivity].
    apply existsb_exists in X as (y & I & E). apply in_map_iff in I as (w & <- & I). cbn in E.
    apply andb_true_iff in E as [E1 E2]. apply Z.eqb_eq in E1.
    rewrite (due_none_in l m N D w I E1) in E2. discriminate.
Qed.
Lemma nodup_filter : forall (f : who -> bool) l, NoDup (map w_id l) -> NoDup (map w_id (filter f l)).
Proof.
  intros f. induction l as [|w l IH]; intros N; cbn [filter map]; [constructor|]. cbn [map] in N.
  inversion N as [|? ? A B]; subst. destruct (f w); [|auto]. cbn [map]. constructor; [|auto].
  intros I. apply A. apply in_map_iff in I as (y & E & I). apply filter_In in I as [I _]. apply in_map_iff. eauto.
Qed.
Lemma map_ids : forall (g : who -> who) l, (forall w, In w l -> w_id (g w) = w_id w) -> map w_id (map g l) = map w_id l.
Proof. intros g l G. rewrite map_map. apply map_ext_in. exact G. Qed.

(** Taking one away. *)
Lemma dues_take : forall l m x, NoDup (map w_id l) -> due_of l m = Some x ->
  S (length (dues (map (fun y => if w_id y =? m then mk_who m (w_dl y) None else y) l))) = length (dues l).
Proof.
  induction l as [|w l IH]; intros m x N D; [discriminate|]. cbn [map] in N. inversion N as [|? ? A B]; subst.
  unfold due_of in D. cbn [find] in D. cbn [map]. destruct (Z.eqb_spec (w_id w) m) as [E|E].
  - unfold dues. cbn [filter w_due is_some]. rewrite D. cbn [is_some length]. f_equal.
    assert (X : map (fun y => if w_id y =? m then mk_who m (w_dl y) None else y) l = l).
    { rewrite <- (map_id l) at 2. apply map_ext_in. intros y I. destruct (Z.eqb_spec (w_id y) m); [|reflexivity].
      exfalso. apply A. rewrite E, <- e. now apply in_map. }
    now rewrite X.
  - specialize (IH m x B D). unfold dues in *. cbn [filter]. destruct (is_some (w_due w)); cbn [length]; lia.
Qed.
Lemma mark_take : forall l m,
  unflag (map mark l) m = map mark (map (fun y => if w_id y =? m then mk_who m (w_dl y) None else y) l).
Proof.
  intros l m. unfold unflag. rewrite !map_map. apply map_ext. intros w. cbn [mark i_id].
  destruct (Z.eqb_spec (w_id w) m) as [<-|]; reflexivity.
Qed.
Lemma len_filter : forall {A} (f : A -> bool) l, (length (filter f l) <= length l)%nat.
Proof. induction l as [|a l IH]; cbn; [lia|]. destruct (f a); cbn; lia. Qed.

Lemma sim_step : forall o s l, sim s l -> smooth l o ->
  sim (fst (astep o s)) (fst (give o l)) /\ o_copy (snd (astep o s)) = snd (give o l).
Proof.
  intros o s l (M & N & C & C32 & D & P) Sm. destruct o as [m|m b|m|ty data|b]; cbn [astep give fst snd o_copy].
  - split; [|reflexivity]. rewrite M, has_mark. destruct (existsb _ l) eqn:X.
    + repeat (split; [assumption|]). assumption.
    + split; [reflexivity|]. split; [|split; [exact C|split; [exact C32|split]]].
      * cbn [map w_id]. constructor; [|exact N]. intros I. apply in_map_iff in I as (w & E & I).
        assert (Y : existsb (fun x => w_id x =? m) l = true) by (apply existsb_exists; exists w; split; [exact I|now apply Z.eqb_eq]).
        congruence.
      * intros w x [<-|I]; [discriminate|now apply D].
      * exact P.
  - split; [|reflexivity].
    assert (DU : length (dues (map (fun x => if w_id x =? m then mk_who m b (w_due x) else x) l)) = length (dues l)).
    { clear. induction l as [|w l IH]; [reflexivity|]. cbn [map]. unfold dues in *. cbn [filter].
      destruct (w_id w =? m); cbn [w_due]; destruct (is_some (w_due w)); cbn [length]; lia. }
    split; [|split; [|split; [|split; [exact C32|split]]]]; cbn [c_ms c_msg c_left].
    + rewrite M. unfold set_ms. rewrite !map_map. apply map_ext. intros w. cbn [mark i_id i_flag].
      destruct (Z.eqb_spec (w_id w) m) as [<-|]; reflexivity.
    + rewrite map_ids; [exact N|]. intros w _. destruct (Z.eqb_spec (w_id w) m); cbn; congruence.
    + now rewrite DU.
    + intros w x I E. apply in_map_iff in I as (y & <- & I). destruct (w_id y =? m); eapply D; eauto.
    + intros H. specialize (P H). intros Z0. rewrite Z0 in DU. destruct (dues l); [congruence|discriminate].
  - split; [|reflexivity]. cbn [smooth] in Sm.
    assert (DU : dues (filter (fun x => negb (w_id x =? m)) l) = dues l).
    { pose proof (due_none_in l m N Sm) as Q. clear - Q. induction l as [|w l IH]; [reflexivity|].
      assert (IH' := IH (fun y I => Q y (or_intror I))). specialize (Q w (or_introl eq_refl)).
      cbn [filter]. destruct (Z.eqb_spec (w_id w) m) as [E|E]; cbn [negb].
      - rewrite IH'. unfold dues. cbn [filter]. now rewrite (Q E).
      - unfold dues in *. cbn [filter]. destruct (is_some (w_due w)); [now rewrite IH'|exact IH']. }
    split; [|split; [|split; [|split; [exact C32|split]]]]; cbn [c_ms c_msg c_left].
    + rewrite M. clear. induction l as [|w l IH]; [reflexivity|]. cbn [map filter mark i_id].
      destruct (w_id w =? m); cbn [negb map]; [exact IH|now rewrite IH].
    + now apply nodup_filter.
    + now rewrite DU.
    + intros w x I E. apply filter_In in I as [I _]. eapply D; eauto.
    + rewrite DU. exact P.
  - cbn [smooth] in Sm. destruct Sm as (NE & ALL & B32).
    assert (FL : length (filter i_dl (c_ms s)) = length (filter w_dl l)).
    { rewrite M. clear. induction l as [|w l IH]; [reflexivity|]. cbn [map filter mark i_dl].
      destruct (w_dl w); cbn [length]; congruence. }
    unfold app_request. rewrite FL. pose proof (len_filter w_dl l) as LF.
    rewrite Z.mod_small by lia.
    set (g := fun x => if w_dl x then mk_who (w_id x) true (app_msg ty data) else x).
    assert (MK : map (fun m => if i_dl m then mk_ams (i_id m) true true else m) (c_ms s) = map mark (map g l)).
    { rewrite M, !map_map. apply map_ext. intros w. unfold g. cbn [mark i_dl i_id].
      destruct (w_dl w); [|reflexivity]. unfold mark; cbn [w_id w_dl w_due]. destruct data; [congruence|reflexivity]. }
    assert (ND : NoDup (map w_id (map g l))).
    { rewrite map_ids; [exact N|]. intros w _. unfold g. destruct (w_dl w); reflexivity. }
    destruct (Z.eqb_spec (Z.of_nat (length (filter w_dl l))) 0) as [Z0|Z0]; cbn [fst snd o_copy].
    + split; [|reflexivity].
      assert (NO : forall w, In w l -> w_dl w = false).
      { intros w I. destruct (w_dl w) eqn:W; [|reflexivity].
        assert (Y : In w (filter w_dl l)) by (apply filter_In; auto). destruct (filter w_dl l); [destruct Y|cbn in Z0; lia]. }
      assert (G : map g l = l).
      { rewrite <- (map_id l) at 2. apply map_ext_in. intros w I. unfold g. now rewrite (NO w I). }
      assert (DN : dues l = []).
      { destruct (dues l) as [|w r] eqn:F; [reflexivity|].
        assert (I : In w (dues l)) by (rewrite F; now left). unfold dues in I.
        apply filter_In in I as [I X]. specialize (ALL w I). rewrite (NO w I) in ALL.
        destruct (w_due w); [|discriminate]. discriminate ALL. discriminate. }
      rewrite G. split; [rewrite MK, G; reflexivity|]. split; [exact N|]. cbn [c_left c_msg]. rewrite DN. cbn [length].
      split; [reflexivity|]. split; [lia|]. split; [exact D|]. rewrite DN in P. exact P.
    + split; [|reflexivity].
      assert (GD : forall w, In w l -> is_some (w_due (g w)) = w_dl w).
      { intros w I. unfold g. destruct (w_dl w) eqn:W; cbn [w_due].
        - destruct data; [congruence|reflexivity].
        - destruct (w_due w) eqn:X; [|reflexivity]. rewrite ALL in W; [discriminate|exact I|congruence]. }
      assert (DL : length (dues (map g l)) = length (filter w_dl l)).
      { clear - GD. induction l as [|w l IH]; [reflexivity|]. cbn [map]. unfold dues in *. cbn [filter].
        rewrite (GD w (or_introl eq_refl)). specialize (IH (fun y I => GD y (or_intror I))).
        destruct (w_dl w); cbn [length]; congruence. }
      split; [exact MK|]. split; [exact ND|]. cbn [c_left c_msg]. rewrite DL. split; [reflexivity|]. split; [lia|].
      split.
      * intros w x I E. apply in_map_iff in I as (y & <- & I). specialize (GD y I). unfold g in E, GD.
        destruct (w_dl y) eqn:W; [exact E|]. rewrite E in GD. discriminate.
      * intros _ X. rewrite X in DL. cbn in DL. lia.
  - unfold app_block, a_cands. rewrite cand_map by reflexivity. unfold turn.
    destruct (k_dl_ass (candidates (a_ul b) (a_dl b))) as [t|]; cbn [option_map].
    2:{ cbn [fst snd o_copy]. split; [|reflexivity]. repeat (split; [assumption|]). assumption. }
    cbn [with_flag t_app t_id]. rewrite M, flagged_mark by exact N. rewrite <- M.
    destruct (due_of l (a_of b (t_id t))) as [x|] eqn:DO; cbn [is_some].
    2:{ cbn [fst snd o_copy]. split; [|reflexivity]. repeat (split; [assumption|]). assumption. }
    set (m := a_of b (t_id t)) in *.
    destruct (due_some_in _ _ _ DO) as (w & I & E & X). rewrite (D w x I X). cbn [fst snd o_copy].
    split; [|reflexivity]. pose proof (dues_take l m x N DO) as T.
    set (l' := map (fun y => if w_id y =? m then mk_who m (w_dl y) None else y) l) in *.
    rewrite C, Z.mod_small by lia.
    assert (LT : Z.of_nat (length (dues l)) - 1 = Z.of_nat (length (dues l'))) by lia. rewrite LT.
    assert (KEEP : forall y, In y l' -> forall z, w_due y = Some z -> exists y0, In y0 l /\ w_due y0 = Some z).
    { intros y Y z Z0. unfold l' in Y. apply in_map_iff in Y as (y0 & <- & Y). destruct (w_id y0 =? m); [discriminate|eauto]. }
    split; [cbn [c_ms]; rewrite M; apply mark_take|]. split.
    { unfold l'. rewrite map_ids; [exact N|]. intros y _. destruct (Z.eqb_spec (w_id y) m); cbn; congruence. }
    cbn [c_left c_msg]. split; [reflexivity|]. split; [lia|]. split.
    + intros y z Y Z0. destruct (KEEP y Y z Z0) as (y0 & Y1 & Y2). pose proof (D y0 z Y1 Y2) as Q.
      rewrite (D w x I X) in Q. injection Q as ->.
      assert (In y (dues l')) by (unfold dues; apply filter_In; split; [exact Y|now rewrite Z0]).
      destruct (Z.eqb_spec (Z.of_nat (length (dues l'))) 0) as [W|W]; [|reflexivity].
      destruct (dues l'); [destruct H|cbn in W; lia].
    + destruct (Z.eqb_spec (Z.of_nat (length (dues l'))) 0) as [W|W]; [congruence|]. intros _ Q. rewrite Q in W. now apply W.
Qed.
Lemma sim0 : sim acell0 [].
Proof. split; [reflexivity|]. split; [constructor|]. split; [reflexivity|]. split; [reflexivity|]. split; [intros w x []|now intros H]. Qed.
Lemma sim_run : forall ops s l, sim s l -> smooth_run ops l ->
  sim (fst (arun ops s)) (fst (gives ops l)) /\ map o_copy (snd (arun ops s)) = snd (gives ops l).
Proof.
  induction ops as [|o r IH]; intros s l H Sm; [split; [exact H|reflexivity]|].
  cbn [smooth_run] in Sm. destruct Sm as [S1 S2]. destruct (sim_step o s l H S1) as [A B].
  cbn [arun gives]. destruct (astep o s) as [s1 x]. destruct (give o l) as [l1 y]. cbn [fst snd] in *.
  destruct (IH s1 l1 A S2) as [A2 B2]. destruct (arun r s1) as [s2 xs]. destruct (gives r l1) as [l2 ys].
  cbn [fst snd map] in *. split; [exact A2|congruence].
Qed.

(** The copies made are the ones due; the counter is the number of mobiles waiting; a message is stored exactly as
    long as one waits. *)
Lemma waits : forall l, length (filter i_flag (map mark l)) = length (dues l).
Proof. induction l as [|w l IH]; [reflexivity|]. cbn [map filter mark i_flag]. unfold dues in *. cbn [filter]. destruct (is_some (w_due w)); cbn [length]; congruence. Qed.
Lemma right_copies : forall ops, smooth_run ops [] ->
  map o_copy (snd (arun ops acell0)) = snd (gives ops []) /\
  c_left (fst (arun ops acell0)) = waiting (fst (arun ops acell0)) /\
  (c_msg (fst (arun ops acell0)) = None <-> waiting (fst (arun ops acell0)) = 0).
Proof.
  intros ops Sm. destruct (sim_run ops acell0 [] sim0 Sm) as [(M & N & C & C32 & D & P) B].
  split; [exact B|]. unfold waiting. rewrite M, waits. split; [exact C|].
  set (l := fst (gives ops [])) in *. split.
  - intros E. destruct (dues l) as [|w r] eqn:F; [reflexivity|]. exfalso.
    assert (I : In w (dues l)) by (rewrite F; now left). unfold dues in I. apply filter_In in I as [I X].
    destruct (w_due w) as [x|] eqn:W; [|discriminate]. rewrite (D w x I W) in E. discriminate.
  - intros E. destruct (c_msg _); [|reflexivity]. exfalso. destruct (dues l); [|discriminate]. now apply P.
Qed.

(** ** At most one copy for each mobile and request; always of the newest message accepted *)
Definition no_request (o : aop) : Prop := match o with ORequest _ _ => False | _ => True end.
Definition copies (m : Z) (xs : list aout) : nat :=
  length (filter (fun x => match o_copy x with Some (k, _) => k =? m | None => false end) xs).
Lemma flag_off : forall l m k, flagged (unflag l m) k = flagged l k && negb (k =? m).
Proof.
  induction l as [|x l IH]; intros m k; [reflexivity|]. specialize (IH m k). unfold flagged in IH |- *. unfold unflag in IH |- *. cbn [map existsb]. rewrite IH.
  destruct (Z.eqb_spec (i_id x) m) as [E|E]; cbn [i_id i_flag].
  - rewrite andb_false_r. cbn [orb]. destruct (Z.eqb_spec (i_id x) k) as [F|F]; cbn [andb orb]; [|reflexivity].
    replace (k =? m) with true by (symmetry; apply Z.eqb_eq; congruence). cbn [negb]. now rewrite !andb_false_r.
  - destruct (Z.eqb_spec (i_id x) k) as [F|F]; cbn [andb orb]; [|reflexivity].
    replace (k =? m) with false by (symmetry; apply Z.eqb_neq; congruence). cbn [negb]. now rewrite !andb_true_r.
Qed.
Lemma flag_step : forall o s m, no_request o ->
  (flagged (c_ms (fst (astep o s))) m = true -> flagged (c_ms s) m = true) /\
  (forall x, o_copy (snd (astep o s)) = Some (m, x) ->
     flagged (c_ms s) m = true /\ flagged (c_ms (fst (astep o s))) m = false /\ c_msg s = Some x) /\
  (c_msg (fst (astep o s)) = None \/ c_msg (fst (astep o s)) = c_msg s).
Proof.
  intros o s m Q. destruct o as [a|a b|a|ty data|b]; cbn [astep fst snd o_copy]; [| | |destruct Q|].
  - split; [|split; [discriminate|destruct (has_ms _ _); now right]]. destruct (has_ms _ _); [auto|]. cbn [c_ms]. unfold flagged. cbn [existsb i_id i_flag].
    rewrite andb_false_r. auto.
  - split; [|split; [discriminate|now right]]. cbn [c_ms]. unfold flagged, set_ms. generalize (c_ms s). induction l as [|x l IH]; [auto|].
    cbn [map existsb]. intros H. apply orb_true_iff in H as [H|H]; apply orb_true_iff.
    + left. destruct (i_id x =? a); exact H.
    + right. auto.
  - split; [|split; [discriminate|now right]]. cbn [c_ms]. unfold flagged. intros H. apply existsb_exists in H as (x & I & H). apply filter_In in I as [I _].
    apply existsb_exists. eauto.
  - unfold app_block, a_cands. rewrite cand_map by reflexivity.
    destruct (k_dl_ass (candidates (a_ul b) (a_dl b))) as [t|]; cbn [option_map fst snd o_copy]; [|split; [auto|split; [discriminate|now right]]].
    cbn [with_flag t_app t_id]. destruct (flagged (c_ms s) (a_of b (t_id t))) eqn:F; cbn [fst snd o_copy c_ms c_msg]; [|split; [auto|split; [discriminate|now right]]].
    split; [rewrite flag_off; intros H; now apply andb_true_iff in H|]. split.
    + intros x. destruct (c_msg s) as [y|]; [|discriminate]. intros E; injection E as <- <-.
      split; [exact F|]. split; [|reflexivity]. rewrite flag_off, Z.eqb_refl, andb_false_r. reflexivity.
    + destruct (_ =? 0); [now left|now right].
Qed.
Lemma once_gen : forall ops s m, Forall no_request ops ->
  (copies m (snd (arun ops s)) <= (if flagged (c_ms s) m then 1 else 0))%nat /\
  (forall c, In c (snd (arun ops s)) -> forall k x, o_copy c = Some (k, x) -> c_msg s = Some x).
Proof.
  induction ops as [|o r IH]; intros s m Q; [cbn; split; [destruct (flagged _ _); lia|intros c []]|].
  inversion Q as [|? ? Q1 Q2]; subst. destruct (flag_step o s m Q1) as (A & B & K). cbn [arun].
  assert (B' : forall k x, o_copy (snd (astep o s)) = Some (k, x) -> c_msg s = Some x).
  { intros k x E. apply (flag_step o s k Q1). exact E. }
  destruct (astep o s) as [s1 y]. cbn [fst snd] in *. specialize (IH s1 m Q2). destruct IH as [IH1 IH2].
  destruct (arun r s1) as [s2 ys]. cbn [snd] in *. split.
  - unfold copies in *. cbn [filter]. destruct (o_copy y) as [[k x]|] eqn:C.
    + destruct (Z.eqb_spec k m) as [->|]; cbn [length].
      * destruct (B x eq_refl) as (B1 & B2 & _). rewrite B1. rewrite B2 in IH1. lia.
      * destruct (flagged (c_ms s1) m); [rewrite A by reflexivity; lia|lia].
    + destruct (flagged (c_ms s1) m); [rewrite A by reflexivity; lia|lia].
  - intros c [<-|I] k x E; [eapply B'; eauto|]. pose proof (IH2 c I k x E) as Z0. destruct K; congruence.
Qed.
Lemma once : forall ops s m, Forall no_request ops -> (copies m (snd (arun ops s)) <= 1)%nat.
Proof. intros ops s m Q. destruct (once_gen ops s m Q) as [A _]. destruct (flagged (c_ms s) m); lia. Qed.
Lemma newest : forall ops s ty data s1 c k x, Forall no_request ops -> app_request ty data s = (s1, 0) ->
  In c (snd (arun ops s1)) -> o_copy c = Some (k, x) -> app_msg ty data = Some x.
Proof.
  intros ops s ty data s1 c k x Q R I E. destruct (once_gen ops s1 0 Q) as [_ H]. rewrite <- (H c I k x E).
  unfold app_request in R. destruct (_ =? 0); [discriminate|]. injection R as <-. reflexivity.
Qed.

(** ** The message *)
Lemma app_first : forall ty data b, app_msg ty data = Some b -> firstn 2 b = [false; false] /\ ~ control_block b.
Proof.
  intros ty data b. unfold app_msg. destruct data as [|d r]; [discriminate|]. intros E; injection E as <-.
  split; [reflexivity|]. intros [[H|H] _]; discriminate H.
Qed.
Lemma app_first_usf : forall ty data b u, app_msg ty data = Some b -> ~ control_block (set_usf u b).
Proof.
  intros ty data b u. unfold app_msg. destruct data as [|d r]; [discriminate|]. intros E; injection E as <-.
  intros [[H|H] _]; discriminate H.
Qed.

Lemma app_read : forall ty data b, 0 <= ty < 16 -> Forall (fun x => 0 <= x < 256) data -> app_msg ty data = Some b ->
  read_app b = Some (0, ty, data) /\ length b = (8 * (length data + 1))%nat.
Proof.
  intros ty data b T O. unfold app_msg. destruct data as [|d r] eqn:E; [discriminate|]. rewrite <- E in *.
  intros X. apply (f_equal (fun o => match o with Some y => y | None => [] end)) in X. subst b. unfold read_app.
  change (field_bits 4 ty) with (fldb 4 ty). change (flat_map (field_bits 8) data) with (flat_map (fldb 8) data).
  change ([false; false] ++ fldb 4 ty ++ flat_map (fldb 8) data ++ [false; false])
    with (fldb 2 0 ++ fldb 4 ty ++ flat_map (fldb 8) data ++ [false; false]).
  pose proof (flat8_length data) as L.
  split.
  - rewrite uint_exact by (cbn; lia). rewrite uint_exact by (cbn; lia).
    replace (Nat.div (length (flat_map (fldb 8) data ++ [false; false])) 8) with (length data).
    + rewrite octs_fldb by exact O. reflexivity.
    + apply (Nat.div_unique _ 8 (length data) 2); [lia|]. rewrite app_length. cbn [length]. lia.
  - rewrite !app_length, !fldb_length. cbn [length]. lia.
Qed.
(** With the USF in it: two different notifications of the same length become the same block, and none is
    read as it was asked for when USF and type differ in the last bit. *)
Definition same_block : exists ty data data' b b' u, data <> data' /\ Forall (fun x => 0 <= x < 256) (data ++ data') /\
  app_msg ty data = Some b /\ app_msg ty data' = Some b' /\ set_usf u b = set_usf u b'.
Proof.
  exists 0, [0; 1], [192; 1]. do 2 eexists. exists 7. split; [discriminate|].
  split; [repeat (first [apply Forall_nil|apply Forall_cons]); lia|].
  split; [reflexivity|]. split; [reflexivity|]. vm_compute. reflexivity.
Qed.

(** ** Histories *)
Definition ass (id : Z) : ctbf := mk_ct id true false true false false false false.
Definition turn_of (m : Z) : aop := OBlock (mk_ab [ass 100] [] (fun _ => m) 0 (fun _ _ => true) false).
(** A mobile notified, a second one that gets a message of its own later. *)
Definition h_smooth : list aop :=
  [ONew 1; ODl 1 true; ONew 2; ODl 2 true; ONew 3; ORequest 1 [170; 85]; turn_of 1; turn_of 1; turn_of 3; turn_of 2;
   ODl 1 false; ORequest 2 [1]; turn_of 1; turn_of 2].
Lemma h_smooth_ok : smooth_run h_smooth [] /\
  snd (gives h_smooth []) = [None; None; None; None; None; None; Some (1, [false; false; false; false; false; true; true; false; true; false; true; false; true; false; false; true; false; true; false; true; false; true; false; false]);
    None; None; Some (2, [false; false; false; false; false; true; true; false; true; false; true; false; true; false; false; true; false; true; false; true; false; true; false; false]);
    None; None; None; Some (2, [false; false; false; false; true; false; false; false; false; false; false; false; false; true; false; false])].
Proof.
  split; [|vm_compute; reflexivity].
  unfold h_smooth. cbn [smooth_run smooth]. repeat (split; [exact Logic.I|]).
  split; [|repeat (split; [exact Logic.I|]); split; [|repeat (split; [exact Logic.I|]); exact Logic.I]].
  - split; [discriminate|]. split; [|reflexivity]. intros x I D. vm_compute in I.
    repeat (destruct I as [<-|I]; [vm_compute in D; congruence|]). destruct I.
  - split; [discriminate|]. split; [|reflexivity]. intros x I D. vm_compute in I.
    repeat (destruct I as [<-|I]; [vm_compute in D; try reflexivity; congruence|]). destruct I.
Qed.

(** A mark left over: 1 has lost its downlink TBF before it got the first message. Now 2 is to get the second one. *)
Definition h_stale : list aop :=
  [ONew 1; ODl 1 true; ONew 2; ORequest 1 [1]; ODl 1 false; ODl 2 true; ORequest 1 [2]; turn_of 1; turn_of 2].
Lemma stale : exists m x, last (snd (gives h_stale [])) None = Some (m, x) /\ app_msg 1 [2] = Some x /\
  o_rc (nth 6 (snd (arun h_stale acell0)) (mk_aout 1 None None)) = 0 /\
  (forall c, In c (snd (arun h_stale acell0)) -> forall y, o_copy c <> Some (2, y)) /\
  c_left (fst (arun h_stale acell0)) = 4294967295.
Proof.
  exists 2. eexists. split; [vm_compute; reflexivity|]. split; [reflexivity|]. split; [reflexivity|]. split; [|reflexivity].
  intros c I y. vm_compute in I. repeat (destruct I as [<-|I]; [discriminate|]). destruct I.
Qed.
(** The second request was refused (no downlink TBF), and yet the counter of the first is gone. *)
Definition h_refused : list aop :=
  [ONew 1; ODl 1 true; ORequest 1 [1]; ODl 1 false; ORequest 1 [2]; turn_of 1].
Lemma refused : map o_rc (snd (arun h_refused acell0)) = [0; 0; 0; 0; -1; 0] /\
  c_left (fst (arun h_refused acell0)) = 4294967295 /\ c_msg (fst (arun h_refused acell0)) <> None /\
  waiting (fst (arun h_refused acell0)) = 0.
Proof. split; [vm_compute; reflexivity|]. split; [vm_compute; reflexivity|]. split; [vm_compute; discriminate|reflexivity]. Qed.
(** A mobile that goes away: nobody waits and the message is kept. *)
Definition h_gone : list aop := [ONew 1; ODl 1 true; ORequest 1 [1]; OFree 1].
Lemma gone : c_left (fst (arun h_gone acell0)) = 1 /\ c_msg (fst (arun h_gone acell0)) <> None /\
  waiting (fst (arun h_gone acell0)) = 0.
Proof. split; [vm_compute; reflexivity|]. split; [vm_compute; discriminate|reflexivity]. Qed.
(** An empty request is accepted. *)
Definition h_empty : list aop := [ONew 1; ODl 1 true; ORequest 1 [1]; ORequest 1 []; turn_of 1].
Lemma empty_accepted : map o_rc (snd (arun h_empty acell0)) = [0; 0; 0; 0; 0] /\ map o_copy (snd (arun h_empty acell0)) = [None; None; None; None; None].
Proof. split; vm_compute; reflexivity. Qed.
