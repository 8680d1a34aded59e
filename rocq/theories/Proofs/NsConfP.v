(** Proofs about the configuration of the links to the SGSN. *)
From Coq Require Import ZArith List Bool Arith Lia.
From Verif Require Import Model.NsConf Spec.NsConfSpec.
Import ListNotations.
Open Scope Z_scope.

Lemma sa_eqb_eq a b : sa_eqb a b = true <-> a = b.
Proof.
  destruct a as [f i p], b as [g j q]. unfold sa_eqb. cbn [sa_fam sa_ip sa_port]. rewrite !andb_true_iff, !Z.eqb_eq.
  split; [intros [[F I] P]; destruct f, g; try discriminate F; subst; reflexivity|]. intros E. injection E as -> -> ->. now destruct g.
Qed.
Lemma sa_eqb_refl a : sa_eqb a a = true.
Proof. now apply sa_eqb_eq. Qed.

Definition somes (c : list (option entry)) : list entry := flat_map (fun o => match o with Some e => [e] | None => [] end) c.
Definition elink (e : entry) : link := (sa_fam (e_local e), sa_port (e_local e), sa_ip (e_remote e), sa_port (e_remote e), e_nsvci e).
Definition eends (e : entry) : sockaddr * sockaddr := (e_local e, e_remote e).
Definition vends (v : vc) : sockaddr * sockaddr := (v_local v, v_remote v).
Definition proper (e : sockaddr * sockaddr) : Prop := sa_ip (fst e) = 0 /\ sa_fam (snd e) = sa_fam (fst e).

Lemma same_ends_eq v e : same_ends v e = true <-> vends v = eends e.
Proof. unfold same_ends, vends, eends. rewrite andb_true_iff, !sa_eqb_eq. split; [intros [-> ->]; reflexivity|intros E; injection E as -> ->; now split]. Qed.
Lemma vc_equal_eq v e : vc_equal v e = true <-> vends v = eends e /\ v_nsvci v = e_nsvci e.
Proof. unfold vc_equal. now rewrite andb_true_iff, same_ends_eq, Z.eqb_eq. Qed.

Lemma proper_eq a b : proper a -> proper b -> sa_fam (fst a) = sa_fam (fst b) -> sa_port (fst a) = sa_port (fst b) ->
  sa_ip (snd a) = sa_ip (snd b) -> sa_port (snd a) = sa_port (snd b) -> a = b.
Proof. destruct a as [[f i p] [g j q]], b as [[f' i' p'] [g' j' q']]. unfold proper. cbn. intros [-> ->] [-> ->] -> -> -> ->. reflexivity. Qed.
Lemma link_vc_equal v e : proper (vends v) -> proper (eends e) -> link_of v = elink e -> vc_equal v e = true.
Proof.
  intros P Q L. unfold link_of, elink in L. injection L as A B C D E. apply vc_equal_eq. split; [|exact E]. now apply proper_eq.
Qed.
Lemma equal_link v e : vc_equal v e = true -> link_of v = elink e.
Proof.
  intros E. apply vc_equal_eq in E. destruct E as [E N]. unfold vends, eends in E. injection E as A B. unfold link_of, elink. now rewrite A, B, N.
Qed.

(** The entries are what is wanted. *)
Lemma wanted_entries i : wanted i = map elink (somes (map entry_of (i_pos i))).
Proof.
  unfold wanted, somes. induction (i_pos i) as [|p r IH]; [reflexivity|]. cbn [flat_map map]. rewrite map_app, IH. f_equal.
  unfold entry_of. destruct (p_type p =? 4); [reflexivity|]. now destruct (p_type p =? 41).
Qed.
Lemma entries_proper i e : In e (somes (map entry_of (i_pos i))) -> proper (eends e).
Proof.
  unfold somes. rewrite in_flat_map. intros [o [I E]]. apply in_map_iff in I. destruct I as [p [<- _]]. unfold entry_of in E.
  destruct (p_type p =? 4); [destruct E as [<-|[]]; now split|]. destruct (p_type p =? 41); [destruct E as [<-|[]]; now split|destruct E].
Qed.
Lemma distinct_entries i : distinct i -> NoDup (map eends (somes (map entry_of (i_pos i)))).
Proof.
  unfold distinct. rewrite wanted_entries, map_map. generalize (entries_proper i). set (l := somes (map entry_of (i_pos i))). clearbody l.
  induction l as [|e r IH]; intros P D; [constructor|]. cbn [map] in *. inversion D as [|x xs N D']; subst. constructor.
  - intros I. apply N. apply in_map_iff in I. destruct I as [e' [E I]]. apply in_map_iff. exists e'. split; [|exact I].
    unfold eends in E. injection E as A B. unfold elink, ends. cbn [fst]. now rewrite A, B.
  - apply IH; [|exact D']. intros e' I. apply P. now right.
Qed.

(** *** Positions that lost some of their bits. *)
Definition fewer (c' c : list (option entry)) : Prop := Forall2 (fun a b => a = b \/ a = None) c' c.
Lemma fewer_refl c : fewer c c.
Proof. induction c; constructor; auto. Qed.
Lemma fewer_trans a b c : fewer a b -> fewer b c -> fewer a c.
Proof.
  intros F. revert c. induction F as [|x y l l' X F IH]; intros c G; inversion G as [|? z ? m Y G']; subst; [constructor|]. constructor; [|now apply IH].
  destruct X as [->| ->]; [exact Y|now right].
Qed.
Lemma fewer_in a b e : fewer a b -> In e (somes a) -> In e (somes b).
Proof.
  induction 1 as [|x y l l' X F IH]; [easy|]. unfold somes. cbn [flat_map]. rewrite !in_app_iff. intros [I|I]; [left|right; now apply IH].
  destruct X as [->| ->]; [exact I|destruct I].
Qed.
Lemma fewer_nodup {B} (f : entry -> B) a b : fewer a b -> NoDup (map f (somes b)) -> NoDup (map f (somes a)).
Proof.
  induction 1 as [|x y l l' X F IH]; [easy|]. unfold somes. cbn [flat_map]. destruct X as [->| ->].
  - destruct y as [e|]; [|exact IH]. cbn [app map]. intros D. inversion D as [|? ? N D']; subst. constructor; [|now apply IH].
    intros I. apply N. apply in_map_iff in I. destruct I as [e' [E I]]. apply in_map_iff. exists e'. split; [exact E|]. exact (fewer_in _ _ _ F I).
  - cbn [app]. destruct y as [e|]; [|exact IH]. cbn [app map]. intros D. inversion D; subst. now apply IH.
Qed.

Lemma bind_fewer x sns c : forall i bs, fewer (snd (bind_loop x sns i c bs)) c.
Proof.
  induction c as [|[e|] r IH]; intros i bs; cbn [bind_loop]; [constructor| |].
  - destruct (bound bs (e_local e)); [specialize (IH (S i) bs); destruct (bind_loop x sns (S i) r bs); cbn [snd] in *; constructor; auto|].
    destruct (named bs i || negb (x_bind x i (e_local e))); [specialize (IH (S i) bs); destruct (bind_loop x sns (S i) r bs); cbn [snd] in *; constructor; auto|].
    specialize (IH (S i) (bs ++ [(i, e_local e)])). destruct (bind_loop x sns (S i) r (bs ++ [(i, e_local e)])). cbn [snd] in *. constructor; [|exact IH].
    destruct (sns && negb (x_sns_bind x (e_local e))); auto.
  - specialize (IH (S i) bs). destruct (bind_loop x sns (S i) r bs). cbn [snd] in *. constructor; auto.
Qed.

(** Sockets under their own names. *)
Definition kept_names (loc : nat -> sockaddr) (bs : list (nat * sockaddr)) : Prop := forall j a, In (j, a) bs -> a = loc j.
Lemma bind_names x sns loc c : forall i bs, kept_names loc bs ->
  (forall k e, nth_error c k = Some (Some e) -> e_local e = loc (i + k)%nat) -> kept_names loc (fst (bind_loop x sns i c bs)).
Proof.
  induction c as [|o r IH]; intros i bs K L; cbn [bind_loop]; [exact K|].
  assert (L' : forall k e, nth_error r k = Some (Some e) -> e_local e = loc (S i + k)%nat).
  { intros k e E. rewrite (L (S k) e E). f_equal. lia. }
  destruct o as [e|].
  - pose proof (L 0%nat e eq_refl) as E. rewrite Nat.add_0_r in E.
    destruct (bound bs (e_local e)); [specialize (IH (S i) bs K L'); destruct (bind_loop x sns (S i) r bs); exact IH|].
    destruct (named bs i || negb (x_bind x i (e_local e))); [specialize (IH (S i) bs K L'); destruct (bind_loop x sns (S i) r bs); exact IH|].
    assert (K' : kept_names loc (bs ++ [(i, e_local e)])).
    { intros j a I. apply in_app_iff in I. destruct I as [I|[I|[]]]; [exact (K j a I)|]. injection I as <- <-. exact E. }
    specialize (IH (S i) _ K' L'). destruct (bind_loop x sns (S i) r (bs ++ [(i, e_local e)])). exact IH.
  - specialize (IH (S i) bs K L'). destruct (bind_loop x sns (S i) r bs). exact IH.
Qed.
Lemma bind_all x loc c : works x -> forall i bs, kept_names loc bs ->
  (forall k e, nth_error c k = Some (Some e) -> e_local e = loc (i + k)%nat) -> snd (bind_loop x false i c bs) = c.
Proof.
  intros [_ [W _]]. induction c as [|o r IH]; intros i bs K L; cbn [bind_loop]; [reflexivity|].
  assert (L' : forall k e, nth_error r k = Some (Some e) -> e_local e = loc (S i + k)%nat).
  { intros k e E. rewrite (L (S k) e E). f_equal. lia. }
  destruct o as [e|].
  - pose proof (L 0%nat e eq_refl) as E. rewrite Nat.add_0_r in E.
    destruct (bound bs (e_local e)) eqn:B; [specialize (IH (S i) bs K L'); destruct (bind_loop x false (S i) r bs); cbn [snd] in *; now rewrite IH|].
    destruct (named bs i) eqn:Nm.
    { exfalso. unfold named in Nm. apply existsb_exists in Nm. destruct Nm as [[j a] [I J]]. cbn [fst] in J. apply Nat.eqb_eq in J. subst j.
      enough (bound bs (e_local e) = true) by congruence. unfold bound. apply existsb_exists. exists (i, a). split; [exact I|]. cbn [snd]. apply sa_eqb_eq.
      rewrite E. exact (K i a I). }
    rewrite W. cbn [orb negb].
    assert (K' : kept_names loc (bs ++ [(i, e_local e)])).
    { intros j a I. apply in_app_iff in I. destruct I as [I|[I|[]]]; [exact (K j a I)|]. injection I as <- <-. exact E. }
    specialize (IH (S i) _ K' L'). destruct (bind_loop x false (S i) r (bs ++ [(i, e_local e)])). cbn [snd andb] in *. now rewrite IH.
  - specialize (IH (S i) bs K L'). destruct (bind_loop x false (S i) r bs). cbn [snd] in *. now rewrite IH.
Qed.

(** *** Connecting. *)
Lemma renumber_ends vs e : map vends (renumber vs e) = map vends vs.
Proof. induction vs as [|v r IH]; [reflexivity|]. cbn [renumber]. destruct (same_ends v e); [reflexivity|]. cbn [map]. now rewrite IH. Qed.
Lemma renumber_in vs e v : In v (renumber vs e) -> In v vs \/ (vends v = eends e /\ v_nsvci v = e_nsvci e).
Proof.
  induction vs as [|w r IH]; [easy|]. cbn [renumber]. destruct (same_ends w e) eqn:S.
  - intros [<-|I]; [right; split; [apply same_ends_eq in S; exact S|reflexivity]|left; now right].
  - intros [<-|I]; [left; now left|]. destruct (IH I) as [J|J]; [left; now right|now right].
Qed.
Lemma connect_in x c : forall vs nx v, In v (fst (fst (connect_loop x c vs nx))) ->
  In v vs \/ exists e, In e (somes c) /\ vends v = eends e /\ v_nsvci v = e_nsvci e.
Proof.
  induction c as [|[e|] r IH]; intros vs nx v; cbn [connect_loop].
  - intros I. now left.
  - assert (R : forall e', In e' (somes r) -> In e' (somes (Some e :: r))) by (intros e' I; unfold somes; cbn [flat_map]; apply in_app_iff; now right).
    assert (Me : In e (somes (Some e :: r))) by (unfold somes; cbn [flat_map app]; now left).
    destruct (existsb (fun w => same_ends w e) vs).
    + specialize (IH (renumber vs e) nx v). destruct (connect_loop x r (renumber vs e) nx) as [[vs' nx'] b]. cbn [fst] in *. intros I.
      destruct (IH I) as [J|[e' [J K]]]; [|right; exists e'; split; [now apply R|exact K]].
      destruct (renumber_in _ _ _ J) as [J'|J']; [now left|right; exists e; now split].
    + destruct (x_connect x (e_local e) (e_remote e)).
      * specialize (IH (vs ++ [mk_vc nx (e_local e) (e_remote e) (e_nsvci e)]) (S nx) v).
        destruct (connect_loop x r (vs ++ [mk_vc nx (e_local e) (e_remote e) (e_nsvci e)]) (S nx)) as [[vs' nx'] b]. cbn [fst] in *. intros I.
        destruct (IH I) as [J|[e' [J K]]]; [|right; exists e'; split; [now apply R|exact K]].
        apply in_app_iff in J. destruct J as [J|[<-|[]]]; [now left|right; exists e; now split].
      * intros I. destruct (IH vs nx v I) as [J|[e' [J K]]]; [now left|right; exists e'; split; [now apply R|exact K]].
  - apply IH.
Qed.
Lemma not_there vs e : existsb (fun w => same_ends w e) vs = false <-> ~ In (eends e) (map vends vs).
Proof.
  split.
  - intros F I. apply in_map_iff in I. destruct I as [v [E I]]. enough (existsb (fun w => same_ends w e) vs = true) by congruence.
    apply existsb_exists. exists v. split; [exact I|]. now apply same_ends_eq.
  - intros N. apply not_true_iff_false. intros T. apply existsb_exists in T. destruct T as [v [I E]]. apply same_ends_eq in E. apply N.
    apply in_map_iff. now exists v.
Qed.
Lemma nodup_app_one {A} (l : list A) a : NoDup l -> ~ In a l -> NoDup (l ++ [a]).
Proof.
  induction 1 as [|b r N D IH]; intros I; [constructor; [easy|constructor]|]. cbn [app]. constructor; [|apply IH; intros J; apply I; now right].
  intros J. apply in_app_iff in J. destruct J as [J|[<-|[]]]; [now apply N|apply I; now left].
Qed.
Lemma connect_nodup x c : forall vs nx, NoDup (map vends vs) -> NoDup (map vends (fst (fst (connect_loop x c vs nx)))).
Proof.
  induction c as [|[e|] r IH]; intros vs nx D; cbn [connect_loop]; [exact D| |now apply IH].
  destruct (existsb (fun w => same_ends w e) vs) eqn:E.
  - specialize (IH (renumber vs e) nx). rewrite renumber_ends in IH. specialize (IH D). now destruct (connect_loop x r (renumber vs e) nx) as [[vs' nx'] b].
  - destruct (x_connect x (e_local e) (e_remote e)); [|now apply IH].
    specialize (IH (vs ++ [mk_vc nx (e_local e) (e_remote e) (e_nsvci e)]) (S nx)).
    destruct (connect_loop x r (vs ++ [mk_vc nx (e_local e) (e_remote e) (e_nsvci e)]) (S nx)) as [[vs' nx'] b]. apply IH.
    rewrite map_app. cbn [map]. apply nodup_app_one; [exact D|]. now apply not_there in E.
Qed.
(** Connections with other ends are not touched. *)
Lemma connect_keeps x c : forall vs nx v, In v vs -> ~ In (vends v) (map eends (somes c)) -> In v (fst (fst (connect_loop x c vs nx))).
Proof.
  induction c as [|[e|] r IH]; intros vs nx v I N; cbn [connect_loop]; [exact I| |now apply IH].
  unfold somes in N. cbn [flat_map app map] in N. fold (somes r) in N.
  assert (N' : ~ In (vends v) (map eends (somes r))) by (intros J; apply N; now right).
  destruct (existsb (fun w => same_ends w e) vs).
  - specialize (IH (renumber vs e) nx v). destruct (connect_loop x r (renumber vs e) nx) as [[vs' nx'] b]. apply IH; [|exact N'].
    clear IH. induction vs as [|w l IH]; [destruct I|]. cbn [renumber]. destruct (same_ends w e) eqn:S.
    + destruct I as [->|I]; [exfalso; apply N; left; symmetry; now apply same_ends_eq|now right].
    + destruct I as [->|I]; [now left|right; now apply IH].
  - destruct (x_connect x (e_local e) (e_remote e)); [|now apply IH].
    specialize (IH (vs ++ [mk_vc nx (e_local e) (e_remote e) (e_nsvci e)]) (S nx) v).
    destruct (connect_loop x r (vs ++ [mk_vc nx (e_local e) (e_remote e) (e_nsvci e)]) (S nx)) as [[vs' nx'] b]. apply IH; [|exact N']. apply in_app_iff. now left.
Qed.
(** Everything asked for is connected, if it can be. *)
Lemma connect_all x c : works x -> NoDup (map eends (somes c)) -> forall vs nx e, In e (somes c) ->
  exists v, In v (fst (fst (connect_loop x c vs nx))) /\ vends v = eends e /\ v_nsvci v = e_nsvci e.
Proof.
  intros [_ [_ [_ [_ W]]]]. induction c as [|[e0|] r IH]; intros D vs nx e I; [destruct I| |now apply IH].
  unfold somes in I, D. cbn [flat_map app map] in I, D. fold (somes r) in I, D. inversion D as [|? ? N D']; subst.
  cbn [connect_loop]. rewrite W. destruct (existsb (fun w => same_ends w e0) vs) eqn:E.
  - destruct I as [<-|I].
    + assert (Q : exists v, In v (renumber vs e0) /\ vends v = eends e0 /\ v_nsvci v = e_nsvci e0).
      { clear - E. induction vs as [|w l IH]; [discriminate E|]. cbn [existsb renumber] in *. destruct (same_ends w e0) eqn:S.
        - eexists. split; [left; reflexivity|]. split; [apply same_ends_eq in S; exact S|reflexivity].
        - destruct (IH E) as [v [I Q]]. exists v. split; [now right|exact Q]. }
      destruct Q as [v [Iv [Ev Nv]]]. exists v. split; [|now split].
      pose proof (connect_keeps x r (renumber vs e0) nx v Iv) as K. rewrite Ev in K. specialize (K N).
      now destruct (connect_loop x r (renumber vs e0) nx) as [[vs' nx'] b].
    + destruct (IH D' (renumber vs e0) nx e I) as [v Q]. exists v. now destruct (connect_loop x r (renumber vs e0) nx) as [[vs' nx'] b].
  - destruct I as [<-|I].
    + set (v := mk_vc nx (e_local e0) (e_remote e0) (e_nsvci e0)). exists v. split; [|now split].
      pose proof (connect_keeps x r (vs ++ [v]) (S nx) v) as K. specialize (K ltac:(apply in_app_iff; right; now left) N).
      now destruct (connect_loop x r (vs ++ [v]) (S nx)) as [[vs' nx'] b].
    + set (v0 := mk_vc nx (e_local e0) (e_remote e0) (e_nsvci e0)).
      destruct (IH D' (vs ++ [v0]) (S nx) e I) as [v Q]. exists v. now destruct (connect_loop x r (vs ++ [v0]) (S nx)) as [[vs' nx'] b].
Qed.
Lemma connect_some x c : works x -> existsb is_some c = true -> forall vs nx, snd (connect_loop x c vs nx) = true.
Proof.
  intros [_ [_ [_ [_ W]]]]. induction c as [|[e|] r IH]; cbn [existsb is_some orb]; intros E vs nx; [discriminate E| |]; cbn [connect_loop].
  - rewrite W. destruct (existsb (fun w => same_ends w e) vs).
    + now destruct (connect_loop x r (renumber vs e) nx) as [[vs' nx'] b].
    + now destruct (connect_loop x r (vs ++ [mk_vc nx (e_local e) (e_remote e) (e_nsvci e)]) (S nx)) as [[vs' nx'] b].
  - now apply IH.
Qed.
Lemma connect_next x c : forall vs nx, (nx <= snd (fst (connect_loop x c vs nx)))%nat.
Proof.
  induction c as [|[e|] r IH]; intros vs nx; cbn [connect_loop]; [apply le_n| |apply IH].
  destruct (existsb (fun w => same_ends w e) vs).
  - specialize (IH (renumber vs e) nx). now destruct (connect_loop x r (renumber vs e) nx) as [[vs' nx'] b].
  - destruct (x_connect x (e_local e) (e_remote e)); [|apply IH].
    specialize (IH (vs ++ [mk_vc nx (e_local e) (e_remote e) (e_nsvci e)]) (S nx)).
    destruct (connect_loop x r (vs ++ [mk_vc nx (e_local e) (e_remote e) (e_nsvci e)]) (S nx)) as [[vs' nx'] b]. cbn [fst snd] in *. lia.
Qed.

(** *** Looking through the connections. *)
Lemma look_fewer v c c' : look_for v c = Some c' -> fewer c' c.
Proof.
  revert c'. induction c as [|[e|] r IH]; intros c'; cbn [look_for]; [discriminate| |].
  - destruct (vc_equal v e); [intros E; injection E as <-; constructor; [now right|apply fewer_refl]|].
    destruct (look_for v r) as [l|]; [|discriminate]. intros E. injection E as <-. constructor; [now left|now apply IH].
  - destruct (look_for v r) as [l|]; [|discriminate]. intros E. injection E as <-. constructor; [now left|now apply IH].
Qed.
Lemma look_hit v c c' : look_for v c = Some c' -> exists e, In e (somes c) /\ vc_equal v e = true /\
  (forall e', In e' (somes c) -> e' = e \/ In e' (somes c')) /\ (NoDup (map eends (somes c)) -> ~ In (eends e) (map eends (somes c'))).
Proof.
  revert c'. induction c as [|[e|] r IH]; intros c'; cbn [look_for]; [discriminate| |].
  - destruct (vc_equal v e) eqn:Q.
    + intros E. injection E as <-. exists e. unfold somes. cbn [flat_map app map]. repeat split; [now left|exact Q| |].
      * intros e' [<-|I]; [now left|now right].
      * intros D. now inversion D.
    + destruct (look_for v r) as [l|] eqn:L; [|discriminate]. intros E. injection E as <-. destruct (IH l eq_refl) as [e1 [A [B [C D]]]]. exists e1.
      unfold somes. cbn [flat_map app map]. fold (somes r) (somes l). repeat split; [now right|exact B| |].
      * intros e' [<-|I]; [right; now left|]. destruct (C e' I) as [->|J]; [now left|right; now right].
      * intros X. inversion X as [|? ? N X']; subst. intros [Y|Y]; [|now apply (D X')]. apply N. rewrite Y. now apply in_map.
  - destruct (look_for v r) as [l|] eqn:L; [|discriminate]. intros E. injection E as <-. destruct (IH l eq_refl) as [e1 Q]. exists e1. exact Q.
Qed.
Lemma look_miss v c : look_for v c = None -> forall e, In e (somes c) -> vc_equal v e = false.
Proof.
  induction c as [|[e|] r IH]; cbn [look_for]; intros L e' I; [destruct I| |].
  - destruct (vc_equal v e) eqn:Q; [discriminate L|]. destruct (look_for v r); [discriminate L|]. unfold somes in I. cbn [flat_map app] in I.
    destruct I as [<-|I]; [exact Q|now apply IH].
  - destruct (look_for v r); [discriminate L|]. now apply IH.
Qed.

Lemma scan_fewer vs : forall c, fewer (snd (scan vs c)) c.
Proof.
  induction vs as [|v r IH]; intros c; cbn [scan]; [apply fewer_refl|]. destruct (look_for v c) as [c'|] eqn:L; [|apply IH].
  specialize (IH c'). destruct (scan r c') as [k l]. cbn [snd] in *. exact (fewer_trans _ _ _ IH (look_fewer _ _ _ L)).
Qed.
Lemma scan_sub vs : forall c v, In v (fst (scan vs c)) -> In v vs /\ exists e, In e (somes c) /\ vc_equal v e = true.
Proof.
  induction vs as [|w r IH]; intros c v; cbn [scan]; [easy|]. destruct (look_for w c) as [c'|] eqn:L.
  - specialize (IH c' v). destruct (scan r c') as [k l]. cbn [fst] in *. destruct (look_hit _ _ _ L) as [e [A [B _]]].
    intros [<-|I]; [split; [now left|now exists e]|]. destruct (IH I) as [J [e' [K M]]]. split; [now right|]. exists e'. split; [|exact M].
    exact (fewer_in _ _ _ (look_fewer _ _ _ L) K).
  - intros I. destruct (IH c v I) as [J K]. split; [now right|exact K].
Qed.
Lemma scan_nodup vs : NoDup (map vends vs) -> forall c, NoDup (map vends (fst (scan vs c))).
Proof.
  induction vs as [|w r IH]; intros D c; cbn [scan]; [constructor|]. inversion D as [|? ? N D']; subst. destruct (look_for w c) as [c'|]; [|now apply IH].
  pose proof (scan_sub r c') as Q. specialize (IH D' c'). destruct (scan r c') as [k l]. cbn [fst map] in *. constructor; [|exact IH].
  intros I. apply N. apply in_map_iff in I. destruct I as [v [E I]]. apply in_map_iff. exists v. split; [exact E|]. exact (proj1 (Q v I)).
Qed.
(** Every position is left, or has its connection among those that stay. *)
Lemma scan_cover vs : forall c e, In e (somes c) -> In e (somes (snd (scan vs c))) \/ exists v, In v (fst (scan vs c)) /\ vc_equal v e = true.
Proof.
  induction vs as [|w r IH]; intros c e I; cbn [scan]; [now left|]. destruct (look_for w c) as [c'|] eqn:L; [|now apply IH].
  destruct (look_hit _ _ _ L) as [e1 [A [B [C _]]]]. specialize (IH c' e). destruct (scan r c') as [k l]. cbn [fst snd] in *.
  destruct (C e I) as [->|J]; [right; exists w; split; [now left|exact B]|]. destruct (IH J) as [K|[v [K M]]]; [now left|right; exists v; split; [now right|exact M]].
Qed.
(** With distinct positions, the connections that stay have other ends than the positions left. *)
Lemma scan_apart vs : forall c v, NoDup (map eends (somes c)) -> In v (fst (scan vs c)) -> ~ In (vends v) (map eends (somes (snd (scan vs c)))).
Proof.
  induction vs as [|w r IH]; intros c v D; cbn [scan]; [easy|]. destruct (look_for w c) as [c'|] eqn:L; [|now apply IH].
  destruct (look_hit _ _ _ L) as [e1 [A [B [_ C]]]]. specialize (C D). pose proof (fewer_nodup eends _ _ (look_fewer _ _ _ L) D) as D'.
  specialize (IH c' v D'). pose proof (scan_fewer r c') as F. destruct (scan r c') as [k l]. cbn [fst snd] in *. intros [<-|I]; [|now apply IH].
  apply vc_equal_eq in B. destruct B as [B _]. rewrite B. intros I. apply C. apply in_map_iff in I. destruct I as [e2 [X I]]. apply in_map_iff. exists e2. split; [exact X|].
  exact (fewer_in _ _ _ F I).
Qed.
(** A connection that is asked for stays. *)
Lemma scan_stays vs : NoDup (map vends vs) -> forall c v e, In v vs -> In e (somes c) -> vc_equal v e = true -> In v (fst (scan vs c)).
Proof.
  induction vs as [|w r IH]; intros D c v e I J Q; [destruct I|]. inversion D as [|? ? N D']; subst. cbn [scan].
  destruct (look_for w c) as [c'|] eqn:L.
  - destruct (look_hit _ _ _ L) as [e1 [A [B [C _]]]]. specialize (IH D' c' v e). destruct (scan r c') as [k l]. cbn [fst] in *.
    destruct I as [->|I]; [now left|right]. apply IH; [exact I| |exact Q]. destruct (C e J) as [->|K]; [|exact K]. exfalso. apply N.
    apply vc_equal_eq in Q, B. destruct Q as [Q _], B as [B _]. rewrite B, <- Q. now apply in_map.
  - destruct I as [->|I]; [pose proof (look_miss _ _ L e J); congruence|]. now apply (IH D' c v e).
Qed.
Lemma somes_none c : existsb is_some c = false -> somes c = [].
Proof. induction c as [|[e|] r IH]; cbn [existsb is_some orb]; intros E; [reflexivity|discriminate E|]. unfold somes. cbn [flat_map app]. exact (IH E). Qed.
