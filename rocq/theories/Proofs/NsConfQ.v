(** The configuration of the links to the SGSN: invariant and effect. *)
From Coq Require Import ZArith List Bool Arith Lia.
From Verif Require Import Model.NsConf Spec.NsConfSpec Proofs.NsConfP.
Import ListNotations.
Open Scope Z_scope.

(** At most one NSE, the one the BTS uses; its connections have different ends. *)
Definition one (s : nsi) (n : nse) : Prop := s_nses s = [n] /\ s_nse s = Some (n_id n).
Definition clean (n : nse) : Prop := NoDup (map vends (n_vcs n)) /\ forall v, In v (n_vcs n) -> proper (vends v).
Definition inv (s : nsi) : Prop := (s_nses s = [] /\ s_nse s = None) \/ exists n, one s n /\ clean n.

Lemma one_connections s n : one s n -> connections s = n_vcs n.
Proof. intros [A B]. unfold connections. rewrite A, B. cbn [flat_map]. now rewrite Nat.eqb_refl, app_nil_r. Qed.
Lemma one_nsei s n : one s n -> nsei_of s = Some (n_nsei n).
Proof. intros [A B]. unfold nsei_of. rewrite A, B. cbn [find]. now rewrite Nat.eqb_refl. Qed.
Lemma one_find s n : one s n -> forall id, s_nse s = Some id -> find (fun m => (n_id m =? id)%nat) (s_nses s) = Some n.
Proof. intros [A B] id E. rewrite A. rewrite B in E. injection E as <-. cbn [find]. now rewrite Nat.eqb_refl. Qed.

(** What configuring starts from: nothing, or the NSE with this NSEI. *)
Definition from (s : nsi) (nsei : Z) (n : nse) (nx : nat) : Prop :=
  (s_nses s = [] /\ n = mk_nse (s_next s) nsei [] [] None /\ nx = S (s_next s)) \/
  (s_nses s = [n] /\ n_nsei n = nsei /\ nx = s_next s).

Lemma configure_eq x sns nsei c s n nx : from s nsei n nx ->
  configure x sns nsei c s =
  (if negb (existsb is_some c) then Exits else
   if match s_nses s with [] => negb (x_create x) | _ => false end then Exits else
   let '(bs, c') := bind_loop x sns 0 c (s_binds s) in
   if negb (existsb is_some c') then Exits
   else if sns then
     match point_loop x c' (n_points n) with
     | None => Exits
     | Some (ps, ok) => if ok then Goes (mk_nsi bs [mk_nse (n_id n) (n_nsei n) (n_vcs n) ps (n_initial n)] nx (Some (n_id n))) else Exits
     end
   else
     let '(vs, nx', ok) := connect_loop x c' (n_vcs n) nx in
     if ok then Goes (mk_nsi bs [mk_nse (n_id n) (n_nsei n) vs (n_points n) (n_initial n)] nx' (Some (n_id n))) else Exits).
Proof.
  intros [[A [-> ->]]|[A [E ->]]]; unfold configure, with_nse; rewrite A; destruct (negb (existsb is_some c)); try reflexivity.
  - cbn [find]. destruct (x_create x); [|reflexivity]. cbn [negb app n_points n_vcs n_id n_nsei n_initial].
    destruct (bind_loop x sns 0 c (s_binds s)) as [bs c']. destruct (negb (existsb is_some c')); [reflexivity|]. destruct sns.
    + destruct (point_loop x c' []) as [[ps ok]|]; [|reflexivity]. destruct ok; [|reflexivity]. cbn [s_nses map n_id]. now rewrite Nat.eqb_refl.
    + destruct (connect_loop x c' [] (S (s_next s))) as [[vs nx'] ok]. destruct ok; [|reflexivity]. cbn [s_nses map n_id]. now rewrite Nat.eqb_refl.
  - cbn [find]. rewrite E, Z.eqb_refl.
    destruct (bind_loop x sns 0 c (s_binds s)) as [bs c']. destruct (negb (existsb is_some c')); [reflexivity|]. destruct sns.
    + destruct (point_loop x c' (n_points n)) as [[ps ok]|]; [|reflexivity]. destruct ok; [|reflexivity]. cbn [s_nses map n_id]. now rewrite Nat.eqb_refl, E.
    + destruct (connect_loop x c' (n_vcs n) (s_next s)) as [[vs nx'] ok]. destruct ok; [|reflexivity]. cbn [s_nses map n_id]. now rewrite Nat.eqb_refl, E.
Qed.

(** The state the configuration of [c] starts from, and the positions it is for. *)
Inductive work (sns : bool) (nsei : Z) (c : list (option entry)) (s : nsi) : nsi -> list (option entry) -> Prop :=
| WAnew : (forall n, one s n -> nsei = n_nsei n -> sns = true) -> work sns nsei c s (cleared s) c
| WKeep n : sns = false -> one s n -> nsei = n_nsei n ->
    work sns nsei c s (mk_nsi (s_binds s) [mk_nse (n_id n) (n_nsei n) (fst (scan (n_vcs n) c)) (n_points n) (n_initial n)] (s_next s) (s_nse s))
      (snd (scan (n_vcs n) c)).

Lemma update_cases x sns nsei c s : inv s ->
  (exists n, sns = true /\ one s n /\ nsei = n_nsei n /\ update_config x sns nsei c s = Goes s) \/
  exists s1 l, work sns nsei c s s1 l /\
    update_config x sns nsei c s = (if (negb sns && match s_nses s1 with [] => false | _ => true end) && negb (existsb is_some l) then Goes s1 else configure x sns nsei l s1).
Proof.
  intros [[A B]|[n [O C]]]; unfold update_config.
  - right. rewrite B. exists (cleared s), c. split; [constructor; intros n [X _]; congruence|]. unfold cleared. cbn [s_nses]. now rewrite andb_false_r.
  - pose proof (proj2 O) as B. rewrite B, (one_find _ _ O _ B). destruct (nsei =? n_nsei n) eqn:E; cbn [negb].
    + apply Z.eqb_eq in E. destruct sns.
      * destruct (existsb _ c); [left; exists n; repeat split; [exact (proj1 O)|exact (proj2 O)|exact E]|]. right. exists (cleared s), c. split; [apply WAnew; reflexivity|]. reflexivity.
      * right. destruct (scan (n_vcs n) c) as [k l] eqn:Sc. eexists _, _. split; [apply (WKeep _ _ _ _ n); auto|]. rewrite Sc. cbn [fst snd s_nses negb andb].
        unfold with_nse. rewrite (proj1 O), B. cbn [map n_id]. rewrite Nat.eqb_refl. reflexivity.
    + right. exists (cleared s), c. split; [|unfold cleared; cbn [s_nses]; now rewrite andb_false_r]. constructor. intros m M N.
      exfalso. apply Z.eqb_neq in E. destruct O as [O1 _], M as [M1 _]. rewrite O1 in M1. injection M1 as <-. congruence.
Qed.
Lemma work_from sns nsei c s s1 l : work sns nsei c s s1 l -> exists n nx, from s1 nsei n nx.
Proof.
  intros [F|n Es O N]; [eexists _, _; left; now repeat split|]. eexists _, _. right. cbn [s_nses]. split; [reflexivity|]. split; [symmetry; exact N|reflexivity].
Qed.

(** No released NSE is used; the invariant. *)
Definition fine (P : nsi -> Prop) (o : outcome) : Prop := match o with Goes s => P s | Exits => True | Fault => False end.

Lemma configure_fine x sns nsei c s n nx : from s nsei n nx -> clean n -> (forall e, In e (somes c) -> proper (eends e)) ->
  fine inv (configure x sns nsei c s).
Proof.
  intros F [D P] Q. rewrite (configure_eq _ _ _ _ _ _ _ F). destruct (negb (existsb is_some c)); [exact Logic.I|].
  destruct (match s_nses s with [] => negb (x_create x) | _ => false end); [exact Logic.I|].
  pose proof (bind_fewer x sns c 0%nat (s_binds s)) as W. destruct (bind_loop x sns 0 c (s_binds s)) as [bs c']. cbn [snd] in W.
  destruct (negb (existsb is_some c')); [exact Logic.I|]. destruct sns.
  - destruct (point_loop x c' (n_points n)) as [[ps ok]|]; [|exact Logic.I]. destruct ok; [|exact Logic.I]. right.
    exists (mk_nse (n_id n) (n_nsei n) (n_vcs n) ps (n_initial n)). split; [split; reflexivity|]. split; [exact D|exact P].
  - pose proof (connect_nodup x c' (n_vcs n) nx D) as D'. pose proof (connect_in x c' (n_vcs n) nx) as I.
    destruct (connect_loop x c' (n_vcs n) nx) as [[vs nx'] ok]. cbn [fst] in D', I. destruct ok; [|exact Logic.I]. right.
    exists (mk_nse (n_id n) (n_nsei n) vs (n_points n) (n_initial n)). split; [split; reflexivity|]. split; [exact D'|]. intros v V.
    destruct (I v V) as [J|[e [J [E _]]]]; [now apply P|]. rewrite E. apply Q. exact (fewer_in _ _ _ W J).
Qed.
Lemma work_clean sns nsei c s s1 l n nx : inv s -> work sns nsei c s s1 l -> from s1 nsei n nx -> clean n.
Proof.
  intros I [F|m Es O N] Fr.
  - destruct Fr as [[_ [-> _]]|[X _]]; [|discriminate X]. split; [constructor|]. intros v [].
  - destruct Fr as [[X _]|[X _]]; [discriminate X|]. cbn [s_nses] in X. injection X as <-. destruct I as [[A _]|[m' [O' [D P]]]]; [destruct O as [O _]; congruence|].
    replace m' with m in * by (destruct O as [O _], O' as [O' _]; congruence). split; cbn [n_vcs].
    + now apply scan_nodup.
    + intros v V. apply P. exact (proj1 (scan_sub _ _ _ V)).
Qed.
Lemma update_fine x sns nsei c s : inv s -> (forall e, In e (somes c) -> proper (eends e)) -> fine inv (update_config x sns nsei c s).
Proof.
  intros I Q. destruct (update_cases x sns nsei c s I) as [[n [_ [_ [_ E]]]]|[s1 [l [W E]]]]; rewrite E; [exact I|].
  destruct (work_from _ _ _ _ _ _ W) as [n [nx F]]. pose proof (work_clean _ _ _ _ _ _ _ _ I W F) as C.
  assert (Ql : forall e, In e (somes l) -> proper (eends e)).
  { destruct W as [_|m Es O N]; [exact Q|]. intros e J. apply Q. exact (fewer_in _ _ _ (scan_fewer _ _) J). }
  destruct (_ && negb (existsb is_some l)) eqn:G; [|now apply (configure_fine _ _ _ _ _ n nx)].
  destruct W as [_|m Es O N]; [cbn [cleared s_nses] in G; rewrite andb_false_r in G; discriminate G|].
  destruct F as [[X _]|[X _]]; [discriminate X|]. right. exists n. split; [|exact C]. split; [exact X|]. cbn [s_nses s_nse] in *. injection X as <-. exact (proj2 O).
Qed.
Lemma step_fine sns o s : inv s -> fine inv (step sns o s).
Proof.
  intros I. destruct o as [x i|k]; cbn [step].
  - unfold info_ind_ns. destruct (negb _); [exact Logic.I|]. apply update_fine; [exact I|]. intros e. apply entries_proper.
  - destruct I as [[A B]|[n [[A B] [D P]]]]; [left; cbn [s_nses s_nse]; rewrite A; now split|right]. cbn [s_nses s_nse]. rewrite A. cbn [map].
    destruct (nth_error (n_points n) k) as [a|]; [exists (mk_nse (n_id n) (n_nsei n) (n_vcs n) (n_points n) (Some a))|exists n]; (split; [split; [reflexivity|exact B]|split; [exact D|exact P]]).
Qed.
Lemma run_fine sns os : forall s, inv s -> fine inv (run sns os s).
Proof.
  induction os as [|o r IH]; intros s I; cbn [run]; [exact I|]. pose proof (step_fine sns o s I) as F. destruct (step sns o s) as [s'| |]; [now apply IH|exact F|exact F].
Qed.
Lemma inv0 : inv nsi0.
Proof. left. now split. Qed.
Lemma run_inv sns os s : run sns os nsi0 = Goes s -> inv s.
Proof. intros R. pose proof (run_fine sns os nsi0 inv0) as F. now rewrite R in F. Qed.
Theorem never_fault sns os : run sns os nsi0 <> Fault.
Proof. intros R. pose proof (run_fine sns os nsi0 inv0) as F. now rewrite R in F. Qed.

(** *** What there is afterwards, without IP-SNS. *)
Definition updated (x : env) (nsei : Z) (c : list (option entry)) (s : nsi) (n' : nse) (s' : nsi) : Prop :=
  one s' n' /\ n_nsei n' = nsei /\
  exists s1 l, work false nsei c s s1 l /\
    ((existsb is_some l = false /\ s' = s1 /\ s_nses s1 <> []) \/
     exists n nx c' , from s1 nsei n nx /\ existsb is_some l = true /\ c' = snd (bind_loop x false 0 l (s_binds s1)) /\ s_binds s' = fst (bind_loop x false 0 l (s_binds s1)) /\
       n_vcs n' = fst (fst (connect_loop x c' (n_vcs n) nx))).
Lemma update_goes x nsei c s s' : inv s -> (forall e, In e (somes c) -> proper (eends e)) -> update_config x false nsei c s = Goes s' ->
  exists n', updated x nsei c s n' s'.
Proof.
  intros I Q U. destruct (update_cases x false nsei c s I) as [[n [X _]]|[s1 [l [W E]]]]; [discriminate X|]. rewrite U in E. clear U. cbn [negb andb] in E.
  destruct (existsb is_some l) eqn:L; cbn [negb] in E.
  - rewrite andb_false_r in E. destruct (work_from _ _ _ _ _ _ W) as [n [nx F]]. rewrite (configure_eq _ _ _ _ _ _ _ F) in E. rewrite L in E. cbn [negb] in E.
    destruct (match s_nses s1 with [] => negb (x_create x) | _ => false end); [discriminate E|].
    destruct (bind_loop x false 0 l (s_binds s1)) as [bs c'] eqn:B. destruct (negb (existsb is_some c')); [discriminate E|].
    destruct (connect_loop x c' (n_vcs n) nx) as [[vs nx'] ok] eqn:K. destruct ok; [|discriminate E]. injection E as ->.
    eexists. split; [split; reflexivity|]. split; [cbn [n_nsei]; destruct F as [[_ [-> _]]|[_ [Y _]]]; [reflexivity|exact Y]|].
    exists s1, l. split; [exact W|]. right. exists n, nx, c'. rewrite B. cbn [fst snd n_vcs s_binds]. rewrite K. now repeat split.
  - rewrite andb_true_r in E. destruct W as [F|n Es O N].
    + cbn [cleared s_nses] in E. unfold configure in E. rewrite L in E. discriminate E.
    + cbn [s_nses] in E. injection E as ->. eexists. split; [split; [reflexivity|exact (proj2 O)]|]. split; [symmetry; exact N|].
      eexists _, _. split; [apply (WKeep _ _ _ _ n); auto|]. left. cbn [s_nses]. now repeat split.
Qed.

Lemma updated_links x nsei c s n' s' v : (forall e, In e (somes c) -> proper (eends e)) -> updated x nsei c s n' s' ->
  In v (n_vcs n') -> exists e, In e (somes c) /\ vc_equal v e = true.
Proof.
  intros Q [[O1 O2] [N [s1 [l [W R]]]]] V.
  assert (FW : fewer l c) by (destruct W; [apply fewer_refl|apply scan_fewer]).
  assert (K : forall n nx w, from s1 nsei n nx -> In w (n_vcs n) -> exists e, In e (somes c) /\ vc_equal w e = true).
  { intros n nx w F I. destruct W as [_|m Es O Nm].
    - destruct F as [[_ [-> _]]|[X _]]; [destruct I|discriminate X].
    - destruct F as [[X _]|[X _]]; [discriminate X|]. cbn [s_nses] in X. injection X as <-. exact (proj2 (scan_sub _ _ _ I)). }
  destruct R as [[L [-> X]]|[n [nx [c' [F [L [-> [_ Vs]]]]]]]].
  - destruct (work_from _ _ _ _ _ _ W) as [n [nx F]]. apply (K n nx v F). destruct F as [[Y _]|[Y _]]; [congruence|]. rewrite Y in O1. injection O1 as ->. exact V.
  - rewrite Vs in V. apply connect_in in V. destruct V as [V|[e [V [E1 E2]]]]; [exact (K n nx v F V)|]. exists e. split; [|apply vc_equal_eq; now split].
    exact (fewer_in _ _ _ FW (fewer_in _ _ _ (bind_fewer _ _ _ _ _) V)).
Qed.
Lemma updated_keeps x nsei c s n n' s' v e : inv s -> one s n -> n_nsei n = nsei -> NoDup (map eends (somes c)) -> updated x nsei c s n' s' ->
  In v (n_vcs n) -> In e (somes c) -> vc_equal v e = true -> In v (n_vcs n').
Proof.
  intros I O N D [[O1 O2] [N' [s1 [l [W R]]]]] V E Q.
  assert (NoD : NoDup (map vends (n_vcs n))).
  { destruct I as [[A _]|[m [M [X _]]]]; [destruct O as [O _]; congruence|]. replace n with m; [exact X|]. destruct O as [O _], M as [M _]. congruence. }
  destruct W as [F|m Es M Nm]; [specialize (F n O (eq_sym N)); discriminate F|].
  replace m with n in * by (destruct O as [O _], M as [M _]; congruence).
  pose proof (scan_stays (n_vcs n) NoD c v e V E Q) as St. destruct R as [[_ [-> _]]|[k [nx [c' [F [L [-> [_ Vs]]]]]]]].
  - cbn [s_nses] in O1. injection O1 as <-. exact St.
  - rewrite Vs. destruct F as [[X _]|[X _]]; [discriminate X|]. cbn [s_nses] in X. injection X as <-. cbn [n_vcs]. apply connect_keeps; [exact St|].
    intros J. apply (scan_apart (n_vcs n) c v D St). apply in_map_iff in J. destruct J as [e2 [X J]]. apply in_map_iff. exists e2. split; [exact X|].
    exact (fewer_in _ _ _ (bind_fewer _ _ _ _ _) J).
Qed.
Lemma fewer_nth a b : fewer a b -> forall k e, nth_error a k = Some (Some e) -> nth_error b k = Some (Some e).
Proof.
  induction 1 as [|x y p q X F IH]; intros [|k] e E; try discriminate E; cbn [nth_error] in *; [|now apply IH].
  destruct X as [->|X]; [exact E|congruence].
Qed.
Lemma updated_all x nsei c s n' s' loc : works x -> NoDup (map eends (somes c)) -> kept_names loc (s_binds s) ->
  (forall k e, nth_error c k = Some (Some e) -> e_local e = loc k) -> updated x nsei c s n' s' ->
  forall e, In e (somes c) -> exists v, In v (n_vcs n') /\ vc_equal v e = true.
Proof.
  intros Wk D K L [[O1 O2] [N' [s1 [l [W R]]]]] e E.
  assert (FW : fewer l c) by (destruct W; [apply fewer_refl|apply scan_fewer]).
  assert (Ll : forall k e0, nth_error l k = Some (Some e0) -> e_local e0 = loc (0 + k)%nat).
  { intros k e0 X. exact (L k e0 (fewer_nth _ _ FW k e0 X)). }
  assert (Kl : kept_names loc (s_binds s1)) by (destruct W; [intros j a []|exact K]).
  pose proof (bind_all x loc l Wk 0%nat (s_binds s1) Kl Ll) as B.
  destruct R as [[X [-> Y]]|[n [nx [c' [F [X [-> [_ Vs]]]]]]]].
  - destruct W as [F|m Es M Nm]; [cbn [cleared s_nses] in Y; congruence|]. cbn [s_nses] in O1. injection O1 as <-. cbn [n_vcs].
    destruct (scan_cover (n_vcs m) c e E) as [J|J]; [rewrite (somes_none _ X) in J; destruct J|exact J].
  - rewrite B in Vs. rewrite Vs. pose proof (connect_all x l Wk (fewer_nodup eends _ _ FW D) (n_vcs n) nx) as CA.
    assert (Cl : In e (somes l) -> exists v, In v (fst (fst (connect_loop x l (n_vcs n) nx))) /\ vc_equal v e = true).
    { intros J. destruct (CA e J) as [v [V Q]]. exists v. split; [exact V|]. now apply vc_equal_eq. }
    destruct W as [_|m Es M Nm]; [exact (Cl E)|].
    destruct (scan_cover (n_vcs m) c e E) as [J|[v [J Q]]]; [exact (Cl J)|]. exists v. split; [|exact Q].
    destruct F as [[Z _]|[Z _]]; [discriminate Z|]. cbn [s_nses] in Z. injection Z as <-. cbn [n_vcs] in *. apply connect_keeps; [exact J|]. now apply scan_apart.
Qed.
(** The process does not end. *)
Lemma update_lives x nsei c s loc : inv s -> works x -> kept_names loc (s_binds s) -> existsb is_some c = true ->
  (forall k e, nth_error c k = Some (Some e) -> e_local e = loc k) -> update_config x false nsei c s <> Exits.
Proof.
  intros I Wk K Ne L. destruct (update_cases x false nsei c s I) as [[n [X _]]|[s1 [l [W E]]]]; [discriminate X|]. rewrite E. cbn [negb andb].
  assert (FW : fewer l c) by (destruct W; [apply fewer_refl|apply scan_fewer]).
  assert (Ll : forall k e0, nth_error l k = Some (Some e0) -> e_local e0 = loc (0 + k)%nat).
  { intros k e0 X. exact (L k e0 (fewer_nth _ _ FW k e0 X)). }
  assert (Kl : kept_names loc (s_binds s1)) by (destruct W; [intros j a []|exact K]).
  pose proof (bind_all x loc l Wk 0%nat (s_binds s1) Kl Ll) as B.
  destruct (existsb is_some l) eqn:X; cbn [negb].
  - rewrite andb_false_r. destruct (work_from _ _ _ _ _ _ W) as [n [nx F]]. rewrite (configure_eq _ _ _ _ _ _ _ F), X. cbn [negb].
    replace (match s_nses s1 with [] => negb (x_create x) | _ => false end) with false by (rewrite (proj1 Wk); now destruct (s_nses s1)).
    destruct (bind_loop x false 0 l (s_binds s1)) as [bs c']. cbn [snd] in B. subst c'. rewrite X. cbn [negb].
    pose proof (connect_some x l Wk X (n_vcs n) nx) as Cs. destruct (connect_loop x l (n_vcs n) nx) as [[vs nx'] ok]. cbn [snd] in Cs. subst ok. discriminate.
  - destruct W as [_|m Es M Nm]; [congruence|]. cbn [s_nses andb]. discriminate.
Qed.
Lemma update_names x nsei c s s' loc : inv s -> (forall e, In e (somes c) -> proper (eends e)) -> kept_names loc (s_binds s) ->
  (forall k e, nth_error c k = Some (Some e) -> e_local e = loc k) -> update_config x false nsei c s = Goes s' -> kept_names loc (s_binds s').
Proof.
  intros I Q K L U. destruct (update_goes _ _ _ _ _ I Q U) as [n' [_ [_ [s1 [l [W R]]]]]].
  assert (FW : fewer l c) by (destruct W; [apply fewer_refl|apply scan_fewer]).
  assert (Ll : forall k e0, nth_error l k = Some (Some e0) -> e_local e0 = loc (0 + k)%nat).
  { intros k e0 X. exact (L k e0 (fewer_nth _ _ FW k e0 X)). }
  assert (Kl : kept_names loc (s_binds s1)) by (destruct W; [intros j a []|exact K]).
  destruct R as [[_ [-> _]]|[n [nx [c' [_ [_ [_ [-> _]]]]]]]]; [exact Kl|]. now apply bind_names.
Qed.

(** *** From the information of the BTS. *)
Lemma some_wanted i : existsb is_some (map entry_of (i_pos i)) = true <-> wanted i <> [].
Proof.
  rewrite wanted_entries. split.
  - intros E X. destruct (existsb is_some (map entry_of (i_pos i))) eqn:Y; [|discriminate E]. apply existsb_exists in Y. destruct Y as [[e|] [I Z]]; [|discriminate Z].
    enough (In (elink e) []) by easy. rewrite <- X. apply in_map. unfold somes. apply in_flat_map. exists (Some e). split; [exact I|now left].
  - intros X. destruct (existsb is_some (map entry_of (i_pos i))) eqn:Y; [reflexivity|]. exfalso. apply X. now rewrite (somes_none _ Y).
Qed.
Lemma info_goes x i s s' : info_ind_ns x false i s = Goes s' -> update_config x false (i_nsei i) (map entry_of (i_pos i)) s = Goes s'.
Proof. unfold info_ind_ns. destruct (negb _); [discriminate|trivial]. Qed.

Theorem only_wanted os x i s s' : run false os nsi0 = Goes s -> step false (Info x i) s = Goes s' ->
  nsei_of s' = Some (i_nsei i) /\ NoDup (map ends (links s')) /\ forall l, In l (links s') -> In l (wanted i).
Proof.
  intros R G. cbn [step] in G. apply info_goes in G. pose proof (run_inv _ _ _ R) as I. pose proof (entries_proper i) as P.
  destruct (update_goes _ _ _ _ _ I P G) as [n' U]. pose proof (proj1 U) as O.
  pose proof (update_fine x false (i_nsei i) _ _ I P) as F. rewrite G in F. cbn [fine] in F.
  assert (C : clean n').
  { destruct F as [[A _]|[m [M C]]]; [destruct O as [O _]; congruence|]. replace n' with m; [exact C|]. destruct O as [O _], M as [M _]. congruence. }
  split; [|split].
  - rewrite (one_nsei _ _ O). f_equal. exact (proj1 (proj2 U)).
  - unfold links. rewrite (one_connections _ _ O), map_map. destruct C as [D Pr]. clear - D Pr. induction (n_vcs n') as [|v r IH]; [constructor|]. cbn [map] in *.
    inversion D as [|? ? N D']; subst. constructor; [|apply IH; [exact D'|intros w W; apply Pr; now right]]. intros J. apply N. apply in_map_iff in J. destruct J as [w [E J]].
    apply in_map_iff. exists w. split; [|exact J]. unfold ends, link_of in E. cbn [fst] in E. injection E as E1 E2 E3 E4.
    apply proper_eq; [apply Pr; now right|apply Pr; now left|exact E1|exact E2|exact E3|exact E4].
  - intros l J. unfold links in J. rewrite (one_connections _ _ O) in J. apply in_map_iff in J. destruct J as [v [<- V]].
    destruct (updated_links _ _ _ _ _ _ _ P U V) as [e [E Q]]. rewrite wanted_entries. apply in_map_iff. exists e. split; [symmetry; now apply equal_link|exact E].
Qed.
Theorem wanted_kept os x i s s' v : run false os nsi0 = Goes s -> distinct i -> step false (Info x i) s = Goes s' ->
  nsei_of s = Some (i_nsei i) -> In v (connections s) -> In (link_of v) (wanted i) -> In v (connections s').
Proof.
  intros R D G N V L. cbn [step] in G. apply info_goes in G. pose proof (run_inv _ _ _ R) as I. pose proof (entries_proper i) as P.
  destruct (update_goes _ _ _ _ _ I P G) as [n' U]. destruct I as [[A B]|[n [O C]]]; [unfold nsei_of in N; rewrite B in N; discriminate N|].
  rewrite (one_connections _ _ (proj1 U)). rewrite (one_connections _ _ O) in V. rewrite (one_nsei _ _ O) in N. injection N as N.
  rewrite wanted_entries in L. apply in_map_iff in L. destruct L as [e [E Ie]].
  apply (updated_keeps x (i_nsei i) (map entry_of (i_pos i)) s n n' s' v e); try assumption; [right; now exists n|now apply distinct_entries|].
  apply link_vc_equal; [now apply C|now apply P|now symmetry].
Qed.

(** Local addresses that stay with their positions. *)
Definition loc_of (at_ : nat -> family * Z) (k : nat) : sockaddr := mk_sa (fst (at_ k)) 0 (snd (at_ k)).
Lemma steady_loc at_ i : steady at_ i -> forall k e, nth_error (map entry_of (i_pos i)) k = Some (Some e) -> e_local e = loc_of at_ k.
Proof.
  intros St k e E. rewrite nth_error_map in E. destruct (nth_error (i_pos i) k) as [p|] eqn:N; [|discriminate E]. destruct (St k p N) as [A B].
  cbn [option_map] in E. injection E as E. unfold entry_of in E. unfold loc_of. destruct (p_type p =? 4) eqn:T.
  - apply Z.eqb_eq in T. rewrite (A T). injection E as <-. reflexivity.
  - destruct (p_type p =? 41) eqn:T'; [|discriminate E]. apply Z.eqb_eq in T'. rewrite (B T'). injection E as <-. reflexivity.
Qed.
Definition steady_op (at_ : nat -> family * Z) (o : op) : Prop := match o with Info _ i => steady at_ i | Settle _ => True end.
Lemma run_names at_ os : Forall (steady_op at_) os -> forall s s', inv s -> kept_names (loc_of at_) (s_binds s) -> run false os s = Goes s' -> kept_names (loc_of at_) (s_binds s').
Proof.
  induction 1 as [|o r St F IH]; intros s s' I K R; cbn [run] in R; [injection R as <-; exact K|]. pose proof (step_fine false o s I) as Fi.
  destruct (step false o s) as [s1| |] eqn:E; [|discriminate R|discriminate R]. apply (IH s1 s' Fi); [|exact R]. destruct o as [x i|k]; cbn [step] in E.
  - apply info_goes in E. apply (update_names _ _ _ _ _ _ I (entries_proper i) K (steady_loc _ _ St) E).
  - injection E as <-. exact K.
Qed.
Theorem steady_links at_ os x i s : Forall (steady_op at_) os -> steady at_ i -> run false os nsi0 = Goes s -> works x -> distinct i -> wanted i <> [] ->
  exists s', step false (Info x i) s = Goes s' /\ nsei_of s' = Some (i_nsei i) /\ NoDup (map ends (links s')) /\ forall l, In l (links s') <-> In l (wanted i).
Proof.
  intros F St R W D Ne. pose proof (run_inv _ _ _ R) as I. pose proof (run_names at_ os F nsi0 s inv0 ltac:(intros j a []) R) as K. pose proof (entries_proper i) as P.
  apply some_wanted in Ne.
  pose proof (update_lives x (i_nsei i) _ s (loc_of at_) I W K Ne (steady_loc _ _ St)) as NE. pose proof (update_fine x false (i_nsei i) _ _ I P) as Fi.
  destruct (update_config x false (i_nsei i) (map entry_of (i_pos i)) s) as [s'| |] eqn:U; [|congruence|destruct Fi].
  assert (G : step false (Info x i) s = Goes s') by (cbn [step]; unfold info_ind_ns; rewrite Ne; exact U).
  exists s'. split; [exact G|]. destruct (only_wanted os x i s s' R G) as [A [B C]]. split; [exact A|]. split; [exact B|]. intros l. split; [apply C|].
  rewrite wanted_entries. intros J. apply in_map_iff in J. destruct J as [e [<- E]]. destruct (update_goes _ _ _ _ _ I P U) as [n' Up].
  destruct (updated_all _ _ _ _ _ _ (loc_of at_) W (distinct_entries i D) K (steady_loc _ _ St) Up e E) as [v [V Q]].
  unfold links. rewrite (one_connections _ _ (proj1 Up)). apply in_map_iff. exists v. split; [now apply equal_link|exact V].
Qed.
(** A new NSEI starts from nothing: nothing stands in the way of any configuration. *)
Theorem new_nsei_links os x i s : run false os nsi0 = Goes s -> nsei_of s <> Some (i_nsei i) -> works x -> distinct i -> wanted i <> [] ->
  exists s', step false (Info x i) s = Goes s' /\ nsei_of s' = Some (i_nsei i) /\ forall l, In l (links s') <-> In l (wanted i).
Proof.
  intros R Nn W D Ne. pose proof (run_inv _ _ _ R) as I.
  assert (E : step false (Info x i) s = step false (Info x i) (mk_nsi [] [] (s_next s) None)).
  { cbn [step]. unfold info_ind_ns. destruct (negb _); [reflexivity|]. unfold update_config at 2. cbn [s_nse]. unfold update_config.
    assert (CC : forall c s0, configure x false (i_nsei i) c (mk_nsi [] [] (s_next s) s0) = configure x false (i_nsei i) c (mk_nsi [] [] (s_next s) None)) by reflexivity.
    destruct I as [[A B]|[n [O C]]]; [rewrite B; unfold cleared; rewrite B; reflexivity|]. rewrite (proj2 O), (one_find _ _ O _ (proj2 O)).
    destruct (i_nsei i =? n_nsei n) eqn:Q; [apply Z.eqb_eq in Q; rewrite (one_nsei _ _ O) in Nn; congruence|]. cbn [negb]. unfold cleared. cbn [s_next s_nse]. apply CC. }
  set (at_ := fun k => match nth_error (map entry_of (i_pos i)) k with Some (Some e) => (sa_fam (e_local e), sa_port (e_local e)) | _ => (V4, 0) end).
  assert (St : steady at_ i).
  { intros k p N. unfold at_. rewrite nth_error_map, N. cbn [option_map]. unfold entry_of. split; intros T; rewrite T; reflexivity. }
  set (s0 := mk_nsi [] [] (s_next s) None) in *.
  assert (I0 : inv s0) by (left; now split). assert (K0 : kept_names (loc_of at_) (s_binds s0)) by (intros j a []).
  pose proof (entries_proper i) as P. apply some_wanted in Ne.
  pose proof (update_lives x (i_nsei i) _ s0 (loc_of at_) I0 W K0 Ne (steady_loc _ _ St)) as NE. pose proof (update_fine x false (i_nsei i) _ _ I0 P) as Fi.
  destruct (update_config x false (i_nsei i) (map entry_of (i_pos i)) s0) as [s'| |] eqn:U; [|congruence|destruct Fi].
  assert (G : step false (Info x i) s = Goes s') by (rewrite E; cbn [step]; unfold info_ind_ns; rewrite Ne; exact U).
  exists s'. split; [exact G|]. destruct (only_wanted os x i s s' R G) as [A [_ C]]. split; [exact A|]. intros l. split; [apply C|].
  rewrite wanted_entries. intros J. apply in_map_iff in J. destruct J as [e [<- Ie]]. destruct (update_goes _ _ _ _ _ I0 P U) as [n' Up].
  destruct (updated_all _ _ _ _ _ _ (loc_of at_) W (distinct_entries i D) K0 (steady_loc _ _ St) Up e Ie) as [v [V Q]].
  unfold links. rewrite (one_connections _ _ (proj1 Up)). apply in_map_iff. exists v. split; [now apply equal_link|exact V].
Qed.
