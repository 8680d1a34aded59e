(** The links to the SGSN: IP-SNS, and configurations that do not come into effect. *)
From Coq Require Import ZArith List Bool Arith Lia.
From Verif Require Import Model.NsConf Spec.NsConfSpec Proofs.NsConfP Proofs.NsConfQ.
Import ListNotations.
Open Scope Z_scope.

Lemma point_all x c : forall ps qs ok, point_loop x c ps = Some (qs, ok) ->
  (forall a, In a qs -> In a ps \/ exists e, In e (somes c) /\ e_remote e = a) /\ (forall a, In a ps -> In a qs) /\
  (forall e, In e (somes c) -> In (e_remote e) qs).
Proof.
  induction c as [|[e|] r IH]; intros ps qs ok; cbn [point_loop].
  - intros E. injection E as <- <-. split; [intros a I; now left|]. split; [trivial|]. intros e [].
  - assert (R : forall e', In e' (somes r) -> In e' (somes (Some e :: r))) by (intros e' I; unfold somes; cbn [flat_map]; apply in_app_iff; now right).
    destruct (existsb (fun a => sa_eqb a (e_remote e)) ps) eqn:X.
    + destruct (point_loop x r ps) as [[ps' b]|] eqn:P; [|discriminate]. intros E. injection E as <- <-. destruct (IH _ _ _ P) as [A [B C]]. repeat split.
      * intros a I. destruct (A a I) as [J|[e' [J K]]]; [now left|right; exists e'; split; [now apply R|exact K]].
      * exact B.
      * unfold somes. cbn [flat_map app]. intros e' [<-|I]; [|now apply C]. apply B. apply existsb_exists in X. destruct X as [a [I Q]]. apply sa_eqb_eq in Q. now subst a.
    + destruct (x_point x (e_remote e)); [|discriminate]. destruct (point_loop x r (ps ++ [e_remote e])) as [[ps' b]|] eqn:P; [|discriminate].
      intros E. injection E as <- <-. destruct (IH _ _ _ P) as [A [B C]]. repeat split.
      * intros a I. destruct (A a I) as [J|[e' [J K]]]; [|right; exists e'; split; [now apply R|exact K]]. apply in_app_iff in J. destruct J as [J|[<-|[]]]; [now left|].
        right. exists e. split; [unfold somes; cbn [flat_map app]; now left|reflexivity].
      * intros a I. apply B. apply in_app_iff. now left.
      * unfold somes. cbn [flat_map app]. intros e' [<-|I]; [|now apply C]. apply B. apply in_app_iff. right. now left.
  - apply IH.
Qed.

Lemma remotes_entries i : remotes i = map e_remote (somes (map entry_of (i_pos i))).
Proof.
  unfold remotes. rewrite wanted_entries, map_map. apply map_ext_in. intros e E. pose proof (entries_proper i e E) as [_ F]. cbn [fst snd eends] in F. unfold elink.
  rewrite <- F. now destruct (e_remote e).
Qed.

Theorem sns_points os x i s s' : run true os nsi0 = Goes s -> step true (Info x i) s = Goes s' ->
  nsei_of s' = Some (i_nsei i) /\
  ((s' = s /\ exists a, settled s = Some a /\ In a (remotes i)) \/ (points s' <> [] /\ settled s' = None /\ forall a, In a (points s') -> In a (remotes i))).
Proof.
  intros R G. pose proof (run_inv _ _ _ R) as I. cbn [step] in G. unfold info_ind_ns in G. destruct (negb (existsb is_some _)) eqn:Ne; [discriminate G|].
  set (c := map entry_of (i_pos i)) in *.
  assert (Anew : configure x true (i_nsei i) c (cleared s) = Goes s' -> nsei_of s' = Some (i_nsei i) /\ points s' <> [] /\ settled s' = None /\ forall a, In a (points s') -> In a (remotes i)).
  { intros Cf. rewrite (configure_eq x true (i_nsei i) c (cleared s) (mk_nse (s_next s) (i_nsei i) [] [] None) (S (s_next s))) in Cf by (left; now repeat split).
    rewrite Ne in Cf. cbn [cleared s_nses s_binds] in Cf. destruct (negb (x_create x)); [discriminate Cf|].
    pose proof (bind_fewer x true c 0%nat []) as F. destruct (bind_loop x true 0 c []) as [bs c']. cbn [snd] in F.
    destruct (negb (existsb is_some c')) eqn:Nc; [discriminate Cf|]. cbn [n_points] in Cf. destruct (point_loop x c' []) as [[ps ok]|] eqn:P; [|discriminate Cf].
    destruct ok; [|discriminate Cf]. injection Cf as <-. destruct (point_all _ _ _ _ _ P) as [A [_ C]]. unfold nsei_of, points, settled.
    cbn [s_nse s_nses flat_map find n_id n_points n_nsei n_initial]. rewrite Nat.eqb_refl, app_nil_r. split; [reflexivity|]. split; [|split; [reflexivity|]].
    - intros X. subst ps. apply negb_false_iff, existsb_exists in Nc. destruct Nc as [[e|] [J K]]; [|discriminate K]. apply (C e). unfold somes. apply in_flat_map. exists (Some e). split; [exact J|now left].
    - intros a J. destruct (A a J) as [[]|[e [K <-]]]. rewrite remotes_entries. apply in_map. exact (fewer_in _ _ _ F K). }
  unfold update_config in G. destruct I as [[A B]|[n [O Cl]]].
  - rewrite B in G. destruct (Anew G) as [H1 H2]. split; [exact H1|now right].
  - rewrite (proj2 O), (one_find _ _ O _ (proj2 O)) in G. destruct (i_nsei i =? n_nsei n) eqn:Q; cbn [negb] in G; [|destruct (Anew G) as [H1 H2]; split; [exact H1|now right]].
    match type of G with context [existsb ?f c] => destruct (existsb f c) eqn:X end; [|destruct (Anew G) as [H1 H2]; split; [exact H1|now right]].
    injection G as <-. apply Z.eqb_eq in Q. split; [rewrite (one_nsei _ _ O); now rewrite Q|]. left. split; [reflexivity|].
    apply existsb_exists in X. destruct X as [[e|] [J K]]; [|discriminate K]. unfold settled. rewrite (proj2 O), (one_find _ _ O _ (proj2 O)).
    destruct (n_initial n) as [a|]; [|discriminate K]. exists a. split; [reflexivity|]. apply sa_eqb_eq in K. subst a. rewrite remotes_entries. apply in_map. unfold somes. apply in_flat_map.
    exists (Some e). split; [exact J|now left].
Qed.

Definition X_OK : env := mk_env true (fun _ _ => true) (fun _ => true) (fun _ => true) (fun _ _ => true).
Lemma x_ok : works X_OK.
Proof. repeat split. Qed.
Definition pos4 (lport ip nsvci : Z) : position := mk_pos 4 lport ip 23000 nsvci.
Definition NONE_ : position := mk_pos 0 0 0 0 0.
(** Two links; the second one moves to another SGSN; then the local port of the first changes. *)
Definition I1 : info := mk_info 101 [pos4 23000 1 101; pos4 23000 2 102].
Definition I2 : info := mk_info 101 [pos4 23000 1 101; pos4 23000 3 102].
Definition I3 : info := mk_info 101 [pos4 23001 1 101; pos4 23000 3 102].
Definition I4 : info := mk_info 102 [pos4 23001 1 101; NONE_].

Theorem port_refuted : exists i j s, run false [Info X_OK i] nsi0 = Goes s /\ works X_OK /\ distinct i /\ distinct j /\ wanted j <> [] /\
  i_nsei i = i_nsei j /\ In (V4, 23000, 3, 23000, 102) (links s) /\ In (V4, 23000, 3, 23000, 102) (wanted j) /\ step false (Info X_OK j) s = Exits.
Proof.
  exists I2, I3. eexists. split; [vm_compute; reflexivity|]. split; [exact x_ok|].
  split; [repeat constructor; intros Q; cbn in Q; intuition discriminate|]. split; [repeat constructor; intros Q; cbn in Q; intuition discriminate|].
  split; [discriminate|]. split; [reflexivity|]. split; [right; left; reflexivity|]. split; [right; left; reflexivity|]. vm_compute. reflexivity.
Qed.
(** The local port and the second SGSN change, and nothing happens. *)
Theorem sns_refuted : exists i j s, run true [Info X_OK i; Settle 0] nsi0 = Goes s /\ works X_OK /\ distinct i /\ distinct j /\
  step true (Info X_OK j) s = Goes s /\ ~ In (mk_sa V4 3 23000) (points s) /\ In (mk_sa V4 3 23000) (remotes j) /\
  In (mk_sa V4 2 23000) (points s) /\ ~ In (mk_sa V4 2 23000) (remotes j) /\ ~ In (mk_sa V4 0 23001) (sockets s) /\ In (V4, 23001, 1, 23000, 101) (wanted j).
Proof.
  exists I1, (mk_info 101 [pos4 23001 1 101; pos4 23000 3 102]). eexists. split; [vm_compute; reflexivity|]. split; [exact x_ok|].
  split; [repeat constructor; intros Q; cbn in Q; intuition discriminate|]. split; [repeat constructor; intros Q; cbn in Q; intuition discriminate|].
  split; [vm_compute; reflexivity|].
  repeat split; try (cbn; intros Q; intuition discriminate); cbn; auto.
Qed.

(** Beside the theorems: the second link changes, the first stays; then everything under another NSEI. *)
Definition conn (o : outcome) : list (nat * link) := match o with Goes s => map (fun v => (v_id v, link_of v)) (connections s) | _ => [] end.
Lemma example_links : conn (run false [Info X_OK I1] nsi0) = [(1%nat, (V4, 23000, 1, 23000, 101)); (2%nat, (V4, 23000, 2, 23000, 102))] /\
  conn (run false [Info X_OK I1; Info X_OK I2] nsi0) = [(1%nat, (V4, 23000, 1, 23000, 101)); (3%nat, (V4, 23000, 3, 23000, 102))] /\
  conn (run false [Info X_OK I1; Info X_OK I2; Info X_OK I4] nsi0) = [(5%nat, (V4, 23001, 1, 23000, 101))].
Proof. now vm_compute. Qed.
Lemma example_steady : Forall (steady_op (fun _ => (V4, 23000))) [Info X_OK I1] /\ steady (fun _ => (V4, 23000)) I2 /\ distinct I2 /\ wanted I2 <> [].
Proof.
  split; [constructor; [|constructor]; intros [|[|[|k]]] p E; cbn in E; try discriminate E; injection E as <-; split; try discriminate; reflexivity|].
  split; [intros [|[|[|k]]] p E; cbn in E; try discriminate E; injection E as <-; split; try discriminate; reflexivity|].
  split; [repeat constructor; intros Q; cbn in Q; intuition discriminate|discriminate].
Qed.
