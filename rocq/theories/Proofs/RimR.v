(** RAN information management: any history of several PCUs. *)
From Coq Require Import ZArith List Bool Lia.
From Verif Require Import Model.NeighCache Model.Nacc Model.Rim Spec.RimSpec Proofs.NeighCacheP Proofs.RimP Proofs.RimQ.
Import ListNotations.
Open Scope Z_scope.

Lemma upd_forall {A} (P : A -> Prop) f : forall l n, Forall P l -> (forall x, In x l -> P x -> P (f x)) -> Forall P (upd n f l).
Proof.
  induction l as [| x l IH]; intros n F G; cbn [upd]; [destruct n; constructor |].
  inversion F; subst. destruct n; constructor; auto. { apply G; [now left | assumption]. }
  apply IH; [assumption |]. intros y I. apply G. now right.
Qed.
Lemma drop_forall {A} (P : A -> Prop) : forall l n, Forall P l -> Forall P (drop_nth n l).
Proof.
  induction l as [| x l IH]; intros n F; cbn [drop_nth]; [destruct n; constructor |].
  inversion F; subst. destruct n; [assumption | constructor; auto].
Qed.
Lemma nth_forall {A} (P : A -> Prop) l n x : Forall P l -> nth_error l n = Some x -> P x.
Proof. intros F E. rewrite Forall_forall in F. apply F. eapply nth_error_In; eauto. Qed.

(** * Nothing crashes *)

Definition ok_pdu (r : pdu) : Prop :=
  match r_cont r with
  | Some (Info _ _ _ psi si) => psi = false /\ (length si <= 3)%nat /\ Forall (fun x => length x = 21%nat) si
  | Some Unknown => False
  | _ => True
  end.
Lemma ok_decoded r : ok_pdu r -> decoded r.
Proof. unfold ok_pdu, decoded. destruct (r_cont r) as [[] |]; auto. intros (-> & H1 & H2). split; [lia | exact H2]. Qed.

Definition ok_pcu (p : pcu) : Prop := Forall whole_cell (p_cells p).
Definition ok_net (t : net) : Prop := Forall ok_pcu (t_pcus t) /\ Forall ok_pdu (t_air t).

Lemma handle_ok p r : ok_pcu p -> decoded r -> exists out p', handle_rim p r = Done out p' /\ Forall ok_pdu (pdus out) /\
  p_cells p' = p_cells p /\ p_ident p' = p_ident p.
Proof.
  unfold ok_pcu, handle_rim, decoded. intros K D.
  destruct (r_dst r). 2:{ eexists _, _; repeat split; constructor. }
  pose proof (cell_found g (p_cells p)) as F. destruct (cell_by_cgi g (p_cells p)) as [b |]. 2:{ eexists _, _; repeat split; constructor. }
  assert (Wb : whole_cell b). { rewrite Forall_forall in K. now apply K. }
  destruct (r_cont r) as [[app h | app err h psi si | | | app x |] |]; try (eexists _, _; repeat split; constructor); try contradiction.
  - unfold on_request. destruct (negb (app =? APP_NACC)); [| destruct (negb (cgi_eq (l_cgi b) h))]; eexists _, _;
      (split; [reflexivity | split; [| now split]]); (apply Forall_cons; [| constructor]); cbn; try exact Logic.I.
    destruct (app_si_good b Wb) as (A & B & _). auto.
  - unfold on_info. destruct (negb (app =? APP_NACC)); [eexists _, _; repeat split; constructor |].
    destruct err; [eexists _, _; repeat split; constructor |].
    destruct D as [D1 D2]. rewrite (copy_decoded psi si D1 D2). eexists _, _. repeat split. constructor.
Qed.

Lemma mob_event_cells p m v e p' out : mob_event p m v e = (p', out) -> p_cells p' = p_cells p /\ p_ident p' = p_ident p /\ p_cache p' = p_cache p /\ Forall ok_pdu out.
Proof.
  unfold mob_event. destruct (nth_error (p_mobs p) m) as [x |]; [| intros [= <- <-]; auto].
  destruct (find _ (p_cells p)) as [b |]; [| intros [= <- <-]; auto]. destruct (is_answer e); [intros [= <- <-]; auto |].
  destruct (n_step _ _ e); intros [= <- <-]; repeat split; destruct (asks _ _ e); repeat constructor.
Qed.

Lemma ok_step t o : ok_net t -> whole_op o -> exists t', t_step t o = Some t' /\ ok_net t'.
Proof.
  intros [A B] W.
  assert (R : forall i r, decoded r -> exists t', receive t i r = Some t' /\ ok_net t').
  { intros i r D. unfold receive. destruct (nth_error (t_pcus t) i) as [p |] eqn:E; [| exists t; repeat split; assumption].
    destruct (handle_ok p r (nth_forall _ _ _ _ A E) D) as (out & p' & H & P1 & P2 & _). rewrite H. eexists. split; [reflexivity |]. split; cbn.
    - apply upd_forall; [exact A |]. intros _ _ _. unfold ok_pcu. rewrite P2. exact (nth_forall _ _ _ _ A E).
    - apply Forall_app. now split. }
  assert (S : forall i f, (forall p, ok_pcu p -> ok_pcu (f p)) -> exists t', Some (in_pcu t i f) = Some t' /\ ok_net t').
  { intros i f F. eexists. split; [reflexivity |]. split; cbn; [| exact B]. apply upd_forall; auto. }
  destruct o; cbn [t_step].
  - apply S. unfold ok_pcu. intros p H. cbn. apply upd_forall; [exact H |]. intros b _ _. exact W.
  - apply S. auto.
  - destruct (nth_error (t_pcus t) i) as [p |] eqn:E; [| exists t; repeat split; assumption].
    destruct (mob_event p m v e) as [p' out] eqn:M. destruct (mob_event_cells _ _ _ _ _ _ M) as (C1 & _ & _ & C2).
    eexists. split; [reflexivity |]. split; cbn.
    + apply upd_forall; [exact A |]. intros _ _ _. unfold ok_pcu. rewrite C1. exact (nth_forall _ _ _ _ A E).
    + apply Forall_app. now split.
  - destruct (nth_error (t_air t) k) as [r |] eqn:E; [| exists t; repeat split; assumption].
    apply R, ok_decoded. exact (nth_forall _ _ _ _ B E).
  - apply R. exact Logic.I.
  - eexists. split; [reflexivity |]. split; cbn; [exact A | now apply drop_forall].
  - apply S. auto.
  - apply S. auto.
  - apply S. auto.
Qed.

Lemma fresh_ok t : fresh t -> ok_net t.
Proof.
  intros [F1 F2]. split; [| rewrite F1; constructor]. apply Forall_forall. intros p I. apply (F2 p I).
Qed.
Lemma ok_run : forall ops t, ok_net t -> Forall whole_op ops -> exists t', t_run t ops = Some t' /\ ok_net t'.
Proof.
  induction ops as [| o ops IH]; intros t K F; cbn [t_run]; [eauto |]. inversion F; subst.
  destruct (ok_step t o K ltac:(assumption)) as (t1 & -> & K1). now apply IH.
Qed.
Theorem runs_on t ops : fresh t -> Forall whole_op ops -> t_run t ops <> None.
Proof. intros F W. destruct (ok_run ops t (fresh_ok t F) W) as (t' & -> & _). discriminate. Qed.

(** * What is told is true *)

Section Truth.
Variable P : cgi -> list Z -> Prop.

Definition mi (n : nacc) : Prop := n_st n = TX_DATA -> n_psi n = false /\ P (n_cgi n) (n_si n).
Definition wi (w : world) : Prop :=
  (forall b, In b (w_cells w) -> b_nr b = b_nr (w_bts w)) /\
  (forall g psi l, w_si w g = Some (psi, l) -> psi = false /\ P g l).

Lemma mi_cont n : mi n -> mi (chg_cont n).
Proof. unfold chg_cont. intros H. destruct (may (n_st n) TX_CONT); [intros X; discriminate | exact H]. Qed.
Lemma mi_data n l : P (n_cgi n) l -> mi (chg_data (set_si false l n)).
Proof. intros H. unfold chg_data. destruct (may _ _); intros X; cbn; auto. Qed.
Lemma mi_si w n : wi w -> n_st n <> TX_DATA -> mi (chg_si w n).
Proof.
  intros [W1 W2] N. unfold chg_si. destruct (may (n_st n) WAIT_SI); [| intros X; contradiction]. cbn [n_cgi set_st].
  destruct (find _ (w_cells w)) as [b |] eqn:F.
  { exfalso. apply find_some in F as [F1 F2]. rewrite (W1 b F1), Z.eqb_refl in F2. discriminate. }
  destruct (w_si w (n_cgi n)) as [[psi l] |] eqn:Q.
  - destruct (W2 _ _ _ Q) as [-> H]. apply mi_data. exact H.
  - destruct (w_rim_ok w); [intros X; discriminate |]. apply mi_cont. intros X; discriminate.
Qed.
Lemma mi_rac w n : wi w -> mi n -> mi (chg_rac w n).
Proof.
  intros W H. unfold chg_rac. destruct (may (n_st n) WAIT_RAC); [| exact H]. cbn [n_key set_st].
  destruct (w_neigh w (n_key n)). { apply mi_si; [exact W | discriminate]. }
  destruct (w_addr_ok w); [intros X; discriminate |]. apply mi_cont. intros X; discriminate.
Qed.
Lemma mi_key k b n : mi n -> mi (set_key k b n). Proof. exact (fun H => H). Qed.
Lemma mi_retrans w t n : wi w -> mi n -> mi (retrans w t n).
Proof.
  intros W H. unfold retrans. destruct (fill_key (w_bts w) t) as [[k |] |].
  - destruct (negb _); [| exact H]. apply mi_rac; [exact W | now apply mi_key].
  - now apply mi_cont.
  - destruct (negb _); [now apply mi_cont | exact H].
Qed.

Lemma mi_step w o e n' m : wi w -> match o with Some n => mi n | None => True end ->
  (forall g psi l, e = MRan g psi l -> psi = false /\ P g l) -> n_step w o e = Alive n' m -> mi n'.
Proof.
  intros W S A H. destruct o as [n |].
  - destruct e; cbn [n_step] in H; unfold dispatch in H.
    + destruct (permits (n_st n) (Notif t)); [| injection H as <- _; exact S]. unfold action in H.
      destruct (n_st n) eqn:E; try (injection H as <- _; now apply mi_retrans).
      * destruct (fill_key _ _) as [[k |] |]; [| | discriminate]; injection H as <- _;
          [apply mi_rac; [exact W | now apply mi_key] | apply mi_cont; now apply mi_key].
      * discriminate.
    + destruct (st_eqb (n_st n) WAIT_RAC && nkey_eq (n_key n) k) eqn:Q; [| injection H as <- _; exact S].
      destruct (n_st n) eqn:E; try discriminate. cbn [permits] in H. unfold action in H. rewrite E in H.
      destruct r as [g |]; injection H as <- _; [apply mi_si; [exact W | cbn; congruence] | now apply mi_cont].
    + destruct (st_eqb (n_st n) WAIT_SI && cgi_eq (n_cgi n) g) eqn:Q; [| injection H as <- _; exact S].
      apply andb_true_iff in Q as [Q1 Q2]. apply st_same in Q1. apply cgi_same in Q2. subst g.
      rewrite Q1 in H. cbn [permits] in H. unfold action in H. rewrite Q1 in H. injection H as <- _.
      destruct (A _ _ _ eq_refl) as [-> B]. now apply mi_data.
    + destruct (rts n c) eqn:R; [| injection H as <- _; exact S]. unfold rts in R. apply andb_true_iff in R as [B R].
      destruct (n_st n) eqn:E; try discriminate; cbn [permits] in H; unfold action in H; rewrite E, B in H; cbn [negb] in H.
      * destruct (create_data c n) as [[b all] n1] eqn:C. destruct (negb (cr_enc c)); [discriminate |]. injection H as <- _.
        assert (D : mi n1).
        { unfold create_data in C. destruct (sz _ =? 0); [| destruct (sz _ >=? _)]; injection C as _ _ <-; exact S. }
        destruct all; [now apply mi_cont | exact D].
      * destruct (cr_poll c) as [[fn rrbp] |]; [| injection H as <- _; exact S].
        destruct (negb (cr_enc c)); injection H as <- _; cbn [n_st set_poll]; rewrite ?E; cbn [may]; intros X; cbn in X; congruence.
    + destruct (exp_ack n fn ts); [| injection H as <- _; exact S]. destruct (n_st n) eqn:E; cbn [permits] in H; try (injection H as <- _; exact S).
      unfold action in H. rewrite E in H. discriminate.
    + destruct (exp_ack n fn ts); [| injection H as <- _; exact S]. destruct (n_st n) eqn:E; cbn [permits] in H; try (injection H as <- _; exact S).
      unfold action in H. rewrite E in H. injection H as <- _. now apply mi_cont.
    + destruct (n_timer n); [| injection H as <- _; exact S]. injection H as <- _. cbn [set_st n_st].
      destruct (n_st n) eqn:E; try (apply mi_cont); intros X; cbn in X; try congruence. apply S. exact E.
  - destruct e; try discriminate. cbn [n_step] in H. unfold dispatch, action in H. cbn [nacc_new n_st permits] in H.
    destruct (fill_key (w_bts w) t) as [[k |] |]; [| | discriminate]; injection H as <- _;
      [apply mi_rac; [exact W |] | apply mi_cont]; intros X; discriminate.
Qed.

Definition mm (m : mob) : Prop := match mo_nacc m with Some n => mi n | None => True end.
Definition ee (e : entry cgi si_val) : Prop := fst (e_val e) = false /\ P (e_key e) (snd (e_val e)).
Definition pp (p : pcu) : Prop :=
  (exists b, p_cells p = [b] /\ l_cgi b = p_ident p /\ whole_cell b /\ P (l_cgi b) (describes b)) /\
  Forall ee (c_list (p_cache p)) /\ Forall mm (p_mobs p).
Definition rr (r : pdu) : Prop :=
  match r_cont r with
  | Some (Info _ _ g psi si) => psi = false /\ (length si <= 3)%nat /\ Forall (fun x => length x = 21%nat) si /\ P g (concat si)
  | Some Unknown => False
  | _ => True
  end.

Lemma add_ee g (v : si_val) c : Forall ee (c_list c) -> fst v = false -> P g (snd v) -> Forall ee (c_list (add cgi_eq g v c)).
Proof.
  intros F V H. unfold add. rewrite (proj1 (schedule_list _)). cbn [c_list].
  destruct (lookup_entry cgi_eq g (c_list c)) as [e |] eqn:L; apply Forall_app; split.
  - apply Forall_forall. intros x X. apply unlink_sub in X. rewrite Forall_forall in F. auto.
  - apply find_some in L as [_ L]. apply cgi_same in L. constructor; [| constructor]. split; cbn [e_val e_key]; [exact V | congruence].
  - exact F.
  - constructor; [| constructor]. now split.
Qed.

Lemma wi_world p b v : pp p -> In b (p_cells p) -> wi (world_of p b v).
Proof.
  intros ((b0 & E & _) & C & _) I. unfold world_of. rewrite E in *. destruct I as [-> | []]. split; cbn [w_cells w_bts w_si map].
  - intros x [<- | []]. reflexivity.
  - intros g psi l H. unfold lookup in H. destruct (lookup_entry cgi_eq g (c_list (p_cache p))) as [e |] eqn:L; [| discriminate].
    cbn in H. injection H as H. apply find_some in L as [L1 L2]. apply cgi_same in L2. rewrite Forall_forall in C.
    destruct (C e L1) as [X Y]. rewrite H in X, Y. cbn in X, Y. split; [exact X |]. congruence.
Qed.

Lemma handle_pp p r : pp p -> rr r -> exists out p', handle_rim p r = Done out p' /\ pp p' /\ Forall rr (pdus out) /\ p_cells p' = p_cells p.
Proof.
  intros H D. pose proof H as H'. destruct H' as ((b0 & E & I & W & T) & C & M). unfold handle_rim. unfold rr in D.
  destruct (r_dst r). 2:{ eexists _, _. split; [reflexivity |]. split; [exact H |]. split; [constructor | reflexivity]. }
  pose proof (cell_found g (p_cells p)) as F. destruct (cell_by_cgi g (p_cells p)) as [b |].
  2:{ eexists _, _. split; [reflexivity |]. split; [exact H |]. split; [constructor | reflexivity]. }
  destruct F as [F1 F2]. pose proof F1 as F3. rewrite E in F3. destruct F3 as [<- | []].
  destruct (r_cont r) as [[app h | app err h psi si | | | app x |] |]; try contradiction;
    try (eexists _, _; split; [reflexivity |]; split; [exact H |]; split; [constructor | reflexivity]).
  - unfold on_request. destruct (negb (app =? APP_NACC)); [| destruct (negb (cgi_eq (l_cgi b0) h))]; eexists _, _;
      (split; [reflexivity |]; split; [exact H |]; split; [| reflexivity]); (apply Forall_cons; [| constructor]); cbn; try exact Logic.I.
    destruct (app_si_good b0 W) as (A & B & R). repeat split; auto. rewrite R, <- I. exact T.
  - unfold on_info. destruct (negb (app =? APP_NACC)). { eexists _, _; split; [reflexivity |]; split; [exact H |]; split; [constructor | reflexivity]. }
    destruct err. { eexists _, _; split; [reflexivity |]; split; [exact H |]; split; [constructor | reflexivity]. }
    destruct D as (-> & D1 & D2 & D3). rewrite (copy_decoded false si ltac:(lia) D2). eexists _, _. split; [reflexivity |].
    split; [| split; [constructor | reflexivity]]. cbn [p_cells p_ident p_cache p_mobs].
    set (p1 := Pcu _ _ _ (p_mobs p)).
    assert (P1 : pp p1). { split; [| split]; cbn; eauto. now apply add_ee. }
    split; [| split]; cbn [p_cells p_ident p_cache p_mobs]; [eauto | now apply add_ee |].
    apply Forall_forall. intros m X. apply in_map_iff in X as (m0 & <- & X). rewrite Forall_forall in M. specialize (M m0 X).
    unfold wake. destruct (mo_cell m0 =? l_nr b0); [| exact M]. unfold mm in *. destruct (mo_nacc m0) as [n |] eqn:Q; [| rewrite Q; exact Logic.I].
    destruct (n_step _ _ _) as [n' y | |] eqn:S; cbn [mo_nacc]; auto.
    refine (mi_step _ (Some n) _ n' y (wi_world p1 b0 env0 P1 _) M _ S).
    + cbn. rewrite E. now left.
    + intros g0 psi0 l0 [= <- <- <-]. split; [reflexivity | exact D3].
Qed.

Lemma mob_event_pp p m v e p' out : pp p -> mob_event p m v e = (p', out) -> pp p' /\ Forall rr out.
Proof.
  intros H. pose proof H as H'. destruct H' as (A & B & C). unfold mob_event.
  destruct (nth_error (p_mobs p) m) as [x |] eqn:E; [| intros [= <- <-]; auto].
  destruct (find _ (p_cells p)) as [b |] eqn:F; [| intros [= <- <-]; auto]. destruct (is_answer e) eqn:Q; [intros [= <- <-]; auto |].
  apply find_some in F as [F _]. pose proof (nth_forall _ _ _ _ C E) as Mx. unfold mm in Mx.
  assert (U : forall y, mm y -> pp (set_mobs (upd m (fun _ => y) (p_mobs p)) p)).
  { intros y Y. split; [exact A | split; [exact B |]]. cbn. apply upd_forall; auto. }
  assert (O : Forall rr (match asks (world_of p b v) (mo_nacc x) e with Some g => [request b g] | None => [] end)).
  { destruct (asks _ _ e); repeat constructor. }
  destruct (n_step _ _ e) as [n y | |] eqn:S; intros [= <- <-]; (split; [apply U | exact O]); [| exact Logic.I | exact Logic.I].
  unfold mm. cbn [mo_nacc]. refine (mi_step _ (mo_nacc x) _ n y (wi_world p b v H F) Mx _ S). intros g psi l ->. discriminate.
Qed.
End Truth.

Definition tt_net (P : cgi -> list Z -> Prop) (t : net) : Prop := Forall (pp P) (t_pcus t) /\ Forall (rr P) (t_air t).

Lemma pp_more (P Q : cgi -> list Z -> Prop) p : (forall g l, P g l -> Q g l) -> pp P p -> pp Q p.
Proof.
  intros L ((b & A1 & A2 & A3 & A4) & B & C). split; [| split].
  - exists b. auto.
  - eapply Forall_impl; [| exact B]. unfold ee. intros e [X Y]. auto.
  - eapply Forall_impl; [| exact C]. unfold mm, mi. intros m. destruct (mo_nacc m); [| auto]. intros X Y. destruct (X Y). auto.
Qed.
Lemma rr_more (P Q : cgi -> list Z -> Prop) r : (forall g l, P g l -> Q g l) -> rr P r -> rr Q r.
Proof. intros L. unfold rr. destruct (r_cont r) as [[] |]; auto. intros (A & B & C & D). auto. Qed.

(** One event, when what is described after it is counted among what was described. *)
Lemma tt_step (P Q : cgi -> list Z -> Prop) t o t' : (forall g l, P g l -> Q g l) -> tt_net P t -> whole_op o -> t_step t o = Some t' ->
  (forall g l, broadcast t' g l -> Q g l) -> tt_net Q t'.
Proof.
  intros L [A0 B0] W H Br.
  assert (A : Forall (pp Q) (t_pcus t)). { eapply Forall_impl; [| exact A0]. intros p. now apply pp_more. }
  assert (B : Forall (rr Q) (t_air t)). { eapply Forall_impl; [| exact B0]. intros p. now apply rr_more. }
  assert (R : forall i r, rr Q r -> receive t i r = Some t' -> tt_net Q t').
  { intros i r D. unfold receive. destruct (nth_error (t_pcus t) i) as [p |] eqn:E; [| intros [= <-]; now split].
    destruct (handle_pp Q p r (nth_forall _ _ _ _ A E) D) as (out & p' & -> & P1 & P2 & _). intros [= <-]. split; cbn.
    - apply upd_forall; auto.
    - apply Forall_app. now split. }
  assert (S : forall i f, Some (in_pcu t i f) = Some t' -> (forall p, pp Q p -> pp Q (f p)) -> tt_net Q t').
  { intros i f [= <-] F. split; cbn; [| exact B]. apply upd_forall; auto. }
  destruct o; cbn [t_step] in H.
  - injection H as <-. split; cbn; [| exact B].
    assert (X : forall n l, Forall (pp Q) l -> (forall p, In p (upd n (fun p => set_cells (upd nr (fun b => Cell (l_nr b) (l_cgi b) s1 s3 s13) (p_cells p)) p) l) -> forall b, In b (p_cells p) -> Q (l_cgi b) (describes b)) ->
      Forall (pp Q) (upd n (fun p => set_cells (upd nr (fun b => Cell (l_nr b) (l_cgi b) s1 s3 s13) (p_cells p)) p) l)).
    { induction n as [| n IH]; intros l F G; destruct l as [| p l]; cbn [upd] in *; try constructor; inversion F as [| x y F1 F2 Z]; subst x y; try assumption.
      - destruct F1 as ((b & C1 & C2 & C3 & C4) & D1 & D2). split; [| split; assumption].
        cbn [set_cells p_cells p_ident]. rewrite C1. destruct nr as [| nr]; cbn [upd].
        + eexists. split; [reflexivity |]. cbn [l_cgi]. split; [exact C2 |]. split; [exact W |].
          apply (G _ (or_introl eq_refl) (Cell (l_nr b) (l_cgi b) s1 s3 s13)). cbn [set_cells p_cells]. rewrite C1. cbn [upd]. left. reflexivity.
        + destruct nr; cbn [upd]; exists b; auto.
      - apply IH; [assumption |]. intros q I. apply G. now right. }
    apply X; [exact A |]. intros p I b J. apply Br. exists p, b. auto.
  - refine (S _ _ H _). intros p (C1 & C2 & C3). split; [exact C1 | split; [exact C2 |]]. cbn. apply Forall_app. split; [exact C3 | repeat constructor].
  - destruct (nth_error (t_pcus t) i) as [p |] eqn:E; [| injection H as <-; now split].
    destruct (mob_event p m v e) as [p' out] eqn:M. injection H as <-.
    destruct (mob_event_pp Q _ _ _ _ _ _ (nth_forall _ _ _ _ A E) M) as [C1 C2]. split; cbn.
    + apply upd_forall; auto.
    + apply Forall_app. now split.
  - destruct (nth_error (t_air t) k) as [r |] eqn:E; [| injection H as <-; now split].
    apply (R i r); [exact (nth_forall _ _ _ _ B E) | exact H].
  - refine (R i _ _ H). exact Logic.I.
  - injection H as <-. split; cbn; [exact A | now apply drop_forall].
  - refine (S _ _ H _). intros p (C1 & C2 & C3). split; [exact C1 | split; [| exact C3]]. cbn. unfold set_keep. now rewrite (proj1 (schedule_list _)).
  - refine (S _ _ H _). intros p (C1 & C2 & C3). split; [exact C1 | split; [exact C2 | exact C3]].
  - refine (S _ _ H _). intros p (C1 & C2 & C3). split; [exact C1 | split; [| exact C3]]. cbn [set_cache p_cache c_step].
    destruct (c_timer (p_cache p)) as [z |]; [| exact C2]. destruct (z <=? c_now (p_cache p)); [| exact C2].
    unfold cleanup. rewrite (proj1 (schedule_list _)). cbn [c_list]. apply Forall_forall. intros x X. apply drop_sub in X.
    rewrite Forall_forall in C2. auto.
Qed.

Lemma run_snoc : forall ops t o t', t_run t (ops ++ [o]) = Some t' -> exists t1, t_run t ops = Some t1 /\ t_step t1 o = Some t'.
Proof.
  induction ops as [| x ops IH]; intros t o t'; cbn [app t_run].
  - destruct (t_step t o) eqn:E; [| discriminate]. intros [= <-]. eauto.
  - destruct (t_step t x); [| discriminate]. apply IH.
Qed.

Definition past (t : net) (ops : list nop) (g : cgi) (l : list Z) : Prop :=
  exists ops1 ops2 t1, ops = ops1 ++ ops2 /\ t_run t ops1 = Some t1 /\ broadcast t1 g l.

Lemma tt_run t : fresh t -> plain t -> forall ops t', Forall whole_op ops -> t_run t ops = Some t' -> tt_net (past t ops) t'.
Proof.
  intros [F1 F2] Pl ops. induction ops as [| o ops IH] using rev_ind; intros t' W R.
  - injection R as <-. split; [| rewrite F1; constructor]. apply Forall_forall. intros p I.
    destruct (F2 p I) as (G1 & G2 & G3). destruct (Pl p I) as (b & B1 & B2). split; [| split].
    + exists b. split; [exact B1 |]. split; [exact B2 |]. rewrite Forall_forall in G2. split. { apply G2. rewrite B1. now left. }
      exists [], [], t. split; [reflexivity |]. split; [reflexivity |]. exists p, b. rewrite B1. cbn. auto.
    + rewrite G1. constructor.
    + apply Forall_forall. intros m M. unfold mm. now rewrite (G3 m M).
  - destruct (run_snoc _ _ _ _ R) as (t1 & R1 & S). apply Forall_app in W as [W1 W2]. inversion W2; subst.
    refine (tt_step (past t ops) (past t (ops ++ [o])) t1 o t' _ (IH t1 W1 R1) ltac:(assumption) S _).
    + intros g l (a & b & u & -> & X & Y). exists a, (b ++ [o]), u. rewrite app_assoc. auto.
    + intros g l X. exists (ops ++ [o]), [], t'. rewrite app_nil_r. auto.
Qed.

Theorem truth t ops : fresh t -> plain t -> Forall whole_op ops -> truthful t ops.
Proof.
  intros F Pl W t' p m n R I J E S. destruct (tt_run t F Pl ops t' W R) as [A _]. rewrite Forall_forall in A.
  destruct (A p I) as (_ & _ & C). rewrite Forall_forall in C. specialize (C m J). unfold mm, mi in C. rewrite E in C. exact (C S).
Qed.
