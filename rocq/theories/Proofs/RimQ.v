(** RAN information management: a question and its answer, and the requests that machines send. *)
From Coq Require Import ZArith List Bool Lia.
From Verif Require Import Model.NeighCache Model.Nacc Model.Rim Spec.RimSpec Proofs.NeighCacheP Proofs.RimP.
Import ListNotations.
Open Scope Z_scope.

Definition ckeys (l : list (entry cgi si_val)) : list cgi := map e_key l.

Lemma find_app_ {A} (f : A -> bool) l1 l2 : find f (l1 ++ l2) = match find f l1 with Some x => Some x | None => find f l2 end.
Proof. induction l1 as [| x l IH]; cbn; [reflexivity |]. now destruct (f x). Qed.

Lemma unlink_found g h (l : list (entry cgi si_val)) : NoDup (ckeys l) ->
  lookup_entry cgi_eq h (unlink cgi_eq g l) = if cgi_eq g h then None else lookup_entry cgi_eq h l.
Proof.
  unfold lookup_entry. induction l as [| e l IH]; intros N; cbn [unlink find].
  - now destruct (cgi_eq g h).
  - unfold ckeys in N. cbn [map] in N. inversion N as [| a b N1 N2 E]; subst a b.
    destruct (cgi_eq (e_key e) g) eqn:Q.
    + apply cgi_same in Q. subst g. destruct (cgi_eq (e_key e) h) eqn:R; [| reflexivity].
      apply cgi_same in R. subst h. destruct (find _ l) eqn:F; [| reflexivity]. exfalso. apply find_some in F as [F1 F2].
      apply cgi_same in F2. apply N1. rewrite <- F2. now apply in_map.
    + cbn [find]. destruct (cgi_eq (e_key e) h) eqn:R.
      * apply cgi_same in R. subst h. destruct (cgi_eq g (e_key e)) eqn:X; [| reflexivity].
        apply cgi_same in X. subst g. rewrite cgi_diff in Q. contradiction.
      * now apply IH.
Qed.

Lemma lookup_add g v (c : cache cgi si_val) : NoDup (ckeys (c_list c)) -> forall h,
  lookup cgi_eq h (add cgi_eq g v c) = if cgi_eq g h then Some v else lookup cgi_eq h c.
Proof.
  intros N h. unfold lookup, add. rewrite (proj1 (schedule_list _)). cbn [c_list].
  destruct (lookup_entry cgi_eq g (c_list c)) as [e |] eqn:L.
  - unfold lookup_entry at 1. rewrite find_app_. fold (lookup_entry cgi_eq h (unlink cgi_eq g (c_list c))).
    rewrite unlink_found by exact N. assert (K : e_key e = g). { apply find_some in L as [_ L]. now apply cgi_same. }
    destruct (cgi_eq g h) eqn:Q; cbn [find e_key]; rewrite K, Q; [reflexivity |].
    now destruct (lookup_entry cgi_eq h (c_list c)).
  - unfold lookup_entry at 1. rewrite find_app_. fold (lookup_entry cgi_eq h (c_list c)). cbn [find e_key].
    destruct (cgi_eq g h) eqn:Q.
    + apply cgi_same in Q. subst h. rewrite L. reflexivity.
    + now destruct (lookup_entry cgi_eq h (c_list c)).
Qed.

Lemma st_same a b : st_eqb a b = true <-> a = b.
Proof. destruct a, b; cbn; split; congruence. Qed.

Lemma wake_informs w b g l m : (awaits b g m -> is_told b g l (wake w (l_nr b) g (false, l) m)) /\
  (~ awaits b g m -> wake w (l_nr b) g (false, l) m = m).
Proof.
  unfold wake, awaits, is_told. split.
  - intros (H1 & n & H2 & H3 & H4). rewrite H1, Z.eqb_refl, H2. cbn [n_step fst snd]. rewrite H3, H4.
    rewrite (proj2 (cgi_same g g) eq_refl). cbn [st_eqb andb]. unfold dispatch. rewrite H3. cbn [permits]. unfold action. rewrite H3.
    unfold chg_data. cbn [set_si n_st]. rewrite H3. cbn [may mo_cell mo_nacc]. split; [reflexivity |]. eexists. split; [reflexivity |].
    cbn. rewrite H4. repeat split.
  - intros H. destruct (Z.eqb_spec (mo_cell m) (l_nr b)) as [E | E]; [| reflexivity].
    destruct (mo_nacc m) as [n |] eqn:Q; [| reflexivity]. cbn [n_step fst snd].
    destruct (st_eqb (n_st n) WAIT_SI && cgi_eq (n_cgi n) g) eqn:X.
    + exfalso. apply andb_true_iff in X as [X1 X2]. apply st_same in X1. apply cgi_same in X2. apply H. eauto.
    + destruct m; cbn in *. congruence.
Qed.

Lemma forall2_map {A} (R : A -> A -> Prop) f l : (forall x, R x (f x)) -> Forall2 R l (map f l).
Proof. intros H. induction l; cbn; constructor; auto. Qed.

Lemma informs p b g si : Forall (fun x => length x = 21%nat) si -> (length si <= 127)%nat ->
  NoDup (ckeys (c_list (p_cache p))) ->
  exists p', on_info p b APP_NACC false g false si = Done [] p' /\ informed b g (concat si) p p'.
Proof.
  intros F L N. unfold on_info. rewrite Z.eqb_refl. cbn [negb].
  rewrite (copy_decoded false si L F). eexists. split; [reflexivity |]. unfold informed. cbn [p_cache p_cells p_ident p_mobs].
  split. { rewrite lookup_add by exact N. now rewrite (proj2 (cgi_same g g) eq_refl). }
  split. { intros h D. rewrite lookup_add by exact N. rewrite (proj2 (cgi_diff g h)) by congruence. reflexivity. }
  split; [reflexivity |]. split; [reflexivity |].
  apply forall2_map. intros m. apply wake_informs.
Qed.

(** A question for [g] goes to a PCU that serves one such cell and whose identity it is. *)
Theorem exchange : forall a A b B, cell_by_cgi (l_cgi a) (p_cells A) = Some a -> cell_by_cgi (l_cgi b) (p_cells B) = Some b ->
  p_ident B = l_cgi b -> whole_cell b -> NoDup (map e_key (c_list (p_cache A))) ->
  exists r A', handle_rim B (request a (l_cgi b)) = Done [Tx r] B /\
    handle_rim A r = Done [] A' /\ informed a (l_cgi b) (describes b) A A'.
Proof.
  intros a A b B Ha Hb I W N. exists (response B (request a (l_cgi b)) b).
  destruct (app_si_good b W) as (G1 & G2 & G3).
  destruct (informs A a (l_cgi b) (app_si b) G1 ltac:(lia) N) as (A' & X & Y).
  exists A'. split; [| split].
  - unfold handle_rim. cbn [request r_dst r_cont]. rewrite Hb. unfold on_request. rewrite Z.eqb_refl, (proj2 (cgi_same (l_cgi b) _) eq_refl). reflexivity.
  - unfold handle_rim. cbn [response r_dst r_cont request r_src]. rewrite Ha, I. exact X.
  - now rewrite <- G3.
Qed.

(** * Requests *)

Lemma asks_si_ok w n g : asks_si w n = Some g -> n_st (chg_si w n) = WAIT_SI /\ n_cgi (chg_si w n) = g /\ g = n_cgi n.
Proof.
  unfold asks_si, chg_si. destruct (may (n_st n) WAIT_SI) eqn:M; [| discriminate]. cbn [n_cgi set_st].
  destruct (find _ _); [discriminate |]. destruct (w_si w (n_cgi n)) as [[psi l] |]; [discriminate |].
  destruct (w_rim_ok w); [| discriminate]. intros [= <-]. cbn. auto.
Qed.
Lemma asks_si_must w n : may (n_st n) WAIT_SI = true -> n_st (chg_si w n) = WAIT_SI -> asks_si w n = Some (n_cgi (chg_si w n)).
Proof.
  unfold asks_si, chg_si. intros ->. cbn [n_cgi set_st].
  destruct (find _ _). { unfold chg_data. cbn. discriminate. }
  destruct (w_si w (n_cgi n)) as [[psi l] |]. { unfold chg_data. cbn. discriminate. }
  destruct (w_rim_ok w); [reflexivity |]. unfold chg_cont. cbn. discriminate.
Qed.
Lemma asks_rac_ok w n g : asks_rac w n = Some g -> n_st (chg_rac w n) = WAIT_SI /\ n_cgi (chg_rac w n) = g.
Proof.
  unfold asks_rac, chg_rac. destruct (may (n_st n) WAIT_RAC) eqn:M; [| discriminate]. cbn [n_key set_st].
  destruct (w_neigh w (n_key n)); [| discriminate]. intros E. destruct (asks_si_ok _ _ _ E) as (X & Y & _). now split.
Qed.
Lemma asks_rac_must w n : may (n_st n) WAIT_RAC = true -> n_st (chg_rac w n) = WAIT_SI -> asks_rac w n = Some (n_cgi (chg_rac w n)).
Proof.
  unfold asks_rac, chg_rac. intros ->. cbn [n_key set_st]. destruct (w_neigh w (n_key n)).
  - intros H. apply asks_si_must; [reflexivity | exact H].
  - destruct (w_addr_ok w); [discriminate |]. unfold chg_cont. cbn. discriminate.
Qed.

Lemma cont_st n : n_st (chg_cont n) = WAIT_SI -> chg_cont n = n.
Proof. unfold chg_cont. destruct (may (n_st n) TX_CONT); [discriminate | reflexivity]. Qed.

(** A machine that now waits for system information either was waiting and is as it was, or has asked for it. *)
Theorem asks_when : forall w o e n' m, n_step w o e = Alive n' m ->
  (forall g, asks w o e = Some g -> n_st n' = WAIT_SI /\ n_cgi n' = g) /\
  (n_st n' = WAIT_SI -> asks w o e = Some (n_cgi n') \/ exists n, o = Some n /\ n_st n = WAIT_SI /\ n_cgi n' = n_cgi n /\ n_key n' = n_key n).
Proof.
  intros w o e n' m H. destruct o as [n |].
  - destruct e; cbn [n_step asks] in *; unfold dispatch in H.
    + (* notification *)
      assert (R : forall s, n_st n = s -> s <> INITIAL -> s <> DONE -> Alive (retrans w t n) None = Alive n' m ->
        (forall g, (match fill_key (w_bts w) t with Some (Some k) => if negb (nkey_eq (n_key n) k) then asks_rac w (set_key k true n) else None | _ => None end) = Some g ->
           n_st n' = WAIT_SI /\ n_cgi n' = g) /\
        (n_st n' = WAIT_SI -> (match fill_key (w_bts w) t with Some (Some k) => if negb (nkey_eq (n_key n) k) then asks_rac w (set_key k true n) else None | _ => None end) = Some (n_cgi n') \/
           exists n0, Some n = Some n0 /\ n_st n0 = WAIT_SI /\ n_cgi n' = n_cgi n0 /\ n_key n' = n_key n0)).
      { intros s E N1 N2 [= <- _]. unfold retrans. destruct (fill_key (w_bts w) t) as [[k |] |].
        - destruct (negb (nkey_eq (n_key n) k)) eqn:K.
          + split. { intros g. apply asks_rac_ok. }
            intros X. left. apply asks_rac_must; [| exact X]. cbn [set_key n_st]. rewrite E. destruct s; try reflexivity; contradiction.
          + split; [discriminate |]. intros X. right. exists n. auto.
        - split; [discriminate |]. intros X. right. pose proof (cont_st _ X) as C. rewrite C in *. exists n. auto.
        - split; [discriminate |]. intros X. right. destruct (negb (is_cont (n_st n))); [| exists n; auto].
          pose proof (cont_st _ X) as C. rewrite C in *. exists n. auto. }
      destruct (n_st n) eqn:E; cbn [permits] in H; unfold action in H; rewrite ?E in H;
        try (apply (R _ eq_refl); [discriminate | discriminate | exact H]).
      * destruct (fill_key (w_bts w) t) as [[k |] |]; [| | discriminate].
        -- injection H as <- _. split. { intros g. apply asks_rac_ok. }
           intros X. left. apply asks_rac_must; [| exact X]. cbn [set_key n_st]. now rewrite E.
        -- injection H as <- _. split; [discriminate |]. intros X. pose proof (cont_st _ X) as C. rewrite C in X. cbn in X. congruence.
      * injection H as <- _. split; [discriminate |]. intros X. congruence.
    + destruct (st_eqb (n_st n) WAIT_RAC && nkey_eq (n_key n) k) eqn:Q.
      * apply andb_true_iff in Q as [Q _]. apply st_same in Q. rewrite Q in H. cbn [permits] in H. unfold action in H. rewrite Q in H.
        destruct r as [g |]; injection H as <- _.
        -- split. { intros h X. destruct (asks_si_ok _ _ _ X) as (Y1 & Y2 & _). now split. }
           intros X. left. apply asks_si_must; [| exact X]. cbn [set_cgi n_st]. now rewrite Q.
        -- split; [discriminate |]. intros X. pose proof (cont_st _ X) as C. rewrite C in X. congruence.
      * injection H as <- _. split. { destruct r; discriminate. } intros X. right. exists n. auto.
    + split; [discriminate |]. destruct (st_eqb (n_st n) WAIT_SI && cgi_eq (n_cgi n) g) eqn:Q.
      * apply andb_true_iff in Q as [Q _]. apply st_same in Q. rewrite Q in H. cbn [permits] in H. unfold action in H. rewrite Q in H.
        injection H as <- _. unfold chg_data. cbn [set_si n_st]. rewrite Q. cbn. discriminate.
      * injection H as <- _. intros X. right. exists n. auto.
    + split; [discriminate |]. intros X. destruct (rts n c) eqn:R; [| injection H as <- _; right; exists n; auto].
      unfold rts in R. apply andb_true_iff in R as [A R]. exfalso.
      destruct (n_st n) eqn:E; try discriminate; cbn [permits] in H; unfold action in H; rewrite E, A in H; cbn [negb] in H.
      * destruct (create_data c n) as [[b all] n1] eqn:C. destruct (negb (cr_enc c)); [discriminate |]. injection H as <- _.
        assert (K : n_st n1 = TX_DATA). { unfold create_data in C. destruct (sz _ =? 0); [| destruct (sz _ >=? _)]; injection C as _ _ <-; exact E. }
        destruct all; [| congruence]. unfold chg_cont in X. rewrite K in X. discriminate.
      * destruct (cr_poll c) as [[fn rrbp] |]; [| injection H as <- _; congruence].
        destruct (negb (cr_enc c)); injection H as <- _; cbn [n_st set_poll] in X; rewrite ?E in X; cbn in X; congruence.
    + split; [discriminate |]. intros X. destruct (exp_ack n fn ts) eqn:R; [| injection H as <- _; right; exists n; auto].
      unfold exp_ack in R. apply andb_true_iff in R as [R _]. apply andb_true_iff in R as [R _].
      destruct (n_st n) eqn:E; try discriminate. cbn [permits] in H. unfold action in H. rewrite E in H. discriminate.
    + split; [discriminate |]. intros X. destruct (exp_ack n fn ts) eqn:R; [| injection H as <- _; right; exists n; auto].
      unfold exp_ack in R. apply andb_true_iff in R as [R _]. apply andb_true_iff in R as [R _]. exfalso.
      destruct (n_st n) eqn:E; try discriminate. cbn [permits] in H. unfold action in H. rewrite E in H. injection H as <- _.
      unfold chg_cont in X. rewrite E in X. discriminate.
    + split; [discriminate |]. intros X. destruct (n_timer n); [| injection H as <- _; right; exists n; auto].
      injection H as <- _. cbn [set_st n_st] in X. exfalso. destruct (n_st n) eqn:E; unfold chg_cont in X; cbn in X; congruence.
  - destruct e; try discriminate. cbn [n_step asks] in *. unfold dispatch, action in H. cbn [nacc_new n_st permits] in H.
    destruct (fill_key (w_bts w) t) as [[k |] |]; [| | discriminate]; injection H as <- _.
    + split. { intros g. apply asks_rac_ok. } intros X. left. apply asks_rac_must; [reflexivity | exact X].
    + split; [discriminate |]. intros X. unfold chg_cont in X. cbn in X. discriminate.
Qed.
