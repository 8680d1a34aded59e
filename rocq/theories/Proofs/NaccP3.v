(** Network assisted cell change: progress, and what the messages describe. *)
From Coq Require Import ZArith List Bool Lia.
From Verif Require Import Base.Arith Model.NeighCache Model.Paging Model.Nacc Spec.PagingSpec Spec.NaccSpec Proofs.PagingP Proofs.NeighCacheP Proofs.NaccP Proofs.NaccP2.
Import ListNotations.
Open Scope Z_scope.

Lemma out_grows : forall h o out, exists o' add, n_run o out h = Some (o', out ++ add).
Proof.
  induction h as [|[w e] h IH]; intros o out; cbn [n_run]; [exists o, []; now rewrite app_nil_r|].
  pose proof (step_no_assert w o e). destruct (n_step w o e) as [n m| |]; [| |congruence].
  - destruct (IH (Some n) (out ++ match m with Some m => [m] | None => [] end)) as (o' & add & E). exists o', (match m with Some m => [m] | None => [] end ++ add).
    rewrite E, app_assoc. reflexivity.
  - apply IH.
Qed.

Definition left_ (n : nacc) : Z :=
  match n_st n with TX_DATA => needed n (skipn (Z.to_nat (n_sent n)) (n_si n)) + 1 | _ => 1 end.

Lemma needed_pos n rest : 1 <= needed n rest.
Proof.
  unfold needed. destruct (Z.ltb_spec (Z.of_nat (length rest)) (room n)); [lia|].
  pose proof (Z.div_pos (Z.of_nat (length rest) - room n) 18). lia.
Qed.

Lemma sends_continue : forall h n out, sound n -> n_st n = TX_DATA \/ n_st n = TX_CONT -> n_timer n = false ->
  Forall (fun p => quiet (n_key n) p \/ serves p) h -> left_ n <= requests h ->
  exists o add, n_run (Some n) out h = Some (o, out ++ add) /\ existsb is_continue add = true.
Proof.
  induction h as [|[w e] h IH]; intros n out S St Tm F R.
  - exfalso. unfold requests in R. cbn in R. unfold left_ in R. pose proof (needed_pos n (skipn (Z.to_nat (n_sent n)) (n_si n))). destruct (n_st n); lia.
  - inversion F as [|? ? Q Fh]; subst. destruct Q as [Q|Q].
    + cbn [n_run]. rewrite quiet_step by assumption. rewrite app_nil_r. apply IH; auto.
      unfold requests in *. cbn [filter] in R. rewrite (quiet_not_rts _ _ _ Q) in R. exact R.
    + unfold requests in R. cbn [filter] in R. rewrite (serves_rts _ Q) in R. cbn [length] in R.
      unfold serves in Q. cbn [snd] in Q. destruct e; try contradiction. pose proof Q as (Ga & Ge & Gt & fn & rrbp & Gp & Gr).
      destruct St as [St|St].
      * pose proof (sound_sending n S St) as D. set (rest := skipn (Z.to_nat (n_sent n)) (n_si n)) in *.
        destruct (data_step c n rest D Gt) as (m & n' & E & HF & HL & Lm).
        pose proof (create_data_keeps c n) as K. rewrite E in K. destruct K as (K1 & K2 & K3 & K4 & _).
        assert (S1 : sound n') by (eapply create_data_sound; eauto).
        cbn [n_run]. unfold n_step, rts. rewrite Ga, St. cbn [andb]. unfold dispatch. rewrite St. cbn [permits]. unfold action. rewrite St, Ga, E. cbn [negb]. rewrite Ge. cbn [negb].
        unfold left_ in R. rewrite St in R. fold rest in R.
        assert (Rb : 16 <= room n <= 18) by (unfold room; destruct (n_idx n =? 0); lia).
        destruct (Z.leb_spec (room n) (Z.of_nat (length rest))) as [L|L]; cbn [negb].
        -- destruct (HF L) as (_ & S' & Ei & _ & _).
           assert (R' : room n' = 18) by (unfold room; rewrite Ei; pose proof (s_idx _ _ D); rewrite (proj2 (Z.eqb_neq _ _)) by lia; reflexivity).
           destruct (IH n' (out ++ [Data m])) as (o & add & Run & Ex); [exact S1|left; congruence|congruence|now rewrite K2| |].
           { unfold left_. rewrite K1, St. rewrite <- (s_rest _ _ S'). unfold requests, needed in *. rewrite skipn_length, R'.
             rewrite (proj2 (Z.ltb_ge _ _)) in R by lia.
             replace (Z.of_nat (length rest - Z.to_nat (room n))) with (Z.of_nat (length rest) - room n) by lia.
             destruct (Z.ltb_spec (Z.of_nat (length rest) - room n) 18) as [X|X].
             - rewrite Z.div_small in R by lia. lia.
             - replace (Z.of_nat (length rest) - room n) with (Z.of_nat (length rest) - room n - 18 + 1 * 18) in R by lia. rewrite Z.div_add in R by lia. lia. }
           exists o, (Data m :: add). rewrite Run, <- app_assoc. split; [reflexivity|exact Ex].
        -- assert (Cs : chg_cont n' = set_st TX_CONT false n') by (unfold chg_cont; rewrite K1, St; reflexivity).
           rewrite Cs. destruct (IH (set_st TX_CONT false n') (out ++ [Data m])) as (o & add & Run & Ex).
           { destruct S1 as [B1 _]. split; [now apply base_st|exact I]. }
           { now right. } { reflexivity. } { cbn [set_st n_key]. now rewrite K2. }
           { unfold left_. cbn [set_st n_st]. unfold requests. pose proof (needed_pos n rest). lia. }
           exists o, (Data m :: add). rewrite Run, <- app_assoc. split; [reflexivity|exact Ex].
      * cbn [n_run]. unfold n_step, rts. rewrite Ga, St. cbn [andb]. unfold dispatch. rewrite St. cbn [permits]. unfold action. rewrite St, Ga, Gp, Ge. cbn [negb].
        match goal with |- context [n_run (Some ?x) ?o h] => destruct (out_grows h (Some x) o) as (o' & add & E) end.
        rewrite E. eexists. eexists (_ :: add). rewrite <- app_assoc. split; reflexivity.
Qed.

(** What frees a machine that waits. *)
Definition wakes (n : nacc) : mev := match n_st n with WAIT_ACK => MLost (fst (n_poll n)) (snd (n_poll n)) | _ => MTimer end.

Theorem progress : forall h n out, good_history h -> n_run None [] h = Some (Some n, out) ->
  exists k, forall w h2, Forall (fun p => quiet (n_key n) p \/ serves p) h2 -> k <= requests h2 ->
    exists o sent, n_run (Some n) [] ((w, wakes n) :: h2) = Some (o, sent) /\ existsb is_continue sent = true.
Proof.
  intros h n out G R. pose proof (run_sound h None [] n out G I R) as S. pose proof (run_idle h None [] n out I R) as D.
  assert (X : exists n1, (forall w, n_step w (Some n) (wakes n) = Alive n1 None) /\ sound n1 /\ (n_st n1 = TX_DATA \/ n_st n1 = TX_CONT) /\ n_timer n1 = false /\ n_key n1 = n_key n).
  { unfold wakes. unfold idle in D. pose proof S as [B P]. unfold phase in P. destruct (n_st n) eqn:E; try contradiction.
    - exists (set_st TX_CONT false n). split.
      + intro w. cbn [n_step]. rewrite P. cbn [set_st n_st]. rewrite E. reflexivity.
      + split; [split; [now apply base_st|exact I]|]. cbn; auto.
    - exists (set_st TX_CONT false n). split.
      + intro w. cbn [n_step]. rewrite P. cbn [set_st n_st]. rewrite E. reflexivity.
      + split; [split; [now apply base_st|exact I]|]. cbn; auto.
    - exists n. split; [intro w; cbn [n_step]; rewrite D; reflexivity|]. auto.
    - exists n. split; [intro w; cbn [n_step]; rewrite D; reflexivity|]. auto.
    - exists (set_st TX_CONT false n). split.
      + intro w. cbn [n_step]. unfold exp_ack. rewrite E, !Z.eqb_refl. cbn [andb]. unfold dispatch. rewrite E. cbn [permits]. unfold action. rewrite E. unfold chg_cont. rewrite E. reflexivity.
      + split; [split; [now apply base_st|exact I]|]. cbn; auto. }
  destruct X as (n1 & X1 & X2 & X3 & X4 & X5). exists (left_ n1). intros w h2 F L.
  cbn [n_run]. rewrite X1. rewrite <- X5 in F. destruct (sends_continue h2 n1 ([] ++ []) X2 X3 X4 F L) as (o & add & E & Ex).
  exists o, add. rewrite E. split; [reflexivity|exact Ex].
Qed.

Theorem acked : forall w n, n_st n = WAIT_ACK -> n_step w (Some n) (MAck (fst (n_poll n)) (snd (n_poll n))) = Ended.
Proof. intros w n E. cbn [n_step]. unfold exp_ack. rewrite E, !Z.eqb_refl. cbn [andb]. unfold dispatch. rewrite E. cbn [permits]. unfold action. now rewrite E. Qed.

(** A Continue is sent with the poll the machine then waits for. *)
Theorem continue_polls : forall w o e n' m, n_step w o e = Alive n' (Some (Continue m)) ->
  exists n c fn rrbp, o = Some n /\ e = MRts c /\ cr_poll c = Some (fn, rrbp) /\ n_st n' = WAIT_ACK /\ n_poll n' = (fn, cr_ts c) /\ n_key n' = n_key n /\
    n_st n = TX_CONT /\ m = create_continue rrbp c n.
Proof.
  intros w o e n' m H. destruct o as [n|].
  - destruct e; cbn [n_step] in H; unfold dispatch in H.
    + destruct (permits _ _); [|discriminate]. unfold action in H. destruct (n_st n); try discriminate.
      destruct (fill_key _ _) as [[k|]|]; discriminate.
    + destruct (st_eqb _ _ && _) eqn:Q; [|discriminate]. destruct (n_st n) eqn:E; try discriminate. cbn [permits] in H. unfold action in H. rewrite E in H. destruct r; discriminate.
    + destruct (st_eqb _ _ && _) eqn:Q; [|discriminate]. destruct (n_st n) eqn:E; try discriminate. cbn [permits] in H. unfold action in H. rewrite E in H. discriminate.
    + destruct (rts n c) eqn:R; [|discriminate]. unfold rts in R. apply andb_true_iff in R as [A R].
      destruct (n_st n) eqn:E; try discriminate; cbn [permits] in H; unfold action in H; rewrite E, A in H; cbn [negb] in H.
      * destruct (create_data c n) as [[b all] n1]. destruct (negb (cr_enc c)); discriminate.
      * destruct (cr_poll c) as [[fn rrbp]|] eqn:P; [|discriminate]. destruct (negb (cr_enc c)); [discriminate|]. cbn [set_poll n_st] in H. rewrite E in H. cbn [may] in H.
        injection H as <- <-. exists n, c, fn, rrbp. repeat split; auto.
    + destruct (exp_ack n fn ts); [|discriminate]. destruct (permits _ _); [|discriminate]. unfold action in H. destruct (n_st n); discriminate.
    + destruct (exp_ack n fn ts); [|discriminate]. destruct (permits _ _); [|discriminate]. unfold action in H. destruct (n_st n); discriminate.
    + destruct (n_timer n); discriminate.
  - destruct e; try discriminate. cbn [n_step] in H. unfold dispatch, action in H. cbn [nacc_new n_st permits] in H.
    destruct (fill_key _ _) as [[k|]|]; discriminate.
Qed.

(** A wait for an acknowledgement is not ended by anything else. *)
Definition no_answer (n : nacc) (p : world * mev) : Prop :=
  match snd p with
  | MNotif t => fill_key (w_bts (fst p)) t = Some (Some (n_key n))
  | MAck fn ts | MLost fn ts => (fn, ts) <> n_poll n
  | _ => True
  end.
Lemma unanswered : forall h n, n_st n = WAIT_ACK -> n_timer n = false -> Forall (no_answer n) h -> n_run (Some n) [] h = Some (Some n, []).
Proof.
  induction h as [|[w e] h IH]; intros n S Tm F; [reflexivity|]. inversion F as [|? ? Q Fh]; subst. unfold no_answer in Q. cbn [fst snd] in Q.
  assert (X : n_step w (Some n) e = Alive n None).
  { destruct e; cbn [n_step].
    - unfold dispatch. rewrite S. cbn [permits]. unfold action. rewrite S. unfold retrans. rewrite Q, nkey_eq_same. reflexivity.
    - rewrite S. reflexivity.
    - rewrite S. reflexivity.
    - unfold rts. rewrite S. rewrite andb_false_r. reflexivity.
    - unfold exp_ack. rewrite S. cbn [andb]. destruct (n_poll n) as [a b]. cbn [fst snd].
      destruct (Z.eqb_spec a fn); [|reflexivity]. destruct (Z.eqb_spec b ts); [|reflexivity]. subst. now destruct Q.
    - unfold exp_ack. rewrite S. cbn [andb]. destruct (n_poll n) as [a b]. cbn [fst snd].
      destruct (Z.eqb_spec a fn); [|reflexivity]. destruct (Z.eqb_spec b ts); [|reflexivity]. subst. now destruct Q.
    - rewrite Tm. reflexivity. }
  cbn [n_run]. rewrite X. cbn [app]. now apply IH.
Qed.

(** With a timer configured to zero the wait for an address is not ended by anything but the answer. *)
Definition no_addr (n : nacc) (p : world * mev) : Prop :=
  match snd p with
  | MNotif t => fill_key (w_bts (fst p)) t = Some (Some (n_key n))
  | MAddr k _ => k <> n_key n
  | _ => True
  end.
Lemma unresolved : forall h n, n_st n = WAIT_RAC -> n_timer n = false -> Forall (no_addr n) h -> n_run (Some n) [] h = Some (Some n, []).
Proof.
  induction h as [|[w e] h IH]; intros n S Tm F; [reflexivity|]. inversion F as [|? ? Q Fh]; subst. unfold no_addr in Q. cbn [fst snd] in Q.
  assert (X : n_step w (Some n) e = Alive n None).
  { destruct e; cbn [n_step].
    - unfold dispatch. rewrite S. cbn [permits]. unfold action. rewrite S. unfold retrans. rewrite Q, nkey_eq_same. reflexivity.
    - rewrite S. cbn [st_eqb andb]. destruct (nkey_eq (n_key n) k) eqn:E; [|reflexivity]. apply nkey_eq_spec in E. now destruct Q.
    - rewrite S. reflexivity.
    - unfold rts. rewrite S. rewrite andb_false_r. reflexivity.
    - unfold exp_ack. rewrite S. reflexivity.
    - unfold exp_ack. rewrite S. reflexivity.
    - rewrite Tm. reflexivity. }
  cbn [n_run]. rewrite X. cbn [app]. now apply IH.
Qed.

(** Begin of a transfer by an answer, and from the cache. *)
Lemma answer_begins w n g psi si : n_st n = WAIT_SI -> cgi_eq (n_cgi n) g = true ->
  exists n', n_step w (Some n) (MRan g psi si) = Alive n' None /\ begun n' psi si /\ n_timer n' = false /\ n_key n' = n_key n.
Proof.
  intros S E. cbn [n_step]. rewrite S, E. cbn [st_eqb andb]. unfold dispatch. rewrite S. cbn [permits]. unfold action. rewrite S.
  unfold chg_data. cbn [set_si n_st]. rewrite S. cbn [may]. eexists. split; [reflexivity|]. cbn. unfold begun. cbn. auto 10.
Qed.
Lemma cache_begins w n g psi si : n_st n = WAIT_RAC -> Forall (fun b => cgi_eq g (b_cgi b) = false) (w_cells w) -> w_si w g = Some (psi, si) ->
  exists n', n_step w (Some n) (MAddr (n_key n) (Some g)) = Alive n' None /\ begun n' psi si /\ n_timer n' = false /\ n_key n' = n_key n.
Proof.
  intros S F E. cbn [n_step]. rewrite S, nkey_eq_same. cbn [st_eqb andb]. unfold dispatch. rewrite S. cbn [permits]. unfold action. rewrite S.
  unfold chg_si. cbn [set_cgi n_st n_cgi set_st]. rewrite S. cbn [may].
  assert (X : find (fun b => negb (b_nr b =? b_nr (w_bts w)) && cgi_eq g (b_cgi b)) (w_cells w) = None).
  { induction F as [|b l Hb Hl IHl]; cbn [find]; [reflexivity|]. rewrite Hb, andb_false_r. exact IHl. }
  rewrite X, E. unfold chg_data. cbn [set_si set_st n_st may]. eexists. split; [reflexivity|]. cbn. unfold begun. cbn. auto 10.
Qed.

(** What the messages describe. *)
Record named (T : truth) (k : nkey) (n : nacc) : Prop := {
  nm_key : n_key n = k;
  nm_present : n_present n = true;
  nm_cgi : n_st n = WAIT_SI -> n_cgi n = tr_addr T k;
  nm_si : n_st n = TX_DATA -> (n_psi n, n_si n) = tr_si T (tr_addr T k);
  nm_idx : n_st n = TX_DATA -> 0 <= n_idx n /\ (n_idx n = 0 -> n_sent n = 0) }.
Definition true_world (T : truth) (w : world) : Prop :=
  (forall k g, w_neigh w k = Some g -> g = tr_addr T k) /\
  (forall g x, w_si w g = Some x -> x = tr_si T g) /\
  (forall k b, In b (w_cells w) -> b_nr b <> b_nr (w_bts w) -> tr_addr T k <> b_cgi b).

Lemma chg_cont_named T k n : n_key n = k -> n_present n = true -> (named T k n \/ may (n_st n) TX_CONT = true) -> named T k (chg_cont n).
Proof.
  intros A B C. unfold chg_cont. destruct (may (n_st n) TX_CONT) eqn:M; [|destruct C as [C|C]; [exact C|discriminate]].
  constructor; cbn; auto; discriminate.
Qed.
Lemma chg_data_named T k n : n_key n = k -> n_present n = true -> may (n_st n) TX_DATA = true -> (n_psi n, n_si n) = tr_si T (tr_addr T k) -> named T k (chg_data n).
Proof. intros A B M E. unfold chg_data. rewrite M. constructor; cbn; auto; try discriminate. intros _. lia. Qed.
Lemma chg_si_named T w k n : true_world T w -> n_key n = k -> n_present n = true -> may (n_st n) WAIT_SI = true -> n_cgi n = tr_addr T k -> named T k (chg_si w n).
Proof.
  intros (W1 & W2 & W3) A B M E. unfold chg_si. rewrite M. cbn [set_st n_cgi].
  destruct (find _ _) as [b|] eqn:Fd.
  - exfalso. apply find_some in Fd as [In_ Fd]. apply andb_true_iff in Fd as [F1 F2]. apply negb_true_iff, Z.eqb_neq in F1. apply cgi_eq_spec in F2.
    apply (W3 k b In_ F1). congruence.
  - destruct (w_si w (n_cgi n)) as [[psi l]|] eqn:Q.
    + apply chg_data_named; cbn; auto. apply W2 in Q. congruence.
    + destruct (w_rim_ok w); [constructor; cbn; auto; discriminate|]. apply chg_cont_named; cbn; auto.
Qed.
Lemma chg_rac_named T w k n : true_world T w -> n_key n = k -> n_present n = true -> may (n_st n) WAIT_RAC = true -> named T k (chg_rac w n).
Proof.
  intros W A B M. unfold chg_rac. rewrite M. cbn [set_st n_key]. destruct (w_neigh w (n_key n)) as [g|] eqn:Q.
  - apply chg_si_named; cbn; auto. destruct W as (W1 & _). apply W1 in Q. congruence.
  - destruct (w_addr_ok w); [constructor; cbn; auto; discriminate|]. apply chg_cont_named; cbn; auto.
Qed.

Definition true_event (T : truth) (e : mev) : Prop :=
  match e with
  | MAddr k (Some g) => g = tr_addr T k
  | MRan g psi l => tr_si T g = (psi, l)
  | MNotif (Gsm _ _) => True
  | MNotif _ => False
  | _ => True
  end.
Definition step_announced (k : option nkey) (p : world * mev) : option nkey := announced k [p].

Lemma announced_cons k p h : announced k (p :: h) = announced (step_announced k p) h.
Proof. unfold step_announced. destruct p as [w e]. destruct e as [t| | | | | |]; try reflexivity. destruct t; reflexivity. Qed.

Definition follows (T : truth) (k : option nkey) (o : option nacc) : Prop :=
  match o with None => True | Some n => exists kk, k = Some kk /\ named T kk n /\ phase n end.

Lemma named_ext T k n n' : named T k n -> n_st n' = n_st n -> n_key n' = n_key n -> n_present n' = n_present n -> n_cgi n' = n_cgi n -> n_psi n' = n_psi n -> n_si n' = n_si n ->
  (n_st n = TX_DATA -> 0 <= n_idx n' /\ (n_idx n' = 0 -> n_sent n' = 0)) -> named T k n'.
Proof. intros [A B C D E] H1 H2 H3 H4 H5 H6 H7. constructor; rewrite ?H1, ?H2, ?H3, ?H4, ?H5, ?H6; auto. Qed.

Lemma step_named T w o e k n' m : true_world T w -> true_event T e ->
  match o with None => True | Some n => exists kk, k = Some kk /\ named T kk n /\ sound n end ->
  n_step w o e = Alive n' m -> exists kk, step_announced k (w, e) = Some kk /\ named T kk n'.
Proof.
  intros W V F H. destruct o as [n|].
  - destruct F as (kk & -> & Nm & S). pose proof Nm as [Nk Np Nc Ns Ni].
    destruct e; cbn [n_step] in H; unfold dispatch in H.
    + destruct t as [a s| | |]; try contradiction. eexists. split; [reflexivity|].
      change (Nkey (g_lac (b_cgi (w_bts w))) (g_ci (b_cgi (w_bts w))) a s) with (key_for (w_bts w) a s).
      destruct S as [B Ph]. assert (P : permits (n_st n) (Notif (Gsm a s)) = true) by (unfold phase in Ph; destruct (n_st n); tauto).
      rewrite P in H. assert (E : retrans w (Gsm a s) n = n').
      { unfold action in H. unfold phase in Ph. destruct (n_st n); try contradiction; injection H as <- <-; reflexivity. }
      clear H. unfold retrans in E. cbn [fill_key] in E. destruct (nkey_eq (n_key n) (key_for (w_bts w) a s)) eqn:Q; cbn [negb] in E.
      * subst n'. apply nkey_eq_spec in Q. rewrite <- Q, Nk. exact Nm.
      * subst n'. apply chg_rac_named; [exact W|reflexivity|reflexivity|]. cbn [set_key n_st]. now apply may_rac.
    + exists kk. split; [reflexivity|].
      destruct (st_eqb (n_st n) WAIT_RAC && nkey_eq (n_key n) k) eqn:Q; [|injection H as <- <-; exact Nm].
      apply andb_true_iff in Q as [_ Q]. apply nkey_eq_spec in Q.
      destruct (n_st n) eqn:E; cbn [permits] in H; try (injection H as <- <-; exact Nm). unfold action in H. rewrite E in H.
      destruct r as [g|]; injection H as <- <-.
      * apply chg_si_named; cbn; auto; [now rewrite E|]. cbn in V. congruence.
      * apply chg_cont_named; auto.
    + exists kk. split; [reflexivity|].
      destruct (st_eqb (n_st n) WAIT_SI && cgi_eq (n_cgi n) g) eqn:Q; [|injection H as <- <-; exact Nm].
      apply andb_true_iff in Q as [_ Q]. apply cgi_eq_spec in Q.
      destruct (n_st n) eqn:E; cbn [permits] in H; try (injection H as <- <-; exact Nm). unfold action in H. rewrite E in H.
      injection H as <- <-. apply chg_data_named; cbn; auto; [now rewrite E|]. rewrite <- Nc by reflexivity. cbn in V. rewrite Q. symmetry. exact V.
    + exists kk. split; [reflexivity|].
      destruct (rts n c) eqn:R; [|injection H as <- <-; exact Nm]. unfold rts in R. apply andb_true_iff in R as [A R].
      destruct (n_st n) eqn:E; try discriminate; cbn [permits] in H; unfold action in H; rewrite E, A in H; cbn [negb] in H.
      * destruct (create_data c n) as [[b all] n1] eqn:C. destruct (negb (cr_enc c)); [discriminate|]. injection H as <- <-.
        pose proof (create_data_keeps c n) as K. rewrite C in K. destruct K as (K1 & K2 & K3 & K4 & K5 & K6 & K7).
        assert (D : named T kk n1).
        { eapply named_ext; [exact Nm|congruence..|]. intros _. destruct (Ni eq_refl) as [I0 _].
          assert (n_idx n1 = n_idx n + 1). { unfold create_data in C. destruct (sz _ =? 0); [|destruct (sz _ >=? _)]; injection C as _ _ <-; reflexivity. }
          lia. }
        destruct all; [|exact D]. apply chg_cont_named; [congruence|congruence|]. right. rewrite K1, E. reflexivity.
      * destruct (cr_poll c) as [[fn rrbp]|]; [|injection H as <- <-; exact Nm].
        destruct (negb (cr_enc c)); injection H as <- <-; cbn [n_st set_poll]; rewrite ?E; cbn [may].
        -- eapply named_ext; [exact Nm|reflexivity..|]. rewrite E. discriminate.
        -- constructor; cbn; auto; discriminate.
    + exists kk. split; [reflexivity|].
      destruct (exp_ack n fn ts); [|injection H as <- <-; exact Nm]. destruct (n_st n) eqn:E; cbn [permits] in H; try (injection H as <- <-; exact Nm).
      unfold action in H. rewrite E in H. discriminate.
    + exists kk. split; [reflexivity|].
      destruct (exp_ack n fn ts); [|injection H as <- <-; exact Nm]. destruct (n_st n) eqn:E; cbn [permits] in H; try (injection H as <- <-; exact Nm).
      unfold action in H. rewrite E in H. injection H as <- <-. apply chg_cont_named; auto.
    + exists kk. split; [reflexivity|].
      destruct (n_timer n) eqn:Tm; [|injection H as <- <-; exact Nm]. injection H as <- <-. cbn [set_st n_st].
      destruct (n_st n) eqn:E; try (constructor; cbn; rewrite ?E; auto; discriminate); apply chg_cont_named; cbn; auto.
  - destruct e; try discriminate. cbn [n_step] in H. unfold dispatch, action in H. cbn [nacc_new n_st permits] in H.
    destruct t as [a s| | |]; try contradiction. cbn [fill_key] in H. injection H as <- <-. eexists. split; [reflexivity|].
    apply chg_rac_named; auto.
Qed.

Definition true_history (T : truth) (h : list (world * mev)) : Prop := gsm_only h /\ consistent T h /\ foreign T h.
Lemma true_cons T p h : true_history T (p :: h) -> true_world T (fst p) /\ true_event T (snd p) /\ true_history T h.
Proof.
  intros (A & B & C). inversion A as [|? ? A1 A2]; inversion B as [|? ? (B1 & B2 & _ & _ & B3) B4]; inversion C as [|? ? C1 C2]; subst.
  split; [split; [exact B1|split; [exact B2|exact C1]]|]. split; [|now split].
  unfold true_event. destruct (snd p) as [t| | | | | |]; auto.
Qed.

Lemma run_named : forall T h o k out n out', good_history h -> true_history T h ->
  match o with None => True | Some n => exists kk, k = Some kk /\ named T kk n /\ sound n end ->
  n_run o out h = Some (Some n, out') -> exists kk, announced k h = Some kk /\ named T kk n /\ sound n.
Proof.
  intros T. induction h as [|[w e] h IH]; intros o k out n out' G C F R; cbn [n_run] in R.
  - injection R as -> _. exact F.
  - inversion G as [|? ? [Gw Ge] Gh]; subst. cbn [fst snd] in *. apply true_cons in C as (C1 & C2 & C3). cbn [fst snd] in *.
    rewrite announced_cons. destruct (n_step w o e) as [n1 m| |] eqn:E; [| |discriminate].
    + eapply IH; [exact Gh|exact C3| |exact R]. destruct (step_named T w o e k n1 m C1 C2 F E) as (kk & E1 & E2).
      exists kk. split; [exact E1|]. split; [exact E2|]. eapply step_sound; [exact Gw|exact Ge| |exact E]. destruct o; [destruct F as (? & _ & _ & F); exact F|exact I].
    + eapply IH; [exact Gh|exact C3| |exact R]. exact I.
Qed.

Theorem continue_names : forall T h n out w e n' m, good_history h -> true_history T h ->
  n_run None [] h = Some (Some n, out) -> good_event e -> match e with MRts c => forall fn rrbp, cr_poll c = Some (fn, rrbp) -> 0 <= rrbp < 4 | _ => True end ->
  n_step w (Some n) e = Alive n' (Some (Continue m)) ->
  exists k, announced None h = Some k /\ exists p dl tfi, r_continue m = Some (Some p, dl, tfi, Some (k_arfcn k, k_bsic k)).
Proof.
  intros T h n out w e n' m G C R Ge Gr H. destruct (run_named T h None None [] n out G C I R) as (k & E & Nm & S). exists k. split; [exact E|].
  pose proof H as H0.
  apply continue_polls in H as (n0 & c & fn & rrbp & X & Y & P & _ & _ & _ & St & ->). injection X as <-. subst e.
  assert (A : cr_assigned c = true).
  { cbn [n_step] in H0. unfold rts in H0. destruct (cr_assigned c); [reflexivity|]. discriminate. }
  rewrite read_continue; [|eapply Gr; exact P|now apply Ge|intros _; apply S]. rewrite (nm_present _ _ _ Nm), (nm_key _ _ _ Nm). eauto.
Qed.

Theorem data_describes : forall T h n out h2, good_history h -> true_history T h ->
  n_run None [] h = Some (Some n, out) -> n_st n = TX_DATA -> n_idx n = 0 ->
  exists k psi si, announced None h = Some k /\ tr_si T (tr_addr T k) = (psi, si) /\
   (Forall (fun p => quiet k p \/ serves p) h2 -> requests h2 = containers (Z.of_nat (length si)) -> requests h2 <= 32 ->
    exists n' bs, n_run (Some n) [] h2 = Some (Some n', map Data bs) /\ n_st n' = TX_CONT /\
      mobile_collects bs = Some (k_arfcn k, k_bsic k, if psi then 1 else 0, si)).
Proof.
  intros T h n out h2 G C R St I0. destruct (run_named T h None None [] n out G C I R) as (k & E & Nm & S).
  exists k, (n_psi n), (n_si n). split; [exact E|]. split; [symmetry; apply (nm_si _ _ _ Nm St)|].
  intros F Rq L. pose proof (run_idle h None [] n out I R) as D. unfold idle in D. rewrite St in D.
  assert (B : begun n (n_psi n) (n_si n)) by (unfold begun; destruct (nm_idx _ _ _ Nm St) as [_ Q]; repeat split; auto).
  rewrite <- (nm_key _ _ _ Nm) in F.
  destruct (transfer_among n (n_psi n) (n_si n) h2 B D (ba_key _ (proj1 S)) (ba_si _ (proj1 S)) F Rq) as (n' & bs & pre & last & E1 & E2 & _ & _ & _ & _ & E3 & _).
  exists n', bs. rewrite <- (nm_key _ _ _ Nm). auto.
Qed.

(** System information that arrives while the machine waits for it. *)
Theorem answer_delivered : forall h n out w g psi si h2, good_history h -> n_run None [] h = Some (Some n, out) ->
  n_st n = WAIT_SI -> cgi_eq (n_cgi n) g = true -> good_si si ->
  Forall (fun p => quiet (n_key n) p \/ serves p) h2 -> requests h2 = containers (Z.of_nat (length si)) ->
  exists n' bs pre last, n_run (Some n) [] ((w, MRan g psi si) :: h2) = Some (Some n', map Data bs) /\ n_st n' = TX_CONT /\
    Forall (fun b => length b = 184%nat) bs /\
    all_some (map r_container bs) = Some (pre ++ [last]) /\ Forall (fun c => full c = true) pre /\ full last = false /\
    (requests h2 <= 32 -> mobile_collects bs = Some (k_arfcn (n_key n), k_bsic (n_key n), if psi then 1 else 0, si)) /\
    (32 < requests h2 -> nth 0 (map co_idx (pre ++ [last])) (-1) = 0 /\ nth 32 (map co_idx (pre ++ [last])) (-1) = 0).
Proof.
  intros h n out w g psi si h2 G R St E Gs F Rq. pose proof (run_sound h None [] n out G I R) as S.
  destruct (answer_begins w n g psi si St E) as (n1 & E1 & B & Tm & K). cbn [n_run]. rewrite E1. cbn [app]. rewrite <- K in *.
  apply transfer_among; auto. rewrite K. apply S.
Qed.
Theorem cached_delivered : forall h n out w g psi si h2, good_history h -> n_run None [] h = Some (Some n, out) ->
  n_st n = WAIT_RAC -> Forall (fun b => cgi_eq g (b_cgi b) = false) (w_cells w) -> w_si w g = Some (psi, si) -> good_si si ->
  Forall (fun p => quiet (n_key n) p \/ serves p) h2 -> requests h2 = containers (Z.of_nat (length si)) ->
  exists n' bs pre last, n_run (Some n) [] ((w, MAddr (n_key n) (Some g)) :: h2) = Some (Some n', map Data bs) /\ n_st n' = TX_CONT /\
    Forall (fun b => length b = 184%nat) bs /\
    all_some (map r_container bs) = Some (pre ++ [last]) /\ Forall (fun c => full c = true) pre /\ full last = false /\
    (requests h2 <= 32 -> mobile_collects bs = Some (k_arfcn (n_key n), k_bsic (n_key n), if psi then 1 else 0, si)) /\
    (32 < requests h2 -> nth 0 (map co_idx (pre ++ [last])) (-1) = 0 /\ nth 32 (map co_idx (pre ++ [last])) (-1) = 0).
Proof.
  intros h n out w g psi si h2 G R St Fc E Gs F Rq. pose proof (run_sound h None [] n out G I R) as S.
  destruct (cache_begins w n g psi si St Fc E) as (n1 & E1 & B & Tm & K). cbn [n_run]. rewrite E1. cbn [app]. rewrite <- K in *.
  apply transfer_among; auto. rewrite K. apply S.
Qed.

(** Every live machine is driven. *)
Theorem driven : forall h n out, good_history h -> n_run None [] h = Some (Some n, out) ->
  match n_st n with
  | WAIT_RAC | WAIT_SI => n_timer n = true
  | TX_DATA | TX_CONT => forall c, cr_assigned c = true -> rts n c = true
  | WAIT_ACK => exists w n0 c fn rrbp h1 h2, h = h1 ++ (w, MRts c) :: h2 /\ cr_poll c = Some (fn, rrbp) /\ n_poll n = (fn, cr_ts c) /\
      n_step w (Some n0) (MRts c) = Alive n (Some (Continue (create_continue rrbp c n0)))
  | INITIAL | DONE => False
  end.
Proof.
  intros h n out G R. pose proof (run_sound h None [] n out G I R) as [_ P]. unfold phase in P.
  destruct (n_st n) eqn:E; try contradiction; try assumption; try (intros c A; unfold rts; rewrite A, E; reflexivity).
  assert (X : forall h o out0 n out, match o with Some n0 => idle n0 | None => True end -> n_run o out0 h = Some (Some n, out) -> n_st n = WAIT_ACK ->
    o = Some n \/ exists w n0 c fn rrbp h1 h2, h = h1 ++ (w, MRts c) :: h2 /\ cr_poll c = Some (fn, rrbp) /\ n_poll n = (fn, cr_ts c) /\
      n_step w (Some n0) (MRts c) = Alive n (Some (Continue (create_continue rrbp c n0)))).
  { clear. assert (Y : forall w o e n' m, match o with Some n0 => idle n0 | None => True end -> n_step w o e = Alive n' m -> n_st n' = WAIT_ACK -> (exists n0, o = Some n0 /\ n' = n0 /\ m = None) \/ exists l, m = Some (Continue l)).
    { intros w o e n' m Dl H E.
      assert (NC : forall n, n_st (chg_cont n) = WAIT_ACK -> n_st n = WAIT_ACK -> False).
      { intros n X Y. unfold chg_cont in X. rewrite Y in X. discriminate. }
      assert (NC' : forall n, n_st (chg_cont n) = WAIT_ACK -> n_st n = WAIT_ACK).
      { intros n X. unfold chg_cont in X. destruct (may _ _); [discriminate|exact X]. }
      assert (ND' : forall n, n_st (chg_data n) = WAIT_ACK -> n_st n = WAIT_ACK).
      { intros n X. unfold chg_data in X. destruct (may _ _); [discriminate|exact X]. }
      assert (NS' : forall w n, n_st (chg_si w n) = WAIT_ACK -> n_st n = WAIT_ACK).
      { intros w0 n X. unfold chg_si in X. destruct (may _ _); [|exact X]. destruct (find _ _); [apply ND' in X; discriminate|].
        destruct (w_si _ _) as [[p l]|]; [apply ND' in X; discriminate|]. destruct (w_rim_ok w0); [discriminate|]. apply NC' in X. discriminate. }
      assert (NR : forall w n, n_st (chg_rac w n) = WAIT_ACK -> n_st n = WAIT_ACK -> False).
      { intros w0 n X Y. unfold chg_rac in X. rewrite Y in X. cbn [may] in X. destruct (w_neigh _ _); [apply NS' in X; discriminate|].
        destruct (w_addr_ok w0); [discriminate|]. apply NC' in X. discriminate. }
      assert (NR' : forall w n, n_st (chg_rac w n) = WAIT_ACK -> n_st n = WAIT_ACK).
      { intros w0 n X. unfold chg_rac in X. destruct (may _ _); [|exact X]. destruct (w_neigh _ _); [apply NS' in X; discriminate|].
        destruct (w_addr_ok w0); [discriminate|]. apply NC' in X. discriminate. }
      destruct o as [n|].
      - destruct e; cbn [n_step] in H; unfold dispatch in H.
        + destruct (permits _ _) eqn:Pm; [|injection H as <- <-; left; eauto]. assert (H1 : Alive (retrans w t n) None = Alive n' m \/ n_st n = INITIAL \/ n_st n = DONE).
          { unfold action in H. destruct (n_st n); auto. }
          destruct H1 as [H1|[H1|H1]].
          * injection H1 as <- <-. unfold retrans in E |- *. destruct (fill_key _ _) as [[k|]|].
            -- destruct (negb _); [|left; eauto]. exfalso. eapply NR; [exact E|]. apply NR' in E. exact E.
            -- exfalso. eapply NC; [exact E|]. now apply NC' in E.
            -- destruct (negb _); [|left; eauto]. exfalso. eapply NC; [exact E|]. now apply NC' in E.
          * exfalso. unfold action in H. rewrite H1 in H. destruct (fill_key _ _) as [[k|]|]; [| |discriminate]; injection H as <- <-.
            -- apply NR' in E. cbn in E. congruence.
            -- apply NC' in E. cbn in E. congruence.
          * rewrite H1 in Pm. discriminate.
        + destruct (st_eqb _ _ && _) eqn:Q; [|injection H as <- <-; left; eauto]. destruct (n_st n) eqn:S; try discriminate. cbn [permits] in H. unfold action in H. rewrite S in H.
          exfalso. destruct r; injection H as <- <-; [apply NS' in E|apply NC' in E]; cbn in E; congruence.
        + destruct (st_eqb _ _ && _) eqn:Q; [|injection H as <- <-; left; eauto]. destruct (n_st n) eqn:S; try discriminate. cbn [permits] in H. unfold action in H. rewrite S in H.
          exfalso. injection H as <- <-. apply ND' in E. cbn in E. congruence.
        + destruct (rts n c) eqn:R; [|injection H as <- <-; left; eauto]. unfold rts in R. apply andb_true_iff in R as [A R].
          destruct (n_st n) eqn:S; try discriminate; cbn [permits] in H; unfold action in H; rewrite S, A in H; cbn [negb] in H.
          * exfalso. destruct (create_data c n) as [[b all] n1] eqn:C. destruct (negb (cr_enc c)); [discriminate|]. injection H as <- <-.
            pose proof (create_data_keeps c n) as K. rewrite C in K. destruct K as (K1 & _). destruct all; [apply NC' in E|]; congruence.
          * destruct (cr_poll c) as [[fn rrbp]|]; [|injection H as <- <-; congruence]. destruct (negb (cr_enc c)); injection H as <- <-; [cbn in E; congruence|eauto].
        + destruct (exp_ack n fn ts); [|injection H as <- <-; left; eauto]. destruct (permits _ _) eqn:Pm; [|injection H as <- <-; left; eauto].
          unfold action in H. destruct (n_st n); try discriminate.
        + destruct (exp_ack n fn ts); [|injection H as <- <-; left; eauto]. destruct (permits _ _) eqn:Pm; [|injection H as <- <-; left; eauto].
          exfalso. unfold action in H. destruct (n_st n) eqn:S; try discriminate. injection H as <- <-. eapply NC; [exact E|exact S].
        + destruct (n_timer n) eqn:Tm; [|injection H as <- <-; left; eauto]. injection H as <- <-. cbn [set_st n_st] in *.
          left. exists n. split; [reflexivity|]. split; [|reflexivity].
          destruct (n_st n) eqn:S; try (cbn in E; congruence); try (apply NC' in E; cbn in E; congruence).
          exfalso. unfold idle in Dl. rewrite S in Dl. congruence.
      - destruct e; try discriminate. exfalso. cbn [n_step] in H. unfold dispatch, action in H. cbn [nacc_new n_st permits] in H.
        destruct (fill_key _ _) as [[k|]|]; [| |discriminate]; injection H as <- <-; [apply NR' in E|apply NC' in E]; discriminate. }
    induction h as [|[w e] h IH]; intros o out0 n out Dl R E; cbn [n_run] in R; [injection R as -> _; now left|].
    destruct (n_step w o e) as [n1 m| |] eqn:Sp; [| |discriminate].
    - pose proof (step_idle w o e n1 m Dl Sp) as D1. destruct (IH (Some n1) _ n out D1 R E) as [Q|(w0 & n0 & c & fn & rrbp & h1 & h2 & Q1 & Q2)].
      + injection Q as ->. destruct (Y w o e n m Dl Sp E) as [(n0 & -> & -> & _)|(l & ->)]; [now left|]. right.
        pose proof Sp as Sp0. apply continue_polls in Sp as (n0 & c & fn & rrbp & -> & -> & Z1 & Z2 & Z3 & _ & _ & ->).
        exists w, n0, c, fn, rrbp, [], h. auto.
      + right. exists w0, n0, c, fn, rrbp, ((w, e) :: h1), h2. rewrite Q1. auto.
    - destruct (IH None _ n out I R E) as [Q|(w0 & n0 & c & fn & rrbp & h1 & h2 & Q1 & Q2)]; [discriminate|].
      right. exists w0, n0, c, fn, rrbp, ((w, e) :: h1), h2. rewrite Q1. auto. }
  destruct (X h None [] n out I R E) as [Q|(w & n0 & c & fn & rrbp & h1 & h2 & Z)]; [discriminate|]. exists w, n0, c, fn, rrbp, h1, h2. exact Z.
Qed.

Theorem failures : forall w n,
  (n_st n = WAIT_RAC -> n_step w (Some n) (MAddr (n_key n) None) = Alive (set_st TX_CONT false n) None) /\
  (n_st n = WAIT_RAC \/ n_st n = WAIT_SI -> n_timer n = true -> n_step w (Some n) MTimer = Alive (set_st TX_CONT false n) None) /\
  (n_st n = WAIT_RAC -> forall g, Forall (fun b => cgi_eq g (b_cgi b) = false) (w_cells w) -> w_si w g = None -> w_rim_ok w = false ->
     exists n', n_step w (Some n) (MAddr (n_key n) (Some g)) = Alive n' None /\ n_st n' = TX_CONT) /\
  (forall t, match n_st n with INITIAL | DONE => False | _ => True end -> fill_key (w_bts w) t = None \/ fill_key (w_bts w) t = Some None ->
     exists n', n_step w (Some n) (MNotif t) = Alive n' None /\ n_st n' = TX_CONT) /\
  (forall t k, match n_st n with INITIAL | DONE => False | _ => True end -> fill_key (w_bts w) t = Some (Some k) -> k <> n_key n ->
     w_neigh w k = None -> w_addr_ok w = false -> exists n', n_step w (Some n) (MNotif t) = Alive n' None /\ n_st n' = TX_CONT /\ n_key n' = k).
Proof.
  intros w n. split; [|split; [|split; [|split]]].
  - intro S. cbn [n_step]. rewrite S, nkey_eq_same. cbn [st_eqb andb]. unfold dispatch. rewrite S. cbn [permits]. unfold action. rewrite S. unfold chg_cont. rewrite S. reflexivity.
  - intros S Tm. cbn [n_step]. rewrite Tm. cbn [set_st n_st]. destruct S as [S|S]; rewrite S; reflexivity.
  - intros S g F Q Rm. cbn [n_step]. rewrite S, nkey_eq_same. cbn [st_eqb andb]. unfold dispatch. rewrite S. cbn [permits]. unfold action. rewrite S.
    unfold chg_si. cbn [set_cgi n_st n_cgi set_st]. rewrite S. cbn [may].
    assert (X : find (fun b => negb (b_nr b =? b_nr (w_bts w)) && cgi_eq g (b_cgi b)) (w_cells w) = None).
    { induction F as [|b l Hb Hl IHl]; cbn [find]; [reflexivity|]. rewrite Hb, andb_false_r. exact IHl. }
    rewrite X, Q, Rm. eexists. split; reflexivity.
  - intros t P F. assert (R : n_step w (Some n) (MNotif t) = Alive (retrans w t n) None) by (cbn [n_step]; unfold dispatch, action; destruct (n_st n); try contradiction; reflexivity).
    rewrite R. eexists. split; [reflexivity|]. unfold retrans, chg_cont. destruct F as [F|F]; rewrite F; destruct (n_st n) eqn:S; try contradiction; cbn; auto.
  - intros t k P F Nk Nc Ao. assert (R : n_step w (Some n) (MNotif t) = Alive (retrans w t n) None) by (cbn [n_step]; unfold dispatch, action; destruct (n_st n); try contradiction; reflexivity).
    rewrite R. eexists. split; [reflexivity|]. unfold retrans. rewrite F.
    destruct (nkey_eq (n_key n) k) eqn:Q; [apply nkey_eq_spec in Q; congruence|]. cbn [negb].
    unfold chg_rac. cbn [set_key n_st]. destruct (n_st n) eqn:S; try contradiction; cbn [may set_st set_key n_key]; rewrite Nc, Ao; cbn; auto.
Qed.

Definition w_own : cgi := Cgi 262 1 false 5 1 100.
Definition w_far : cgi := Cgi 262 1 false 6 1 200.
Definition w_cell : bts := Bts 0 w_own (Some [1; 1; 1]) (Some [3; 3; 3]) None.
Definition w_world (timer : bool) : world := W w_cell [w_cell] (fun _ => None) true (fun _ => None) true timer true.
Definition w_hist : list (world * mev) :=
  [(w_world true, MNotif (Gsm 871 10)); (w_world true, MAddr (Nkey 5 100 871 10) (Some w_far)); (w_world true, MRan w_far false [1; 2; 3]);
   (w_world true, MRts (Cr true true 7 true (Some (1234, 2)) 4)); (w_world true, MRts (Cr true true 7 true (Some (1247, 2)) 4))].
Lemma lost_poll : exists h n out, good_history h /\ n_run None [] h = Some (Some n, out) /\ n_st n = WAIT_ACK /\
  forall h2, Forall (no_answer n) h2 -> n_run (Some n) [] h2 = Some (Some n, []).
Proof.
  exists w_hist. destruct (n_run None [] w_hist) as [[[n|] out]|] eqn:E; [|vm_compute in E; discriminate..].
  exists n, out. split.
  { unfold good_history, w_hist. apply Forall_forall. intros p I. cbn [In] in I.
    assert (Wd : good_world (w_world true)) by (split; [split; [repeat constructor; cbn; lia|cbn; lia]|split; [discriminate|split; reflexivity]]).
    repeat (destruct I as [<-|I]; [split; [exact Wd|cbn [snd good_event good_target]; first [exact Logic.I | lia | (split; [repeat constructor; lia|cbn; lia]) | (cbn; lia)]]|]). destruct I. }
  split; [reflexivity|].
  assert (St : n_st n = WAIT_ACK).
  { assert (X : option_map (fun p => option_map n_st (fst p)) (n_run None [] w_hist) = Some (Some WAIT_ACK)) by (vm_compute; reflexivity).
    rewrite E in X. cbn in X. congruence. }
  split; [exact St|]. intros h2 F. apply unanswered; [exact St| |exact F].
  pose proof (run_idle w_hist None [] n out I E) as D. unfold idle in D. rewrite St in D. exact D.
Qed.
Lemma zero_timer : exists h n out, n_run None [] h = Some (Some n, out) /\ n_st n = WAIT_RAC /\
  forall h2, Forall (no_addr n) h2 -> n_run (Some n) [] h2 = Some (Some n, []).
Proof.
  exists [(w_world false, MNotif (Gsm 871 10))]. eexists. eexists. split; [cbn; reflexivity|]. split; [reflexivity|].
  intros h2 F. apply unresolved; [reflexivity|reflexivity|exact F].
Qed.
