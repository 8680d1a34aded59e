(** The machine of a network assisted cell change: invariants and progress. *)
From Coq Require Import ZArith List Bool Lia.
From Verif Require Import Base.Arith Model.NeighCache Model.Paging Model.Nacc Spec.PagingSpec Spec.NaccSpec Proofs.PagingP Proofs.NeighCacheP Proofs.NaccP.
Import ListNotations.
Open Scope Z_scope.

Lemma step_no_assert w o e : n_step w o e <> Assert.
Proof.
  destruct o as [n|]; [|destruct e; try discriminate; cbn; destruct (fill_key _ _) as [[k|]|]; discriminate].
  destruct e; cbn [n_step]; unfold dispatch.
  - destruct (permits (n_st n) (Notif t)) eqn:P; [|discriminate]. unfold action. destruct (n_st n); try discriminate.
    destruct (fill_key _ _) as [[k|]|]; discriminate.
  - destruct (st_eqb (n_st n) WAIT_RAC && nkey_eq (n_key n) k); [|discriminate].
    destruct (permits (n_st n) (RacCi r)) eqn:P; [|discriminate]. unfold action. destruct (n_st n); try discriminate. destruct r; discriminate.
  - destruct (st_eqb (n_st n) WAIT_SI && cgi_eq (n_cgi n) g); [|discriminate].
    destruct (permits (n_st n) (RxSi psi l)) eqn:P; [|discriminate]. unfold action. destruct (n_st n); discriminate.
  - unfold rts. destruct (cr_assigned c) eqn:A; cbn [andb]; [|discriminate].
    destruct (n_st n) eqn:E; try discriminate; cbn [permits]; unfold action; rewrite E, A; cbn [negb].
    + destruct (create_data c n) as [[m all] n']. destruct (negb (cr_enc c)); discriminate.
    + destruct (cr_poll c) as [[fn rrbp]|]; [|discriminate]. destruct (negb (cr_enc c)); discriminate.
  - destruct (exp_ack n fn ts); [|discriminate]. destruct (permits (n_st n) Acked) eqn:P; [|discriminate]. unfold action. destruct (n_st n); discriminate.
  - destruct (exp_ack n fn ts); [|discriminate]. destruct (permits (n_st n) PollLost) eqn:P; [|discriminate]. unfold action. destruct (n_st n); discriminate.
  - destruct (n_timer n); discriminate.
Qed.

Theorem never_asserts : forall h o out, n_run o out h <> None.
Proof.
  induction h as [|[w e] h IH]; intros o out; cbn [n_run]; [discriminate|].
  pose proof (step_no_assert w o e). destruct (n_step w o e); auto.
Qed.

(** The state of every machine. *)
Record base (n : nacc) : Prop := {
  ba_key : good_key (n_key n);
  ba_si : good_si (n_si n) }.
Definition phase (n : nacc) : Prop :=
  match n_st n with
  | INITIAL | DONE => False
  | WAIT_RAC | WAIT_SI => n_timer n = true
  | TX_DATA => 0 <= n_sent n <= Z.of_nat (length (n_si n)) /\ 0 <= n_idx n
  | TX_CONT | WAIT_ACK => True
  end.
Definition sound (n : nacc) : Prop := base n /\ phase n.

Lemma base_st s t n : base n -> base (set_st s t n). Proof. intros [A B]. now constructor. Qed.
Lemma base_cgi g n : base n -> base (set_cgi g n). Proof. intros [A B]. now constructor. Qed.
Lemma base_key k p n : base n -> good_key k -> base (set_key k p n). Proof. intros [A B] C. now constructor. Qed.
Lemma base_si p l n : base n -> good_si l -> base (set_si p l n). Proof. intros [A B] C. now constructor. Qed.

Lemma chg_cont_sound n : base n -> may (n_st n) TX_CONT = true \/ phase n -> sound (chg_cont n).
Proof.
  intros B P. unfold chg_cont. destruct (may (n_st n) TX_CONT); [split; [now apply base_st|exact I]|].
  destruct P as [P|P]; [discriminate|]. now split.
Qed.
Lemma chg_data_sound n : base n -> may (n_st n) TX_DATA = true -> sound (chg_data n).
Proof.
  intros [A B] M. unfold chg_data. rewrite M. split; [now constructor|]. cbn. lia.
Qed.
Lemma chg_si_sound w n : good_world w -> base n -> may (n_st n) WAIT_SI = true -> sound (chg_si w n).
Proof.
  intros (L & S & _ & Ts) B M. unfold chg_si. rewrite M. destruct (find _ _).
  - apply chg_data_sound; [|reflexivity]. apply base_si; [now apply base_st|exact L].
  - destruct (w_si w _) as [[psi l]|] eqn:E.
    + apply chg_data_sound; [|reflexivity]. apply base_si; [now apply base_st|]. eapply S; exact E.
    + destruct (w_rim_ok w).
      * split; [now apply base_st|]. cbn. exact Ts.
      * apply chg_cont_sound; [now apply base_st|]. now left.
Qed.
Lemma chg_rac_sound w n : good_world w -> base n -> may (n_st n) WAIT_RAC = true -> sound (chg_rac w n).
Proof.
  intros W B M. unfold chg_rac. rewrite M. destruct (w_neigh w _) as [g|].
  - apply chg_si_sound; [exact W| |reflexivity]. apply base_cgi. now apply base_st.
  - destruct (w_addr_ok w).
    + split; [now apply base_st|]. cbn. apply W.
    + apply chg_cont_sound; [now apply base_st|]. now left.
Qed.

Lemma fill_good b t k : good_target t -> fill_key b t = Some (Some k) -> good_key k.
Proof.
  destruct t as [a s| |[[a s]|] u e|]; cbn; try discriminate; intros G E; try (injection E as <-; exact G).
  destruct u; [discriminate|]. destruct e; discriminate.
Qed.
Lemma may_rac n : phase n -> may (n_st n) WAIT_RAC = true.
Proof. unfold phase. destruct (n_st n); tauto. Qed.

Lemma retrans_sound w t n : good_world w -> good_target t -> sound n -> sound (retrans w t n).
Proof.
  intros W G [B P]. unfold retrans. destruct (fill_key (w_bts w) t) as [[k|]|] eqn:E.
  - destruct (negb (nkey_eq (n_key n) k)); [|now split]. apply chg_rac_sound; [exact W| |now apply may_rac].
    apply base_key; [exact B|]. eapply fill_good; eauto.
  - apply chg_cont_sound; auto.
  - destruct (negb (is_cont (n_st n))); [apply chg_cont_sound; auto|now split].
Qed.

Lemma create_data_keeps c n : let '(_, _, n') := create_data c n in
  n_st n' = n_st n /\ n_key n' = n_key n /\ n_si n' = n_si n /\ n_timer n' = n_timer n /\ n_present n' = n_present n /\ n_cgi n' = n_cgi n /\ n_psi n' = n_psi n.
Proof.
  unfold create_data. destruct (sz _ =? 0); [|destruct (sz _ >=? _)]; cbn; tauto.
Qed.
Lemma sound_sending n : sound n -> n_st n = TX_DATA -> sending n (skipn (Z.to_nat (n_sent n)) (n_si n)).
Proof.
  intros [[K [O L]] P] S. unfold phase in P. rewrite S in P. constructor; auto; lia.
Qed.

Lemma create_data_sound c n m all n' : sound n -> n_st n = TX_DATA -> 0 <= cr_tfi c < 32 -> create_data c n = (m, all, n') -> sound n'.
Proof.
  intros S E T C. pose proof (create_data_keeps c n) as K. rewrite C in K. destruct K as (K1 & K2 & K3 & _).
  pose proof (sound_sending _ S E) as D. pose proof (s_pos _ _ D) as P. pose proof (s_len _ _ D) as Ln. pose proof (s_idx _ _ D) as I0.
  destruct S as [[A B] _]. split; [constructor; [now rewrite K2|now rewrite K3]|]. unfold phase. rewrite K1, E, K3.
  unfold create_data in C. assert (Ez : sz (Z.of_nat (length (n_si n)) - n_sent n) = Z.of_nat (length (n_si n)) - n_sent n) by (unfold sz; apply Z.mod_small; lia).
  rewrite Ez in C. rewrite Z.geb_leb in C.
  destruct (Z.eqb_spec (Z.of_nat (length (n_si n)) - n_sent n) 0) as [Q|Q]; [|destruct (Z.leb_spec ((if n_idx n =? 0 then 17 else 19) - 1) (Z.of_nat (length (n_si n)) - n_sent n)) as [L|L]];
    injection C as <- <- <-; cbn [n_sent n_idx set_prog]; split; try lia; destruct (n_idx n =? 0); lia.
Qed.

Lemma step_sound w o e n' m : good_world w -> good_event e -> match o with Some n => sound n | None => True end ->
  n_step w o e = Alive n' m -> sound n'.
Proof.
  intros W G S H. destruct o as [n|].
  - destruct e; cbn [n_step] in H; unfold dispatch in H.
    + assert (P : permits (n_st n) (Notif t) = true) by (destruct S as [_ P]; unfold phase in P; destruct (n_st n); tauto).
      rewrite P in H. unfold action in H. pose proof (retrans_sound w t n W G S) as R.
      destruct S as [B Ph]. unfold phase in Ph. destruct (n_st n); try contradiction; injection H as <- <-; exact R.
    + destruct (st_eqb (n_st n) WAIT_RAC && nkey_eq (n_key n) k) eqn:Q; [|injection H as <- <-; exact S].
      destruct (n_st n) eqn:E; try discriminate. cbn [permits] in H. unfold action in H. rewrite E in H. destruct S as [B Ph].
      destruct r as [g|]; injection H as <- <-.
      * apply chg_si_sound; [exact W|now apply base_cgi|cbn; now rewrite E].
      * apply chg_cont_sound; auto.
    + destruct (st_eqb (n_st n) WAIT_SI && cgi_eq (n_cgi n) g) eqn:Q; [|injection H as <- <-; exact S].
      destruct (n_st n) eqn:E; try discriminate. cbn [permits] in H. unfold action in H. rewrite E in H. destruct S as [B Ph].
      injection H as <- <-. apply chg_data_sound; [now apply base_si|cbn; now rewrite E].
    + unfold rts in H. destruct (cr_assigned c) eqn:A; cbn [andb] in H; [|injection H as <- <-; exact S].
      destruct (n_st n) eqn:E; try (injection H as <- <-; exact S); cbn [permits] in H; unfold action in H; rewrite E, A in H; cbn [negb] in H.
      * destruct (create_data c n) as [[b all] n1] eqn:C. destruct (negb (cr_enc c)); [discriminate|]. injection H as <- <-.
        pose proof (create_data_sound c n _ _ _ S E (G A) C) as S1. pose proof (create_data_keeps c n) as K. rewrite C in K.
        destruct all; [|exact S1]. destruct S1. apply chg_cont_sound; auto.
      * destruct (cr_poll c) as [[fn rrbp]|]; [|injection H as <- <-; exact S].
        destruct S as [[B1 B2] Ph]. destruct (negb (cr_enc c)); injection H as <- <-; cbn [n_st set_poll]; rewrite ?E; cbn [may];
          (split; [now constructor|unfold phase; cbn; rewrite ?E; exact I]).
    + destruct (exp_ack n fn ts); [|injection H as <- <-; exact S]. destruct (n_st n) eqn:E; cbn [permits] in H; try (injection H as <- <-; exact S).
      unfold action in H. rewrite E in H. discriminate.
    + destruct (exp_ack n fn ts); [|injection H as <- <-; exact S]. destruct (n_st n) eqn:E; cbn [permits] in H; try (injection H as <- <-; exact S).
      unfold action in H. rewrite E in H. injection H as <- <-. destruct S. apply chg_cont_sound; auto.
    + destruct (n_timer n) eqn:Tm; [|injection H as <- <-; exact S]. cbn [set_st n_st] in H. destruct S as [B Ph].
      injection H as <- <-. unfold phase in Ph. destruct (n_st n) eqn:E; try contradiction;
        try (split; [now apply base_st|unfold phase; cbn; auto; fail]);
        apply chg_cont_sound; try (now apply base_st); left; reflexivity.
  - destruct e; try discriminate. cbn [n_step] in H. unfold dispatch, action in H. cbn [nacc_new n_st permits] in H.
    assert (B0 : base nacc_new) by (constructor; [unfold good_key; cbn; lia|split; [constructor|cbn; lia]]).
    destruct (fill_key (w_bts w) t) as [[k|]|] eqn:E; [| |discriminate]; injection H as <- <-.
    + apply chg_rac_sound; [exact W| |reflexivity]. apply base_key; [exact B0|]. eapply fill_good; eauto.
    + apply chg_cont_sound; [apply base_key; [exact B0|unfold good_key; cbn; lia]|now left].
Qed.

Lemma run_sound : forall h o out n out', good_history h -> match o with Some n => sound n | None => True end ->
  n_run o out h = Some (Some n, out') -> sound n.
Proof.
  induction h as [|[w e] h IH]; intros o out n out' G S R; cbn [n_run] in R.
  - injection R as -> _. exact S.
  - inversion G as [|? ? [Gw Ge] Gh]; subst. cbn [fst snd] in *. destruct (n_step w o e) as [n1 m| |] eqn:E; [| |discriminate].
    + eapply IH; [exact Gh| |exact R]. eapply step_sound; eauto.
    + eapply IH; [exact Gh| |exact R]. exact I.
Qed.

(** Events that are no business of a machine that has something to send. *)
Lemma nkey_eq_same k : nkey_eq k k = true. Proof. now apply nkey_eq_spec. Qed.

Lemma quiet_step w n e : n_st n = TX_DATA \/ n_st n = TX_CONT -> n_timer n = false -> quiet (n_key n) (w, e) -> n_step w (Some n) e = Alive n None.
Proof.
  intros S Tm Q. unfold quiet in Q. cbn [fst snd] in Q. destruct e; cbn [n_step].
  - unfold dispatch. assert (P : permits (n_st n) (Notif t) = true) by (destruct S as [-> | ->]; reflexivity). rewrite P.
    assert (R : retrans w t n = n) by (unfold retrans; rewrite Q, nkey_eq_same; reflexivity).
    unfold action. destruct S as [-> | ->]; rewrite R; reflexivity.
  - destruct S as [-> | ->]; reflexivity.
  - destruct S as [-> | ->]; reflexivity.
  - unfold rts. rewrite Q. reflexivity.
  - unfold exp_ack. destruct S as [-> | ->]; reflexivity.
  - unfold exp_ack. destruct S as [-> | ->]; reflexivity.
  - rewrite Tm. reflexivity.
Qed.

(** Timers run in the two waiting states only. *)
Definition idle (n : nacc) : Prop := match n_st n with WAIT_RAC | WAIT_SI | INITIAL => True | _ => n_timer n = false end.
Lemma chg_cont_idle n : idle n -> idle (chg_cont n).
Proof. intro H. unfold chg_cont. destruct (may _ _); [exact eq_refl|exact H]. Qed.
Lemma chg_data_idle n : idle n -> idle (chg_data n).
Proof. intro H. unfold chg_data. destruct (may _ _); [exact eq_refl|exact H]. Qed.
Lemma chg_si_idle w n : idle n -> idle (chg_si w n).
Proof.
  intro H. unfold chg_si. destruct (may _ _); [|exact H].
  destruct (find _ _); [apply chg_data_idle; exact I|]. destruct (w_si w _) as [[p l]|]; [apply chg_data_idle; exact I|].
  destruct (w_rim_ok w); [exact I|]. apply chg_cont_idle; exact I.
Qed.
Lemma chg_rac_idle w n : idle n -> idle (chg_rac w n).
Proof.
  intro H. unfold chg_rac. destruct (may _ _); [|exact H].
  destruct (w_neigh w _); [apply chg_si_idle; exact I|]. destruct (w_addr_ok w); [exact I|]. apply chg_cont_idle; exact I.
Qed.
Lemma retrans_idle w t n : idle n -> idle (retrans w t n).
Proof.
  intro H. unfold retrans. destruct (fill_key _ _) as [[k|]|].
  - destruct (negb _); [|exact H]. apply chg_rac_idle. exact H.
  - now apply chg_cont_idle.
  - destruct (negb _); [now apply chg_cont_idle|exact H].
Qed.
Lemma step_idle w o e n' m : match o with Some n => idle n | None => True end -> n_step w o e = Alive n' m -> idle n'.
Proof.
  intros S H. destruct o as [n|].
  - destruct e; cbn [n_step] in H; unfold dispatch in H.
    + destruct (permits (n_st n) (Notif t)); [|injection H as <- <-; exact S]. unfold action in H.
      destruct (n_st n) eqn:E; try (injection H as <- <-; now apply retrans_idle).
      * destruct (fill_key _ _) as [[k|]|]; [| |discriminate]; injection H as <- <-; [apply chg_rac_idle|apply chg_cont_idle]; exact S.
      * discriminate.
    + destruct (st_eqb (n_st n) WAIT_RAC && nkey_eq (n_key n) k) eqn:Q; [|injection H as <- <-; exact S].
      destruct (n_st n) eqn:E; try discriminate. cbn [permits] in H. unfold action in H. rewrite E in H.
      destruct r as [g|]; injection H as <- <-; [apply chg_si_idle|apply chg_cont_idle]; exact S.
    + destruct (st_eqb (n_st n) WAIT_SI && cgi_eq (n_cgi n) g) eqn:Q; [|injection H as <- <-; exact S].
      destruct (n_st n) eqn:E; try discriminate. cbn [permits] in H. unfold action in H. rewrite E in H. injection H as <- <-. apply chg_data_idle. exact S.
    + destruct (rts n c) eqn:R; [|injection H as <- <-; exact S]. unfold rts in R. apply andb_true_iff in R as [A R]. unfold idle in S.
      destruct (n_st n) eqn:E; try discriminate; cbn [permits] in H; unfold action in H; rewrite E, A in H; cbn [negb] in H.
      * destruct (create_data c n) as [[b all] n1] eqn:C. destruct (negb (cr_enc c)); [discriminate|]. injection H as <- <-.
        pose proof (create_data_keeps c n) as K. rewrite C in K. destruct K as (K1 & _ & _ & K4 & _).
        assert (D : idle n1) by (unfold idle; rewrite K1, E, K4; exact S). destruct all; [now apply chg_cont_idle|exact D].
      * destruct (cr_poll c) as [[fn rrbp]|]; [|injection H as <- <-; unfold idle; rewrite E; exact S].
        destruct (negb (cr_enc c)); injection H as <- <-; cbn [n_st set_poll]; rewrite ?E; cbn [may]; unfold idle; cbn; rewrite ?E; auto.
    + destruct (exp_ack n fn ts); [|injection H as <- <-; exact S]. destruct (n_st n) eqn:E; cbn [permits] in H; try (injection H as <- <-; exact S).
      unfold action in H. rewrite E in H. discriminate.
    + destruct (exp_ack n fn ts); [|injection H as <- <-; exact S]. destruct (n_st n) eqn:E; cbn [permits] in H; try (injection H as <- <-; exact S).
      unfold action in H. rewrite E in H. injection H as <- <-. now apply chg_cont_idle.
    + destruct (n_timer n) eqn:Tm; [|injection H as <- <-; exact S]. injection H as <- <-. cbn [set_st n_st].
      destruct (n_st n) eqn:E; try exact eq_refl; try exact I; apply chg_cont_idle; exact I.
  - destruct e; try discriminate. cbn [n_step] in H. unfold dispatch, action in H. cbn [nacc_new n_st permits] in H.
    destruct (fill_key (w_bts w) t) as [[k|]|] eqn:E; [| |discriminate]; injection H as <- <-; [apply chg_rac_idle|apply chg_cont_idle]; exact I.
Qed.
Lemma run_idle : forall h o out n out', match o with Some n => idle n | None => True end ->
  n_run o out h = Some (Some n, out') -> idle n.
Proof.
  induction h as [|[w e] h IH]; intros o out n out' S R; cbn [n_run] in R.
  - injection R as -> _. exact S.
  - destruct (n_step w o e) as [n1 m| |] eqn:E; [| |discriminate].
    + eapply IH; [|exact R]. eapply step_idle; eauto.
    + eapply IH; [|exact R]. exact I.
Qed.

(** Nothing but requests matters while there is something to send. *)
Lemma all_quiet : forall h n out, n_st n = TX_DATA \/ n_st n = TX_CONT -> n_timer n = false -> Forall (quiet (n_key n)) h ->
  n_run (Some n) out h = Some (Some n, out).
Proof.
  induction h as [|[w e] h IH]; intros n out S Tm Q; [reflexivity|]. inversion Q; subst. cbn [n_run].
  rewrite quiet_step by assumption. rewrite app_nil_r. now apply IH.
Qed.

Lemma quiet_not_rts k w e : quiet k (w, e) -> is_rts (w, e) = false.
Proof. unfold quiet, is_rts. cbn [snd]. destruct e; auto. Qed.
Lemma serves_rts p : serves p -> is_rts p = true.
Proof. unfold serves, is_rts. destruct (snd p); try contradiction. intros [A _]. exact A. Qed.

Lemma filtered : forall h n rest out, sending n rest -> n_timer n = false -> Forall (fun p => quiet (n_key n) p \/ serves p) h ->
  requests h = needed n rest -> n_run (Some n) out h = n_run (Some n) out (filter is_rts h).
Proof.
  induction h as [|[w e] h IH]; intros n rest out S Tm F R; [reflexivity|]. inversion F as [|? ? Q Fh]; subst.
  destruct Q as [Q|Q].
  - cbn [filter]. pose proof (quiet_not_rts _ _ _ Q) as N. unfold requests in R. cbn [filter] in R. rewrite N in R |- *.
    cbn [n_run]. rewrite quiet_step; [|left; apply (s_st _ _ S)|exact Tm|exact Q]. rewrite app_nil_r. eapply IH; eauto.
  - pose proof (serves_rts _ Q) as N. unfold requests in R. cbn [filter] in R |- *. rewrite N in R |- *. cbn [length] in R.
    unfold serves in Q. cbn [snd] in Q. destruct e; try contradiction. pose proof Q as (Ga & Ge & Gt & _).
    destruct (data_step c n rest S Gt) as (m & n' & E & HF & HL & Lm).
    pose proof (create_data_keeps c n) as K. rewrite E in K. destruct K as (K1 & K2 & K3 & K4 & _).
    cbn [n_run]. unfold n_step, rts. rewrite Ga, (s_st _ _ S). cbn [andb].
    unfold dispatch. rewrite (s_st _ _ S). cbn [permits]. unfold action. rewrite (s_st _ _ S), Ga, E. cbn [negb]. rewrite Ge. cbn [negb].
    destruct (Z.leb_spec (room n) (Z.of_nat (length rest))) as [L|L]; cbn [negb].
    + destruct (HF L) as (_ & S' & Ei & _ & _). eapply IH; [exact S'|congruence| |].
      * rewrite K2. exact Fh.
      * pose proof (s_idx _ _ S) as I0.
        assert (R' : room n' = 18) by (unfold room; rewrite Ei; rewrite (proj2 (Z.eqb_neq _ _)) by lia; reflexivity).
        assert (Rb : 16 <= room n <= 18) by (unfold room; destruct (n_idx n =? 0); lia).
        unfold requests. unfold needed in *. rewrite skipn_length, R'. rewrite (proj2 (Z.ltb_ge _ _)) in R by lia.
        replace (Z.of_nat (length rest - Z.to_nat (room n))) with (Z.of_nat (length rest) - room n) by lia.
        destruct (Z.ltb_spec (Z.of_nat (length rest) - room n) 18) as [X|X].
        -- rewrite Z.div_small in R by lia. lia.
        -- replace (Z.of_nat (length rest) - room n) with (Z.of_nat (length rest) - room n - 18 + 1 * 18) in R by lia. rewrite Z.div_add in R by lia. lia.
    + assert (N1 : needed n rest = 1) by (unfold needed; rewrite (proj2 (Z.ltb_lt _ _)) by exact L; reflexivity).
      assert (Nil : filter is_rts h = []) by (destruct (filter is_rts h); [reflexivity|cbn [length] in R; lia]).
      rewrite Nil. cbn [n_run]. assert (Cs : chg_cont n' = set_st TX_CONT false n') by (unfold chg_cont; rewrite K1, (s_st _ _ S); reflexivity).
      rewrite Cs. apply all_quiet; [now right|reflexivity|]. cbn [set_st n_key]. rewrite K2.
      apply Forall_forall. intros p I. rewrite Forall_forall in Fh. destruct (Fh p I) as [Qp|Sp]; [exact Qp|].
      exfalso. assert (J : In p (filter is_rts h)) by (apply filter_In; split; [exact I|now apply serves_rts]). rewrite Nil in J. destruct J.
Qed.

Lemma serve_list : forall h k, Forall (fun p => quiet k p \/ serves p) h ->
  exists cs, filter is_rts h = asked cs /\ Forall (fun p => good_create (snd p)) cs.
Proof.
  induction h as [|[w e] h IH]; intros k F; [exists []; split; [reflexivity|constructor]|].
  inversion F as [|? ? Q Fh]; subst. destruct (IH k Fh) as (cs & E & G). cbn [filter]. destruct Q as [Q|Q].
  - rewrite (quiet_not_rts _ _ _ Q). eauto.
  - rewrite (serves_rts _ Q). unfold serves in Q. cbn [snd] in Q. destruct e; try contradiction.
    exists ((w, c) :: cs). cbn [asked map fst snd]. rewrite E. split; [reflexivity|]. constructor; auto.
Qed.

Lemma asked_length cs : length (asked cs) = length cs.
Proof. unfold asked. apply map_length. Qed.

(** The transfer among other events. *)
Theorem transfer_among : forall n psi si h, begun n psi si -> n_timer n = false -> good_key (n_key n) -> good_si si ->
  Forall (fun p => quiet (n_key n) p \/ serves p) h -> requests h = containers (Z.of_nat (length si)) ->
  exists n' bs pre last, n_run (Some n) [] h = Some (Some n', map Data bs) /\ n_st n' = TX_CONT /\
    Forall (fun b => length b = 184%nat) bs /\
    all_some (map r_container bs) = Some (pre ++ [last]) /\ Forall (fun c => full c = true) pre /\ full last = false /\
    (requests h <= 32 -> mobile_collects bs = Some (k_arfcn (n_key n), k_bsic (n_key n), if psi then 1 else 0, si)) /\
    (32 < requests h -> nth 0 (map co_idx (pre ++ [last])) (-1) = 0 /\ nth 32 (map co_idx (pre ++ [last])) (-1) = 0).
Proof.
  intros n psi si h B Tm K [O Ln] F R. pose proof (begun_sending _ _ _ B K O Ln) as S. pose proof (begun_needed _ _ _ B) as Nd.
  rewrite (filtered h n si [] S Tm F) by congruence. destruct (serve_list h _ F) as (cs & E & G). rewrite E.
  assert (Lc : Z.of_nat (length cs) = needed n si) by (unfold requests in R; rewrite E, asked_length in R; congruence).
  destruct (send_all cs n si [] S G Lc) as (n' & bs & cos & Run & St & Lb & Fb & As & Ix & (c0 & r0 & Ec & Cc & Kc) & (pre & last & El & Fp & Fl) & Cl).
  destruct B as (B1 & B2 & B3 & B4 & B5). exists n', bs, pre, last. rewrite <- El.
  split; [exact Run|]. split; [exact St|]. split; [exact Fb|]. split; [exact As|]. split; [exact Fp|]. split; [exact Fl|]. split.
  - intro C. unfold mobile_collects. rewrite As. rewrite B3 in *. rewrite Ec. cbn [reassemble]. rewrite Cc. cbn [Z.eqb].
    rewrite <- Ec, Kc, Cl by lia. cbn [option_map]. rewrite B4. reflexivity.
  - intro C. rewrite Ix, B3. set (f := fun k : nat => ((0 + Z.of_nat k) mod 256) mod 32). 
    split; (rewrite (nth_indep _ (-1) (f 0%nat)) by (rewrite map_length, seq_length; lia)); rewrite map_nth, seq_nth by lia; reflexivity.
Qed.
