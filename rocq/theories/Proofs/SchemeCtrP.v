(** Proofs about the counters of data blocks by coding scheme. *)
From Coq Require Import ZArith Ascii String List Bool Lia.
From Verif Require Import Model.CodingScheme Model.RlcCps Model.DlBlockTx Model.SchemeCtr
  Spec.SchemeCtrSpec Proofs.CodingP.
Import ListNotations.
Local Open Scope Z_scope.

(** ** Names and positions *)
Lemma shown_place l v x : In x l -> shown l v x = v (place_of x l 0).
Proof.
  unfold shown. generalize 0%nat as i. induction l as [|y r IH]; intros i Hin; [destruct Hin|].
  cbn [shown_from place_of]. rewrite (String.eqb_sym x y). destruct (String.eqb y x) eqn:E; [reflexivity|].
  apply IH. destruct Hin as [->|Hin]; [rewrite String.eqb_refl in E; discriminate|exact Hin].
Qed.
Lemma place_nth l x i : NoDup l -> nth_error l i = Some x -> place_of x l 0 = i.
Proof.
  enough (G : forall k, NoDup l -> nth_error l i = Some x -> place_of x l k = (k + i)%nat).
  { intros Hd Hn. rewrite (G 0%nat Hd Hn). reflexivity. }
  revert i. induction l as [|y r IH]; intros [|i] k Hd Hn; try discriminate; cbn [nth_error place_of] in *.
  - injection Hn as ->. rewrite String.eqb_refl. lia.
  - inversion Hd as [|? ? Hy Hr]; subst. destruct (String.eqb x y) eqn:E.
    + apply String.eqb_eq in E. subst. exfalso. apply Hy. eapply nth_error_In; exact Hn.
    + rewrite (IH i (S k) Hr Hn). lia.
Qed.

Definition nodupb (l : list string) : bool :=
  (fix go l := match l with [] => true | x :: r => negb (existsb (String.eqb x) r) && go r end) l.
Lemma nodupb_ok l : nodupb l = true -> NoDup l.
Proof.
  induction l as [|x r IH]; intros E; constructor; cbn in E; apply andb_true_iff in E; destruct E as [E1 E2].
  - intro Hin. apply negb_true_iff in E1. assert (existsb (String.eqb x) r = true); [|congruence].
    apply existsb_exists. exists x. split; [exact Hin|apply String.eqb_refl].
  - exact (IH E2).
Qed.
Lemma cell_names_distinct : NoDup cell_names.
Proof. apply nodupb_ok. vm_compute. reflexivity. Qed.
Lemma tbf_names_distinct w e : NoDup (tbf_names w e).
Proof. apply nodupb_ok. destruct w, e; vm_compute; reflexivity. Qed.

Definition cpos (w : way) (s : scheme) : nat := place_of (cell_title w s) cell_names 0.
Definition tpos (w : way) (s : scheme) : nat := place_of (tbf_title w s) (tbf_names w (of_edge s)) 0.
Definition own (e : bool) (g : groups) : option values := if e then g_egprs g else g_gprs g.

Lemma all_in s : s <> UNKNOWN <-> In s all_schemes.
Proof.
  split.
  - destruct s; intro E; [exfalso; apply E; reflexivity|..]; cbn; tauto.
  - intros Hin E. subst. cbn in Hin. repeat destruct Hin as [Hin|Hin]; try discriminate; exact Hin.
Qed.
Lemma in_dec_b x l : existsb (String.eqb x) l = true -> In x l.
Proof. intro E. apply existsb_exists in E. destruct E as [y [Hy E]]. apply String.eqb_eq in E. subst. exact Hy. Qed.
Lemma cell_title_in w s : In s all_schemes -> In (cell_title w s) cell_names.
Proof. intro Hs. apply in_dec_b. apply all_in in Hs. destruct w, s; try (exfalso; apply Hs; reflexivity); vm_compute; reflexivity. Qed.
Lemma tbf_title_in w s : In s all_schemes -> In (tbf_title w s) (tbf_names w (of_edge s)).
Proof. intro Hs. apply in_dec_b. apply all_in in Hs. destruct w, s; try (exfalso; apply Hs; reflexivity); vm_compute; reflexivity. Qed.

Lemma ctr_of_ok w s : In s all_schemes ->
  exists x y, ctr_of w s = Some (x, of_edge s, y)
    /\ place_of x cell_enum 0 = cpos w s /\ place_of y (enum_of w (of_edge s)) 0 = tpos w s.
Proof.
  intro Hs. apply all_in in Hs.
  destruct w, s; try (exfalso; apply Hs; reflexivity);
    (eexists; eexists; split; [reflexivity|split; vm_compute; reflexivity]).
Qed.
Definition weqb (a b : way) : bool := match a, b with Down, Down => true | Up, Up => true | _, _ => false end.
Lemma cpos_eqb w s w' s' : In s all_schemes -> In s' all_schemes ->
  Nat.eqb (cpos w s) (cpos w' s') = weqb w w' && seqb s s'.
Proof.
  intros Hs Hs'.
  assert (A : forallb (fun a => forallb (fun b => forallb (fun u => forallb (fun u' =>
      Bool.eqb (Nat.eqb (cpos u a) (cpos u' b)) (weqb u u' && seqb a b)) [Down; Up]) [Down; Up]) all_schemes) all_schemes = true)
    by (vm_compute; reflexivity).
  rewrite forallb_forall in A. specialize (A s Hs). rewrite forallb_forall in A. specialize (A s' Hs').
  rewrite forallb_forall in A. specialize (A w ltac:(destruct w; cbn; tauto)).
  rewrite forallb_forall in A. specialize (A w' ltac:(destruct w'; cbn; tauto)).
  apply Bool.eqb_prop in A. exact A.
Qed.
Lemma tpos_eqb w s s' : In s all_schemes -> In s' all_schemes -> of_edge s = of_edge s' ->
  Nat.eqb (tpos w s) (tpos w s') = seqb s s'.
Proof.
  intros Hs Hs' E.
  assert (A : forallb (fun a => forallb (fun b => forallb (fun u =>
      implb (Bool.eqb (of_edge a) (of_edge b)) (Bool.eqb (Nat.eqb (tpos u a) (tpos u b)) (seqb a b))) [Down; Up]) all_schemes) all_schemes = true)
    by (vm_compute; reflexivity).
  rewrite forallb_forall in A. specialize (A s Hs). rewrite forallb_forall in A. specialize (A s' Hs').
  rewrite forallb_forall in A. specialize (A w ltac:(destruct w; cbn; tauto)).
  rewrite E, Bool.eqb_reflx in A. cbn [implb] in A. apply Bool.eqb_prop in A. exact A.
Qed.

(** ** One block is counted *)
Lemma count_ok w c cell g cell' g' : In c all_schemes -> count_block w c cell g = Some (cell', g') ->
  cell' = bump (cpos w c) cell
  /\ own (negb (of_edge c)) g' = own (negb (of_edge c)) g
  /\ exists v, own (of_edge c) g = Some v /\ own (of_edge c) g' = Some (bump (tpos w c) v).
Proof.
  intros Hc E. destruct (ctr_of_ok w c Hc) as [x [y [E1 [E2 E3]]]]. unfold count_block in E.
  rewrite E1 in E. rewrite E2, E3 in E. unfold own. destruct (of_edge c); cbn [negb].
  - destruct (g_egprs g) as [v|]; [|discriminate]. injection E as <- <-. cbn [g_gprs g_egprs].
    split; [reflexivity|split; [reflexivity|]]. exists v. split; reflexivity.
  - destruct (g_gprs g) as [v|]; [|discriminate]. injection E as <- <-. cbn [g_gprs g_egprs].
    split; [reflexivity|split; [reflexivity|]]. exists v. split; reflexivity.
Qed.
Lemma count_there w c cell g : In c all_schemes -> own (of_edge c) g <> None -> count_block w c cell g <> None.
Proof.
  intros Hc Hg. destruct (ctr_of_ok w c Hc) as [x [y [E1 _]]]. unfold count_block. rewrite E1. unfold own in Hg.
  destruct (of_edge c); [destruct (g_egprs g)|destruct (g_gprs g)]; congruence.
Qed.
Lemma amount_app s a b : amount s (a ++ b) = amount s a + amount s b.
Proof. induction a as [|x r IH]; cbn [amount app]; [lia|]. rewrite IH. lia. Qed.
Lemma seqb_sym a b : seqb a b = seqb b a.
Proof. unfold seqb. apply Z.eqb_sym. Qed.
Lemma bump_cell w c v s w' : In c all_schemes -> In s all_schemes ->
  bump (cpos w c) v (cpos w' s) = v (cpos w' s) + (if weqb w w' then (if seqb c s then 1 else 0) else 0).
Proof.
  intros Hc Hs. unfold bump. rewrite (cpos_eqb w' s w c Hs Hc), (seqb_sym s c).
  destruct w, w'; cbn [weqb andb]; try lia; destruct (seqb c s); lia.
Qed.
Lemma bump_tbf w c v s : In c all_schemes -> In s all_schemes -> of_edge s = of_edge c ->
  bump (tpos w c) v (tpos w s) = v (tpos w s) + (if seqb c s then 1 else 0).
Proof. intros Hc Hs E. unfold bump. rewrite (tpos_eqb w s c Hs Hc E), (seqb_sym s c). destruct (seqb c s); lia. Qed.

(** ** The blocks of a downlink TBF *)
Definition kind (e : bool) (s : scheme) : Prop := In s all_schemes /\ of_edge s = e.
Definition blk_fine (e : bool) (b : dlblk) : Prop :=
  kind e (b_init b) /\ kind e (b_cur b) /\ (e = false -> kind e (b_last b)).
Definition sent_as (c a : scheme) : Prop := a = c \/ (c = MCS7 /\ a = MCS5) \/ (c = MCS9 /\ a = MCS6).

Lemma sent_kind e c a : sent_as c a -> kind e c -> kind e a.
Proof. intros [->|[[-> ->]|[-> ->]]] Hk; [exact Hk|..]; destruct Hk as [_ Hk]; cbn in Hk; subst; split; cbn; tauto. Qed.
Lemma radio_sent two b : sent_as (b_cur b) (fst (radio_scheme two b)).
Proof.
  unfold radio_scheme. destruct (seqb (b_init b) MCS8 && (seqb (b_cur b) MCS6 || seqb (b_cur b) MCS3)); [left; reflexivity|].
  destruct two; cbn [negb]; [left; reflexivity|].
  destruct (b_cur b); vm_compute; try (left; reflexivity); right; tauto.
Qed.
Lemma copies_fine n cs pad spb b us b' : blk_copies n cs pad spb b = Some (us, b') ->
  b_init b' = b_init b /\ b_cur b' = b_cur b /\ (b_last b' = b_last b \/ b_last b' = cs).
Proof.
  revert b us b'. induction n as [|n IH]; intros b us b' E; cbn [blk_copies] in E.
  - injection E as <- <-. tauto.
  - destruct (blk_copy cs pad spb b) as [[u b1]|] eqn:E1; [|discriminate].
    destruct (blk_copies n cs pad spb b1) as [[us' b2]|] eqn:E2; [|discriminate]. injection E as <- <-.
    destruct (IH _ _ _ E2) as [A [B C]]. unfold blk_copy in E1.
    destruct (mcs_is_edge cs && _); [discriminate|]. destruct (dl_get_data b) as [off st]. injection E1 as <- <-.
    cbn [b_init b_cur b_last] in *. repeat split; try assumption. destruct C as [C|C]; right; exact C.
Qed.
Lemma fine_copies e n cs pad spb b us b' : blk_copies n cs pad spb b = Some (us, b') ->
  kind e cs -> blk_fine e b -> blk_fine e b'.
Proof.
  intros E Hc [A [B C]]. destruct (copies_fine _ _ _ _ _ _ _ E) as [E1 [E2 E3]].
  unfold blk_fine. rewrite E1, E2. repeat split; try apply A; try apply B;
    intros; destruct E3 as [E3|E3]; rewrite E3; try apply Hc; apply C; assumption.
Qed.
Lemma fine_first e two b us b' : blk_send_first two b = Some (us, b') -> blk_fine e b -> blk_fine e b'.
Proof.
  intros E F. unfold blk_send_first in E. pose proof (radio_sent two b) as R.
  destruct (radio_scheme two b) as [cs pad]. cbn [fst] in R.
  assert (K : kind e cs) by (eapply sent_kind; [exact R|apply F]).
  destruct (Z.to_nat (num_data_blocks (mcs_header_type cs))) as [|n]; [discriminate|].
  exact (fine_copies _ _ _ _ _ _ _ _ E K F).
Qed.
Lemma fine_second e b us b' : blk_send_second b = Some (us, b') -> blk_fine e b -> blk_fine e b'.
Proof.
  intros E F. unfold blk_send_second in E. destruct (_ =? 2).
  - refine (fine_copies _ _ _ _ _ _ _ _ E _ F). apply F.
  - injection E as <- <-. exact F.
Qed.
Lemma fine_again e cmd a b b' : again e cmd a b = Some b' -> blk_fine e b -> blk_fine e b'.
Proof.
  intros E [A [B C]]. unfold again in E. destruct e.
  - unfold blk_retx in E. destruct (retx_scheme (b_init b) cmd a) as [c|] eqn:R; [|discriminate]. injection E as <-.
    split; [exact A|]. split; [|discriminate]. cbn [b_cur].
    revert R. destruct (b_init b), cmd, a; vm_compute; intro R; try discriminate R; injection R as <-; split; vm_compute; tauto.
  - injection E as <-. split; [exact A|]. split; [exact (C eq_refl)|intros _; exact (C eq_refl)].
Qed.
Lemma fine_new e c b : blk_new c = Some b -> kind e c -> blk_fine e b.
Proof. unfold blk_new. destruct (negb _); [discriminate|]. intros E K. injection E as <-. split; [exact K|split; [exact K|intros _; exact K]]. Qed.

Lemma put_Forall {A} (P : A -> Prop) i x l : P x -> Forall P l -> Forall P (put_at i x l).
Proof. revert i. induction l as [|y r IH]; intros [|i] Hx HF; cbn [put_at]; auto; inversion HF; subst; constructor; auto. Qed.
Lemma drop_Forall {A} (P : A -> Prop) i l : Forall P l -> Forall P (drop_at i l).
Proof. revert i. induction l as [|y r IH]; intros [|i] HF; cbn [drop_at]; auto; inversion HF; subst; auto. Qed.
Lemma nth_Forall {A} (P : A -> Prop) i x l : nth_error l i = Some x -> Forall P l -> P x.
Proof. intros E HF. rewrite Forall_forall in HF. apply HF. eapply nth_error_In; exact E. Qed.

(** ** Invariants *)
Definition dl_counts (t : dltbf) : Prop :=
  exists cs v, Forall2 sent_as cs (d_air t) /\ Forall (kind (d_egprs t)) cs
    /\ own (d_egprs t) (d_groups t) = Some v /\ own (negb (d_egprs t)) (d_groups t) = None
    /\ forall s, kind (d_egprs t) s -> v (tpos Down s) = amount s cs.
Definition dl_fine (t : dltbf) : Prop := Forall (blk_fine (d_egprs t)) (d_blocks t) /\ dl_counts t.
Definition ul_fine (t : ultbf) : Prop :=
  forall e, exists v, own e (u_groups t) = Some v /\ forall s, kind e s -> v (tpos Up s) = amount s (u_air t).
Definition cell_fine (c0 : values) (w : cellw) : Prop :=
  (exists cs, Forall2 sent_as cs (w_down w) /\ Forall (fun c => In c all_schemes) cs
     /\ forall s, In s all_schemes -> w_cell w (cpos Down s) = c0 (cpos Down s) + amount s cs)
  /\ (forall s, In s all_schemes -> w_cell w (cpos Up s) = c0 (cpos Up s) + amount s (w_up w))
  /\ (forall i, (forall u s, In s all_schemes -> i <> cpos u s) -> w_cell w i = c0 i).
Definition all_fine (c0 : values) (w : cellw) : Prop :=
  cell_fine c0 w /\ Forall dl_fine (w_dl w) /\ Forall ul_fine (w_ul w).

(** A step of a downlink TBF: nothing is sent, or one block. *)
Lemma dl_step_fine o cell t cell' t' :
  (match o with NewBlock c => kind (d_egprs t) c | _ => True end) ->
  dl_fine t -> dl_step o cell t = Some (cell', t') ->
  dl_fine t' /\
  ((d_air t' = d_air t /\ cell' = cell)
   \/ exists c a, d_air t' = a :: d_air t /\ sent_as c a /\ In c all_schemes /\ cell' = bump (cpos Down c) cell).
Proof.
  intros Hs [F Ct] E. destruct o as [c|i cmd a|i second]; cbn [dl_step] in E.
  - destruct (blk_new c) as [b|] eqn:Eb; [|discriminate]. injection E as <- <-. split; [|left; split; reflexivity].
    split; cbn [d_egprs d_blocks]; [|exact Ct]. apply Forall_app. split; [exact F|].
    apply Forall_cons; [exact (fine_new _ _ _ Eb Hs)|constructor].
  - destruct (nth_error (d_blocks t) i) as [b|] eqn:En.
    + destruct (again (d_egprs t) cmd a b) as [b'|] eqn:Eb; [|discriminate]. injection E as <- <-.
      split; [|left; split; reflexivity]. split; cbn [d_egprs d_blocks]; [|exact Ct].
      apply put_Forall; [|exact F]. exact (fine_again _ _ _ _ _ Eb (nth_Forall _ _ _ _ En F)).
    + injection E as <- <-. split; [split; assumption|left; split; reflexivity].
  - unfold send_radio in E. destruct (nth_error (d_blocks t) i) as [b|] eqn:En.
    2:{ injection E as <- <-. split; [split; assumption|left; split; reflexivity]. }
    set (two := match second with Some _ => true | None => false end) in *.
    destruct (count_block Down (b_cur b) cell (d_groups t)) as [[c1 g]|] eqn:Ec; [|discriminate].
    destruct (blk_send_first two b) as [[us b']|] eqn:Ef; [|discriminate].
    pose proof (nth_Forall _ _ _ _ En F) as Fb.
    pose proof (put_Forall _ i _ _ (fine_first _ _ _ _ _ Ef Fb) F) as F1.
    set (bs := put_at i b' (d_blocks t)) in *. clearbody bs.
    pose proof (radio_sent two b) as R. set (a := fst (radio_scheme two b)) in *. clearbody a.
    assert (K : kind (d_egprs t) (b_cur b)) by apply Fb. destruct K as [K1 K2].
    destruct (count_ok _ _ _ _ _ _ K1 Ec) as [E1 [E2 [v [E3 E4]]]]. rewrite K2 in E2, E3, E4.
    assert (D : dl_counts (mk_dltbf (d_egprs t) bs g (a :: d_air t))).
    { destruct Ct as [cs [v0 [C1 [C2 [C3 [C4 C5]]]]]]. rewrite C3 in E3. injection E3 as <-.
      exists (b_cur b :: cs), (bump (tpos Down (b_cur b)) v0). cbn [d_egprs d_groups d_air].
      split; [constructor; assumption|]. split; [constructor; [split; assumption|assumption]|].
      split; [exact E4|]. split; [rewrite E2; exact C4|].
      intros s Hk. destruct Hk as [Hk1 Hk2]. rewrite (bump_tbf _ _ _ _ K1 Hk1) by congruence.
      rewrite (C5 s) by (split; assumption). cbn [amount]. lia. }
    assert (G : forall bs', Forall (blk_fine (d_egprs t)) bs' -> dl_fine (mk_dltbf (d_egprs t) bs' g (a :: d_air t))).
    { intros bs' Hb. split; [exact Hb|exact D]. }
    assert (G2 : forall bs', exists c a0, d_air (mk_dltbf (d_egprs t) bs' g (a :: d_air t)) = a0 :: d_air t /\ sent_as c a0
        /\ In c all_schemes /\ c1 = bump (cpos Down c) cell).
    { intro bs'. exists (b_cur b), a. cbn [d_air]. repeat split; assumption. }
    destruct second as [j|].
    + destruct (nth_error bs j) as [b2|] eqn:E2b.
      * destruct (blk_send_second b2) as [[us2 b2']|] eqn:Es; [|discriminate]. injection E as <- <-.
        split; [|right; apply G2]. apply G. apply put_Forall; [|exact F1].
        exact (fine_second _ _ _ _ Es (nth_Forall _ _ _ _ E2b F1)).
      * injection E as <- <-. split; [apply G; exact F1|right; apply G2].
    + injection E as <- <-. split; [apply G; exact F1|right; apply G2].
Qed.

Lemma ul_step_fine c cell t cell' t' : ul_fine t -> ul_step c cell t = Some (cell', t') ->
  ul_fine t' /\ u_air t' = c :: u_air t
  /\ ((In c all_schemes /\ cell' = bump (cpos Up c) cell) \/ (c = UNKNOWN /\ cell' = cell)).
Proof.
  intros F E. unfold ul_step in E. destruct (count_block Up c cell (u_groups t)) as [[c1 g]|] eqn:Ec; [|discriminate].
  injection E as <- <-. cbn [u_groups u_air].
  destruct (seqb c UNKNOWN) eqn:Eu.
  - apply seqb_eq in Eu. subst c. vm_compute in Ec. injection Ec as <- <-. split; [|split; [reflexivity|right; split; reflexivity]].
    intro e. destruct (F e) as [v [V1 V2]]. exists v. split; [exact V1|]. intros s Hk. cbn [u_air amount].
    replace (seqb UNKNOWN s) with false; [rewrite (V2 s Hk); lia|]. symmetry. apply seqb_neq. intro E. subst s.
    destruct Hk as [Hk _]. apply all_in in Hk. apply Hk. reflexivity.
  - apply seqb_neq in Eu. apply all_in in Eu. split; [|split; [reflexivity|left; split; [exact Eu|]]].
    2:{ apply (count_ok _ _ _ _ _ _ Eu Ec). }
    destruct (count_ok _ _ _ _ _ _ Eu Ec) as [_ [E2 [v [E3 E4]]]]. intro e. destruct (F e) as [v0 [V1 V2]].
    destruct (Bool.bool_dec e (of_edge c)) as [->|Hne].
    + rewrite V1 in E3. injection E3 as <-. exists (bump (tpos Up c) v0). split; [exact E4|].
      intros s [Hk1 Hk2]. cbn [u_air amount]. rewrite (bump_tbf _ _ _ _ Eu Hk1 Hk2), (V2 s (conj Hk1 Hk2)). lia.
    + assert (Ee : e = negb (of_edge c)) by (destruct e, (of_edge c); try reflexivity; congruence). subst e. exists v0. split; [cbn [u_groups]; rewrite E2; exact V1|].
      intros s [Hk1 Hk2]. cbn [u_air amount]. replace (seqb c s) with false; [rewrite (V2 s (conj Hk1 Hk2)); lia|].
      symmetry. apply seqb_neq. intro E. subst s. destruct (of_edge c); discriminate.
Qed.

Lemma new_air_same l : new_air l l = [].
Proof. unfold new_air. rewrite Nat.sub_diag. reflexivity. Qed.
Lemma new_air_cons a l : new_air l (a :: l) = [a].
Proof. unfold new_air. cbn [length]. replace (S (length l) - length l)%nat with 1%nat by lia. reflexivity. Qed.

Lemma cell_bump_down c0 w c a dl ul : cell_fine c0 w -> sent_as c a -> In c all_schemes ->
  cell_fine c0 (mk_cellw (bump (cpos Down c) (w_cell w)) dl ul (a :: w_down w) (w_up w)).
Proof.
  intros [[cs [C1 [C2 C3]]] [U O1]] R Hc. split; [|split].
  - exists (c :: cs). cbn [w_down w_cell]. split; [constructor; assumption|]. split; [constructor; assumption|].
    intros s Hs. rewrite (bump_cell _ _ _ _ _ Hc Hs), (C3 s Hs). cbn [weqb amount]. lia.
  - intros s Hs. cbn [w_cell w_up]. rewrite (bump_cell _ _ _ _ _ Hc Hs), (U s Hs). cbn [weqb]. lia.
  - intros i Hi. cbn [w_cell]. unfold bump. destruct (Nat.eqb i (cpos Down c)) eqn:E; [|exact (O1 i Hi)].
    apply Nat.eqb_eq in E. exfalso. exact (Hi Down c Hc E).
Qed.
Lemma cell_bump_up c0 w c dl ul : cell_fine c0 w -> In c all_schemes ->
  cell_fine c0 (mk_cellw (bump (cpos Up c) (w_cell w)) dl ul (w_down w) (c :: w_up w)).
Proof.
  intros [[cs [C1 [C2 C3]]] [U O1]] Hc. split; [|split].
  - exists cs. cbn [w_down w_cell]. split; [assumption|]. split; [assumption|].
    intros s Hs. rewrite (bump_cell _ _ _ _ _ Hc Hs), (C3 s Hs). cbn [weqb]. lia.
  - intros s Hs. cbn [w_cell w_up]. rewrite (bump_cell _ _ _ _ _ Hc Hs), (U s Hs). cbn [weqb amount]. lia.
  - intros i Hi. cbn [w_cell]. unfold bump. destruct (Nat.eqb i (cpos Up c)) eqn:E; [|exact (O1 i Hi)].
    apply Nat.eqb_eq in E. exfalso. exact (Hi Up c Hc E).
Qed.
Lemma cell_unknown c0 w dl ul : cell_fine c0 w ->
  cell_fine c0 (mk_cellw (w_cell w) dl ul (w_down w) (UNKNOWN :: w_up w)).
Proof.
  intros [D [U O1]]. split; [exact D|split; [|exact O1]]. intros s Hs. cbn [w_cell w_up amount]. rewrite (U s Hs).
  replace (seqb UNKNOWN s) with false; [lia|]. symmetry. apply seqb_neq. intro E. subst. apply all_in in Hs. apply Hs. reflexivity.
Qed.

Lemma new_dl_fine e : dl_fine (mk_dltbf e [] (tbf_groups Down e) []).
Proof.
  split; [constructor|]. exists [], zeros. cbn [d_air d_egprs d_groups].
  split; [constructor|]. split; [constructor|]. destruct e; cbn; repeat split; reflexivity.
Qed.
Lemma new_ul_fine : ul_fine (mk_ultbf (tbf_groups Up true) []).
Proof. intro e. exists zeros. destruct e; cbn; split; reflexivity. Qed.

Lemma cell_step_fine c0 o w w' : suited_op o w -> all_fine c0 w -> cell_step o w = Some w' -> all_fine c0 w'.
Proof.
  intros Hs [C [D U]] E. destruct o as [e| |i|i|i d|i s]; cbn [cell_step] in E.
  - injection E as <-. split; [exact C|split; [|exact U]]. apply Forall_app. split; [exact D|].
    apply Forall_cons; [apply new_dl_fine|constructor].
  - injection E as <-. split; [exact C|split; [exact D|]]. apply Forall_app. split; [exact U|].
    apply Forall_cons; [apply new_ul_fine|constructor].
  - injection E as <-. split; [exact C|split; [|exact U]]. apply drop_Forall. exact D.
  - injection E as <-. split; [exact C|split; [exact D|]]. apply drop_Forall. exact U.
  - destruct (nth_error (w_dl w) i) as [t|] eqn:En; [|injection E as <-; split; [exact C|split; assumption]].
    destruct (dl_step d (w_cell w) t) as [[c t']|] eqn:Ed; [|discriminate]. injection E as <-.
    assert (Hd : match d with NewBlock c => kind (d_egprs t) c | _ => True end).
    { destruct d; try exact Logic.I. exact (Hs t En). }
    destruct (dl_step_fine _ _ _ _ _ Hd (nth_Forall _ _ _ _ En D) Ed) as [F [[A1 A2]|[c1 [a [A1 [A2 [A3 A4]]]]]]].
    + split; [|split; [apply put_Forall; assumption|exact U]]. rewrite A1, new_air_same. subst c. exact C.
    + split; [|split; [apply put_Forall; assumption|exact U]]. rewrite A1, new_air_cons. subst c.
      apply cell_bump_down; assumption.
  - destruct (nth_error (w_ul w) i) as [t|] eqn:En; [|injection E as <-; split; [exact C|split; assumption]].
    destruct (ul_step s (w_cell w) t) as [[c t']|] eqn:Ed; [|discriminate]. injection E as <-.
    destruct (ul_step_fine _ _ _ _ _ (nth_Forall _ _ _ _ En U) Ed) as [F [_ [[A1 A2]|[A1 A2]]]].
    + subst c. split; [apply cell_bump_up; assumption|split; [exact D|apply put_Forall; assumption]].
    + subst. split; [apply cell_unknown; assumption|split; [exact D|apply put_Forall; assumption]].
Qed.
Lemma cell_run_fine c0 os w w' : suited os w -> all_fine c0 w -> cell_run os w = Some w' -> all_fine c0 w'.
Proof.
  revert w. induction os as [|o r IH]; intros w Hs F E; cbn [cell_run] in E.
  - injection E as <-. exact F.
  - cbn [suited] in Hs. destruct (cell_step o w) as [w1|] eqn:E1; [|discriminate]. destruct Hs as [H1 H2].
    exact (IH w1 H2 (cell_step_fine _ _ _ _ H1 F E1) E).
Qed.
Lemma quiet_fine c0 : all_fine c0 (quiet_cell c0).
Proof.
  split; [|split; constructor]. split; [|split].
  - exists []. cbn. split; [constructor|split; [constructor|]]. intros; lia.
  - intros; cbn; lia.
  - reflexivity.
Qed.
Lemma reach_fine c0 os w : suited os (quiet_cell c0) -> cell_run os (quiet_cell c0) = Some w -> all_fine c0 w.
Proof. intros Hs E. exact (cell_run_fine _ _ _ _ Hs (quiet_fine c0) E). Qed.

(** ** From the blocks counted to the blocks sent *)
Lemma sent_length cs air : Forall2 sent_as cs air -> length cs = length air.
Proof. induction 1 as [|c a cs air _ _ IH]; cbn [length]; congruence. Qed.
Lemma nearly_ext n n' a : (forall s, In s all_schemes -> n s = n' s) -> nearly n a -> nearly n' a.
Proof.
  intros E [A [B [C [D F]]]]. unfold nearly.
  rewrite <- !E by (cbn; tauto). split; [|tauto].
  intros s Hs. rewrite <- E; [exact (A s Hs)|]. cbn in Hs |- *. tauto.
Qed.
Lemma sent_nearly cs air : Forall2 sent_as cs air -> nearly (fun s => amount s cs) (fun s => amount s air).
Proof.
  induction 1 as [|c a cs air R _ IH].
  - unfold nearly. cbn [amount]. repeat split; intros; lia.
  - destruct IH as [A [B [C [D F]]]]. unfold nearly. cbn [amount].
    destruct R as [->|[[-> ->]|[-> ->]]].
    + split; [intros s Hs; rewrite (A s Hs); reflexivity|]. repeat split; lia.
    + split; [|change (seqb MCS7 MCS5) with false; change (seqb MCS7 MCS7) with true; change (seqb MCS5 MCS5) with true;
        change (seqb MCS5 MCS7) with false; change (seqb MCS7 MCS6) with false; change (seqb MCS7 MCS9) with false;
        change (seqb MCS5 MCS6) with false; change (seqb MCS5 MCS9) with false; cbv iota; repeat split; lia].
      intros s Hs. rewrite (A s Hs). cbn in Hs. repeat destruct Hs as [<-|Hs]; try reflexivity. destruct Hs.
    + split; [|change (seqb MCS9 MCS5) with false; change (seqb MCS9 MCS7) with false; change (seqb MCS6 MCS5) with false;
        change (seqb MCS6 MCS7) with false; change (seqb MCS9 MCS6) with false; change (seqb MCS9 MCS9) with true;
        change (seqb MCS6 MCS6) with true; change (seqb MCS6 MCS9) with false; cbv iota; repeat split; lia].
      intros s Hs. rewrite (A s Hs). cbn in Hs. repeat destruct Hs as [<-|Hs]; try reflexivity. destruct Hs.
Qed.
Lemma sum_amount cs : Forall (fun c => In c all_schemes) cs -> sum_of (fun s => amount s cs) = Z.of_nat (length cs).
Proof.
  induction 1 as [|c cs Hc _ IH]; [reflexivity|].
  cbn [length]. rewrite Nat2Z.inj_succ, <- IH. unfold sum_of, all_schemes. cbn [map fold_right amount].
  apply all_in in Hc. destruct c; [exfalso; apply Hc; reflexivity|..];
    repeat match goal with |- context [seqb ?a ?b] => let x := eval vm_compute in (seqb a b) in change (seqb a b) with x end; cbv iota; lia.
Qed.
Lemma sum_ext n n' : (forall s, In s all_schemes -> n s = n' s) -> sum_of n = sum_of n'.
Proof. intro E. unfold sum_of. f_equal. apply map_ext_in. exact E. Qed.

Lemma cell_gain_pos w c0 c1 s : In s all_schemes -> cell_gain w c0 c1 s = c1 (cpos w s) - c0 (cpos w s).
Proof. intro Hs. unfold cell_gain. rewrite !shown_place by (apply cell_title_in; exact Hs). reflexivity. Qed.
Lemma tbf_shown_pos w g s v : In s all_schemes -> own (of_edge s) g = Some v -> tbf_shown w g s = v (tpos w s).
Proof.
  intros Hs E. unfold tbf_shown. unfold own in E. rewrite E. apply shown_place. apply tbf_title_in. exact Hs.
Qed.

(** ** The theorems *)
Lemma names_ok w s : In s all_schemes ->
  (exists! i, nth_error cell_names i = Some (cell_title w s))
  /\ (exists! i, nth_error (tbf_names w (of_edge s)) i = Some (tbf_title w s)).
Proof.
  intro Hs. split.
  - destruct (In_nth_error _ _ (cell_title_in w s Hs)) as [i Hi]. exists i. split; [exact Hi|].
    intros j Hj. rewrite <- (place_nth _ _ _ cell_names_distinct Hi). exact (place_nth _ _ _ cell_names_distinct Hj).
  - destruct (In_nth_error _ _ (tbf_title_in w s Hs)) as [i Hi]. exists i. split; [exact Hi|].
    intros j Hj. rewrite <- (place_nth _ _ _ (tbf_names_distinct _ _) Hi). exact (place_nth _ _ _ (tbf_names_distinct _ _) Hj).
Qed.

Lemma never_missing c0 os w : suited os (quiet_cell c0) -> cell_run os (quiet_cell c0) = Some w ->
  (forall t b, In t (w_dl w) -> In b (d_blocks t) -> count_block Down (b_cur b) (w_cell w) (d_groups t) <> None)
  /\ (forall t c, In t (w_ul w) -> ul_step c (w_cell w) t <> None).
Proof.
  intros Hs E. destruct (reach_fine _ _ _ Hs E) as [_ [D U]]. rewrite Forall_forall in D, U. split.
  - intros t b Ht Hb. destruct (D t Ht) as [F [cs [v [_ [_ [G _]]]]]]. rewrite Forall_forall in F.
    destruct (F b Hb) as [_ [[K1 K2] _]]. apply count_there; [exact K1|]. rewrite K2, G. discriminate.
  - intros t c Ht. unfold ul_step. destruct (seqb c UNKNOWN) eqn:Eu.
    + apply seqb_eq in Eu. subst c. cbn. discriminate.
    + apply seqb_neq in Eu. apply all_in in Eu.
      destruct (U t Ht (of_edge c)) as [v [V _]].
      destruct (count_block Up c (w_cell w) (u_groups t)) as [[c1 g]|] eqn:Ec; [discriminate|].
      exfalso. revert Ec. apply count_there; [exact Eu|]. rewrite V. discriminate.
Qed.

Lemma downlink_cell c0 os w : suited os (quiet_cell c0) -> cell_run os (quiet_cell c0) = Some w ->
  nearly (cell_gain Down c0 (w_cell w)) (fun s => amount s (w_down w))
  /\ sum_of (cell_gain Down c0 (w_cell w)) = Z.of_nat (length (w_down w)).
Proof.
  intros Hs E. destruct (reach_fine _ _ _ Hs E) as [[[cs [C1 [C2 C3]]] _] _].
  assert (X : forall s, In s all_schemes -> amount s cs = cell_gain Down c0 (w_cell w) s).
  { intros s H. rewrite (cell_gain_pos _ _ _ _ H), (C3 s H). lia. }
  split; [exact (nearly_ext _ _ _ X (sent_nearly _ _ C1))|].
  rewrite <- (sum_ext _ _ X), (sum_amount _ C2). f_equal. exact (sent_length _ _ C1).
Qed.
Lemma tbf_counted_other w g s : own (of_edge s) g = None -> tbf_shown w g s = 0.
Proof. intro E. unfold tbf_shown. unfold own in E. rewrite E. reflexivity. Qed.
Lemma amount_other e s cs : Forall (kind e) cs -> of_edge s <> e -> amount s cs = 0.
Proof.
  intros F Hn. induction F as [|c cs K _ IH]; cbn [amount]; [reflexivity|]. rewrite IH.
  replace (seqb c s) with false; [reflexivity|]. symmetry. apply seqb_neq. intro E. subst. destruct K. congruence.
Qed.
Lemma downlink_tbf c0 os w t : suited os (quiet_cell c0) -> cell_run os (quiet_cell c0) = Some w -> In t (w_dl w) ->
  nearly (tbf_shown Down (d_groups t)) (fun s => amount s (d_air t))
  /\ sum_of (tbf_shown Down (d_groups t)) = Z.of_nat (length (d_air t)).
Proof.
  intros Hs E Ht. destruct (reach_fine _ _ _ Hs E) as [_ [D _]]. rewrite Forall_forall in D.
  destruct (D t Ht) as [_ [cs [v [C1 [C2 [C3 [C4 C5]]]]]]].
  assert (X : forall s, In s all_schemes -> amount s cs = tbf_shown Down (d_groups t) s).
  { intros s H. destruct (Bool.bool_dec (of_edge s) (d_egprs t)) as [Ee|Ee].
    - rewrite (tbf_shown_pos _ _ _ v H) by (rewrite Ee; exact C3). symmetry. apply C5. split; assumption.
    - rewrite (amount_other _ _ _ C2 Ee), tbf_counted_other; [reflexivity|].
      replace (of_edge s) with (negb (d_egprs t)) by (destruct (of_edge s), (d_egprs t); try reflexivity; congruence). exact C4. }
  split; [exact (nearly_ext _ _ _ X (sent_nearly _ _ C1))|].
  rewrite <- (sum_ext _ _ X), sum_amount.
  - f_equal. exact (sent_length _ _ C1).
  - eapply Forall_impl; [|exact C2]. intros c K. apply K.
Qed.
Lemma uplink_ok c0 os w : suited os (quiet_cell c0) -> cell_run os (quiet_cell c0) = Some w ->
  forall s, In s all_schemes ->
  cell_gain Up c0 (w_cell w) s = amount s (w_up w)
  /\ forall t, In t (w_ul w) -> tbf_shown Up (u_groups t) s = amount s (u_air t).
Proof.
  intros Hs E s H. destruct (reach_fine _ _ _ Hs E) as [[_ [C _]] [_ U]]. split.
  - rewrite (cell_gain_pos _ _ _ _ H), (C s H). lia.
  - intros t Ht. rewrite Forall_forall in U. destruct (U t Ht (of_edge s)) as [v [V1 V2]].
    rewrite (tbf_shown_pos _ _ _ v H V1). apply V2. split; [exact H|reflexivity].
Qed.
Lemma others_ok c0 os w i name : suited os (quiet_cell c0) -> cell_run os (quiet_cell c0) = Some w ->
  nth_error cell_names i = Some name -> (forall u s, In s all_schemes -> name <> cell_title u s) ->
  w_cell w i = c0 i.
Proof.
  intros Hs E Hi Hn. destruct (reach_fine _ _ _ Hs E) as [[_ [_ O1]] _]. apply O1. intros u s H Ei.
  destruct (In_nth_error _ _ (cell_title_in u s H)) as [j Hj].
  pose proof (place_nth _ _ _ cell_names_distinct Hj) as P. fold (cpos u s) in P.
  apply (Hn u s H). congruence.
Qed.

Definition lone_mcs9 : list cellop := [StartDl true; OnDl 0 (NewBlock MCS9); OnDl 0 (Radio 0 None)].
Lemma lone_mcs9_suited c0 : suited lone_mcs9 (quiet_cell c0).
Proof.
  cbn. repeat split; try exact Logic.I; injection H as <-; cbn; tauto.
Qed.
Lemma downlink_refuted : exists os w t,
  suited os (quiet_cell zeros) /\ cell_run os (quiet_cell zeros) = Some w /\ In t (w_dl w)
  /\ d_air t = [MCS6] /\ tbf_shown Down (d_groups t) MCS6 = 0 /\ tbf_shown Down (d_groups t) MCS9 = 1
  /\ cell_gain Down zeros (w_cell w) MCS6 = 0 /\ cell_gain Down zeros (w_cell w) MCS9 = 1.
Proof.
  exists lone_mcs9. eexists. eexists. split; [apply lone_mcs9_suited|].
  split; [reflexivity|]. split; [left; reflexivity|]. vm_compute. repeat split; reflexivity.
Qed.
