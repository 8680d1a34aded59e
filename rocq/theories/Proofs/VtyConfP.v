(** The commands keep the configuration within what is documented. *)
From Coq Require Import ZArith Ascii String List Bool Lia.
From Verif Require Import Model.VtyConf Spec.VtyConfSpec.
Import ListNotations.
Open Scope Z_scope.

(** ** Words matched *)
Fixpoint arg1 (t : tok) (h : list word) : Prop :=
  match t with
  | K _ => h = []
  | Rg a b => exists z, h = [Nr z] /\ a <= z <= b
  | Alt l => exists s, h = [W s] /\ In s l
  | KRg s a b => h = [W s] \/ exists z, h = [Nr z] /\ a <= z <= b
  | Free => exists w, h = [w]
  | Tname => exists t, h = [Tm t]
  | Opt t => h = [] \/ arg1 t h
  end.
Fixpoint args (p : list tok) (a : list word) : Prop :=
  match p with
  | [] => a = []
  | t :: r => exists h b, a = h ++ b /\ arg1 t h /\ args r b
  end.

Lemma match1_arg t w a : match1 t w = Some a -> arg1 t a.
Proof.
  revert a. induction t as [s|lo hi|l|s lo hi| | |t IHt]; intros a E; cbn [match1 arg1] in *.
  - destruct w; try discriminate. destruct (String.eqb _ _); congruence.
  - destruct w as [|z|]; try discriminate. destruct (_ && _) eqn:B; [|discriminate]. apply andb_prop in B.
    exists z. split; [congruence|]. lia.
  - destruct w as [x| |]; try discriminate. destruct (existsb _ l) eqn:B; [|discriminate].
    apply existsb_exists in B. destruct B as (y & I & Q). apply String.eqb_eq in Q. subst y.
    exists x. split; [congruence|assumption].
  - destruct w as [x|z|]; try discriminate.
    + destruct (String.eqb x s) eqn:Q; [|discriminate]. apply String.eqb_eq in Q. subst. left. congruence.
    + destruct (_ && _) eqn:B; [|discriminate]. apply andb_prop in B. right. exists z. split; [congruence|]. lia.
  - exists w. congruence.
  - destruct w as [| |t]; try discriminate. exists t. congruence.
  - right. apply IHt. assumption.
Qed.

Lemma matches_args p : forall l a, matches p l = Some a -> args p a.
Proof.
  induction p as [|t r IH]; intros l a E.
  - destruct l; cbn in *; congruence.
  - destruct l as [|w ws].
    + destruct t; try discriminate. cbn [matches] in E. exists [], a. split; [reflexivity|].
      split; [left; reflexivity|]. apply (IH [] a E).
    + assert (Q : match match1 t w with
        | Some a => match matches r ws with Some b => Some (a ++ b) | None => None end | None => None end = Some a)
        by (destruct t; exact E).
      destruct (match1 t w) as [h|] eqn:E1; [|discriminate]. destruct (matches r ws) as [b|] eqn:E2; [|discriminate].
      exists h, b. split; [congruence|]. split; [apply (match1_arg _ _ _ E1)|apply (IH _ _ E2)].
Qed.

Lemma lookup_args l k a : lookup l = Some (k, a) -> exists p, In (k, p) commands /\ args p a.
Proof.
  unfold lookup. intro E.
  destruct (flat_map _ commands) as [|x [|]] eqn:F; try discriminate. injection E as ->.
  assert (I : In (k, a) [(k, a)]) by (left; reflexivity). rewrite <- F in I. apply in_flat_map in I.
  destruct I as ((k1, p) & I & J). cbn [fst snd] in J. destruct (matches p l) as [b|] eqn:B; [|destruct J].
  destruct J as [J|[]]. injection J as -> ->. exists p. split; [assumption|]. apply (matches_args _ _ _ B).
Qed.

(** ** Settings *)
Lemma field_eqb_eq a b : field_eqb a b = true -> a = b.
Proof.
  unfold field_eqb. intro E. apply andb_prop in E. destruct E as (E1 & E2). apply Z.eqb_eq in E1, E2.
  destruct a; destruct b; cbn in E1, E2; first [reflexivity | discriminate | congruence].
Qed.
Lemma field_eqb_refl a : field_eqb a a = true.
Proof. unfold field_eqb. now rewrite !Z.eqb_refl. Qed.

Definition ranged (c : conf) : Prop := forall f, documented f (num c f).

Record inv (c : conf) : Prop := {
  i_ranged : ranged c;
  i_limits : num c f_cs_adj_lower <= num c f_cs_adj_upper;
  i_noadj : num c f_cs_adj_enabled = 0 -> num c f_cs_adj_upper = 100 /\ num c f_cs_adj_lower = 0;
  i_cs : num c f_force_initial_cs = 0 /\ num c f_initial_cs_dl = 0 /\ num c f_initial_cs_ul = 0
    \/ num c f_force_initial_cs = 1 /\ 1 <= num c f_initial_cs_dl /\ 1 <= num c f_initial_cs_ul;
  i_mcs : num c f_force_initial_mcs = 0 /\ num c f_initial_mcs_dl = 0 /\ num c f_initial_mcs_ul = 0
    \/ num c f_force_initial_mcs = 1 /\ 1 <= num c f_initial_mcs_dl /\ 1 <= num c f_initial_mcs_ul;
  i_max : num c f_max_cs_dl = 0 <-> num c f_max_cs_ul = 0;
  i_mmax : num c f_max_mcs_dl = 0 <-> num c f_max_mcs_ul = 0;
  i_neigh : num c f_keep_neigh = num c (f_timer (-10));
  i_si : num c f_keep_si = num c (f_timer (-11));
  i_unknown : forall t, tdef t = None -> num c (f_timer t) = 0
}.

Lemma ranged_set f z c : documented f z -> ranged c -> ranged (set f z c).
Proof.
  intros D R g. unfold set. cbn [num]. destruct (field_eqb g f) eqn:E; [|apply R].
  apply field_eqb_eq in E. now subst.
Qed.
Lemma ranged_sets l : forall c, Forall (fun x => documented (fst x) (snd x)) l -> ranged c -> ranged (sets l c).
Proof.
  induction l as [|x l IH]; intros c F R; [assumption|]. inversion F; subst.
  unfold sets. cbn [fold_left]. apply IH; [assumption|]. now apply ranged_set.
Qed.

Lemma u8_id z : 0 <= z < 256 -> u8 z = z. Proof. apply Z.mod_small. Qed.
Lemma u16_id z : 0 <= z < 65536 -> u16 z = z. Proof. apply Z.mod_small. Qed.
Lemma u32_id z : 0 <= z < 2 ^ 32 -> u32 z = z. Proof. apply Z.mod_small. Qed.

Lemma conf0_ranged : ranged conf0.
Proof.
  intro f. destruct f; cbn [num conf0 dflt documented]; try (unfold between; lia).
    + destruct (_ && _) eqn:B.
      * apply andb_prop in B. assert (i = 1 \/ i = 2 \/ i = 3) as [->|[->| ->]] by lia; vm_compute; split; discriminate.
      * destruct (i =? 0) eqn:I0; [apply Z.eqb_eq in I0; subst; reflexivity|].
        apply Z.eqb_neq in I0. apply andb_false_iff in B. rewrite !Z.leb_gt in B. destruct (i <? 0) eqn:N; [destruct (Z.to_nat i); reflexivity|].
        apply Z.ltb_ge in N. apply nth_overflow. cbn [length]. lia.
    + destruct (_ && _) eqn:B.
      * apply andb_prop in B. assert (i = 0 \/ i = 1 \/ i = 2) as [->|[->| ->]] by lia; vm_compute; split; discriminate.
      * destruct (i =? 3) eqn:I0; [apply Z.eqb_eq in I0; subst; reflexivity|].
        apply Z.eqb_neq in I0. apply andb_false_iff in B. rewrite !Z.leb_gt in B. destruct (i <? 0) eqn:N; [destruct (Z.to_nat i); reflexivity|].
        apply Z.ltb_ge in N. apply nth_overflow. cbn [length]. lia.
    + destruct (_ && _) eqn:B.
      * apply andb_prop in B. assert (i = 1 \/ i = 2 \/ i = 3 \/ i = 4 \/ i = 5 \/ i = 6 \/ i = 7 \/ i = 8)
          as [->|[->|[->|[->|[->|[->|[->| ->]]]]]]] by lia; vm_compute; split; discriminate.
      * destruct (i =? 0) eqn:I0; [apply Z.eqb_eq in I0; subst; reflexivity|].
        apply Z.eqb_neq in I0. apply andb_false_iff in B. rewrite !Z.leb_gt in B. destruct (i <? 0) eqn:N; [destruct (Z.to_nat i); reflexivity|].
        apply Z.ltb_ge in N. apply nth_overflow. cbn [length]. lia.
    + destruct (_ && _) eqn:B.
      * apply andb_prop in B. assert (i = 0 \/ i = 1 \/ i = 2 \/ i = 3 \/ i = 4 \/ i = 5 \/ i = 6 \/ i = 7)
          as [->|[->|[->|[->|[->|[->|[->| ->]]]]]]] by lia; vm_compute; split; discriminate.
      * destruct (i =? 8) eqn:I0; [apply Z.eqb_eq in I0; subst; reflexivity|].
        apply Z.eqb_neq in I0. apply andb_false_iff in B. rewrite !Z.leb_gt in B. destruct (i <? 0) eqn:N; [destruct (Z.to_nat i); reflexivity|].
        apply Z.ltb_ge in N. apply nth_overflow. cbn [length]. lia.
    + unfold tdef. destruct (find _ tdefs) as [x|] eqn:F; [|destruct (t =? 3172); vm_compute; split; discriminate].
      apply find_some in F. destruct F as (I & Q). apply Z.eqb_eq in Q. subst t.
      unfold tdefs in I. cbn [In] in I. repeat (destruct I as [<-|I]; [vm_compute; split; discriminate|]). destruct I.
Qed.
Lemma conf0_inv : inv conf0.
Proof.
  constructor; [apply conf0_ranged|..|intros t E; cbn [num conf0 dflt]; now rewrite E]; cbn [num conf0].
  - cbn [dflt]. lia.
  - discriminate.
  - left. now split.
  - left. now split.
  - reflexivity.
  - reflexivity.
  - reflexivity.
  - reflexivity.
Qed.

(** ** One command *)
(** The settings a pair of which is related. *)
Definition related (f : field) : bool :=
  existsb (field_eqb f) [f_cs_adj_lower; f_cs_adj_upper; f_cs_adj_enabled; f_force_initial_cs; f_initial_cs_dl; f_initial_cs_ul;
    f_force_initial_mcs; f_initial_mcs_dl; f_initial_mcs_ul; f_max_cs_dl; f_max_cs_ul; f_max_mcs_dl; f_max_mcs_ul; f_keep_neigh; f_keep_si]
  || match f with f_timer _ => true | _ => false end.

Lemma num_set_other f g z c : field_eqb g f = false -> num (set f z c) g = num c g.
Proof. intro E. unfold set. cbn [num]. now rewrite E. Qed.
Lemma num_set_same f z c : num (set f z c) f = z.
Proof. unfold set. cbn [num]. now rewrite field_eqb_refl. Qed.

(** A setting without relations. *)
Lemma inv_set f z c : related f = false -> documented f z -> inv c -> inv (set f z c).
Proof.
  intros Rl D J.
  assert (O : forall g, related g = true -> num (set f z c) g = num c g).
  { intros g G. apply num_set_other. destruct (field_eqb g f) eqn:E; [|reflexivity].
    apply field_eqb_eq in E. subst. congruence. }
  destruct J as [J1 J2 J3 J4 J5 J6 J7 J8 J9 J10].
  constructor; [now apply ranged_set| | | | | | | | |intros t T]; rewrite !O by reflexivity; auto.
Qed.
Lemma inv_sets l : forall c, Forall (fun x => related (fst x) = false /\ documented (fst x) (snd x)) l -> inv c -> inv (sets l c).
Proof.
  induction l as [|x l IH]; intros c F J; [assumption|]. inversion F; subst.
  unfold sets. cbn [fold_left]. apply IH; [assumption|]. now apply inv_set.
Qed.
Lemma inv_host h c : inv c -> inv (set_host h c).
Proof. intros [J1 J2 J3 J4 J5 J6 J7 J8 J9 J10]. now constructor. Qed.
Lemma inv_path p c : inv c -> inv (set_path p c).
Proof. intros [J1 J2 J3 J4 J5 J6 J7 J8 J9 J10]. now constructor. Qed.

Lemma mask_lor a n : between 0 (2 ^ 32 - 1) a -> 0 <= n < 32 -> between 0 (2 ^ 32 - 1) (Z.lor a (2 ^ n)).
Proof.
  unfold between. intros A L.
  assert (P : 0 < 2 ^ n) by (apply Z.pow_pos_nonneg; lia).
  assert (Q : 0 <= Z.lor a (2 ^ n)) by (apply Z.lor_nonneg; lia).
  split; [assumption|]. destruct (Z.eq_dec (Z.lor a (2 ^ n)) 0) as [E|E]; [rewrite E; lia|].
  assert (Z.lor a (2 ^ n) < 2 ^ 32); [|lia]. apply Z.log2_lt_pow2; [lia|]. rewrite Z.log2_lor by lia.
  apply Z.max_lub_lt; [|rewrite Z.log2_pow2; lia].
  destruct (Z.eq_dec a 0) as [->|]; [reflexivity|]. apply Z.log2_lt_pow2; lia.
Qed.
Lemma mask_ldiff a b : between 0 (2 ^ 32 - 1) a -> between 0 (2 ^ 32 - 1) (Z.ldiff a b).
Proof.
  unfold between. intros A.
  assert (Q : Z.ldiff (Z.ldiff a b) a = 0).
  { apply Z.bits_inj'. intros n _. rewrite !Z.ldiff_spec, Z.bits_0. now destruct (Z.testbit a n), (Z.testbit b n). }
  pose proof (Z.ldiff_le _ a ltac:(lia) Q). lia.
Qed.
Lemma categ_small w n : categ w = Some n -> 0 <= n < 32.
Proof.
  unfold categ. destruct (find _ _) as [x|] eqn:F; [|discriminate]. intro E. injection E as <-.
  apply find_some in F. destruct F as (I & _).
  assert (A : forallb (fun x => (0 <=? fst x) && (fst x <? 32)) categ_names = true) by reflexivity.
  rewrite forallb_forall in A. apply A in I. lia.
Qed.

(** A timer. *)
Definition keeps_of (t z : Z) (c : conf) : conf :=
  if t =? -10 then set f_keep_neigh z c else if t =? -11 then set f_keep_si z c else c.
Lemma inv_timer t z c x :
  tdef t = Some x -> 0 <= z <= 2147483647 -> (snd x =? 0) || (z <=? snd x) = true -> inv c -> inv (keeps_of t z (set (f_timer t) z c)).
Proof.
  intros T Z0 Mx J. pose proof J as J'. destruct J as [J1 J2 J3 J4 J5 J6 J7 J8 J9 J10].
  assert (D : documented (f_timer t) z).
  { cbn [documented]. unfold between. destruct (t =? 3172) eqn:E; [|lia]. apply Z.eqb_eq in E. subst t.
    vm_compute in T. injection T as <-. cbn [snd] in Mx. lia. }
  assert (R : ranged (set (f_timer t) z c)) by now apply ranged_set.
  assert (B : documented f_keep_neigh z /\ documented f_keep_si z) by (split; cbn [documented]; unfold between; lia).
  destruct B as (B1 & B2). unfold keeps_of.
  destruct (t =? -10) eqn:E10; [|destruct (t =? -11) eqn:E11].
  - apply Z.eqb_eq in E10. subst t. constructor; try assumption; [now apply ranged_set| |].
    + reflexivity.
    + intros t U. unfold set. cbn [num]. change (field_eqb (f_timer t) f_keep_neigh) with false. cbv iota.
      destruct (field_eqb (f_timer t) (f_timer (-10))) eqn:E; [|now apply J10].
      apply field_eqb_eq in E. injection E as ->. congruence.
  - apply Z.eqb_eq in E11. subst t. constructor; try assumption; [now apply ranged_set| |].
    + reflexivity.
    + intros t U. unfold set. cbn [num]. change (field_eqb (f_timer t) f_keep_si) with false. cbv iota.
      destruct (field_eqb (f_timer t) (f_timer (-11))) eqn:E; [|now apply J10].
      apply field_eqb_eq in E. injection E as ->. congruence.
  - assert (N1 : field_eqb (f_timer (-10)) (f_timer t) = false).
    { destruct (field_eqb (f_timer (-10)) (f_timer t)) eqn:E; [|reflexivity]. apply field_eqb_eq in E. injection E as <-. discriminate. }
    assert (N2 : field_eqb (f_timer (-11)) (f_timer t) = false).
    { destruct (field_eqb (f_timer (-11)) (f_timer t)) eqn:E; [|reflexivity]. apply field_eqb_eq in E. injection E as <-. discriminate. }
    constructor; try assumption.
    + rewrite (num_set_other _ (f_timer (-10))) by assumption. exact J8.
    + rewrite (num_set_other _ (f_timer (-11))) by assumption. exact J9.
    + intros u U. destruct (field_eqb (f_timer u) (f_timer t)) eqn:E.
      * apply field_eqb_eq in E. injection E as ->. congruence.
      * rewrite num_set_other by assumption. now apply J10.
Qed.
Lemma inv_set_timer t z c c1 : t = -2030 \/ t = -2031 -> 0 <= z <= 7200 -> set_timer t z c = Some c1 -> inv c -> inv c1.
Proof.
  intros T Z0 E J. unfold set_timer in E. destruct (tdef t) as [x|] eqn:X; [|discriminate].
  destruct x as (d & mx). destruct ((mx =? 0) || (z <=? mx)) eqn:B; [|discriminate]. injection E as <-.
  pose proof (inv_timer t z c _ X ltac:(lia) B J) as Q. unfold keeps_of in Q. destruct T as [-> | ->]; exact Q.
Qed.
Lemma do_timer_inv a c c1 : args [K "timer"; Opt Tname; Opt (KRg "default" 0 2147483647)] a -> do_timer a c = Some c1 -> inv c -> inv c1.
Proof.
  intros A E J. destruct A as (h0 & b0 & -> & A0 & h1 & b1 & -> & A1 & h2 & b2 & -> & A2 & ->). cbn [arg1] in *. subst h0.
  rewrite app_nil_r in E. cbn [app] in E.
  destruct A1 as [->|(t & ->)].
  { destruct A2 as [->|[->|(z & -> & _)]]; cbn [app do_timer] in E; injection E as <-; assumption. }
  destruct A2 as [->|A2]; [cbn [app do_timer] in E; injection E as <-; assumption|].
  assert (V : exists v, h2 = [v] /\ (is_word "default" v = true \/ is_word "default" v = false /\ 0 <= atoi v <= 2147483647)).
  { destruct A2 as [->|(z & -> & Q)]; [exists (W "default")|exists (Nr z)]; (split; [reflexivity|]); [left; reflexivity|right]. now split. }
  destruct V as (v & -> & V). cbn [app do_timer] in E. unfold set_timer in E.
  destruct (tdef t) as [(d & mx)|] eqn:X; [|discriminate]. cbn [fst] in E.
  set (z := if is_word "default" v then d else atoi v) in *.
  assert (Z0 : 0 <= z <= 2147483647).
  { destruct V as [V|(V & V0)]; unfold z; rewrite V; [|assumption].
    unfold tdef in X. destruct (find _ tdefs) as [x|] eqn:F; [|discriminate]. injection X as X.
    apply find_some in F. destruct F as (I & _).
    assert (A : forallb (fun x => (0 <=? fst (snd x)) && (fst (snd x) <=? 2147483647)) tdefs = true) by reflexivity.
    rewrite forallb_forall in A. apply A in I. rewrite X in I. cbn [fst] in I. lia. }
  clearbody z. destruct ((mx =? 0) || (z <=? mx)) eqn:B; [|discriminate]. rewrite num_set_same in E. injection E as <-.
  exact (inv_timer t z c _ X Z0 B J).
Qed.

(** Related settings. *)
Lemma inv_cs m d u c : m = 0 /\ d = 0 /\ u = 0 \/ m = 1 /\ 1 <= d <= 4 /\ 1 <= u <= 4 -> inv c ->
  inv (sets [(f_force_initial_cs, m); (f_initial_cs_dl, d); (f_initial_cs_ul, u)] c).
Proof.
  intros E [J1 J2 J3 J4 J5 J6 J7 J8 J9 J10]. constructor; try assumption.
  - apply ranged_sets; [|assumption]. repeat apply Forall_cons; [..|apply Forall_nil]; cbn [fst snd documented]; unfold between; lia.
  - change (m = 0 /\ d = 0 /\ u = 0 \/ m = 1 /\ 1 <= d /\ 1 <= u). lia.
Qed.
Lemma inv_mcs m d u c : m = 0 /\ d = 0 /\ u = 0 \/ m = 1 /\ 1 <= d <= 9 /\ 1 <= u <= 9 -> inv c ->
  inv (sets [(f_force_initial_mcs, m); (f_initial_mcs_dl, d); (f_initial_mcs_ul, u)] c).
Proof.
  intros E [J1 J2 J3 J4 J5 J6 J7 J8 J9 J10]. constructor; try assumption.
  - apply ranged_sets; [|assumption]. repeat apply Forall_cons; [..|apply Forall_nil]; cbn [fst snd documented]; unfold between; lia.
  - change (m = 0 /\ d = 0 /\ u = 0 \/ m = 1 /\ 1 <= d /\ 1 <= u). lia.
Qed.
Lemma inv_max d u c : d = 0 /\ u = 0 \/ 1 <= d <= 4 /\ 1 <= u <= 4 -> inv c -> inv (sets [(f_max_cs_dl, d); (f_max_cs_ul, u)] c).
Proof.
  intros E [J1 J2 J3 J4 J5 J6 J7 J8 J9 J10]. constructor; try assumption.
  - apply ranged_sets; [|assumption]. repeat apply Forall_cons; [..|apply Forall_nil]; cbn [fst snd documented]; unfold between; lia.
  - change (d = 0 <-> u = 0). lia.
Qed.
Lemma inv_mmax d u c : d = 0 /\ u = 0 \/ 1 <= d <= 9 /\ 1 <= u <= 9 -> inv c -> inv (sets [(f_max_mcs_dl, d); (f_max_mcs_ul, u)] c).
Proof.
  intros E [J1 J2 J3 J4 J5 J6 J7 J8 J9 J10]. constructor; try assumption.
  - apply ranged_sets; [|assumption]. repeat apply Forall_cons; [..|apply Forall_nil]; cbn [fst snd documented]; unfold between; lia.
  - change (d = 0 <-> u = 0). lia.
Qed.
Lemma inv_adj e up lo c : e = 1 /\ 0 <= lo <= up /\ up <= 100 \/ e = 0 /\ up = 100 /\ lo = 0 -> inv c ->
  inv (sets [(f_cs_adj_enabled, e); (f_cs_adj_upper, up); (f_cs_adj_lower, lo)] c).
Proof.
  intros E [J1 J2 J3 J4 J5 J6 J7 J8 J9 J10]. constructor; try assumption.
  - apply ranged_sets; [|assumption]. repeat apply Forall_cons; [..|apply Forall_nil]; cbn [fst snd documented]; unfold between; lia.
  - change (lo <= up). lia.
  - change (e = 0 -> up = 100 /\ lo = 0). lia.
Qed.

Ltac words := repeat match goal with
  | A : args (_ :: _) _ |- _ => let h := fresh "h" in let b := fresh "b" in let A1 := fresh "A1" in let A2 := fresh "A2" in
      destruct A as (h & b & -> & A1 & A2); cbn [arg1] in A1
  | A : args [] _ |- _ => cbn [args] in A; subst
  | A : _ = [] \/ _ |- _ => destruct A as [->|A]
  | A : _ = [W _] \/ _ |- _ => destruct A as [->|A]
  | A : exists z, _ = [Nr z] /\ _ |- _ => let z := fresh "z" in let Z0 := fresh "Z0" in destruct A as (z & -> & Z0)
  | A : exists s, _ = [W s] /\ _ |- _ => let z := fresh "s" in let Z0 := fresh "S0" in destruct A as (z & -> & Z0)
  | A : exists w, _ = [w] |- _ => let w := fresh "w" in destruct A as (w & ->)
  | A : ?h = [] |- _ => subst h
  end.
Ltac small := repeat first [rewrite u8_id by lia | rewrite u16_id by lia | rewrite u32_id by lia].
Ltac shown := cbn [app act arg atoi nth second length Z.of_nat Pos.of_succ_nat Pos.succ Z.ltb Z.compare Pos.compare Pos.compare_cont fst snd] in *.

Lemma second_1 a : second [a] = atoi a. Proof. reflexivity. Qed.
Lemma second_2 a b : second [a; b] = atoi b. Proof. reflexivity. Qed.

Lemma some_eq {A} (x y : A) : Some x = Some y -> x = y.
Proof. congruence. Qed.

Lemma act_inv k p a c c1 : In (k, p) commands -> args p a -> act k a c = Some c1 -> inv c -> inv c1.
Proof.
  intros I A E J. pose proof (i_ranged _ J) as R. unfold commands in I. cbn [In] in I.
  repeat (destruct I as [I|I]; [injection I as <- <-|]); [..|destruct I].
  all: try (cbn [act] in E; apply (do_timer_inv _ _ _ A E J)).
  all: words; cbn [app act] in E; rewrite ?second_1, ?second_2 in E; unfold arg in E; cbn [nth atoi length Z.of_nat] in E.
  all: try (apply some_eq in E; subst c1).
  all: try assumption.
  all: try (apply inv_host; assumption).
  all: try (apply inv_path; assumption).
  all: try (apply inv_cs; [small; lia|assumption]).
  all: try (apply inv_mcs; [small; lia|assumption]).
  all: try (apply inv_max; [small; lia|assumption]).
  all: try (apply inv_mmax; [small; lia|assumption]).
  all: try (apply inv_adj; [small; lia|assumption]).
  all: try (match goal with |- inv (set _ (if ?b then _ else _) _) => destruct b end).
  all: try (match goal with |- inv (set _ (if ?b then _ else _) _) => destruct b end).
  all: try (apply (inv_set_timer (-2030) _ _ _ ltac:(tauto) ltac:(lia) E J)).
  all: try (apply (inv_set_timer (-2031) _ _ _ ltac:(tauto) ltac:(lia) E J)).
  all: try (apply inv_set; [reflexivity| |assumption]; small; cbn [documented]; unfold between; lia).
  all: try (apply inv_sets; [|assumption]; repeat (apply Forall_cons; [split; [reflexivity|]; cbn [fst snd documented Z.leb Z.compare Pos.compare Pos.compare_cont andb]; small; unfold between; lia|]); apply Forall_nil).
  - destruct (u8 z0 <? u8 z1) eqn:B; [discriminate|]. apply some_eq in E. subst c1. rewrite !u8_id in * by lia.
    apply inv_adj; [lia|assumption].
  - change (inv (set f_ws_pdch (u16 z0) (set f_ws_base (u16 z1) c))).
    rewrite !u16_id by lia. repeat (apply inv_set; [reflexivity|cbn [documented]; unfold between; lia|]). assumption.
  - apply inv_set; [reflexivity| |assumption]. right. left. reflexivity.
  - apply inv_set; [reflexivity| |assumption]. right. right. exists z0. split; [exact Z0|]. small. reflexivity.
  - apply inv_set; [reflexivity| |assumption]. rewrite Z.quot_div_nonneg by lia.
    assert (0 <= z0 / 2 <= 31) by (Z.div_mod_to_equations; lia). small. cbn [documented]. unfold between. lia.
  - apply (inv_set_timer (-2031) z0 c); [tauto|lia|reflexivity|assumption].
  - apply (inv_set_timer (-2031) 0 c); [tauto|lia|reflexivity|assumption].
  - apply (inv_set_timer (-2030) z0 c); [tauto|lia|reflexivity|assumption].
  - apply (inv_set_timer (-2030) 0 c); [tauto|lia|reflexivity|assumption].
  - destruct (categ _) as [n|] eqn:C; [|discriminate]. apply some_eq in E. subst c1. apply categ_small in C.
    apply inv_set; [reflexivity| |assumption]. apply mask_lor; [exact (R f_categ_mask)|assumption].
  - destruct (categ _) as [n|] eqn:C; [|discriminate]. apply some_eq in E. subst c1.
    apply inv_set; [reflexivity| |assumption]. apply mask_ldiff. exact (R f_categ_mask).
Qed.

Lemma exec_inv c l c1 : exec c l = Some c1 -> inv c -> inv c1.
Proof.
  unfold exec. intros E J. destruct (lookup l) as [(k & a)|] eqn:L; [|discriminate].
  apply lookup_args in L. destruct L as (p & I & A). apply (act_inv _ _ _ _ _ I A E J).
Qed.
Lemma typed_inv ls : forall c, inv c -> inv (typed ls c).
Proof.
  induction ls as [|l ls IH]; intros c J; [assumption|]. unfold typed. cbn [fold_left]. apply IH.
  destruct (exec c l) eqn:E; [apply (exec_inv _ _ _ E J)|assumption].
Qed.
Lemma boot_inv c : inv c -> inv (boot c).
Proof.
  intro J. unfold boot. destruct (_ =? 0); [|assumption].
  apply inv_set; [reflexivity|cbn [documented]; unfold between; lia|assumption].
Qed.

(** The procedure of allocation is chosen at the start and never given up. *)
Lemma exec_alloc c l c1 : exec c l = Some c1 -> num c f_alloc <> 0 -> num c1 f_alloc <> 0.
Proof.
  unfold exec. intros E A. destruct (lookup l) as [(k & a)|]; [|discriminate]. destruct k; cbn [act] in E.
  all: try (apply some_eq in E; subst c1; first [exact A | (destruct (1 <? Z.of_nat (length a)); exact A)]).
  all: try (match type of E with (if ?b then _ else _) = _ => destruct b; [discriminate|] end; apply some_eq in E; subst c1; exact A).
  all: try (match type of E with match categ ?w with _ => _ end = _ => destruct (categ w); [|discriminate] end; apply some_eq in E; subst c1; exact A).
  all: try (unfold set_timer in E; match type of E with match ?t with _ => _ end = _ => let v := eval vm_compute in t in change t with v in E end;
    cbv beta iota in E; match type of E with (if ?b then _ else _) = _ => destruct b; [|discriminate] end; apply some_eq in E; subst c1; exact A).
  - apply some_eq in E. subst c1. rewrite num_set_same. destruct (is_word _ _); [discriminate|]. destruct (is_word _ _); discriminate.
  - unfold do_timer, set_timer in E.
    destruct a as [|w [|v [|]]]; try (apply some_eq in E; subst c1; exact A); destruct w as [| |t]; try (apply some_eq in E; subst c1; exact A).
    destruct (tdef t) as [(d & mx)|]; [|discriminate].
    match type of E with match (if ?b then _ else _) with _ => _ end = _ => destruct b; [|discriminate] end.
    apply some_eq in E. subst c1. destruct (t =? -10); [exact A|]. destruct (t =? -11); exact A.
Qed.
Lemma typed_alloc ls : forall c, num c f_alloc <> 0 -> num (typed ls c) f_alloc <> 0.
Proof.
  induction ls as [|l ls IH]; intros c A; [assumption|]. unfold typed. cbn [fold_left]. apply IH.
  destruct (exec c l) eqn:E; [apply (exec_alloc _ _ _ E A)|assumption].
Qed.
Lemma boot_alloc c : num (boot c) f_alloc <> 0.
Proof. unfold boot. destruct (_ =? 0) eqn:E; [discriminate|]. now apply Z.eqb_neq in E. Qed.
