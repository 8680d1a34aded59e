(** The configuration read back is the one written. *)
From Coq Require Import ZArith Ascii String List Bool Lia.
From Verif Require Import Model.VtyConf Spec.VtyConfSpec Proofs.VtyConfP Proofs.VtyConfQ.
Import ListNotations.
Open Scope Z_scope.

Lemma load_app a : forall b x, load (a ++ b) x = match load a x with Some y => load b y | None => None end.
Proof. induction a as [|l a IH]; intros b x; [reflexivity|]. cbn [app load]. destruct (exec x l); [apply IH|reflexivity]. Qed.

Definition reads (ls : list line) (g : conf -> conf) : Prop := forall x, load ls x = Some (g x).
Lemma reads_app a b g h : reads a g -> reads b h -> reads (a ++ b) (fun x => h (g x)).
Proof. intros A B x. rewrite load_app, A. apply B. Qed.

(** Assignments made if a condition holds. *)
Definition touch (b : bool) (l : list (field * Z)) (x : conf) : conf := if b then sets l x else x.
Lemma reads_line l a : (forall x, exec x l = Some (sets a x)) -> reads [l] (touch true a).
Proof. intros E x. cbn [load]. now rewrite E. Qed.
Lemma reads_when b l a : (b = true -> forall x, exec x l = Some (sets a x)) -> reads (when b l) (touch b a).
Proof. intros E x. unfold when, touch. destruct b; [|reflexivity]. cbn [load]. now rewrite E. Qed.

Lemma sets_other l : forall x f, existsb (field_eqb f) (map fst l) = false -> num (sets l x) f = num x f.
Proof.
  induction l as [|p l IH]; intros x f E; [reflexivity|]. cbn [map existsb] in E. apply orb_false_elim in E. destruct E as (E1 & E2).
  unfold sets. cbn [fold_left]. change (num (sets l (set (fst p) (snd p) x)) f = num x f). rewrite (IH _ _ E2). now apply num_set_other.
Qed.
Lemma touch_other b l x f : existsb (field_eqb f) (map fst l) = false -> num (touch b l x) f = num x f.
Proof. intro E. unfold touch. destruct b; [now apply sets_other|reflexivity]. Qed.
Lemma touch_no l x : touch false l x = x.
Proof. reflexivity. Qed.
Lemma touch_yes l x : touch true l x = sets l x.
Proof. reflexivity. Qed.
Lemma sets_cons p l x : sets (p :: l) x = sets l (set (fst p) (snd p) x).
Proof. reflexivity. Qed.
Lemma sets_nil x : sets [] x = x.
Proof. reflexivity. Qed.
Lemma sets_host l : forall x, host (sets l x) = host x.
Proof. induction l as [|p l IH]; intro x; [reflexivity|]. unfold sets. cbn [fold_left]. change (host (sets l (set (fst p) (snd p) x)) = host x). now rewrite IH. Qed.
Lemma sets_path l : forall x, path (sets l x) = path x.
Proof. induction l as [|p l IH]; intro x; [reflexivity|]. unfold sets. cbn [fold_left]. change (path (sets l (set (fst p) (snd p) x)) = path x). now rewrite IH. Qed.
Lemma touch_host b l x : host (touch b l x) = host x.
Proof. unfold touch. destruct b; [apply sets_host|reflexivity]. Qed.
Lemma touch_path b l x : path (touch b l x) = path x.
Proof. unfold touch. destruct b; [apply sets_path|reflexivity]. Qed.

(** ** The categories *)
Definition masked (m : Z) (l : list (Z * string)) (x : conf) : conf :=
  fold_left (fun x p => if Z.testbit m (fst p) then set f_categ_mask (Z.lor (num x f_categ_mask) (2 ^ fst p)) x else x) l x.
Lemma reads_mask m l : incl l categ_names ->
  reads (flat_map (fun p => when (Z.testbit m (fst p)) [W "gsmtap-category"; W (snd p)]) l) (masked m l).
Proof.
  induction l as [|p l IH]; intros I x; [reflexivity|]. cbn [flat_map]. rewrite load_app.
  assert (I2 : incl l categ_names) by (intros q Q; apply I; now right).
  unfold masked. cbn [fold_left]. destruct p as (n & s). cbn [fst snd]. unfold when. destruct (Z.testbit m n).
  - cbn [load]. rewrite (x_categ n s) by (apply I; now left). apply (IH I2).
  - apply (IH I2).
Qed.
Lemma masked_host m l : forall x, host (masked m l x) = host x.
Proof. induction l as [|p l IH]; intro x; [reflexivity|]. unfold masked. cbn [fold_left]. etransitivity; [apply IH|]. now destruct (Z.testbit m (fst p)). Qed.
Lemma masked_path m l : forall x, path (masked m l x) = path x.
Proof. induction l as [|p l IH]; intro x; [reflexivity|]. unfold masked. cbn [fold_left]. etransitivity; [apply IH|]. now destruct (Z.testbit m (fst p)). Qed.
Lemma masked_other m l f : field_eqb f f_categ_mask = false -> forall x, num (masked m l x) f = num x f.
Proof.
  intro E. induction l as [|p l IH]; intro x; [reflexivity|]. unfold masked. cbn [fold_left]. etransitivity; [apply IH|].
  destruct (Z.testbit m (fst p)); [now apply num_set_other|reflexivity].
Qed.
Lemma masked_bit m n l : 0 <= n -> (forall p, In p l -> 0 <= fst p) -> forall x,
  Z.testbit (num (masked m l x) f_categ_mask) n = Z.testbit (num x f_categ_mask) n || (existsb (fun p => fst p =? n) l && Z.testbit m n).
Proof.
  intros N. induction l as [|p l IH]; intros P x; [cbn; now rewrite orb_false_r|].
  unfold masked. cbn [fold_left existsb]. etransitivity; [apply IH; intros q Q; apply P; now right|].
  assert (P0 : 0 <= fst p) by (apply P; now left).
  destruct (fst p =? n) eqn:E.
  - apply Z.eqb_eq in E. rewrite <- E in *. destruct (Z.testbit m (fst p)) eqn:T.
    + rewrite num_set_same, Z.lor_spec, Z.pow2_bits_true by assumption. now rewrite !orb_true_r, !orb_true_l.
    + now rewrite !andb_false_r.
  - apply Z.eqb_neq in E. destruct (Z.testbit m (fst p)); [|reflexivity].
    rewrite num_set_same, Z.lor_spec, Z.pow2_bits_false by assumption. now rewrite orb_false_r.
Qed.

(** ** The timers *)
Definition timed (n : field -> Z) (l : list (Z * (Z * Z))) (x : conf) : conf :=
  fold_left (fun x p => touch (negb (n (f_timer (fst p)) =? fst (snd p))) ((f_timer (fst p), n (f_timer (fst p))) :: keep_too (fst p) (n (f_timer (fst p)))) x) l x.
Lemma reads_timers n l : incl l tdefs -> (forall t, documented (f_timer t) (n (f_timer t))) ->
  reads (flat_map (fun p => when (negb (n (f_timer (fst p)) =? fst (snd p))) [W "timer"; Tm (fst p); Nr (n (f_timer (fst p)))]) l) (timed n l).
Proof.
  intros I D. induction l as [|p l IH]; intro x; [reflexivity|]. cbn [flat_map].
  assert (I2 : incl l tdefs) by (intros q Q; apply I; now right).
  rewrite load_app. unfold timed. cbn [fold_left]. destruct p as (t & d & mx). cbn [fst snd].
  rewrite (reads_when _ _ ((f_timer t, n (f_timer t)) :: keep_too t (n (f_timer t)))); [apply (IH I2)|].
  intros _ y. apply (x_timer t d mx); [apply I; now left|]. apply (D t).
Qed.
Lemma timed_host n l : forall x, host (timed n l x) = host x.
Proof. induction l as [|p l IH]; intro x; [reflexivity|]. unfold timed. cbn [fold_left]. etransitivity; [apply IH|]. apply touch_host. Qed.
Lemma timed_path n l : forall x, path (timed n l x) = path x.
Proof. induction l as [|p l IH]; intro x; [reflexivity|]. unfold timed. cbn [fold_left]. etransitivity; [apply IH|]. apply touch_path. Qed.
Lemma timed_other n l f : forallb (fun p => negb (existsb (field_eqb f) (map fst ((f_timer (fst p), 0) :: keep_too (fst p) 0)))) l = true ->
  forall x, num (timed n l x) f = num x f.
Proof.
  induction l as [|p l IH]; intros E x; [reflexivity|]. cbn [forallb] in E. apply andb_prop in E. destruct E as (E1 & E2).
  unfold timed. cbn [fold_left]. etransitivity; [apply (IH E2)|]. apply touch_other.
  apply negb_true_iff in E1. rewrite <- E1. unfold keep_too. now destruct (fst p =? -10), (fst p =? -11).
Qed.

(** ** The whole file *)
Definition sock_of (c : conf) (x : conf) : conf := match path c with W s => if String.eqb s "/tmp/pcu_bts" then x else set_path (W s) x | p => set_path p x end.
Definition host_of (c : conf) (x : conf) : conf := match host c with Some h => set_host (Some h) x | None => x end.

Definition restored1 (n : field -> Z) (x : conf) : conf :=
  touch (negb (n f_max_mcs_dl =? 0) && negb (n f_max_mcs_ul =? 0)) [(f_max_mcs_dl, n f_max_mcs_dl); (f_max_mcs_ul, n f_max_mcs_ul)]
  (touch (negb (n f_force_initial_mcs =? 0)) [(f_force_initial_mcs, 1); (f_initial_mcs_dl, n f_initial_mcs_dl); (f_initial_mcs_ul, n f_initial_mcs_ul)]
  (touch true [(f_mcs_high 0, n (f_mcs_high 0)); (f_mcs_low 1, n (f_mcs_low 1)); (f_mcs_high 1, n (f_mcs_high 1)); (f_mcs_low 2, n (f_mcs_low 2));
     (f_mcs_high 2, n (f_mcs_high 2)); (f_mcs_low 3, n (f_mcs_low 3)); (f_mcs_high 3, n (f_mcs_high 3)); (f_mcs_low 4, n (f_mcs_low 4)); (f_mcs_high 4, n (f_mcs_high 4));
     (f_mcs_low 5, n (f_mcs_low 5)); (f_mcs_high 5, n (f_mcs_high 5)); (f_mcs_low 6, n (f_mcs_low 6)); (f_mcs_high 6, n (f_mcs_high 6)); (f_mcs_low 7, n (f_mcs_low 7));
     (f_mcs_high 7, n (f_mcs_high 7)); (f_mcs_low 8, n (f_mcs_low 8))]
  (touch true [(f_cs_high 0, n (f_cs_high 0)); (f_cs_low 1, n (f_cs_low 1)); (f_cs_high 1, n (f_cs_high 1)); (f_cs_low 2, n (f_cs_low 2));
     (f_cs_high 2, n (f_cs_high 2)); (f_cs_low 3, n (f_cs_low 3))]
  (touch true [(f_cs_downgrade, n f_cs_downgrade)]
  (touch true [(f_cs_adj_enabled, n f_cs_adj_enabled); (f_cs_adj_upper, n f_cs_adj_upper); (f_cs_adj_lower, n f_cs_adj_lower)]
  (touch (negb (n f_max_cs_dl =? 0) && negb (n f_max_cs_ul =? 0)) [(f_max_cs_dl, n f_max_cs_dl); (f_max_cs_ul, n f_max_cs_ul)]
  (touch (negb (n f_force_initial_cs =? 0)) [(f_force_initial_cs, 1); (f_initial_cs_dl, n f_initial_cs_dl); (f_initial_cs_ul, n f_initial_cs_ul)]
  (touch (negb (n f_fc_ms_leak_rate =? 0)) [(f_fc_ms_leak_rate, n f_fc_ms_leak_rate)]
  (touch (negb (n f_fc_ms_bucket_size =? 0)) [(f_fc_ms_bucket_size, n f_fc_ms_bucket_size)]
  (touch (negb (n f_fc_bvc_leak_rate =? 0)) [(f_fc_bvc_leak_rate, n f_fc_bvc_leak_rate)]
  (touch (negb (n f_fc_bvc_bucket_size =? 0)) [(f_fc_bvc_bucket_size, n f_fc_bvc_bucket_size)]
  (touch true [(f_fc_interval, n f_fc_interval)] x)))))))))))).
Definition restored2 (n : field -> Z) (x : conf) : conf :=
  touch (negb (n f_msclass_default =? 12)) [(f_msclass_default, n f_msclass_default)]
  (touch (n f_preemptive =? 0) [(f_preemptive, 0)]
  (touch true [(f_gamma, n f_gamma)]
  (touch (negb (n f_force_alpha =? 255)) [(f_force_alpha, n f_force_alpha)]
  (touch (negb (n f_force_two_phase =? 0)) [(f_force_two_phase, 1)]
  (touch (n f_alloc =? 3) [(f_alloc, 3)]
  (touch (n f_alloc =? 2) [(f_alloc, 2)]
  (touch (n f_alloc =? 1) [(f_alloc, 1)]
  (touch true [(f_llc_codel, n f_llc_codel)]
  (touch (negb (n f_llc_idle_ack =? 0)) [(f_llc_idle_ack, n f_llc_idle_ack)]
  (touch (negb (n f_llc_discard =? 0)) [(f_llc_discard, n f_llc_discard)]
  (touch (negb (n f_llc_lifetime =? 0)) [(f_llc_lifetime, n f_llc_lifetime)]
  (touch (n f_dl_arq_type =? 1) [(f_dl_arq_type, 1)]
  (touch true [(f_ws_base, n f_ws_base); (f_ws_pdch, n f_ws_pdch)] x))))))))))))).
Definition restored3 (n : field -> Z) (x : conf) : conf :=
  timed n tdefs
  (touch (negb (n f_ns_priority =? -1)) [(f_ns_priority, n f_ns_priority)]
  (touch (negb (n f_ns_ip_dscp =? -1)) [(f_ns_ip_dscp, n f_ns_ip_dscp)]
  (touch true [(f_ns_dialect, n f_ns_dialect)]
  (masked (n f_categ_mask) categ_names x)))).
Definition restored (c : conf) (x : conf) : conf :=
  restored3 (num c) (host_of c (sock_of c (restored2 (num c) (restored1 (num c) x)))).

Ltac rng R f := let Q := fresh "Q" in pose proof (R f) as Q; cbn [documented Z.leb Z.compare Pos.compare Pos.compare_cont andb] in Q; unfold between in Q.
Ltac nz := repeat match goal with
  | B : negb (_ =? _) = true |- _ => apply negb_true_iff in B; apply Z.eqb_neq in B
  | B : (_ && _) = true |- _ => apply andb_prop in B; destruct B
  | B : (_ =? _) = true |- _ => apply Z.eqb_eq in B
  | B : (_ =? _) = false |- _ => apply Z.eqb_neq in B
  end.

Lemma next a b g x r : reads a g -> load b (g x) = r -> load (a ++ b) x = r.
Proof. intros A B. now rewrite load_app, A. Qed.
Lemma reads_line1 l f z : (forall x, exec x l = Some (set f z x)) -> reads [l] (touch true [(f, z)]).
Proof. intro E. apply reads_line. exact E. Qed.
Lemma reads_when1 b l f z : (b = true -> forall x, exec x l = Some (set f z x)) -> reads (when b l) (touch b [(f, z)]).
Proof. intro E. apply reads_when. exact E. Qed.
Lemma reads_sock c : reads (match path c, SOCK_DEFAULT with W x, W y => when (negb (String.eqb x y)) [W "pcu-socket"; W x] | p, _ => [[W "pcu-socket"; p]] end) (sock_of c).
Proof.
  intro x. unfold sock_of, SOCK_DEFAULT. destruct (path c) as [s| |]; [|cbn [load]; now rewrite x_sock..].
  destruct (String.eqb s "/tmp/pcu_bts"); [reflexivity|]. cbn [negb when load]. now rewrite x_sock.
Qed.
Lemma reads_host c : reads (match host c with Some h => [[W "gsmtap-remote-host"; h]] | None => [] end) (host_of c).
Proof. intro x. unfold host_of. destruct (host c); [|reflexivity]. cbn [load]. now rewrite x_host. Qed.

Lemma write_reads c : inv c -> reads (config_write c) (restored c).
Proof.
  intro J. pose proof (i_ranged _ J) as R. intro x.
  unfold config_write. cbv zeta. unfold restored, restored1, restored2, restored3.
  eapply next; [apply reads_line1; intro y; apply x_fc; rng R f_fc_interval; assumption|].
  eapply next; [apply reads_when1; intros B y; nz; apply x_bvc_bucket; rng R f_fc_bvc_bucket_size; lia|].
  eapply next; [apply reads_when1; intros B y; nz; apply x_bvc_leak; rng R f_fc_bvc_leak_rate; lia|].
  eapply next; [apply reads_when1; intros B y; nz; apply x_ms_bucket; rng R f_fc_ms_bucket_size; lia|].
  eapply next; [apply reads_when1; intros B y; nz; apply x_ms_leak; rng R f_fc_ms_leak_rate; lia|].
  eapply next; [apply reads_when; intros B y; nz; pose proof (i_cs _ J); rng R f_initial_cs_dl; rng R f_initial_cs_ul; apply x_cs; lia|].
  eapply next; [apply reads_when; intros B y; nz; rng R f_max_cs_dl; rng R f_max_cs_ul; apply x_cs_max; lia|].
  eapply (next _ _ (touch true [(f_cs_adj_enabled, num c f_cs_adj_enabled); (f_cs_adj_upper, num c f_cs_adj_upper); (f_cs_adj_lower, num c f_cs_adj_lower)])).
  { apply reads_line. intro y. pose proof (i_noadj _ J). pose proof (i_limits _ J). rng R f_cs_adj_enabled. rng R f_cs_adj_upper. rng R f_cs_adj_lower.
    destruct (num c f_cs_adj_enabled =? 0) eqn:B; cbn [negb]; nz.
    - rewrite x_no_adj. destruct H as (-> & ->); [assumption|]. now rewrite B.
    - rewrite x_adj by lia. now replace (num c f_cs_adj_enabled) with 1 by lia. }
  eapply (next _ _ (touch true [(f_cs_downgrade, num c f_cs_downgrade)])).
  { apply reads_line1. intro y. rng R f_cs_downgrade. destruct (num c f_cs_downgrade =? 0) eqn:B; cbn [negb]; nz.
    - rewrite x_no_down. now rewrite B.
    - apply x_down. lia. }
  eapply next; [apply reads_line; intro y; rng R (f_cs_high 0); rng R (f_cs_low 1); rng R (f_cs_high 1); rng R (f_cs_low 2); rng R (f_cs_high 2); rng R (f_cs_low 3);
    apply x_cs_lq; assumption|].
  eapply next; [apply reads_line; intro y; rng R (f_mcs_high 0); rng R (f_mcs_low 1); rng R (f_mcs_high 1); rng R (f_mcs_low 2); rng R (f_mcs_high 2); rng R (f_mcs_low 3);
    rng R (f_mcs_high 3); rng R (f_mcs_low 4); rng R (f_mcs_high 4); rng R (f_mcs_low 5); rng R (f_mcs_high 5); rng R (f_mcs_low 6); rng R (f_mcs_high 6);
    rng R (f_mcs_low 7); rng R (f_mcs_high 7); rng R (f_mcs_low 8); apply x_mcs_lq; assumption|].
  eapply next; [apply reads_when; intros B y; nz; pose proof (i_mcs _ J); rng R f_initial_mcs_dl; rng R f_initial_mcs_ul; apply x_mcs; lia|].
  eapply next; [apply reads_when; intros B y; nz; rng R f_max_mcs_dl; rng R f_max_mcs_ul; apply x_mcs_max; lia|].
  eapply next; [apply reads_line; intro y; rng R f_ws_base; rng R f_ws_pdch; apply x_ws; assumption|].
  eapply next; [apply reads_when1; intros B y; apply x_arq|].
  eapply (next _ _ (touch (negb (num c f_llc_lifetime =? 0)) [(f_llc_lifetime, num c f_llc_lifetime)])).
  { rng R f_llc_lifetime. destruct (num c f_llc_lifetime =? 65535) eqn:B.
    - nz. rewrite B. change (negb (65535 =? 0)) with true. apply reads_line1. intro y. apply x_life_inf.
    - apply reads_when1. intros B2 y. nz. apply x_life. lia. }
  eapply next; [apply reads_when1; intros B y; nz; apply x_hyst; rng R f_llc_discard; lia|].
  eapply next; [apply reads_when1; intros B y; nz; apply x_idle; rng R f_llc_idle_ack; lia|].
  eapply (next _ _ (touch true [(f_llc_codel, num c f_llc_codel)])).
  { apply reads_line1. intro y. pose proof (R f_llc_codel) as Q. cbn [documented] in Q. change (u32 (-1)) with (2 ^ 32 - 1).
    destruct (num c f_llc_codel =? 2 ^ 32 - 1) eqn:B; [|destruct (num c f_llc_codel =? 0) eqn:B2]; nz.
    - rewrite B. apply x_codel.
    - rewrite B2. apply x_no_codel.
    - destruct Q as [Q|[Q|(k & K0 & Q)]]; [contradiction|contradiction|]. rewrite Q. rewrite (Z.mul_comm 10 k), Z.div_mul by discriminate.
      rewrite (Z.mul_comm k 10). apply x_codel_i. exact K0. }
  eapply next; [apply reads_when1; intros B y; apply x_alloc_a|].
  eapply next; [apply reads_when1; intros B y; apply x_alloc_b|].
  eapply next; [apply reads_when1; intros B y; apply x_alloc_d|].
  eapply next; [apply reads_when1; intros B y; apply x_two|].
  eapply next; [apply reads_when1; intros B y; nz; apply x_alpha; rng R f_force_alpha; lia|].
  eapply next; [apply reads_line1; intro y; apply x_gamma; rng R f_gamma; assumption|].
  eapply next; [apply reads_when1; intros B y; apply x_no_pre|].
  eapply next; [apply reads_when1; intros B y; nz; apply x_class; rng R f_msclass_default; lia|].
  eapply next; [apply reads_sock|].
  eapply next; [apply reads_host|].
  eapply next; [apply reads_mask; apply incl_refl|].
  eapply (next _ _ (touch true [(f_ns_dialect, num c f_ns_dialect)])).
  { apply reads_line1. intro y. rng R f_ns_dialect. destruct (num c f_ns_dialect =? 1) eqn:B; nz.
    - rewrite B. apply x_sns.
    - replace (num c f_ns_dialect) with 0 by lia. apply x_classic. }
  eapply next; [apply reads_when1; intros B y; nz; apply x_dscp; rng R f_ns_ip_dscp; lia|].
  eapply next; [apply reads_when1; intros B y; nz; apply x_prio; rng R f_ns_priority; lia|].
  etransitivity; [apply reads_timers; [apply incl_refl|intro t; apply R]|]. reflexivity.
Qed.

(** ** What comes back *)
Lemma num_host_of c x f : num (host_of c x) f = num x f.
Proof. unfold host_of. now destruct (host c). Qed.
Lemma num_sock_of c x f : num (sock_of c x) f = num x f.
Proof. unfold sock_of. destruct (path c) as [s| |]; [|reflexivity..]. now destruct (String.eqb s _). Qed.

Lemma restored_host c : host (restored c conf0) = host c.
Proof.
  unfold restored, restored3. rewrite timed_host, !touch_host, masked_host. unfold host_of. destruct (host c) eqn:E; [reflexivity|].
  assert (Q : forall x, host (sock_of c x) = host x) by (intro x; unfold sock_of; destruct (path c) as [s| |]; [|reflexivity..]; now destruct (String.eqb s _)).
  rewrite Q. unfold restored2, restored1. now rewrite !touch_host.
Qed.
Lemma restored_path c : path (restored c conf0) = path c.
Proof.
  unfold restored, restored3. rewrite timed_path, !touch_path, masked_path.
  assert (Q : forall x, path (host_of c x) = path x) by (intro x; unfold host_of; now destruct (host c)).
  rewrite Q. unfold sock_of. destruct (path c) as [s| |]; [|reflexivity..]. destruct (String.eqb s _) eqn:E; [|reflexivity].
  apply String.eqb_eq in E. subst s. unfold restored2, restored1. now rewrite !touch_path.
Qed.

Ltac skip := repeat first [rewrite timed_other by reflexivity | rewrite masked_other by reflexivity | rewrite num_host_of | rewrite num_sock_of
  | rewrite touch_other by reflexivity].
(** The step that sets it, and its condition. *)
Ltac value := rewrite touch_yes, ?sets_cons, sets_nil; cbn [fst snd]; repeat first [rewrite num_set_same | rewrite num_set_other by reflexivity].
Ltac meets := match goal with |- num (touch ?b ?l ?x) ?f = _ =>
  let B := fresh "B" in destruct b eqn:B; [value | rewrite touch_no; skip; cbn [num conf0 dflt]];
  rewrite ?andb_true_iff, ?andb_false_iff, ?negb_true_iff, ?negb_false_iff, ?Z.eqb_eq, ?Z.eqb_neq in B end.

Lemma timer_back n t x : (forall t, tdef t = None -> n (f_timer t) = 0) -> (forall t, num x (f_timer t) = dflt (f_timer t)) ->
  num (timed n tdefs x) (f_timer t) = n (f_timer t).
Proof.
  intros U D. destruct (tdef t) as [v|] eqn:T.
  - unfold tdef in T. destruct (find _ tdefs) as [p|] eqn:F; [|discriminate]. apply find_some in F. destruct F as (I & Q).
    apply Z.eqb_eq in Q. subst t. unfold timed, tdefs in *. cbn [fold_left] in *. cbn [In] in I.
    repeat (destruct I as [<-|I]; [cbn [fst snd]; skip;
      match goal with |- num (touch ?b ?l ?y) ?f = _ => let B := fresh "B" in destruct b eqn:B; [unfold keep_too; cbn [fst snd Z.eqb Pos.eqb]; value; reflexivity|rewrite touch_no; skip; rewrite D] end;
      apply negb_false_iff, Z.eqb_eq in B; rewrite B; reflexivity|]). destruct I.
  - rewrite timed_other; [rewrite D; cbn [dflt]; rewrite T; now rewrite U|].
    apply forallb_forall. intros p I. apply negb_true_iff.
    assert (N : fst p <> t).
    { intro E. unfold tdef in T. destruct (find _ tdefs) eqn:F; [discriminate|].
      apply (find_none _ _ F) in I. apply Z.eqb_neq in I. contradiction. }
    cbn [map existsb]. replace (field_eqb (f_timer t) (fst (f_timer (fst p), 0))) with false.
    + unfold keep_too. now destruct (fst p =? -10), (fst p =? -11).
    + symmetry. unfold field_eqb. cbn [code fst snd]. apply andb_false_intro2. apply Z.eqb_neq. congruence.
Qed.

Lemma sets_self n l : Forall (fun p => snd p = n (fst p)) l -> forall x f,
  num (sets l x) f = if existsb (field_eqb f) (map fst l) then n f else num x f.
Proof.
  induction l as [|p l IH]; intros F x f; [reflexivity|]. inversion F as [|? ? P F2]; subst.
  unfold sets. cbn [fold_left map existsb]. change (num (sets l (set (fst p) (snd p) x)) f = if field_eqb f (fst p) || existsb (field_eqb f) (map fst l) then n f else num x f).
  rewrite (IH F2). destruct (existsb _ _); [now rewrite orb_true_r|]. rewrite orb_false_r. unfold set. cbn [num].
  destruct (field_eqb f (fst p)) eqn:E; [|reflexivity]. apply field_eqb_eq in E. now rewrite P, E.
Qed.

Lemma restored_back c : inv c -> num c f_alloc <> 0 -> forall f, carried f (num c f) -> same f (num (restored c conf0) f) (num c f).
Proof.
  intros J Al f C. pose proof (i_ranged _ J) as R.
  pose proof (i_cs _ J) as Jcs. pose proof (i_mcs _ J) as Jmcs. pose proof (i_max _ J) as Jm. pose proof (i_mmax _ J) as Jmm.
  pose proof (R f) as Rf.
  destruct f; cbn [same carried documented] in *; unfold between in *; unfold restored, restored1, restored2, restored3; skip.
  all: try (meets; first [reflexivity | discriminate | lia]).
  - symmetry. exact C.
  - rewrite touch_yes. rewrite (sets_self (num c)) by (repeat apply Forall_cons; [reflexivity..|apply Forall_nil]).
    destruct (existsb _ _) eqn:X; [reflexivity|]. skip. pose proof (conf0_ranged (f_cs_low i)) as D. cbn [documented] in D.
    destruct ((1 <=? i) && (i <=? 3)) eqn:I; [|congruence].
    assert (i = 1 \/ i = 2 \/ i = 3) as [->|[->| ->]] by lia; discriminate X.
  - rewrite touch_yes. rewrite (sets_self (num c)) by (repeat apply Forall_cons; [reflexivity..|apply Forall_nil]).
    destruct (existsb _ _) eqn:X; [reflexivity|]. skip. pose proof (conf0_ranged (f_cs_high i)) as D. cbn [documented] in D.
    destruct ((0 <=? i) && (i <=? 2)) eqn:I; [|congruence].
    assert (i = 0 \/ i = 1 \/ i = 2) as [->|[->| ->]] by lia; discriminate X.
  - rewrite touch_yes. rewrite (sets_self (num c)) by (repeat apply Forall_cons; [reflexivity..|apply Forall_nil]).
    destruct (existsb _ _) eqn:X; [reflexivity|]. skip. pose proof (conf0_ranged (f_mcs_low i)) as D. cbn [documented] in D.
    destruct ((1 <=? i) && (i <=? 8)) eqn:I; [|congruence].
    assert (i = 1 \/ i = 2 \/ i = 3 \/ i = 4 \/ i = 5 \/ i = 6 \/ i = 7 \/ i = 8) as [->|[->|[->|[->|[->|[->|[->| ->]]]]]]] by lia; discriminate X.
  - rewrite touch_yes. rewrite (sets_self (num c)) by (repeat apply Forall_cons; [reflexivity..|apply Forall_nil]).
    destruct (existsb _ _) eqn:X; [reflexivity|]. skip. pose proof (conf0_ranged (f_mcs_high i)) as D. cbn [documented] in D.
    destruct ((0 <=? i) && (i <=? 7)) eqn:I; [|congruence].
    assert (i = 0 \/ i = 1 \/ i = 2 \/ i = 3 \/ i = 4 \/ i = 5 \/ i = 6 \/ i = 7) as [->|[->|[->|[->|[->|[->|[->| ->]]]]]]] by lia; discriminate X.
  - assert (num c f_alloc = 1 \/ num c f_alloc = 2 \/ num c f_alloc = 3) as [E|[E|E]] by lia; rewrite E;
      cbn [Z.eqb Pos.eqb]; rewrite ?touch_no; skip; value; reflexivity.
  - intros n N. rewrite masked_bit.
    + skip. change (num conf0 f_categ_mask) with 0. rewrite Z.bits_0. cbn [orb].
      replace (existsb _ categ_names) with true; [reflexivity|]. symmetry.
      unfold categories in N. cbn [In] in N. repeat (destruct N as [<-|N]; [reflexivity|]). destruct N.
    + unfold categories in N. cbn [In] in N. lia.
    + assert (A : forallb (fun x => 0 <=? fst x) categ_names = true) by reflexivity. rewrite forallb_forall in A.
      intros q Q. apply A in Q. lia.
  - apply timer_back; [apply (i_unknown _ J)|]. intro u. skip. reflexivity.
  - rewrite (i_neigh _ J). unfold timed, tdefs. cbn [fold_left fst snd]. skip.
    destruct (num c (f_timer (-10)) =? 5) eqn:B; cbn [negb]; [|unfold keep_too; cbn [fst snd Z.eqb Pos.eqb]; value; reflexivity].
    rewrite touch_no. skip. apply Z.eqb_eq in B. rewrite B. reflexivity.
  - rewrite (i_si _ J). unfold timed, tdefs. cbn [fold_left fst snd]. skip.
    destruct (num c (f_timer (-11)) =? 5) eqn:B; cbn [negb]; [|unfold keep_too; cbn [fst snd Z.eqb Pos.eqb]; value; reflexivity].
    rewrite touch_no. skip. apply Z.eqb_eq in B. rewrite B. reflexivity.
Qed.

(** A configuration reached: a file read at the start, lines typed later. *)
Definition reached (file typedin : list line) : conf := typed typedin (boot (typed file conf0)).
Lemma reached_inv a b : inv (reached a b).
Proof. apply typed_inv, boot_inv, typed_inv, conf0_inv. Qed.
Lemma reached_alloc a b : num (reached a b) f_alloc <> 0.
Proof. apply typed_alloc, boot_alloc. Qed.

Lemma reload a b : exists c1, load (config_write (reached a b)) conf0 = Some c1 /\
  host (boot c1) = host (reached a b) /\ path (boot c1) = path (reached a b) /\
  forall f, carried f (num (reached a b) f) -> same f (num (boot c1) f) (num (reached a b) f).
Proof.
  pose proof (reached_inv a b) as J. pose proof (reached_alloc a b) as Al. set (c := reached a b) in *. clearbody c.
  pose proof (restored_back c J Al) as Q. exists (restored c conf0). split; [apply (write_reads c J)|].
  assert (B : boot (restored c conf0) = restored c conf0).
  { pose proof (Q f_alloc Logic.I) as E. cbn [same] in E. unfold boot. rewrite E. now rewrite (proj2 (Z.eqb_neq _ _) Al). }
  rewrite B. split; [apply restored_host|]. split; [apply restored_path|]. exact Q.
Qed.

Lemma in_range a b : (forall f, documented f (num (reached a b) f)) /\ num (reached a b) f_cs_adj_lower <= num (reached a b) f_cs_adj_upper /\
  num (reached a b) f_alloc <> 0 /\
  num (reached a b) f_keep_neigh = num (reached a b) (f_timer (-10)) /\ num (reached a b) f_keep_si = num (reached a b) (f_timer (-11)).
Proof.
  pose proof (reached_inv a b) as J. pose proof (reached_alloc a b) as Al. destruct J as [J1 J2 _ _ _ _ _ J8 J9 _].
  split; [exact J1|]. split; [exact J2|]. split; [exact Al|]. split; [exact J8|exact J9].
Qed.

(** ** What is lost *)
Lemma loses l f was is :
  num (reached [] [l]) f = was -> match load (config_write (reached [] [l])) conf0 with Some c1 => num (boot c1) f = is | None => False end ->
  exists lines c1, load (config_write (typed lines (boot conf0))) conf0 = Some c1 /\ num (typed lines (boot conf0)) f = was /\ num (boot c1) f = is.
Proof.
  intros A B. unfold reached in A, B. cbn [typed fold_left] in A, B. change (typed [] conf0) with conf0 in A, B. exists [l].
  destruct (load _ conf0) as [c1|] eqn:E; [|destruct B]. exists c1. split; [reflexivity|]. split; [exact A|exact B].
Qed.
Lemma loses_all :
  (exists lines c1, load (config_write (typed lines (boot conf0))) conf0 = Some c1 /\
     num (typed lines (boot conf0)) f_fc_bucket_time = 100 /\ num (boot c1) f_fc_bucket_time = 0) /\
  (exists lines c1, load (config_write (typed lines (boot conf0))) conf0 = Some c1 /\
     num (typed lines (boot conf0)) f_max_cs_dl = 0 /\ num (boot c1) f_max_cs_dl = 4) /\
  (exists lines c1, load (config_write (typed lines (boot conf0))) conf0 = Some c1 /\
     num (typed lines (boot conf0)) f_max_mcs_dl = 0 /\ num (boot c1) f_max_mcs_dl = 9) /\
  (exists lines c1, load (config_write (typed lines (boot conf0))) conf0 = Some c1 /\
     num (typed lines (boot conf0)) f_llc_idle_ack = 0 /\ num (boot c1) f_llc_idle_ack = 10).
Proof.
  split; [|split; [|split]].
  - apply (loses [W "flow-control"; W "bucket-time"; Nr 100]); vm_compute; reflexivity.
  - apply (loses [W "no"; W "cs"; W "max"]); vm_compute; reflexivity.
  - apply (loses [W "no"; W "mcs"; W "max"]); vm_compute; reflexivity.
  - apply (loses [W "no"; W "queue"; W "idle-ack-delay"]); vm_compute; reflexivity.
Qed.

Definition word_dec : forall a b : word, {a = b} + {a <> b}.
Proof. decide equality; first [apply string_dec | apply Z.eq_dec]. Defined.
