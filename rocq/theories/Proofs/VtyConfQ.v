(** Every line written is read back. *)
From Coq Require Import ZArith Ascii String List Bool Lia.
From Verif Require Import Model.VtyConf Spec.VtyConfSpec Proofs.VtyConfP.
Import ListNotations.
Open Scope Z_scope.

Ltac within := repeat match goal with |- context [?a <=? ?b] => rewrite (proj2 (Z.leb_le a b)) by lia end.
Ltac look := cbv -[Z.leb]; within; reflexivity.
Ltac read k a :=
  unfold exec; match goal with |- context [lookup ?l] => replace (lookup l) with (Some (k, a)) by (symmetry; look) end;
  cbv beta iota; cbn [act]; rewrite ?second_1, ?second_2; unfold arg; cbn [nth atoi]; small; try reflexivity.

(** ** The lines *)
Lemma x_fc z x : 1 <= z <= 10 -> exec x [W "flow-control-interval"; Nr z] = Some (set f_fc_interval z x).
Proof. intro Z0. read c_fc_interval [Nr z]. Qed.
Lemma x_bvc_bucket z x : 1 <= z <= 6553500 -> exec x [W "flow-control"; W "force-bvc-bucket-size"; Nr z] = Some (set f_fc_bvc_bucket_size z x).
Proof. intro Z0. read c_bvc_bucket [Nr z]. Qed.
Lemma x_bvc_leak z x : 1 <= z <= 6553500 -> exec x [W "flow-control"; W "force-bvc-leak-rate"; Nr z] = Some (set f_fc_bvc_leak_rate z x).
Proof. intro Z0. read c_bvc_leak [Nr z]. Qed.
Lemma x_ms_bucket z x : 1 <= z <= 6553500 -> exec x [W "flow-control"; W "force-ms-bucket-size"; Nr z] = Some (set f_fc_ms_bucket_size z x).
Proof. intro Z0. read c_ms_bucket [Nr z]. Qed.
Lemma x_ms_leak z x : 1 <= z <= 6553500 -> exec x [W "flow-control"; W "force-ms-leak-rate"; Nr z] = Some (set f_fc_ms_leak_rate z x).
Proof. intro Z0. read c_ms_leak [Nr z]. Qed.
Lemma x_cs d u x : 1 <= d <= 4 -> 1 <= u <= 4 -> exec x (dl_ul [W "cs"] d u) =
  Some (sets [(f_force_initial_cs, 1); (f_initial_cs_dl, d); (f_initial_cs_ul, u)] x).
Proof.
  intros D U. unfold dl_ul. destruct (u =? d) eqn:E; cbn [app].
  - apply Z.eqb_eq in E. subst. read c_cs [Nr d].
  - read c_cs [Nr d; Nr u].
Qed.
Lemma x_cs_max d u x : 1 <= d <= 4 -> 1 <= u <= 4 -> exec x (dl_ul [W "cs"; W "max"] d u) = Some (sets [(f_max_cs_dl, d); (f_max_cs_ul, u)] x).
Proof.
  intros D U. unfold dl_ul. destruct (u =? d) eqn:E; cbn [app].
  - apply Z.eqb_eq in E. subst. read c_cs_max [Nr d].
  - read c_cs_max [Nr d; Nr u].
Qed.
Lemma x_mcs d u x : 1 <= d <= 9 -> 1 <= u <= 9 -> exec x (dl_ul [W "mcs"] d u) =
  Some (sets [(f_force_initial_mcs, 1); (f_initial_mcs_dl, d); (f_initial_mcs_ul, u)] x).
Proof.
  intros D U. unfold dl_ul. destruct (u =? d) eqn:E; cbn [app].
  - apply Z.eqb_eq in E. subst. read c_mcs [Nr d].
  - read c_mcs [Nr d; Nr u].
Qed.
Lemma x_mcs_max d u x : 1 <= d <= 9 -> 1 <= u <= 9 -> exec x (dl_ul [W "mcs"; W "max"] d u) = Some (sets [(f_max_mcs_dl, d); (f_max_mcs_ul, u)] x).
Proof.
  intros D U. unfold dl_ul. destruct (u =? d) eqn:E; cbn [app].
  - apply Z.eqb_eq in E. subst. read c_mcs_max [Nr d].
  - read c_mcs_max [Nr d; Nr u].
Qed.
Lemma x_adj l u x : 0 <= l <= 100 -> 0 <= u <= 100 -> l <= u -> exec x [W "cs"; W "threshold"; Nr l; Nr u] =
  Some (sets [(f_cs_adj_enabled, 1); (f_cs_adj_upper, u); (f_cs_adj_lower, l)] x).
Proof.
  intros L U B. read c_cs_err_limits [Nr l; Nr u].
  rewrite (proj2 (Z.ltb_ge u l)) by lia. reflexivity.
Qed.
Lemma x_no_adj x : exec x [W "no"; W "cs"; W "threshold"] = Some (sets [(f_cs_adj_enabled, 0); (f_cs_adj_upper, 100); (f_cs_adj_lower, 0)] x).
Proof. read c_no_cs_err_limits (@nil word). Qed.
Lemma x_down z x : 1 <= z <= 10000 -> exec x [W "cs"; W "downgrade-threshold"; Nr z] = Some (set f_cs_downgrade z x).
Proof. intro Z0. read c_cs_downgrade [Nr z]. Qed.
Lemma x_no_down x : exec x [W "no"; W "cs"; W "downgrade-threshold"] = Some (set f_cs_downgrade 0 x).
Proof. read c_no_cs_downgrade (@nil word). Qed.
Lemma x_cs_lq a b c d e f x :
  0 <= a <= 35 -> 0 <= b <= 35 -> 0 <= c <= 35 -> 0 <= d <= 35 -> 0 <= e <= 35 -> 0 <= f <= 35 ->
  exec x [W "cs"; W "link-quality-ranges"; W "cs1"; Nr a; W "cs2"; Nr b; Nr c; W "cs3"; Nr d; Nr e; W "cs4"; Nr f] =
  Some (sets [(f_cs_high 0, a); (f_cs_low 1, b); (f_cs_high 1, c); (f_cs_low 2, d); (f_cs_high 2, e); (f_cs_low 3, f)] x).
Proof. intros. read c_cs_lqual [Nr a; Nr b; Nr c; Nr d; Nr e; Nr f]. Qed.
Lemma x_mcs_lq a b c d e f g h i j k l m n o p x :
  0 <= a <= 35 -> 0 <= b <= 35 -> 0 <= c <= 35 -> 0 <= d <= 35 -> 0 <= e <= 35 -> 0 <= f <= 35 -> 0 <= g <= 35 -> 0 <= h <= 35 ->
  0 <= i <= 35 -> 0 <= j <= 35 -> 0 <= k <= 35 -> 0 <= l <= 35 -> 0 <= m <= 35 -> 0 <= n <= 35 -> 0 <= o <= 35 -> 0 <= p <= 35 ->
  exec x [W "mcs"; W "link-quality-ranges"; W "mcs1"; Nr a; W "mcs2"; Nr b; Nr c; W "mcs3"; Nr d; Nr e; W "mcs4"; Nr f; Nr g;
    W "mcs5"; Nr h; Nr i; W "mcs6"; Nr j; Nr k; W "mcs7"; Nr l; Nr m; W "mcs8"; Nr n; Nr o; W "mcs9"; Nr p] =
  Some (sets [(f_mcs_high 0, a); (f_mcs_low 1, b); (f_mcs_high 1, c); (f_mcs_low 2, d); (f_mcs_high 2, e); (f_mcs_low 3, f); (f_mcs_high 3, g);
    (f_mcs_low 4, h); (f_mcs_high 4, i); (f_mcs_low 5, j); (f_mcs_high 5, k); (f_mcs_low 6, l); (f_mcs_high 6, m); (f_mcs_low 7, n); (f_mcs_high 7, o);
    (f_mcs_low 8, p)] x).
Proof. intros. read c_mcs_lqual [Nr a; Nr b; Nr c; Nr d; Nr e; Nr f; Nr g; Nr h; Nr i; Nr j; Nr k; Nr l; Nr m; Nr n; Nr o; Nr p]. Qed.
Lemma x_ws b p x : 0 <= b <= 1024 -> 0 <= p <= 256 -> exec x [W "window-size"; Nr b; Nr p] = Some (sets [(f_ws_base, b); (f_ws_pdch, p)] x).
Proof. intros. read c_window_size [Nr b; Nr p]. Qed.
Lemma x_arq x : exec x [W "egprs"; W "dl"; W "arq-type"; W "arq2"] = Some (set f_dl_arq_type 1 x).
Proof. read c_dl_arq [W "arq2"]. Qed.
Lemma x_life z x : 1 <= z <= 65534 -> exec x [W "queue"; W "lifetime"; Nr z] = Some (set f_llc_lifetime z x).
Proof. intro Z0. read c_lifetime [Nr z]. Qed.
Lemma x_life_inf x : exec x [W "queue"; W "lifetime"; W "infinite"] = Some (set f_llc_lifetime 65535 x).
Proof. read c_lifetime_inf (@nil word). Qed.
Lemma x_hyst z x : 1 <= z <= 65535 -> exec x [W "queue"; W "hysteresis"; Nr z] = Some (set f_llc_discard z x).
Proof. intro Z0. read c_hysteresis [Nr z]. Qed.
Lemma x_idle z x : 1 <= z <= 65535 -> exec x [W "queue"; W "idle-ack-delay"; Nr z] = Some (set f_llc_idle_ack z x).
Proof. intro Z0. read c_idle_ack [Nr z]. Qed.
Lemma x_codel x : exec x [W "queue"; W "codel"] = Some (set f_llc_codel (2 ^ 32 - 1) x).
Proof. read c_codel (@nil word). Qed.
Lemma x_no_codel x : exec x [W "no"; W "queue"; W "codel"] = Some (set f_llc_codel 0 x).
Proof. read c_no_codel (@nil word). Qed.
Lemma x_codel_i z x : 1 <= z <= 1000 -> exec x [W "queue"; W "codel"; W "interval"; Nr z] = Some (set f_llc_codel (10 * z) x).
Proof. intro Z0. read c_codel_interval [Nr z]. Qed.
Lemma x_alloc_a x : exec x [W "alloc-algorithm"; W "a"] = Some (set f_alloc 1 x).
Proof. read c_alloc [W "a"]. Qed.
Lemma x_alloc_b x : exec x [W "alloc-algorithm"; W "b"] = Some (set f_alloc 2 x).
Proof. read c_alloc [W "b"]. Qed.
Lemma x_alloc_d x : exec x [W "alloc-algorithm"; W "dynamic"] = Some (set f_alloc 3 x).
Proof. read c_alloc [W "dynamic"]. Qed.
Lemma x_two x : exec x [W "two-phase-access"] = Some (set f_force_two_phase 1 x).
Proof. read c_two_phase (@nil word). Qed.
Lemma x_alpha z x : 0 <= z <= 10 -> exec x [W "alpha"; Nr z] = Some (set f_force_alpha z x).
Proof. intro Z0. read c_alpha [Nr z]. Qed.
Lemma x_gamma z x : 0 <= z <= 31 -> exec x [W "gamma"; Nr (z * 2)] = Some (set f_gamma z x).
Proof.
  intro Z0. remember (z * 2) as y eqn:Y. read c_gamma [Nr y]. subst y. rewrite Z.quot_mul by lia. small. reflexivity.
Qed.
Lemma x_no_pre x : exec x [W "no"; W "dl-tbf-preemptive-retransmission"] = Some (set f_preemptive 0 x).
Proof. read c_no_preemptive (@nil word). Qed.
Lemma x_class z x : 1 <= z <= 45 -> exec x [W "multislot-class"; W "default"; Nr z] = Some (set f_msclass_default z x).
Proof. intro Z0. read c_msclass [Nr z]. Qed.
Lemma x_sock w x : exec x [W "pcu-socket"; w] = Some (set_path w x).
Proof. read c_sock [w]. Qed.
Lemma x_host w x : exec x [W "gsmtap-remote-host"; w] = Some (set_host (Some w) x).
Proof. read c_host [w]. Qed.
Lemma x_categ n s x : In (n, s) categ_names -> exec x [W "gsmtap-category"; W s] = Some (set f_categ_mask (Z.lor (num x f_categ_mask) (2 ^ n)) x).
Proof.
  intro I. unfold categ_names in I. cbn [In] in I.
  repeat (destruct I as [I|I]; [injection I as <- <-; match goal with |- exec _ [_; ?w] = _ => read c_categ [w] end|]). destruct I.
Qed.
Lemma x_sns x : exec x [W "gb-dialect"; W "ip-sns"] = Some (set f_ns_dialect 1 x).
Proof. read c_dialect [W "ip-sns"]. Qed.
Lemma x_classic x : exec x [W "gb-dialect"; W "classic"] = Some (set f_ns_dialect 0 x).
Proof. read c_dialect [W "classic"]. Qed.
Lemma x_dscp z x : 0 <= z <= 63 -> exec x [W "gb"; W "ip-dscp"; Nr z] = Some (set f_ns_ip_dscp z x).
Proof. intro Z0. read c_dscp [Nr z]. Qed.
Lemma x_prio z x : 0 <= z <= 255 -> exec x [W "gb"; W "socket-priority"; Nr z] = Some (set f_ns_priority z x).
Proof. intro Z0. read c_priority [Nr z]. Qed.

Definition keep_too (t z : Z) : list (field * Z) := if t =? -10 then [(f_keep_neigh, z)] else if t =? -11 then [(f_keep_si, z)] else [].
Lemma x_timer t d mx z x : In (t, (d, mx)) tdefs -> 0 <= z <= (if t =? 3172 then 255000 else 2147483647) ->
  exec x [W "timer"; Tm t; Nr z] = Some (sets ((f_timer t, z) :: keep_too t z) x).
Proof.
  intros I Z0. assert (Z1 : 0 <= z <= 2147483647) by (destruct (t =? 3172); lia).
  unfold exec. replace (lookup _) with (Some (c_timer, [Tm t; Nr z])) by (symmetry; look).
  cbn [act do_timer is_word atoi]. unfold set_timer.
  unfold tdefs in I. cbn [In] in I.
  repeat (destruct I as [I|I]; [injection I as <- <- <-;
    match goal with |- context [tdef ?t] => let v := eval vm_compute in (tdef t) in change (tdef t) with v end; cbv beta iota;
    try (rewrite (proj2 (Z.leb_le z 255000)) by exact (proj2 Z0));
    cbn [Z.eqb orb]; cbv beta iota; reflexivity|]). destruct I.
Qed.
