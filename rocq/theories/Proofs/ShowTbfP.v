(** What "show tbf" and "show ms" display. *)
From Coq Require Import ZArith List Bool Lia FinFun.
From Verif Require Import Base.Arith Model.TbfFsm Model.Mslot Model.Alloc Model.Cell Model.ShowTbf Spec.AllocSpec Spec.ShowTbfSpec.
From Verif Require Import Proofs.TbfFsmP Proofs.TbfFsmQ Proofs.AllocP Proofs.AllocQ Proofs.AllocEx.
Import ListNotations.
Local Open Scope Z_scope.

Lemma listed_all f : listed ShowAll f = f_ccch f || f_pacch f.
Proof. unfold listed, state_flags. destruct (f_ccch f), (f_pacch f); reflexivity. Qed.
Lemma listed_ccch f : listed ShowCcch f = f_ccch f.
Proof. unfold listed, state_flags. destruct (f_ccch f), (f_pacch f); reflexivity. Qed.
Lemma listed_pacch f : listed ShowPacch f = f_pacch f.
Proof. unfold listed, state_flags. destruct (f_ccch f), (f_pacch f); reflexivity. Qed.

Ltac fsm_cbn := cbn [f_st f_T f_tm f_ccch f_pacch f_t31 f_first f_now f_dead
  set_st set_timer set_ccch set_pacch set_t31 set_first set_now free start enter
  ul_timeout dl_timeout fst snd option_map effs ul_onenter ul_chg ul_out ul_in ul_action ul_dispatch
  dl_onenter dl_chg dl_out dl_in dl_action dl_dispatch dl_x2002 app andb negb orb] in *.
Ltac some E := first [discriminate E | injection E as <-].

(** One step of a TBF that is not released: what becomes of the state and the flags. *)
Definition ul_keeps (f f' : fsm) (o : ulop) : Prop :=
  (f_st f <> NEW -> f_st f' <> NEW) /\
  (f_st f' <> NEW -> f_st f = NEW -> (o = UEv ADD_CCCH /\ f_ccch f' = true /\ f_pacch f' = f_pacch f) \/
                                     (o = UEv ADD_PACCH /\ f_ccch f' = f_ccch f /\ f_pacch f' = true)) /\
  (f_st f <> NEW -> (f_ccch f' = f_ccch f /\ f_pacch f' = f_pacch f) \/
    (o = UEv ADD_CCCH /\ f_ccch f' = true /\ f_pacch f' = f_pacch f) \/
    (o = UEv ADD_PACCH /\ f_ccch f' = f_ccch f /\ f_pacch f' = true) \/
    (o = UEv ACK_PACCH /\ f_ccch f = true /\ f_ccch f' = false /\ f_pacch f' = true)).
Lemma ul_step_keeps c f o f' : ul_step c f o = Some f' -> ul_keeps f f' o.
Proof.
  unfold ul_step. destruct f as [st T tm cc pc t31 fst1 nw dd]. cbn [f_dead].
  destruct dd as [w|]; intros E; [some E; repeat split; intros; auto; congruence|].
  assert (SAME : forall f', f_st f' = st -> f_ccch f' = cc -> f_pacch f' = pc -> ul_keeps (Fsm st T tm cc pc t31 fst1 nw None) f' o).
  { intros g A B C. repeat split; cbn [f_st f_ccch f_pacch]; intros; [congruence|exfalso; congruence|left; auto]. }
  assert (DISP : forall T1 tm1 e, option_map fst (ul_dispatch c e (Fsm st T1 tm1 cc pc t31 fst1 nw None)) = Some f' ->
    (o = UEv e \/ e = READY_CCCH) -> ul_keeps (Fsm st T tm cc pc t31 fst1 nw None) f' o).
  { intros T1 tm1 e D OE. destruct st, e; fsm_cbn; try (some D; apply SAME; reflexivity);
      try (destruct OE as [-> | OE]; [|discriminate OE]);
      destruct cc, pc; fsm_cbn; some D; unfold ul_keeps; fsm_cbn; repeat split; intros; try discriminate; try congruence; auto 8. }
  destruct o as [e|d| |]; cbn [ul_op] in E.
  - apply (DISP _ _ _ E). left. reflexivity.
  - some E. apply SAME; reflexivity.
  - fsm_cbn. destruct (due tm nw); [|some E; apply SAME; reflexivity]. unfold ul_timer_cb in E. fsm_cbn.
    destruct (T =? -2002); [apply (DISP _ _ _ E); right; reflexivity|].
    destruct (T =? 3168); [some E; apply SAME; reflexivity|]. destruct (T =? 3169); some E. apply SAME; reflexivity.
  - fsm_cbn. destruct (due t31 nw); some E; apply SAME; reflexivity.
Qed.

Lemma ul_shown c t ops : forall f, ul_run c (fsm_new t) ops = Some f -> f_st f <> NEW -> f_ccch f || f_pacch f = true.
Proof.
  induction ops as [|o ops IH] using rev_ind; intros f R NW.
  - injection R as <-. exfalso. apply NW. reflexivity.
  - apply runs_snoc in R as (h & R & S). specialize (IH h R). apply ul_step_keeps in S as (K1 & K2 & K3).
    destruct (f_st h) eqn:SH.
    1: destruct (K2 NW eq_refl) as [(_ & A & B) | (_ & A & B)]; rewrite ?A, ?B; auto using orb_true_r.
    all: assert (NH : f_st h <> NEW) by (rewrite SH; discriminate); rewrite SH in NH; specialize (IH NH);
      destruct (K3 NH) as [(A & B)|[(_ & A & B)|[(_ & A & B)|(_ & _ & A & B)]]]; rewrite A, B; auto using orb_true_r.
Qed.

Definition early (s : tst) : bool := match s with ASSIGN | FLOW | FINISHED => true | _ => false end.
Definition dl_keeps (f f' : fsm) (o : dlop) : Prop :=
  (f_st f <> NEW -> f_st f' <> NEW) /\
  (f_st f' <> NEW -> f_st f = NEW -> (o = DEv ADD_CCCH /\ f_ccch f' = true /\ f_pacch f' = f_pacch f) \/
                                     (o = DEv ADD_PACCH /\ f_ccch f' = f_ccch f /\ f_pacch f' = true)) /\
  (f_st f <> NEW -> (f_ccch f' = f_ccch f /\ f_pacch f' = f_pacch f) \/
    (o = DEv ADD_CCCH /\ f_ccch f' = true /\ f_pacch f' = f_pacch f) \/
    (o = DEv ADD_PACCH /\ f_ccch f' = f_ccch f /\ f_pacch f' = true) \/
    (o = DEv ACK_PACCH /\ f_ccch f' = false /\ f_pacch f' = true) \/
    (o = DTimer UpgradeOk /\ f_ccch f' = false /\ f_pacch f' = true) \/
    (early (f_st f') = false /\ f_ccch f' = false /\ f_pacch f' = f_pacch f) \/
    f_dead f' <> None) /\
  (early (f_st f) = false -> f_st f <> NEW -> early (f_st f') = false).
Lemma dl_step_keeps c f o f' : dl_step c f o = Some f' -> f_dead f = None -> dl_keeps f f' o.
Proof.
  unfold dl_step. destruct f as [st T tm cc pc t31 fst1 nw dd]. cbn [f_dead]. intros E ->.
  assert (SAME : forall f', f_st f' = st -> f_ccch f' = cc -> f_pacch f' = pc -> dl_keeps (Fsm st T tm cc pc t31 fst1 nw None) f' o).
  { intros g A B C. repeat split; cbn [f_st f_ccch f_pacch]; intros; [congruence|exfalso; congruence|left; auto|congruence]. }
  assert (DISP : forall T1 tm1 t1 fi1 e, option_map fst (dl_dispatch c e (Fsm st T1 tm1 cc pc t1 fi1 nw None)) = Some f' ->
    (o = DEv e \/ e = READY_CCCH \/ e = FINAL_ACK) -> dl_keeps (Fsm st T tm cc pc t31 fst1 nw None) f' o).
  { intros T1 tm1 t1 fi1 e D OE. destruct st, e; fsm_cbn; try (some D; apply SAME; reflexivity);
      try (destruct OE as [-> | [OE | OE]]; [|discriminate OE|discriminate OE]);
      destruct cc, pc, fi1; fsm_cbn; try discriminate D; some D; unfold dl_keeps; fsm_cbn; cbn [early];
      repeat split; intros; try discriminate; try congruence; auto 12. }
  destruct o as [e|fin| |d|u|]; cbn [dl_op] in E.
  - apply (DISP _ _ _ _ _ E). left. reflexivity.
  - cbv zeta in E. destruct fin; [|some E; apply SAME; reflexivity]. fsm_cbn.
    apply (DISP T tm None true FINAL_ACK); [exact E|]. right. right. reflexivity.
  - some E. apply SAME; reflexivity.
  - some E. apply SAME; reflexivity.
  - fsm_cbn. destruct (due tm nw); [|some E; apply SAME; reflexivity]. unfold dl_timer_cb in E. fsm_cbn.
    destruct (T =? -2002).
    { unfold dl_x2002 in E. fsm_cbn. destruct st; try (some E; apply SAME; reflexivity).
      destruct u.
      - apply (DISP _ _ _ _ READY_CCCH E). right. left. reflexivity.
      - fsm_cbn. some E. unfold dl_keeps. fsm_cbn. cbn [early]. repeat split; intros; try discriminate. auto 12.
      - some E. unfold dl_keeps. fsm_cbn. cbn [early]. repeat split; intros; try discriminate.
        do 6 right. discriminate. }
    destruct (T =? 3192).
    { destruct st; fsm_cbn; some E; try (apply SAME; reflexivity); unfold dl_keeps; fsm_cbn; cbn [early];
        repeat split; intros; try discriminate; auto 12. }
    destruct (T =? -2001); [some E; apply SAME; reflexivity|].
    destruct (T =? 3193); [some E; apply SAME; reflexivity|]. destruct (T =? 3195); some E. apply SAME; reflexivity.
  - fsm_cbn. destruct (due t31 nw); some E; apply SAME; reflexivity.
Qed.

Lemma dl_alive c h o f : dl_step c h o = Some f -> f_dead f = None -> f_dead h = None.
Proof. unfold dl_step. destruct (f_dead h) eqn:D; [intros E; some E; congruence|reflexivity]. Qed.
Lemma dl_shown c t ops : forall f, dl_run c (fsm_new t) ops = Some f -> f_dead f = None -> early (f_st f) = true ->
  f_ccch f || f_pacch f = true.
Proof.
  induction ops as [|o ops IH] using rev_ind; intros f R AL EA.
  - injection R as <-. discriminate EA.
  - apply runs_snoc in R as (h & R & S). pose proof (dl_alive _ _ _ _ S AL) as AH. specialize (IH h R AH).
    destruct (dl_step_keeps _ _ _ _ S AH) as (K1 & K2 & K3 & K4).
    assert (NW : f_st f <> NEW) by (intros X; rewrite X in EA; discriminate EA).
    assert (CASE : f_st h = NEW \/ f_st h <> NEW) by (destruct (f_st h); first [left; reflexivity | right; discriminate]).
    destruct CASE as [SH|NH].
    + destruct (K2 NW SH) as [(_ & A & B) | (_ & A & B)]; rewrite A, B; auto using orb_true_r.
    + destruct (early (f_st h)) eqn:EH; [|rewrite (K4 eq_refl NH) in EA; discriminate EA]. specialize (IH eq_refl).
      destruct (K3 NH) as [(A & B)|[(_ & A & B)|[(_ & A & B)|[(_ & A & B)|[(_ & A & B)|[(X & _)|X]]]]]];
        try (rewrite A, B; auto using orb_true_r); [rewrite X in EA; discriminate EA|contradiction].
Qed.

(** The way of assignment shown. *)
Lemma ul_way c t w rest : is_add w -> (forall e, In (UEv e) rest -> ~ is_add e) ->
  forall f, ul_run c (fsm_new t) (UEv w :: rest) = Some f ->
  f_st f <> NEW /\ f_ccch f = negb (f_pacch f) /\ (w = ADD_PACCH -> f_pacch f = true) /\
  (f_pacch f = true -> w = ADD_PACCH \/ In (UEv ACK_PACCH) rest).
Proof.
  intros W. induction rest as [|o rest IH] using rev_ind; intros NA f R.
  - destruct W as [-> | ->]; vm_compute in R; injection R as <-; cbn [f_st f_ccch f_pacch negb]; repeat split; auto; discriminate.
  - change (UEv w :: rest ++ [o]) with ((UEv w :: rest) ++ [o]) in R. apply runs_snoc in R as (h & R & S).
    destruct (IH (fun e I => NA e (in_or_app _ _ _ (or_introl I))) h R) as (I1 & I2 & I3 & I4).
    apply ul_step_keeps in S as (K1 & _ & K3). split; [exact (K1 I1)|].
    assert (NO : forall e, o = UEv e -> ~ is_add e).
    { intros e ->. apply NA. apply in_or_app. right. left. reflexivity. }
    destruct (K3 I1) as [(A & B)|[(E & _)|[(E & _)|(E & _ & A & B)]]].
    + rewrite A, B. split; [exact I2|]. split; [exact I3|]. intros P. destruct (I4 P) as [Q|Q]; [left; exact Q|right].
      apply in_or_app. left. exact Q.
    + exfalso. exact (NO _ E (or_introl eq_refl)).
    + exfalso. exact (NO _ E (or_intror eq_refl)).
    + rewrite A, B. split; [reflexivity|]. split; [reflexivity|]. intros _. right. apply in_or_app. right. left. exact E.
Qed.
Lemma dl_way c t w rest : is_add w -> (forall e, In (DEv e) rest -> ~ is_add e) ->
  forall f, dl_run c (fsm_new t) (DEv w :: rest) = Some f -> f_dead f = None ->
  f_st f <> NEW /\ f_ccch f && f_pacch f = false /\ (early (f_st f) = true -> f_ccch f = negb (f_pacch f)) /\
  (w = ADD_PACCH -> f_pacch f = true) /\
  (f_pacch f = true -> w = ADD_PACCH \/ In (DEv ACK_PACCH) rest \/ In (DTimer UpgradeOk) rest).
Proof.
  intros W. induction rest as [|o rest IH] using rev_ind; intros NA f R AL.
  - destruct W as [-> | ->]; vm_compute in R; injection R as <-; cbn [f_st f_ccch f_pacch negb andb]; repeat split; auto; discriminate.
  - change (DEv w :: rest ++ [o]) with ((DEv w :: rest) ++ [o]) in R. apply runs_snoc in R as (h & R & S).
    pose proof (dl_alive _ _ _ _ S AL) as AH.
    destruct (IH (fun e I => NA e (in_or_app _ _ _ (or_introl I))) h R AH) as (I1 & I2 & I3 & I4 & I5).
    destruct (dl_step_keeps _ _ _ _ S AH) as (K1 & _ & K3 & K4). split; [exact (K1 I1)|].
    assert (NO : forall e, o = DEv e -> ~ is_add e).
    { intros e ->. apply NA. apply in_or_app. right. left. reflexivity. }
    assert (LATE : f_pacch h = true -> w = ADD_PACCH \/ In (DEv ACK_PACCH) (rest ++ [o]) \/ In (DTimer UpgradeOk) (rest ++ [o])).
    { intros P. destruct (I5 P) as [Q|[Q|Q]]; [left; exact Q|right; left|right; right]; apply in_or_app; left; exact Q. }
    assert (LAST : In o (rest ++ [o])) by (apply in_or_app; right; left; reflexivity).
    destruct (K3 I1) as [(A & B)|[(E & _)|[(E & _)|[(E & A & B)|[(E & A & B)|[(X & A & B)|X]]]]]].
    + rewrite A, B. split; [exact I2|]. split; [|split; [exact I4|exact LATE]].
      intros EA. destruct (early (f_st h)) eqn:EH; [exact (I3 eq_refl)|]. rewrite (K4 eq_refl I1) in EA. discriminate EA.
    + exfalso. exact (NO _ E (or_introl eq_refl)).
    + exfalso. exact (NO _ E (or_intror eq_refl)).
    + rewrite A, B. repeat split; auto. intros _. right. left. rewrite <- E. exact LAST.
    + rewrite A, B. repeat split; auto. intros _. right. right. rewrite <- E. exact LAST.
    + rewrite A, B, X. split; [reflexivity|]. split; [discriminate|]. split; [exact I4|exact LATE].
    + contradiction.
Qed.

(** Whole lists. *)
Lemma all_listed {A} (p : A -> bool) l : Forall (fun x => p x = true) l -> filter p l = l.
Proof. induction 1 as [|x l E _ IH]; cbn [filter]; [reflexivity|]. rewrite E, IH. reflexivity. Qed.
Lemma ul_list l : Forall (fun t => Forall (fun x => ul_exists (snd x)) (tt_ul t)) l ->
  fst (show_tbf ShowAll l) = map fst (concat (map tt_ul l)).
Proof.
  unfold show_tbf. cbn [fst]. induction 1 as [|t l T _ IH]; [reflexivity|]. cbn [flat_map map concat]. rewrite map_app, <- IH.
  f_equal. f_equal. apply all_listed. eapply Forall_impl; [|exact T]. intros x (c & t0 & ops & R & _ & NW). cbv beta.
  rewrite listed_all. exact (ul_shown _ _ _ _ R NW).
Qed.
Lemma dl_list l : Forall (fun t => Forall (fun x => dl_exists (snd x) /\ in_use (snd x)) (tt_dl t)) l ->
  snd (show_tbf ShowAll l) = map fst (concat (map tt_dl l)).
Proof.
  unfold show_tbf. cbn [snd]. induction 1 as [|t l T _ IH]; [reflexivity|]. cbn [flat_map map concat]. rewrite map_app, <- IH.
  f_equal. f_equal. apply all_listed. eapply Forall_impl; [|exact T]. intros x ((c & t0 & ops & R & AL & _) & U). cbv beta.
  rewrite listed_all. apply (dl_shown _ _ _ _ R AL). destruct U as [U|[U|U]]; rewrite U; reflexivity.
Qed.

(** The PACCH shown. *)
Lemma lsb_ffs x : 0 <= x < 256 -> lsb x = if x =? 0 then 0 else Z.shiftl 1 (ffs x - 1).
Proof.
  intros R. apply Z.eqb_eq.
  assert (ALL : forallb (fun n => let x := Z.of_nat n in lsb x =? (if x =? 0 then 0 else Z.shiftl 1 (ffs x - 1))) (seq 0 256) = true) by (vm_compute; reflexivity).
  rewrite forallb_forall in ALL. specialize (ALL (Z.to_nat x)). cbv zeta in ALL. rewrite Z2Nat.id in ALL by lia. apply ALL.
  apply in_seq. lia.
Qed.
Lemma ffs_lowest x : 0 < x < 256 -> lowest x (ffs x - 1).
Proof.
  intros R.
  assert (ALL : forallb (fun n => let x := Z.of_nat n in (0 <? ffs x) && Z.testbit x (ffs x - 1) &&
    forallb (fun k => implb (Z.testbit x k) (ffs x - 1 <=? k)) [0; 1; 2; 3; 4; 5; 6; 7]) (seq 1 255) = true) by (vm_compute; reflexivity).
  rewrite forallb_forall in ALL. specialize (ALL (Z.to_nat x)). cbv zeta in ALL. rewrite Z2Nat.id in ALL by lia.
  destruct (andb_prop _ _ (ALL ltac:(apply in_seq; lia))) as [A B]. apply andb_prop in A as [A C].
  apply Z.ltb_lt in A. pose proof (ffs_m8 x). split; [split; [lia|exact C]|].
  intros k [K1 K2]. rewrite forallb_forall in B. specialize (B k). rewrite K2 in B. cbn [implb] in B. apply Z.leb_le, B.
  assert (E : k = 0 \/ k = 1 \/ k = 2 \/ k = 3 \/ k = 4 \/ k = 5 \/ k = 6 \/ k = 7) by lia. cbn [In]. intuition auto.
Qed.
Lemma one_bit ts : 0 <= ts < 8 -> filter (Z.testbit (Z.shiftl 1 ts)) [0; 1; 2; 3; 4; 5; 6; 7] = [ts].
Proof.
  intros R. assert (E : ts = 0 \/ ts = 1 \/ ts = 2 \/ ts = 3 \/ ts = 4 \/ ts = 5 \/ ts = 6 \/ ts = 7) by lia.
  repeat (destruct E as [-> | E]; [reflexivity|]). subst. reflexivity.
Qed.
Lemma shown_lsb m : 0 <= m < 256 ->
  (m = 0 /\ filter (Z.testbit (lsb m)) [0; 1; 2; 3; 4; 5; 6; 7] = []) \/
  exists ts, lowest m ts /\ filter (Z.testbit (lsb m)) [0; 1; 2; 3; 4; 5; 6; 7] = [ts].
Proof.
  intros R. rewrite (lsb_ffs m R). destruct (Z.eqb_spec m 0) as [E|E]; [left; split; [exact E|reflexivity]|right].
  assert (P : 0 < m < 256) by lia. pose proof (ffs_lowest m P) as L. exists (ffs m - 1). split; [exact L|].
  apply one_bit. exact (proj1 (proj1 L)).
Qed.
Lemma lowest_one m a b : lowest m a -> lowest m b -> a = b.
Proof. intros [A1 A2] [B1 B2]. pose proof (A2 _ B1). pose proof (B2 _ A1). lia. Qed.
Lemma land_u8 a b : 0 <= a < 256 -> 0 <= b < 256 -> 0 <= Z.land a b < 256.
Proof.
  intros A B. split; [apply Z.land_nonneg; lia|].
  assert (E : Z.land a b = Z.land a b mod 2 ^ 8).
  { apply Z.bits_inj'. intros n N. destruct (Z.ltb_spec n 8).
    - rewrite Z.mod_pow2_bits_low by lia. reflexivity.
    - rewrite Z.mod_pow2_bits_high by lia. rewrite Z.land_spec. rewrite <- (Z.mod_small a (2 ^ 8)) by lia.
      rewrite Z.mod_pow2_bits_high by lia. reflexivity. }
  rewrite E. apply Z.mod_pos_bound. lia.
Qed.

Lemma alloc_b_common def b q r : alloc_b def b q = Some r ->
  0 <= r_common r /\
  r_common r = ffs (match q_dir q with DL => Z.land (r_mask r) (r_rul r) | UL => Z.land (r_rdl r) (r_mask r) end) - 1.
Proof.
  unfold alloc_b. cbv zeta. destruct (req_tfi_find_free b q) as [[tfi n]|]; [|discriminate].
  match goal with |- match ?e with Some _ => _ | None => None end = Some r -> _ => destruct e as [[rul rdl]|] end; [|discriminate].
  destruct (_ =? 0); [discriminate|]. destruct (q_dir q).
  - destruct (_ || _) eqn:OB; [discriminate|]. intros E. injection E as <-. cbn [r_common r_mask r_rul r_rdl].
    apply orb_false_elim in OB as [_ OB]. apply Z.ltb_ge in OB. split; [lia|reflexivity].
  - destruct (allocate_usf (b n) (select_slot_set (b n) q rul rdl) rdl) as [[u usf]|]; [|discriminate].
    destruct (_ || _) eqn:OB; [discriminate|]. intros E. injection E as <-. cbn [r_common r_mask r_rul r_rdl].
    apply orb_false_elim in OB as [_ OB]. apply Z.ltb_ge in OB. split; [lia|reflexivity].
Qed.
Lemma alloc_a_common b q r : alloc_a b q = Some r -> r_mask r = Z.shiftl 1 (r_common r) /\ r_rdl r = r_mask r /\ r_rul r = r_mask r.
Proof.
  unfold alloc_a. destruct (find_trx b q) as [n|]; [|discriminate]. cbv zeta. destruct (_ =? 0); [discriminate|].
  destruct (find_least_busy _ _ _ _ _) as [[[ts tfi] usf]|]; [|discriminate]. intros E. injection E as <-. auto.
Qed.

Lemma shown_both fd md fu mu : 0 <= md < 256 -> 0 <= mu < 256 -> tfi_assigned true fd = true -> tfi_assigned false fu = true ->
  (Z.land mu md = 0 /\ shown_pacch (Some (fd, md)) (Some (fu, mu)) = []) \/
  exists ts, lowest (Z.land mu md) ts /\ shown_pacch (Some (fd, md)) (Some (fu, mu)) = [ts].
Proof.
  intros D U AD AU. unfold shown_pacch, pacch_slots. cbv zeta. rewrite AD, AU. apply shown_lsb. apply land_u8; lia.
Qed.
Lemma shown_dl fd md ul : 0 < md < 256 -> tfi_assigned true fd = true ->
  (forall f m, ul = Some (f, m) -> tfi_assigned false f = false) ->
  exists ts, lowest md ts /\ shown_pacch (Some (fd, md)) ul = [ts].
Proof.
  intros D AD NU. unfold shown_pacch, pacch_slots. cbv zeta. rewrite AD.
  assert (E : match ul with Some (f, m) => if tfi_assigned false f then Some m else None | None => None end = None).
  { destruct ul as [[f m]|]; [|reflexivity]. rewrite (NU f m eq_refl). reflexivity. }
  rewrite E. destruct (shown_lsb md ltac:(lia)) as [[Z0 _]|X]; [lia|exact X].
Qed.
Lemma shown_ul dl fu mu : 0 < mu < 256 -> tfi_assigned false fu = true ->
  (forall f m, dl = Some (f, m) -> tfi_assigned true f = false) ->
  exists ts, lowest mu ts /\ shown_pacch dl (Some (fu, mu)) = [ts].
Proof.
  intros D AD NU. unfold shown_pacch, pacch_slots. cbv zeta. rewrite AD.
  assert (E : match dl with Some (f, m) => if tfi_assigned true f then Some m else None | None => None end = None).
  { destruct dl as [[f m]|]; [|reflexivity]. rewrite (NU f m eq_refl). reflexivity. }
  rewrite E. destruct (shown_lsb mu ltac:(lia)) as [[Z0 _]|X]; [lia|exact X].
Qed.
Lemma shown_is_common m c : 0 <= m < 256 -> 0 <= c -> c = ffs m - 1 -> filter (Z.testbit (lsb m)) [0; 1; 2; 3; 4; 5; 6; 7] = [c].
Proof.
  intros M C E. rewrite (lsb_ffs m M). destruct (Z.eqb_spec m 0) as [->|NZ]; [vm_compute in E; lia|].
  rewrite <- E. apply one_bit. pose proof (ffs_m8 m). lia.
Qed.
Lemma shown_alloc a def b dis q r fd fu : ms_ok b (q_ms q) -> counters_ok b -> fst (alloc a def b dis q) = Some r ->
  tfi_assigned true fd = true -> tfi_assigned false fu = true ->
  shown_pacch (Some (fd, match q_dir q with DL => r_mask r | UL => r_rdl r end))
              (Some (fu, match q_dir q with DL => r_rul r | UL => r_mask r end)) = [r_common r].
Proof.
  intros M C AL AD AU. destruct (alloc_all_ok _ _ _ _ _ _ M C AL) as [G (R1 & R2 & R3 & _)]. pose proof (g_mask _ _ _ G) as GM.
  unfold shown_pacch, pacch_slots. cbv zeta. rewrite AD, AU.
  assert (CASES : alloc_a b q = Some r \/ alloc_b def b q = Some r).
  { unfold alloc in AL. destruct a; cbn [fst] in AL; auto. destruct (dis && negb (idle_pdch_avail b)); cbn [fst] in AL; auto.
    destruct (alloc_b def b q); cbn [fst] in AL; auto. }
  destruct CASES as [E|E].
  - destruct (alloc_a_common _ _ _ E) as (E1 & E2 & E3). rewrite E2, E3.
    replace (match q_dir q with DL => r_mask r | UL => r_mask r end) with (r_mask r) by (destruct (q_dir q); reflexivity).
    rewrite Z.land_diag. rewrite E1.
    assert (X : r_common r = 0 \/ r_common r = 1 \/ r_common r = 2 \/ r_common r = 3 \/ r_common r = 4 \/ r_common r = 5 \/ r_common r = 6 \/ r_common r = 7) by lia.
    repeat (destruct X as [-> | X]; [reflexivity|]). rewrite X. reflexivity.
  - destruct (alloc_b_common _ _ _ _ E) as [C0 C1]. destruct (q_dir q).
    + apply shown_is_common; [apply land_u8; lia|exact C0|]. rewrite Z.land_comm. exact C1.
    + apply shown_is_common; [apply land_u8; lia|exact C0|]. rewrite Z.land_comm. exact C1.
Qed.

Lemma ul_way_listed : forall c t w rest f, is_add w -> (forall e, In (UEv e) rest -> ~ is_add e) ->
  ul_run c (fsm_new t) (UEv w :: rest) = Some f ->
  listed ShowCcch f = negb (listed ShowPacch f) /\ (w = ADD_PACCH -> listed ShowPacch f = true) /\
  (listed ShowPacch f = true -> w = ADD_PACCH \/ In (UEv ACK_PACCH) rest).
Proof.
  intros c t w rest f W N R. rewrite listed_ccch, listed_pacch. exact (proj2 (ul_way c t w rest W N f R)).
Qed.
Lemma dl_way_listed : forall c t w rest f, is_add w -> (forall e, In (DEv e) rest -> ~ is_add e) ->
  dl_run c (fsm_new t) (DEv w :: rest) = Some f -> f_dead f = None ->
  (in_use f -> listed ShowCcch f = negb (listed ShowPacch f)) /\ (w = ADD_PACCH -> listed ShowPacch f = true) /\
  (listed ShowPacch f = true -> w = ADD_PACCH \/ In (DEv ACK_PACCH) rest \/ In (DTimer UpgradeOk) rest).
Proof.
  intros c t w rest f W N R A. rewrite listed_ccch, listed_pacch. destruct (dl_way c t w rest W N f R A) as (_ & _ & P & Q).
  split; [|exact Q]. intros U. apply P. destruct U as [U|[U|U]]; rewrite U; reflexivity.
Qed.

Lemma established_iff d f : tfi_assigned d f = true <-> established d f.
Proof.
  unfold tfi_assigned, established. split.
  - intros K. split; [intros E; rewrite E in K; discriminate K|]. intros E. rewrite E in K. now apply andb_true_iff in K.
  - intros [A B]. destruct (f_st f) eqn:E; try reflexivity; [now elim A|]. apply andb_true_iff. exact (B eq_refl).
Qed.
Lemma not_established d f : ~ established d f -> tfi_assigned d f = false.
Proof. intros X. destruct (tfi_assigned d f) eqn:E; [|reflexivity]. elim X. now apply established_iff. Qed.
Lemma pacch_both : forall fd md fu mu, 0 <= md < 256 -> 0 <= mu < 256 -> established true fd -> established false fu ->
  (Z.land mu md = 0 /\ shown_pacch (Some (fd, md)) (Some (fu, mu)) = []) \/
  exists ts, lowest (Z.land mu md) ts /\ shown_pacch (Some (fd, md)) (Some (fu, mu)) = [ts].
Proof. intros fd md fu mu A B C D. apply shown_both; auto; now apply established_iff. Qed.
Lemma pacch_dl : forall fd md ul, 0 < md < 256 -> established true fd ->
  (forall f m, ul = Some (f, m) -> ~ established false f) ->
  exists ts, lowest md ts /\ shown_pacch (Some (fd, md)) ul = [ts].
Proof.
  intros fd md ul A B C. apply shown_dl; [exact A|now apply established_iff|].
  intros f m E. exact (not_established _ _ (C f m E)).
Qed.
Lemma pacch_ul : forall dl fu mu, 0 < mu < 256 -> established false fu ->
  (forall f m, dl = Some (f, m) -> ~ established true f) ->
  exists ts, lowest mu ts /\ shown_pacch dl (Some (fu, mu)) = [ts].
Proof.
  intros dl fu mu A B C. apply shown_ul; [exact A|now apply established_iff|].
  intros f m E. exact (not_established _ _ (C f m E)).
Qed.
Lemma pacch_none : forall dl ul, (forall f m, dl = Some (f, m) -> ~ established true f) ->
  (forall f m, ul = Some (f, m) -> ~ established false f) -> shown_pacch dl ul = [].
Proof.
  intros dl ul A B. unfold shown_pacch, pacch_slots.
  destruct dl as [[f m]|]; [rewrite (not_established _ _ (A f m eq_refl))|];
  (destruct ul as [[g n]|]; [rewrite (not_established _ _ (B g n eq_refl))|]); reflexivity.
Qed.
Lemma pacch_alloc : forall a def b dis q r fd fu, ms_ok b (q_ms q) -> counters_ok b ->
  fst (alloc a def b dis q) = Some r -> established true fd -> established false fu ->
  shown_pacch (Some (fd, match q_dir q with DL => r_mask r | UL => r_rdl r end))
              (Some (fu, match q_dir q with DL => r_rul r | UL => r_mask r end)) = [r_common r].
Proof. intros a def b dis q r fd fu A B C D E. apply (shown_alloc a def b dis); auto; now apply established_iff. Qed.
Lemma rg_nodup : NoDup (rg 0 50).
Proof. apply FinFun.Injective_map_NoDup; [intros x y E; lia|apply seq_NoDup]. Qed.
Lemma rg_short : (length (rg 0 50) < 256)%nat.
Proof. unfold rg. rewrite map_length, seq_length. lia. Qed.
