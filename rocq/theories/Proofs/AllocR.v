(** The allocated timeslots and the mobile's multislot class. *)
From Coq Require Import ZArith List Bool Lia.
From Verif Require Import Base.Arith Model.Mslot Model.Alloc Model.Cell Spec.AllocSpec Spec.MslotSpec Proofs.AllocP Proofs.AllocQ.
Import ListNotations.
Local Open Scope Z_scope.

Definition one_check (i : nat) : bool :=
  match ability_of (Z.of_nat i) with
  | None => true
  | Some a => (1 <=? ab_tx a) && (1 <=? ab_rx a) && (match ab_sum a with Some s => 2 <=? s | None => true end) &&
      match ab_gaps a with Some (tta, ttb, tra, trb) => (tra <=? 4) && (ttb <=? 2) | None => true end
  end.
Lemma ones_ok : forallb one_check (seq 0 46) = true.
Proof. vm_compute. reflexivity. Qed.
Lemma size_one : forall ts, 0 <= ts < 8 -> size (Z.shiftl 1 ts) = 1.
Proof.
  intros ts H. assert (F : forallb (fun ts => size (Z.shiftl 1 ts) =? 1) slots8 = true) by (vm_compute; reflexivity).
  rewrite forallb_forall in F. specialize (F ts (proj2 (in_slots8 ts) H)). lia.
Qed.
Lemma ability_range : forall cl a, ability_of cl = Some a -> exists i, (i < 46)%nat /\ ability_of cl = ability_of (Z.of_nat i).
Proof.
  intros cl a H. exists (Z.to_nat cl). split.
  - destruct (Nat.lt_ge_cases (Z.to_nat cl) 46) as [L|L]; [ exact L | ]. exfalso. unfold ability_of in H. rewrite nth_overflow in H; [ discriminate | exact L ].
  - unfold ability_of. now rewrite Nat2Z.id.
Qed.
Lemma one_serves : forall cl a ts, ability_of cl = Some a -> 0 <= ts < 8 -> can_serve a (Z.shiftl 1 ts) (Z.shiftl 1 ts).
Proof.
  intros cl a ts H R. destruct (ability_range cl a H) as (i & Li & Ei). rewrite Ei in H.
  pose proof ones_ok as O. rewrite forallb_forall in O. specialize (O i). assert (Ii : In i (seq 0 46)) by (apply in_seq; lia). specialize (O Ii).
  unfold one_check in O. rewrite H in O. unfold can_serve. rewrite size_one by exact R.
  apply andb_true_iff in O. destruct O as [O O4]. apply andb_true_iff in O. destruct O as [O O3]. apply andb_true_iff in O. destruct O as [O1 O2].
  splits; try lia.
  - destruct (ab_sum a); [ lia | exact I ].
  - destruct (ab_gaps a) as [[[[tta ttb] tra] trb]|]; [ | exact I ]. right. intros u d Ou Od.
    apply on_shift1 in Ou, Od; try exact R. subst u d. unfold after. replace (ts - ts - 3) with (-3) by lia.
    change ((-3) mod 8) with 5. lia.
Qed.

Lemma single_sub : forall t d dl ul x ts, on (get_single_ts t d dl ul (Some x)) ts -> on dl ts /\ on ul ts.
Proof. intros t d dl ul x ts O. unfold get_single_ts in O. cbv zeta in O. apply on_land in O. destruct O as [O _]. now apply on_land in O. Qed.

Lemma alloc_serves : forall a def b dis q r, ms_ok b (q_ms q) -> counters_ok b ->
  (v_rul (q_ms q) <> 0 -> v_rdl (q_ms q) <> 0 -> serves def (q_ms q) (v_rul (q_ms q)) (v_rdl (q_ms q))) ->
  q_single q = false \/ q_dir q = DL \/ v_common (q_ms q) <> None ->
  fst (alloc a def b dis q) = Some r ->
  serves def (q_ms q) (r_rul r) (r_rdl r) /\
  forall ts, on (r_mask r) ts -> on (r_rdl r) ts /\ (q_dir q = UL -> on (r_rul r) ts).
Proof.
  intros a def b dis q r M C PRE NS H.
  assert (A : alloc_a b q = Some r -> serves def (q_ms q) (r_rul r) (r_rdl r) /\
    forall ts, on (r_mask r) ts -> on (r_rdl r) ts /\ (q_dir q = UL -> on (r_rul r) ts)).
  { intro HA. unfold alloc_a in HA. destruct (find_trx b q) as [n|]; [ | discriminate ]. cbv zeta in HA.
    match type of HA with context [find_possible_pdchs (b n) 1 ?m] => set (mask := find_possible_pdchs (b n) 1 m) in * end.
    clearbody mask. destruct (mask =? 0); [ discriminate | ].
    destruct (find_least_busy (b n) (q_dir q) mask usage_a true) as [[[ts tfi] usf]|] eqn:L; [ | discriminate ].
    apply find_least_busy_ok in L. destruct L as [[R L1] _]. inversion HA; subst r. cbn [r_rul r_rdl r_mask].
    split; [ | tauto ]. split.
    - intros ab E. eapply one_serves; eassumption.
    - exists ts. split; apply on_shift1; auto. }
  assert (B : alloc_b def b q = Some r -> serves def (q_ms q) (r_rul r) (r_rdl r) /\
    forall ts, on (r_mask r) ts -> on (r_rdl r) ts /\ (q_dir q = UL -> on (r_rul r) ts)).
  { intro HB. pose proof (alloc_b_ok def b q r M C HB) as [_ [RR1 [RR2 _]]]. unfold alloc_b in HB. cbv zeta in HB.
    destruct (req_tfi_find_free b q) as [[tfi n]|]; [ | discriminate ].
    assert (R0 : 0 <= v_rul (q_ms q) < 256 /\ 0 <= v_rdl (q_ms q) < 256).
    { unfold ms_ok in M. destruct (v_trx (q_ms q)) as [k|]; [ tauto | ]. destruct M as [-> ->]. lia. }
    match type of HB with match ?x with _ => _ end = _ => destruct x as [[rul rdl]|] eqn:SL end; [ | discriminate ].
    assert (S : 0 <= rul < 256 /\ 0 <= rdl < 256 /\ serves def (q_ms q) rul rdl).
    { destruct ((v_rdl (q_ms q) =? 0) || (v_rul (q_ms q) =? 0)) eqn:E0.
      - apply find_multi_ok in SL; [ | tauto | tauto ]. destruct SL as (S1 & S2 & _ & _ & _ & [ab [S3 S4]] & _ & S5).
        splits; try lia. split; [ | exact S5 ]. intros ab' E. congruence.
      - apply orb_false_iff in E0. inversion SL; subst. splits; try tauto. apply PRE; lia. }
    destruct S as [HU [HD [SA SS]]].
    pose proof (select_range (b n) q rul rdl HU HD) as SR.
    set (sel := select_slot_set (b n) q rul rdl) in *.
    destruct (sel =? 0); [ discriminate | ].
    destruct (q_dir q) eqn:D.
    - assert (SUB : forall ts, on sel ts -> on rdl ts).
      { intros ts O. unfold sel, select_slot_set in O. rewrite D in O. cbn [is_ul] in O.
        destruct (q_single q); [ | exact O ]. apply get_single_sub in O; [ tauto | exact C | lia | lia ]. }
      match type of HB with (if ?c then _ else _) = _ => destruct c end; [ discriminate | ].
      inversion HB; subst r. cbn [r_rul r_rdl r_mask]. split; [ split; assumption | ].
      intros ts O. split; [ auto | discriminate ].
    - assert (SUB : forall ts, on sel ts -> on rul ts).
      { intros ts O. unfold sel, select_slot_set in O. rewrite D in O. cbn [is_ul] in O.
        destruct (q_single q); [ | exact O ]. destruct NS as [NS|[NS|NS]]; try discriminate.
        destruct (v_common (q_ms q)) as [[cn cts]|]; [ | congruence ]. cbn [option_map snd] in O. apply single_sub in O. tauto. }
      destruct (allocate_usf (b n) sel rdl) as [[u usf]|] eqn:AU; [ | discriminate ].
      apply allocate_usf_ok in AU; [ | lia | lia ]. destruct AU as [A1 A2].
      match type of HB with (if ?c then _ else _) = _ => destruct c end; [ discriminate | ].
      inversion HB; subst r. cbn [r_rul r_rdl r_mask] in *. split.
      + split.
        * intros ab E. eapply can_serve_mono; [ exact (SA ab E) | intros ts O; apply SUB; apply A2; exact O | auto ].
        * destruct (m8_nonzero u) as [ts O]; [ lia | lia | ]. exists ts. split; [ exact O | apply A2; exact O ].
      + intros ts O. split; [ apply A2; exact O | auto ]. }
  unfold alloc in H. destruct a; cbn [fst] in H; auto.
  destruct (dis && negb (idle_pdch_avail b)); cbn [fst] in H; [ auto | ].
  destruct (alloc_b def b q) as [r'|] eqn:E; cbn [fst] in H; [ | auto ]. apply B. congruence.
Qed.
