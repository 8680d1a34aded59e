(** More proofs about the PCU interface (C73): the state of the cells over all histories. *)
From Coq Require Import ZArith List Bool Lia.
From Verif Require Import Model.FrameNo Model.BtsConf Model.PcuIf Spec.PcuIfSpec Proofs.PcuIfQ.
Import ListNotations.
Local Open Scope Z_scope.

(** ** What holds of the cells at any time *)
Definition wfx (xs : list trx) : Prop := length xs = 8%nat /\ Forall (fun x => length (x_pdch x) = 8%nat) xs.
Definition wf (s : pcu) : Prop := NoDup (map b_nr (s_bts s)) /\ Forall (fun b => wfx (b_trx b)) (s_bts s).

Lemma new_wf : forall nr, wfx (b_trx (new_bts nr)).
Proof. intros nr. split; [reflexivity|]. cbn [b_trx new_bts]. apply Forall_forall. intros x Hx. apply repeat_spec in Hx. now subst. Qed.

Lemma find_in : forall s nr b, find_bts s nr = Some b -> In b (s_bts s) /\ b_nr b = nr.
Proof. intros s nr b H. apply find_some in H. destruct H as [H1 H2]. split; [easy|lia]. Qed.

Lemma find_app_new : forall l nr, find (fun b => b_nr b =? nr) l = None ->
  find (fun b => b_nr b =? nr) (l ++ [new_bts nr]) = Some (new_bts nr).
Proof.
  induction l as [|x l IH]; intros nr; cbn [find app].
  - intros _. cbn [b_nr new_bts]. now rewrite Z.eqb_refl.
  - destruct (b_nr x =? nr); [discriminate|]. apply IH.
Qed.
Lemma find_app_other : forall l nr m, m <> nr ->
  find (fun b => b_nr b =? m) (l ++ [new_bts nr]) = find (fun b => b_nr b =? m) l.
Proof.
  induction l as [|x l IH]; intros nr m Hm; cbn [find app].
  - cbn [b_nr new_bts]. destruct (Z.eqb_spec nr m); [congruence|reflexivity].
  - destruct (b_nr x =? m); [reflexivity|]. now apply IH.
Qed.

Lemma have_wf : forall s nr, wf s -> wf (fst (have_bts s nr)).
Proof.
  intros s nr [H1 H2]. unfold have_bts. destruct (find_bts s nr) as [b|] eqn:E; [easy|]. cbn [fst].
  split; cbn [s_bts].
  - rewrite map_app. cbn [map]. apply NoDup_rev in H1.
    rewrite <- (rev_involutive (map b_nr (s_bts s))), <- (rev_involutive [b_nr (new_bts nr)]).
    rewrite <- rev_app_distr. apply NoDup_rev. cbn [rev app]. constructor; [|easy].
    rewrite <- in_rev. intros Hin. apply in_map_iff in Hin. destruct Hin as (x & Hx & Hin).
    pose proof (find_none _ _ E x Hin) as Hn. cbn beta in Hn. cbn [b_nr new_bts] in Hx. lia.
  - apply Forall_app. split; [easy|]. constructor; [apply new_wf|constructor].
Qed.
Lemma have_find : forall s nr, find_bts (fst (have_bts s nr)) nr = Some (snd (have_bts s nr)).
Proof.
  intros s nr. unfold have_bts. destruct (find_bts s nr) as [b|] eqn:E; cbn [fst snd]; [easy|].
  unfold find_bts in *. cbn [s_bts]. now apply find_app_new.
Qed.
Lemma have_nr : forall s nr, b_nr (snd (have_bts s nr)) = nr.
Proof.
  intros s nr. unfold have_bts. destruct (find_bts s nr) as [b|] eqn:E; cbn [snd]; [|reflexivity].
  now apply find_in in E.
Qed.
Lemma have_other : forall s nr m, m <> nr -> find_bts (fst (have_bts s nr)) m = find_bts s m.
Proof.
  intros s nr m Hm. unfold have_bts. destruct (find_bts s nr) as [b|] eqn:E; cbn [fst]; [easy|].
  unfold find_bts. cbn [s_bts]. now apply find_app_other.
Qed.
Lemma have_bwf : forall s nr, wf s -> wfx (b_trx (snd (have_bts s nr))).
Proof.
  intros s nr H. pose proof (have_wf s nr H) as [_ W]. pose proof (have_find s nr) as F.
  apply find_in in F. destruct F as [F _]. rewrite Forall_forall in W. now apply W.
Qed.

(** ** Replacing a cell *)
Lemma set_find : forall s b nr b', find_bts s nr = Some b -> b_nr b' = nr ->
  find_bts (set_bts s b') nr = Some b'.
Proof.
  intros s b nr b' F N. unfold find_bts, set_bts in *. cbn [s_bts].
  induction (s_bts s) as [|x l IH]; cbn [find map] in *; [discriminate|]. rewrite N in *.
  destruct (b_nr x =? nr) eqn:E; [now rewrite N, Z.eqb_refl|]. rewrite E. now apply IH.
Qed.
Lemma set_find_other : forall s b' m, m <> b_nr b' -> find_bts (set_bts s b') m = find_bts s m.
Proof.
  intros s b' m N. unfold find_bts, set_bts. cbn [s_bts].
  induction (s_bts s) as [|x l IH]; cbn [find map]; [reflexivity|].
  destruct (Z.eqb_spec (b_nr x) (b_nr b')) as [E|E].
  - rewrite E. destruct (Z.eqb_spec (b_nr b') m); [congruence|]. apply IH.
  - destruct (b_nr x =? m); [reflexivity|apply IH].
Qed.
Lemma set_same : forall s b nr, NoDup (map b_nr (s_bts s)) -> find_bts s nr = Some b -> s_bts (set_bts s b) = s_bts s.
Proof.
  intros s b nr N F. apply find_in in F. destruct F as [F E]. unfold set_bts. cbn [s_bts].
  rewrite <- (map_id (s_bts s)) at 2. apply map_ext_in. intros x Hx.
  destruct (Z.eqb_spec (b_nr x) (b_nr b)) as [Q|]; [|reflexivity].
  induction (s_bts s) as [|y l IH]; [contradiction|]. cbn [map] in N. inversion N as [|? ? N1 N2]; subst.
  destruct F as [->|F], Hx as [->|Hx]; try easy.
  - exfalso. apply N1. rewrite <- Q. now apply in_map.
  - exfalso. apply N1. rewrite Q. now apply in_map.
  - now apply IH.
Qed.
Lemma set_wf : forall s b', wf s -> wfx (b_trx b') -> wf (set_bts s b').
Proof.
  intros s b' [H1 H2] H3. unfold set_bts. split; cbn [s_bts].
  - rewrite map_map. erewrite map_ext; [exact H1|]. intros x. cbn beta.
    destruct (Z.eqb_spec (b_nr x) (b_nr b')); congruence.
  - rewrite Forall_forall in *. intros x Hx. apply in_map_iff in Hx. destruct Hx as (z & Hz & Hin).
    destruct (b_nr z =? b_nr b'); subst; auto.
Qed.

(** ** The requests to the BTS *)
Definition tell (on : bool) (a : list act) (nr trx ts : Z) : bool :=
  fold_left (fun on x => match x with
    | AActivate n x' t' o => if (n =? nr) && (x' =? trx) && (t' =? ts) then o else on
    | _ => on end) a on.
Lemma tell_app : forall on a b n x t, tell on (a ++ b) n x t = tell (tell on a n x t) b n x t.
Proof. intros. unfold tell. apply fold_left_app. Qed.
Definition quiet (nr : Z) (a : list act) : Prop :=
  Forall (fun x => about nr x /\ match x with AActivate _ _ _ _ => False | _ => True end) a.
Lemma tell_quiet : forall nr a on n x t, quiet nr a -> tell on a n x t = on.
Proof.
  induction a as [|y a IH]; intros on n x t Q; [reflexivity|]. inversion Q as [|? ? [_ Q1] Q2]; subst.
  unfold tell in *. cbn [fold_left]. destruct y; try contradiction; now apply IH.
Qed.

Lemma slot_tell : forall nr trx mask ts i p p' a, set_slot nr trx mask ts i p = Some (p', a) ->
  tell (p_on p) a nr trx ts = p_on p' /\
  (forall on n x t, (n <> nr \/ x <> trx \/ t <> ts) -> tell on a n x t = on) /\
  (length (is_ma i) = 8%nat -> as_wanted mask ts i p').
Proof.
  intros nr trx mask ts i p p' a E. unfold set_slot in E.
  assert (X : forall o on n x t, (n <> nr \/ x <> trx \/ t <> ts) -> tell on [AActivate nr trx ts o] n x t = on).
  { intros o on n x t D. unfold tell. cbn [fold_left].
    destruct (Z.eqb_spec nr n), (Z.eqb_spec trx x), (Z.eqb_spec ts t); cbn [andb]; try reflexivity. lia. }
  assert (Y : forall o on, tell on [AActivate nr trx ts o] nr trx ts = o).
  { intros o on. unfold tell. cbn [fold_left]. now rewrite !Z.eqb_refl. }
  unfold as_wanted.
  destruct (Z.testbit mask ts).
  - destruct (is_hop i =? 0) eqn:Hh.
    + injection E as <- <-. cbn [p_on p_tsc]. split; [|split].
      * destruct (p_on p) eqn:O; [reflexivity|apply Y].
      * intros on n x t D. destruct (p_on p); [reflexivity|now apply X].
      * intros _. split; [reflexivity|]. intros _. split; [reflexivity|]. intros C. lia.
    + destruct (64 <? is_malen i) eqn:Hm; [discriminate|]. injection E as <- <-.
      cbn [p_on p_tsc p_hop p_hsn p_maio p_malen p_ma]. split; [|split].
      * destruct (p_on p) eqn:O; [reflexivity|apply Y].
      * intros on n x t D. destruct (p_on p); [reflexivity|now apply X].
      * intros L. split; [reflexivity|]. intros _. split; [reflexivity|]. intros _.
        repeat (split; [reflexivity|]).
        set (k := Z.to_nat ((is_malen i + 7) / 8)).
        assert (K : (k <= 8)%nat).
        { unfold k. assert ((is_malen i + 7) / 8 < 9) by (apply Z.div_lt_upper_bound; lia). lia. }
        match goal with |- context [skipn ?m (is_ma i) ++ _] => change m with (8 - k)%nat end.
        clearbody k. generalize (skipn k (p_ma p)). intros z.
        assert (G : length (skipn (8 - k) (is_ma i)) = k) by (rewrite skipn_length, L; lia).
        revert G. generalize (skipn (8 - k) (is_ma i)). intros l <-.
        rewrite firstn_app, firstn_all, Nat.sub_diag. cbn [firstn]. apply app_nil_r.
  - destruct (p_on p) eqn:O; injection E as <- <-; cbn [p_on]; (split; [|split]).
    + apply Y.
    + intros; now apply X.
    + intros _. split; [reflexivity|discriminate].
    + now rewrite O.
    + reflexivity.
    + intros _. rewrite O. split; [reflexivity|discriminate].
Qed.

Lemma slots_tell : forall nr trx mask is ts ps ps' a, set_slots nr trx mask ts is ps = Some (ps', a) ->
  length ps' = length ps /\
  (forall k p, nth_error ps k = Some p -> exists p', nth_error ps' k = Some p' /\
     tell (p_on p) a nr trx (ts + Z.of_nat k) = p_on p') /\
  (forall on n x t, (n <> nr \/ x <> trx \/ t < ts \/ ts + Z.of_nat (length ps) <= t) -> tell on a n x t = on) /\
  (forall k i, nth_error is k = Some i -> (k < length ps)%nat -> length (is_ma i) = 8%nat ->
     exists p', nth_error ps' k = Some p' /\ as_wanted mask (ts + Z.of_nat k) i p').
Proof.
  induction is as [|i is IH]; intros ts [|p ps] ps' a E; cbn [set_slots] in E.
  - injection E as <- <-. repeat split; try reflexivity.
    + intros [|k] p H; discriminate.
    + intros [|k] i H; discriminate.
  - injection E as <- <-. repeat split; try reflexivity.
    + intros k q H. exists q. easy.
    + intros [|k] i H; discriminate.
  - injection E as <- <-. repeat split; try reflexivity.
    + intros [|k] q H; discriminate.
    + intros k j _ H. cbn in H. lia.
  - destruct (set_slot nr trx mask ts i p) as [[p1 a1]|] eqn:E1; [|discriminate].
    destruct (set_slots nr trx mask (ts + 1) is ps) as [[r a2]|] eqn:E2; [|discriminate].
    injection E as <- <-. apply slot_tell in E1. destruct E1 as (S1 & S2 & S3).
    apply IH in E2. destruct E2 as (L & T1 & T2 & T3). split; [|split; [|split]].
    + cbn [length]. now rewrite L.
    + intros [|k] q H; cbn [nth_error] in *.
      * injection H as <-. exists p1. split; [reflexivity|]. rewrite tell_app, T2 by lia.
        replace (ts + Z.of_nat 0) with ts by lia. exact S1.
      * destruct (T1 k q H) as (q' & Q1 & Q2). exists q'. split; [exact Q1|].
        rewrite tell_app, S2 by lia. rewrite <- Q2. f_equal. lia.
    + intros on n x t D. cbn [length] in D. rewrite tell_app, T2, S2; try reflexivity; lia.
    + intros [|k] j H K M; cbn [nth_error length] in *.
      * injection H as <-. exists p1. split; [reflexivity|]. replace (ts + Z.of_nat 0) with ts by lia. now apply S3.
      * destruct (T3 k j H ltac:(lia) M) as (q' & Q1 & Q2). exists q'. split; [exact Q1|].
        replace (ts + Z.of_nat (S k)) with (ts + 1 + Z.of_nat k) by lia. exact Q2.
Qed.

Lemma trxs_tell : forall nr is n xs xs' a, set_trxs nr n is xs = Some (xs', a) ->
  Forall (fun x => length (x_pdch x) = 8%nat) xs ->
  length xs' = length xs /\ Forall (fun x => length (x_pdch x) = 8%nat) xs' /\
  (forall j x k p, nth_error xs j = Some x -> nth_error (x_pdch x) k = Some p ->
     exists x' p', nth_error xs' j = Some x' /\ nth_error (x_pdch x') k = Some p' /\
       tell (p_on p) a nr (n + Z.of_nat j) (Z.of_nat k) = p_on p') /\
  (forall on m x t, (m <> nr \/ x < n \/ n + Z.of_nat (length xs) <= x \/ t < 0 \/ 8 <= t) -> tell on a m x t = on) /\
  (forall j xi k i, nth_error is j = Some xi -> nth_error (ix_ts xi) k = Some i -> (j < length xs)%nat -> (k < 8)%nat ->
     length (is_ma i) = 8%nat ->
     exists x' p', nth_error xs' j = Some x' /\ x_arfcn x' = ix_arfcn xi /\ nth_error (x_pdch x') k = Some p' /\
       as_wanted (ix_mask xi) (Z.of_nat k) i p').
Proof.
  induction is as [|i is IH]; intros n [|x xs] xs' a E F; cbn [set_trxs] in E.
  - injection E as <- <-. split; [easy|]. split; [easy|]. split; [intros [|j] x k p H; discriminate|].
    split; [easy|]. intros [|j] x k p H; discriminate.
  - injection E as <- <-. split; [easy|]. split; [easy|]. split; [intros j y k p H1 H2; exists y, p; easy|].
    split; [easy|]. intros [|j] y k p H; discriminate.
  - injection E as <- <-. split; [easy|]. split; [easy|]. split; [intros [|j] x k p H; discriminate|].
    split; [easy|]. intros j y k p _ _ H. cbn in H. lia.
  - destruct (set_slots nr n (ix_mask i) 0 (ix_ts i) (x_pdch x)) as [[ps a1]|] eqn:E1; [|discriminate].
    destruct (set_trxs nr (n + 1) is xs) as [[r a2]|] eqn:E2; [|discriminate].
    injection E as <- <-. inversion F as [|? ? F1 F2]; subst.
    apply slots_tell in E1. destruct E1 as (S0 & S1 & S2 & S3).
    apply IH in E2; [|exact F2]. destruct E2 as (L & W & T1 & T2 & T3). rewrite F1 in *.
    split; [|split; [|split; [|split]]].
    + cbn [length]. now rewrite L.
    + constructor; [cbn [x_pdch]; easy|easy].
    + intros [|j] y k p H1 H2; cbn [nth_error] in *.
      * injection H1 as <-. destruct (S1 k p H2) as (q & Q1 & Q2). exists (mk_trx (ix_arfcn i) ps), q.
        cbn [x_pdch]. split; [reflexivity|]. split; [exact Q1|]. rewrite tell_app, T2 by lia.
        replace (n + Z.of_nat 0) with n by lia. exact Q2.
      * destruct (T1 j y k p H1 H2) as (y' & q & Q0 & Q1 & Q2). exists y', q. split; [exact Q0|]. split; [exact Q1|].
        rewrite tell_app, S2 by lia. rewrite <- Q2. f_equal. lia.
    + intros on m y t D. cbn [length] in D. rewrite tell_app, T2, S2; try reflexivity; lia.
    + intros [|j] y k q H1 H2 H3 H4 M; cbn [nth_error length] in *.
      * injection H1 as <-. destruct (S3 k q H2 H4 M) as (p' & Q1 & Q2). exists (mk_trx (ix_arfcn i) ps), p'.
        repeat (split; [reflexivity|]). split; [exact Q1|]. exact Q2.
      * destruct (T3 j y k q H1 H2 ltac:(lia) H4 M) as (y' & p' & Q). exists y', p'. exact Q.
Qed.

Lemma slots_about : forall nr trx mask is ts ps ps' a, set_slots nr trx mask ts is ps = Some (ps', a) ->
  Forall (about nr) a.
Proof.
  induction is as [|i is IH]; intros ts [|p ps] ps' a E; cbn [set_slots] in E; try (injection E as <- <-; constructor).
  destruct (set_slot nr trx mask ts i p) as [[p1 a1]|] eqn:E1; [|discriminate].
  destruct (set_slots nr trx mask (ts + 1) is ps) as [[r a2]|] eqn:E2; [|discriminate].
  injection E as <- <-. apply Forall_app. split; [|eapply IH; eauto]. unfold set_slot in E1.
  destruct (Z.testbit mask ts), (is_hop i =? 0), (64 <? is_malen i), (p_on p); try discriminate;
    injection E1 as <- <-; repeat constructor.
Qed.
Lemma trxs_about : forall nr is n xs xs' a, set_trxs nr n is xs = Some (xs', a) -> Forall (about nr) a.
Proof.
  induction is as [|i is IH]; intros n [|x xs] xs' a E; cbn [set_trxs] in E; try (injection E as <- <-; constructor).
  destruct (set_slots nr n (ix_mask i) 0 (ix_ts i) (x_pdch x)) as [[ps a1]|] eqn:E1; [|discriminate].
  destruct (set_trxs nr (n + 1) is xs) as [[r a2]|] eqn:E2; [|discriminate].
  injection E as <- <-. apply Forall_app. split; [eapply slots_about; eauto|eapply IH; eauto].
Qed.

(** ** One message *)
(** A message that leaves the timeslots alone. *)
Definition keeps (s : pcu) (b : bts) (s' : pcu) : Prop :=
  exists b', s_bts s' = s_bts (set_bts s b') /\ b_nr b' = b_nr b /\ b_trx b' = b_trx b.
Definition step_of (s : pcu) (b : bts) (s' : pcu) (a : list act) : Prop :=
  (keeps s b s' /\ quiet (b_nr b) a) \/
  exists b' i, s_bts s' = s_bts (set_bts s b') /\ b_nr b' = b_nr b /\
    set_trxs (b_nr b) 0 (in_trx i) (b_trx b) = Some (b_trx b', a).

Lemma keeps_same : forall s b, wf s -> find_bts s (b_nr b) = Some b -> keeps s b s.
Proof. intros s b [N _] F. exists b. now rewrite (set_same s b (b_nr b) N F). Qed.
Ltac q := repeat first [apply Forall_nil | apply Forall_cons | exact Logic.I | reflexivity | split].

Lemma bcch_keeps : forall e s b d, wf s -> find_bts s (b_nr b) = Some b -> keeps s b (fst (rx_bcch e s b d)).
Proof.
  intros e s b d W F. unfold rx_bcch.
  assert (X : forall s1 s2 s3 s4, keeps s b (set_bts s (set_si b s1 s2 s3 s4))).
  { intros. exists (set_si b s1 s2 s3 s4). repeat split. }
  pose proof (keeps_same s b W F) as Y.
  repeat match goal with |- context [if ?c then _ else _] => destruct c end; cbn [fst]; try apply X; try apply Y.
  destruct (e_si13 e _) as [t1 t2]. cbn [fst].
  destruct (X (b_si1 b) (b_si2 b) (b_si3 b) (Some (firstn 23 (di_data d)))) as (b' & H). exists b'. exact H.
Qed.

Lemma data_keeps : forall e s b d raw s' a rc, wf s -> find_bts s (b_nr b) = Some b ->
  rx_data e s b d raw = Done s' a rc -> keeps s b s' /\ quiet (b_nr b) a.
Proof.
  intros e s b d raw s' a rc W F E. unfold rx_data in E.
  assert (T : forall s1 a1 rc1, keeps s b s1 -> quiet (b_nr b) a1 ->
    (if (rc1 <? 0) && e_tap e then
       match octets_at (di_len d) (skipn 2 raw) with Some o => Done s1 (a1 ++ [ATap o]) rc1 | None => Fault end
     else Done s1 a1 rc1) = Done s' a rc -> keeps s b s' /\ quiet (b_nr b) a).
  { clear E. intros s1 a1 rc1 K Q E1. destruct (_ && _).
    - destruct (octets_at _ _); [|discriminate]. injection E1 as <- <- <-. split; [exact K|].
      apply Forall_app. split; [exact Q|q].
    - injection E1 as <- <- <-. easy. }
  destruct (e_log e && _); [discriminate|].
  destruct (di_sapi d =? 5).
  - destruct (e_log e && _); [discriminate|]. destruct (negb _); [discriminate|].
    destruct (slot_of b (di_trx d) (di_ts d)) as [p|]; [|discriminate].
    assert (K : keeps s b (set_bts s (set_fn b (di_fn d)))) by (exists (set_fn b (di_fn d)); easy).
    destruct (p_on p).
    + destruct (octets_at (di_len d) (skipn 2 raw)) eqn:O; cbv beta in E.
      * eapply T; [exact K| |exact E]. q.
      * eapply T; [exact K| |exact E]. q.
    + eapply T; [exact K| |exact E]. q.
  - destruct (di_sapi d =? 4).
    + pose proof (bcch_keeps e s b d W F) as K. destruct (rx_bcch e s b d) as [s1 rc1]. cbn [fst] in K.
      eapply T; [exact K| |exact E]. q.
    + eapply T; [now apply keeps_same| |exact E]. q.
Qed.

(** An INFO.ind that is taken. *)
Definition info_id (i : info) : cgi :=
  mk_cgi (in_mcc i) (in_mnc i) (flag (in_mnc3 i)) (in_lac i) (in_rac i mod 256) (in_ci i).
Definition timed (i : info) : bool := negb (in_t3142 i =? 0).
Definition info_bts (s : pcu) (b : bts) (i : info) (xs : list trx) : bts :=
  mk_bts (b_nr b) true (b_fn b) xs (info_id i) (in_bsic i)
    (info_ind (s_vty s) (Z.shiftr (in_flags i) 16) (Z.shiftr (in_flags i) 20) (in_cs i) (in_mcs i) (b_conf b))
    (if timed i then in_n3101 i else b_n3101 b) (if timed i then in_n3103 i else b_n3103 b)
    (if timed i then in_n3105 i else b_n3105 b) (b_si1 b) (b_si2 b) (b_si3 b) (b_si13 b) (in_model i)
    (gen_idle (in_model i)).
Definition info_t (t : tdefs) (i : info) : tdefs :=
  if timed i then mk_td (in_t3142 i) (t_3168 t) (in_t3169 i) (in_t3191 i) (t_3192 t) (in_t3193 i * 10) (in_t3195 i)
  else t.
Definition info_bg (e : env) (s : pcu) (b : bts) (i : info) : option bssgp :=
  match s_bssgp s with
  | Some g => Some g
  | None => if e_bssgp e then Some (mk_bg (b_nr b) (in_bvci i) (in_nsei i) (info_id i)) else None
  end.
Lemma info_inv : forall e s b i s' a rc, rx_info e s b i = Done s' a rc ->
  (s' = s /\ a = [] /\ rc = EAGAIN /\ Z.testbit (in_flags i) 0 = false) \/
  (rc = 0 /\ Z.testbit (in_flags i) 0 = true /\ in_version i = 12 /\ exists xs g,
   set_trxs (b_nr b) 0 (in_trx i) (b_trx b) = Some (xs, a) /\ info_bg e s b i = Some g /\
   s' = mk_pcu (s_bts (set_bts s (info_bts s b i xs))) (info_t (s_t s) i) (Some g) (s_e1 s) (s_vty s)).
Proof.
  intros e s b i s' a rc E. unfold rx_info in E.
  destruct (negb (in_version i =? 12)) eqn:V; [discriminate|].
  destruct (Z.testbit (in_flags i) 0) eqn:B; cbn [negb] in E.
  2: { destruct (b_active b); [discriminate|]. apply (f_equal (fun o => match o with Done s a r => (s, (a, r)) | _ => (s, ([], 0)) end)) in E.
       cbv beta iota in E. apply pair_equal_spec in E. destruct E as [E1 E2].
       apply pair_equal_spec in E2. destruct E2 as [E2 E3]. left. now subst. }
  right. cbv zeta in E. fold (info_id i) in E. fold (info_bg e s b i) in E. fold (timed i) in E.
  destruct (info_bg e s b i) as [g|]; [|discriminate].
  destruct (negb (ns_ok e i)); [discriminate|].
  destruct (set_trxs (b_nr b) 0 (in_trx i) (b_trx b)) as [[xs a1]|]; [|discriminate].
  destruct (_ && _); [discriminate|].
  apply (f_equal (fun o => match o with Done s a r => (s, (a, r)) | _ => (s, ([], 0)) end)) in E.
  cbv beta iota in E. apply pair_equal_spec in E. destruct E as [E1 E2].
  apply pair_equal_spec in E2. destruct E2 as [E2 E3]. subst a1 rc.
  split; [reflexivity|]. split; [reflexivity|]. split; [lia|]. exists xs, g.
  split; [reflexivity|]. split; [reflexivity|]. symmetry. exact E1.
Qed.

Lemma disp_step : forall e s b ty raw s' a rc, wf s -> find_bts s (b_nr b) = Some b ->
  disp e s b ty raw = Done s' a rc -> step_of s b s' a.
Proof.
  intros e s b ty raw s' a rc W F E. unfold disp in E. pose proof (keeps_same s b W F) as K.
  assert (X : forall a0 rc0, Done s a0 rc0 = Done s' a rc -> quiet (b_nr b) a0 -> step_of s b s' a).
  { intros a0 rc0 H Q. injection H as <- <- <-. left. easy. }
  destruct (ty =? 2).
  { destruct (short _ _); [eapply X; [exact E|q]|]. left. eapply data_keeps; eauto. }
  destruct (ty =? 17).
  { destruct (short _ _); [eapply X; [exact E|q]|]. unfold rx_cnf in E. destruct (_ || _); (eapply X; [exact E|q]). }
  destruct (ty =? 16).
  { destruct (short _ _); [eapply X; [exact E|q]|]. unfold rx_rts in E.
    destruct (e_log e && _); [discriminate|].
    destruct (rt_sapi _ =? 5); [|destruct (rt_sapi _ =? 7)].
    - destruct (_ || _); [eapply X; [exact E|q]|]. destruct (slot_of _ _ _) as [p|]; [|discriminate].
      destruct (p_on p); (eapply X; [exact E|q]).
    - destruct (_ || _); [eapply X; [exact E|q]|]. destruct (slot_of _ _ _) as [p|]; [|discriminate].
      destruct (p_on p); (eapply X; [exact E|q]).
    - eapply X; [exact E|q]. }
  destruct (ty =? 34).
  { destruct (short _ _); [eapply X; [exact E|q]|]. unfold rx_rach in E.
    destruct (_ <? _); [eapply X; [exact E|q]|]. destruct (bts_rfn_to_fn _ _); [|discriminate].
    destruct (ri_sapi _ =? 1); [eapply X; [exact E|q]|]. destruct (ri_sapi _ =? 7); [|eapply X; [exact E|q]].
    destruct (_ || _); [eapply X; [exact E|q]|]. destruct (slot_of _ _ _) as [p|]; [|discriminate].
    destruct (p_on p); (eapply X; [exact E|q]). }
  destruct (ty =? 50).
  { destruct (short _ _); [eapply X; [exact E|q]|]. apply info_inv in E.
    destruct E as [(-> & -> & _ & _) | (_ & _ & _ & xs & g & E1 & _ & ->)].
    - left. split; [easy|q].
    - right. exists (info_bts s b (pos_info raw) xs), (pos_info raw). split; [reflexivity|]. split; [reflexivity|]. exact E1. }
  destruct (ty =? 51).
  { destruct (short _ _); [eapply X; [exact E|q]|]. unfold rx_e1 in E. injection E as <- <- <-.
    left. split; [|q]. destruct K as (b' & K). exists b'. exact K. }
  destruct (ty =? 82); [destruct (short _ _); (eapply X; [exact E|q])|].
  destruct (ty =? 96).
  { destruct (short _ _); [eapply X; [exact E|q]|]. unfold rx_pag in E.
    destruct (_ <=? _); [eapply X; [exact E|q]|]. destruct (e_mi _ _) as [[]|]; (eapply X; [exact E|q]). }
  destruct (ty =? 3).
  { destruct (short _ _); [eapply X; [exact E|q]|]. unfold rx_susp in E.
    destruct (s_bssgp s); (eapply X; [exact E|q]). }
  destruct (ty =? 4).
  { destruct (short _ _); [eapply X; [exact E|q]|]. unfold rx_app in E.
    destruct (octets_at _ _); [|discriminate]. eapply X; [exact E|q]. }
  destruct (ty =? 83); [eapply X; [exact E|q]|].
  destruct (ty =? 128).
  { destruct (short _ _); [eapply X; [exact E|q]|]. destruct (_ <? _); [eapply X; [exact E|q]|].
    unfold rx_cont in E. destruct (_ =? 130); [|eapply X; [exact E|q]].
    destruct (_ <? _); [eapply X; [exact E|q]|]. destruct (rd_naddr _) as [[n r]|]; [|discriminate].
    eapply X; [exact E|q]. }
  eapply X; [exact E|q].
Qed.

(** The step, seen from the outside. *)
Lemma step_facts : forall s b s' a, wf s -> find_bts s (b_nr b) = Some b -> step_of s b s' a ->
  wf s' /\ Forall (about (b_nr b)) a /\ (forall m, m <> b_nr b -> find_bts s' m = find_bts s m) /\
  (forall n x t, 0 <= x -> 0 <= t -> tell (is_on s n x t) a n x t = is_on s' n x t).
Proof.
  intros s b s' a W F St.
  assert (Bw : wfx (b_trx b)).
  { destruct W as [_ W]. rewrite Forall_forall in W. apply W. now apply find_in in F. }
  assert (C : exists b', s_bts s' = s_bts (set_bts s b') /\ b_nr b' = b_nr b /\ wfx (b_trx b') /\
    (forall n x t, n <> b_nr b -> tell (is_on s n x t) a n x t = is_on s n x t) /\
    (forall x t, 0 <= x -> 0 <= t ->
       tell (match slot_of b x t with Some p => p_on p | None => false end) a (b_nr b) x t =
       match slot_of b' x t with Some p => p_on p | None => false end)).
  { destruct St as [[(b' & H1 & H2 & H3) Q] | (b' & i & H1 & H2 & H3)].
    - exists b'. split; [easy|]. split; [easy|]. split; [now rewrite H3|]. split.
      + intros. now apply (tell_quiet (b_nr b)).
      + intros. rewrite (tell_quiet (b_nr b)) by easy. unfold slot_of. now rewrite H3.
    - destruct Bw as [B1 B2]. destruct (trxs_tell _ _ _ _ _ _ H3 B2) as (L & Wx & T1 & T2 & T3).
      exists b'. split; [easy|]. split; [easy|]. split; [split; [now rewrite L|easy]|]. split.
      + intros n x t N. apply T2. now left.
      + intros x t Hx Ht. unfold slot_of.
        destruct (nth_error (b_trx b) (Z.to_nat x)) as [xx|] eqn:Ex.
        * destruct (nth_error (x_pdch xx) (Z.to_nat t)) as [p|] eqn:Et.
          { destruct (T1 _ _ _ _ Ex Et) as (x' & p' & Q1 & Q2 & Q3). rewrite Q1, Q2, <- Q3. f_equal; lia. }
          { apply nth_error_None in Et. rewrite Forall_forall in B2. rewrite (B2 xx) in Et by (eapply nth_error_In; eauto).
            rewrite T2 by lia.
            destruct (nth_error (b_trx b') (Z.to_nat x)) as [x'|] eqn:Ex'; [|reflexivity].
            destruct (nth_error (x_pdch x') (Z.to_nat t)) eqn:Et'; [|reflexivity]. exfalso.
            rewrite Forall_forall in Wx. pose proof (Wx x' (nth_error_In _ _ Ex')) as Lx.
            assert (Z.to_nat t < length (x_pdch x'))%nat by (apply nth_error_Some; congruence). lia. }
        * apply nth_error_None in Ex. rewrite T2 by lia.
          destruct (nth_error (b_trx b') (Z.to_nat x)) eqn:Ex'; [|reflexivity]. exfalso.
          assert (Z.to_nat x < length (b_trx b'))%nat by (apply nth_error_Some; congruence). lia. }
  destruct C as (b' & C1 & C2 & C3 & C4 & C5).
  assert (Fs : forall m, find_bts s' m = find_bts (set_bts s b') m) by (intros m; unfold find_bts; now rewrite C1).
  assert (Fo : forall m, m <> b_nr b -> find_bts s' m = find_bts s m)
    by (intros m Hm; rewrite Fs; apply set_find_other; congruence).
  split; [|split; [|split]].
  - pose proof (set_wf s b' W C3) as [X Y]. split; rewrite C1; easy.
  - destruct St as [[_ Q] | (b1 & i & _ & _ & Q)]; [|eapply trxs_about; eauto].
    eapply Forall_impl; [|exact Q]. cbv beta. tauto.
  - exact Fo.
  - intros n x t Hx Ht. destruct (Z.eq_dec n (b_nr b)) as [->|N].
    + unfold is_on. rewrite F, Fs, (set_find s b (b_nr b) b' F C2). now apply C5.
    + rewrite C4 by easy. unfold is_on. now rewrite Fo.
Qed.

(** ** Every message *)
Lemma new_off : forall nr x t, match slot_of (new_bts nr) x t with Some p => p_on p | None => false end = false.
Proof.
  intros nr x t. unfold slot_of. cbn [b_trx new_bts].
  destruct (nth_error (repeat _ 8) (Z.to_nat x)) as [y|] eqn:E; [|reflexivity].
  apply nth_error_In, repeat_spec in E. subst y. cbn [x_pdch].
  destruct (nth_error (repeat pdch0 8) (Z.to_nat t)) as [p|] eqn:E; [|reflexivity].
  apply nth_error_In, repeat_spec in E. now subst p.
Qed.
Lemma have_on : forall s nr n x t, is_on (fst (have_bts s nr)) n x t = is_on s n x t.
Proof.
  intros s nr n x t. destruct (Z.eq_dec n nr) as [->|N].
  - unfold is_on. rewrite have_find. unfold have_bts. destruct (find_bts s nr) eqn:E; cbn [snd]; [reflexivity|].
    apply new_off.
  - unfold is_on. now rewrite have_other.
Qed.

Lemma read_cases : forall e s d,
  (d = [] /\ sock_read e s d = Exit 0) \/
  ((0 < length d < 4)%nat /\ sock_read e s d = Done s [] EINVAL) \/
  (exists ty nr p q raw, d = ty :: nr :: p :: q :: raw /\
     sock_read e s d = rx e s ty nr (firstn 2003 raw)).
Proof.
  intros e s d. unfold sock_read. change (Z.to_nat MAX_READ) with 2007%nat.
  destruct d as [|ty [|nr [|p [|q raw]]]]; cbn [firstn].
  - left. easy.
  - right. left. cbn. split; [lia|reflexivity].
  - right. left. cbn. split; [lia|reflexivity].
  - right. left. cbn. split; [lia|reflexivity].
  - right. right. exists ty, nr, p, q, raw. easy.
Qed.
Lemma read_step : forall e s d s' a rc, wf s -> sock_read e s d = Done s' a rc ->
  wf s' /\ Forall (about (cell_nr d)) a /\ (forall m, m <> cell_nr d -> find_bts s' m = find_bts s m) /\
  (forall n x t, 0 <= x -> 0 <= t -> tell (is_on s n x t) a n x t = is_on s' n x t).
Proof.
  intros e s d s' a rc W E. destruct (read_cases e s d) as [[-> H] | [[L H] | (ty & nr & p & q & raw & -> & H)]].
  - rewrite H in E. discriminate.
  - rewrite H in E. injection E as <- <- <-. easy.
  - rewrite H, rx_disp in E. unfold cell_nr, oct. cbn [nth].
    pose proof (have_nr s nr) as N. pose proof (have_find s nr) as F.
    apply disp_step in E; [|now apply have_wf|now rewrite N].
    apply step_facts in E; [|now apply have_wf|now rewrite N]. rewrite N in E.
    destruct E as (E1 & E0 & E2 & E3). split; [easy|]. split; [easy|]. split.
    + intros m Hm. rewrite E2 by easy. now apply have_other.
    + intros n x t Hx Ht. rewrite <- E3 by easy. now rewrite have_on.
Qed.

Lemma all_step : forall ds e k s s' a, wf s -> rx_all e k s ds = Some (s', a) ->
  wf s' /\ (forall m, ~ In m (map cell_nr ds) -> find_bts s' m = find_bts s m) /\
  (forall n x t, 0 <= x -> 0 <= t -> tell (is_on s n x t) a n x t = is_on s' n x t).
Proof.
  induction ds as [|d ds IH]; intros e k s s' a W E; cbn [rx_all] in E.
  - injection E as <- <-. easy.
  - destruct (sock_read (e k) s d) as [s1 a1 rc| | |] eqn:R; try discriminate.
    destruct (rx_all e (S k) s1 ds) as [[s2 a2]|] eqn:R2; [|discriminate]. injection E as <- <-.
    apply read_step in R; [|exact W]. destruct R as (W1 & _ & O1 & T1).
    apply IH in R2; [|exact W1]. destruct R2 as (W2 & O2 & T2). split; [easy|]. split.
    + intros m Hm. cbn [map In] in Hm. rewrite O2 by tauto. apply O1. intros ->. tauto.
    + intros n x t Hx Ht. rewrite tell_app, T1 by easy. now apply T2.
Qed.
Lemma wf0 : forall y, wf (pcu0 y).
Proof. intros y. split; constructor. Qed.
Lemma reached_wf : forall e y ds s a, reached e y ds s a -> wf s.
Proof. intros e y ds s a H. apply (all_step ds e 0 (pcu0 y) s a (wf0 y)) in H. apply H. Qed.

Lemma activation : forall e y ds s a, reached e y ds s a ->
  forall nr x t, 0 <= x -> 0 <= t -> told a nr x t = is_on s nr x t.
Proof.
  intros e y ds s a H nr x t Hx Ht. apply (all_step ds e 0 (pcu0 y) s a (wf0 y)) in H.
  destruct H as (_ & _ & H). rewrite <- H by easy. reflexivity.
Qed.
