From Coq Require Import ZArith List Bool Lia.
From Verif Require Import Base.Arith Model.CodingScheme Model.RlcCps Model.SplitBlock Spec.SplitSpec.
Import ListNotations.
Local Open Scope Z_scope.

Lemma store_ok mem off data : length mem = Z.to_nat RLC_MAX_LEN -> 0 <= off -> off + Z.of_nat (length data) <= RLC_MAX_LEN ->
  exists m, store mem off data = Some m /\ length m = length mem /\
    firstn (Z.to_nat off) m = firstn (Z.to_nat off) mem /\
    firstn (length data) (skipn (Z.to_nat off) m) = data /\
    skipn (Z.to_nat off + length data) m = skipn (Z.to_nat off + length data) mem.
Proof.
  intros L O B. unfold store, RLC_MAX_LEN in *. replace (74 <? off + Z.of_nat (length data)) with false by (symmetry; apply Z.ltb_ge; lia).
  eexists. split; [reflexivity|].
  assert (LF : length (firstn (Z.to_nat off) mem) = Z.to_nat off) by (rewrite firstn_length; lia).
  replace (Z.to_nat (off + Z.of_nat (length data))) with (Z.to_nat off + length data)%nat by lia.
  splits.
  - rewrite !app_length, LF, skipn_length. lia.
  - rewrite firstn_app, LF, Nat.sub_diag, firstn_O, app_nil_r. rewrite firstn_firstn. f_equal. lia.
  - rewrite skipn_app, LF, Nat.sub_diag. rewrite skipn_all2 by lia. cbn [app skipn].
    rewrite firstn_app, Nat.sub_diag, firstn_O, app_nil_r. apply firstn_all.
  - rewrite app_assoc, skipn_app. rewrite skipn_all2 by (rewrite app_length, LF; lia).
    rewrite app_length, LF, Nat.sub_diag. reflexivity.
Qed.

(** The slot agrees with what has been seen. *)
Definition slot_inv (a b : list Z) (s1 s2 : bool) (k : slot) : Prop :=
  length (k_mem k) = Z.to_nat RLC_MAX_LEN /\
  match s1, s2 with
  | false, false => k_st k = ResegDefault
  | true, false => k_st k = ResegFirst /\ k_len k = Z.of_nat (length a) /\ k_dlen k = k_len k /\ firstn (length a) (k_mem k) = a
  | false, true => k_st k = ResegSecond /\ k_len k = Z.of_nat (length b) /\ k_dlen k = k_len k /\
                   firstn (length b) (skipn (length b) (k_mem k)) = b
  | true, true => False
  end.

Lemma join (m a b : list Z) : firstn (length a) m = a -> firstn (length b) (skipn (length a) m) = b ->
  firstn (length a + length b) m = a ++ b.
Proof.
  intros A B. rewrite <- (firstn_skipn (length a) m), A. rewrite firstn_app.
  rewrite firstn_all2 by lia. f_equal. replace (length a + length b - length a)%nat with (length b) by lia. exact B.
Qed.

Lemma got_stays es : forall p, p_got p = true -> pl_run (map Rx es) p = Some (p, []).
Proof.
  induction es as [|r es IH]; intros p G; [reflexivity|]. cbn [map pl_run pl_step]. rewrite G, IH by exact G. reflexivity.
Qed.

Lemma split_run a b c : length a = length b -> 2 * Z.of_nat (length a) <= RLC_MAX_LEN ->
  Z.of_nat (length c) <= RLC_MAX_LEN ->
  forall es s1 s2 k, Forall (rx_of a b c) es -> slot_inv a b s1 s2 k ->
  exists p', pl_run (map Rx es) (mk_place k false) = Some (p', expect a b c s1 s2 es) /\
    (p_got p' = true -> k_dlen (p_slot p') = k_len (p_slot p') /\
       expect a b c s1 s2 es = [firstn (Z.to_nat (k_len (p_slot p'))) (k_mem (p_slot p'))]).
Proof.
  intros LAB LA LC. unfold RLC_MAX_LEN in *.
  induction es as [|r es IH]; intros s1 s2 k F I.
  { eexists. split; [reflexivity|]. discriminate. }
  inversion F as [|? ? RO FR]; subst. cbn [map pl_run pl_step p_got p_slot expect]. unfold rx_of, part_of in RO |- *.
  destruct I as [ML I].
  destruct (r_spb r =? 0) eqn:E0; [|destruct (r_spb r =? 2) eqn:E2; [|destruct (r_spb r =? 3) eqn:E3]].
  - destruct (store_ok (k_mem k) 0 c ML) as (m & S1 & S2 & _ & S4 & _); [lia|unfold RLC_MAX_LEN; lia|].
    rewrite RO, S1. rewrite got_stays by reflexivity.
    cbn [p_slot k_len k_mem k_dlen]. rewrite (Z.mod_small (Z.of_nat (length c))) by lia. rewrite Nat2Z.id.
    cbn [Z.to_nat skipn] in S4. rewrite S4. cbn [app].
    eexists. split; [reflexivity|]. intros _. cbn [p_slot k_len k_mem k_dlen]. rewrite Nat2Z.id, S4. auto.
  - unfold handle_spb, first_seg. rewrite E2, RO. destruct s1, s2; try contradiction.
    + destruct I as (I1 & I2 & I3 & I4). rewrite I1. cbn [is_second is_default]. rewrite I1. cbn [is_default].
      destruct k as [mem len dlen cs st]. cbn [k_mem k_len k_dlen k_cs k_st] in *.
      destruct (IH true false (mk_slot mem len dlen cs st) FR) as (p' & X1 & X2); [split; auto; cbn; auto|].
      rewrite X1. cbn [app]. eauto.
    + destruct I as (I1 & I2 & I3 & I4). rewrite I1. cbn [is_second].
      destruct (store_ok (k_mem k) 0 a ML) as (m & S1 & S2 & _ & S4 & S5); [lia|unfold RLC_MAX_LEN; lia|]. rewrite S1.
      cbn [k_st is_default upgrade]. rewrite got_stays by reflexivity.
      cbn [p_slot k_len k_mem k_dlen upgrade]. rewrite I2, Z.mod_small by lia.
      replace (Z.to_nat (Z.of_nat (length b) + Z.of_nat (length a))) with (length a + length b)%nat by lia.
      assert (J : firstn (length a + length b) m = a ++ b).
      { apply join; [exact S4|]. cbn [Z.to_nat] in S5. change (0 + length a)%nat with (length a) in S5. rewrite S5, LAB. exact I4. }
      rewrite J. cbn [app]. eexists. split; [reflexivity|]. intros _. cbn [p_slot upgrade k_len k_mem k_dlen].
      replace (Z.to_nat (Z.of_nat (length b) + Z.of_nat (length a))) with (length a + length b)%nat by lia. rewrite J. auto.
    + rewrite I. cbn [is_second is_default].
      destruct (store_ok (k_mem k) 0 a ML) as (m & S1 & S2 & _ & S4 & S5); [lia|unfold RLC_MAX_LEN; lia|]. rewrite S1.
      cbn [k_st is_default].
      destruct (IH true false (mk_slot m (Z.of_nat (length a) mod 256) (Z.of_nat (length a)) (k_cs k) ResegFirst) FR) as (p' & X1 & X2).
      { split; cbn [k_mem k_len k_dlen k_st]; [congruence|]. rewrite Z.mod_small by lia. auto. }
      rewrite X1. cbn [app]. eauto.
  - unfold handle_spb, second_seg. rewrite E2, E3, RO. destruct s1, s2; try contradiction.
    + destruct I as (I1 & I2 & I3 & I4). rewrite I1. cbn [is_first].
      destruct (store_ok (k_mem k) (k_len k) b ML) as (m & S1 & S2 & S3 & S4 & S5); [lia|unfold RLC_MAX_LEN; lia|]. rewrite S1.
      cbn [k_st is_default upgrade]. rewrite got_stays by reflexivity.
      cbn [p_slot k_len k_mem k_dlen upgrade]. rewrite I3, I2 in *. rewrite Z.mod_small by lia. rewrite Nat2Z.id in *.
      replace (Z.to_nat (Z.of_nat (length a) + Z.of_nat (length b))) with (length a + length b)%nat by lia.
      assert (J : firstn (length a + length b) m = a ++ b) by (apply join; [congruence|exact S4]).
      rewrite J. cbn [app]. eexists. split; [reflexivity|]. intros _. cbn [p_slot upgrade k_len k_mem k_dlen].
      replace (Z.to_nat (Z.of_nat (length a) + Z.of_nat (length b))) with (length a + length b)%nat by lia. rewrite J. auto.
    + destruct I as (I1 & I2 & I3 & I4). rewrite I1. cbn [is_first is_default]. rewrite I1. cbn [is_default].
      destruct k as [mem len dlen cs st]. cbn [k_mem k_len k_dlen k_cs k_st] in *.
      destruct (IH false true (mk_slot mem len dlen cs st) FR) as (p' & X1 & X2); [split; auto; cbn; auto|].
      rewrite X1. cbn [app]. eauto.
    + rewrite I. cbn [is_first is_default].
      destruct (store_ok (k_mem k) (Z.of_nat (length b)) b ML) as (m & S1 & S2 & _ & S4 & S5); [lia|unfold RLC_MAX_LEN; lia|]. rewrite S1.
      cbn [k_st is_default].
      destruct (IH false true (mk_slot m (Z.of_nat (length b) mod 256) (Z.of_nat (length b)) (k_cs k) ResegSecond) FR) as (p' & X1 & X2).
      { split; cbn [k_mem k_len k_dlen k_st]; [congruence|]. rewrite Z.mod_small by lia. rewrite Nat2Z.id in S4. auto. }
      rewrite X1. cbn [app]. eauto.
  - unfold handle_spb. rewrite E2, E3. cbn [is_default].
    destruct (IH s1 s2 k FR (conj ML I)) as (p' & X1 & X2). rewrite X1. cbn [app]. eauto.
Qed.

Lemma expect_once a b c : forall es s1 s2, (length (expect a b c s1 s2 es) <= 1)%nat.
Proof.
  induction es as [|r es IH]; intros s1 s2; cbn [expect]; [cbn; lia|].
  destruct (part_of (r_spb r)); destruct s1, s2; cbn [length]; auto.
Qed.
Lemma upgrade_ok : forall cs spb data k k' st, handle_spb cs spb data k = Some (k', ResegDefault) ->
  st = ResegDefault -> k_cs k' = match whole_of cs with Some w => w | None => k_cs k end.
Proof.
  intros cs spb data k k' st E _. unfold handle_spb in E.
  assert (CS1 : forall x, first_seg data k = Some x -> k_cs x = k_cs k).
  { intros x Q. unfold first_seg in Q. repeat match type of Q with context [if ?y then _ else _] => destruct y | context [match ?y with Some _ => _ | None => _ end] => destruct y end; inversion Q; reflexivity. }
  assert (CS2 : forall x, second_seg data k = Some x -> k_cs x = k_cs k).
  { intros x Q. unfold second_seg in Q. repeat match type of Q with context [if ?y then _ else _] => destruct y | context [match ?y with Some _ => _ | None => _ end] => destruct y end; inversion Q; reflexivity. }
  destruct (spb =? 2).
  - destruct (first_seg data k) as [x|]; [|discriminate]. injection E as <- E. rewrite E. cbn [is_default]. rewrite <- (CS1 x eq_refl).
    destruct cs; reflexivity.
  - destruct (spb =? 3); [|discriminate].
    destruct (second_seg data k) as [x|]; [|discriminate]. injection E as <- E. rewrite E. cbn [is_default]. rewrite <- (CS2 x eq_refl).
    destruct cs; reflexivity.
Qed.
Lemma upgrade_scheme : forall cs spb data k k', handle_spb cs spb data k = Some (k', ResegDefault) ->
  k_cs k' = match whole_of cs with Some w => w | None => k_cs k end.
Proof. intros. eapply upgrade_ok; eauto. Qed.
Lemma split_clean : forall a b c, length a = length b -> 2 * Z.of_nat (length a) <= RLC_MAX_LEN ->
  Z.of_nat (length c) <= RLC_MAX_LEN ->
  forall es k, Forall (rx_of a b c) es -> clean k ->
  exists p', pl_run (map Rx es) (mk_place k false) = Some (p', expect a b c false false es) /\
    (p_got p' = true -> k_dlen (p_slot p') = k_len (p_slot p') /\
       expect a b c false false es = [firstn (Z.to_nat (k_len (p_slot p'))) (k_mem (p_slot p'))]).
Proof.
  intros a b c L1 L2 L3 es k F (C1 & C2 & C3). apply (split_run a b c L1 L2 L3 es false false k F). split; assumption.
Qed.
Lemma halves_fit : forall h w, whole_of h = Some w ->
  2 * block_data_len h false = block_data_len w false /\ block_data_len w false <= RLC_MAX_LEN.
Proof. intros h w E. destruct h; try discriminate; injection E as <-; split; vm_compute; try reflexivity; discriminate. Qed.
Lemma overflow_bad : exists es k, clean k /\
  Forall (fun r => Z.of_nat (length (r_data r)) = block_data_len (r_cs r) false) es /\
  pl_run (map Rx es) (mk_place k false) = None.
Proof.
  exists [mk_rxb MCS4 2 (repeat 1 44); mk_rxb MCS4 3 (repeat 2 44)], (mk_slot (repeat 0 74) 0 0 MCS6 ResegDefault).
  split; [|split]; [repeat split; cbn [k_len]; (reflexivity || lia)|repeat constructor|vm_compute; reflexivity].
Qed.
Lemma stale_bad : exists k a c b2 p,
  clean k /\ Z.of_nat (length a) = block_data_len MCS1 false /\ Z.of_nat (length c) = block_data_len MCS4 false /\
  Z.of_nat (length b2) = block_data_len MCS1 false /\
  pl_run [Rx (mk_rxb MCS1 2 a); Rx (mk_rxb MCS4 0 c); Wrap; Rx (mk_rxb MCS1 3 b2)] (mk_place k false)
  = Some (p, [c; c ++ b2]).
Proof.
  exists (mk_slot (repeat 0 74) 0 0 MCS6 ResegDefault), (repeat 1 22), (repeat 3 44), (repeat 2 22). eexists.
  split; [repeat split; cbn [k_len]; (reflexivity || lia)|]. split; [reflexivity|]. split; [reflexivity|]. split; [reflexivity|]. vm_compute. reflexivity.
Qed.
Lemma stale_overflow : exists k a c b2,
  clean k /\ Z.of_nat (length a) = block_data_len MCS3 false /\ Z.of_nat (length c) = block_data_len MCS6 false /\
  Z.of_nat (length b2) = block_data_len MCS3 false /\
  pl_run [Rx (mk_rxb MCS3 2 a); Rx (mk_rxb MCS6 0 c); Wrap; Rx (mk_rxb MCS3 3 b2)] (mk_place k false) = None.
Proof.
  exists (mk_slot (repeat 0 74) 0 0 MCS6 ResegDefault), (repeat 1 37), (repeat 3 74), (repeat 2 37).
  split; [repeat split; cbn [k_len]; (reflexivity || lia)|]. split; [reflexivity|]. split; [reflexivity|]. split; [reflexivity|]. vm_compute. reflexivity.
Qed.

Lemma store_len mem off data m : length mem = Z.to_nat RLC_MAX_LEN -> 0 <= off -> store mem off data = Some m -> length m = length mem.
Proof.
  intros L O E. unfold store, RLC_MAX_LEN in *. destruct (74 <? off + Z.of_nat (length data)) eqn:C; [discriminate|]. apply Z.ltb_ge in C.
  injection E as <-. rewrite !app_length, firstn_length, skipn_length. lia.
Qed.
Lemma seg_mem f data k k' : f = first_seg \/ f = second_seg -> 0 <= k_len k -> length (k_mem k) = Z.to_nat RLC_MAX_LEN ->
  f data k = Some k' -> 0 <= k_len k' /\ length (k_mem k') = Z.to_nat RLC_MAX_LEN.
Proof.
  intros F L M E. destruct F as [-> | ->]; [unfold first_seg in E|unfold second_seg in E];
  [destruct (is_second (k_st k))|destruct (is_first (k_st k))];
  try (destruct (is_default (k_st k)));
  try (match type of E with match ?x with _ => _ end = _ => destruct x as [m|] eqn:S; [|discriminate] end);
  injection E as <-; cbn [k_len k_mem]; try (split; [apply Z.mod_pos_bound; lia|]; rewrite <- M; apply (store_len _ _ _ _ M) in S; [exact S|lia]); auto.
Qed.
Lemma halves_end es : forall p p' l, Forall (fun r => r_spb r <> 0) es -> p_got p = false -> 0 <= k_len (p_slot p) ->
  length (k_mem (p_slot p)) = Z.to_nat RLC_MAX_LEN ->
  pl_run (map Rx es) p = Some (p', l) -> p_got p' = true -> clean (p_slot p').
Proof.
  induction es as [|r es IH]; intros p p' l F G L M E GP.
  { injection E as <- <-. congruence. }
  inversion F as [|? ? NZ FR]; subst. cbn [map pl_run pl_step] in E. rewrite G in E.
  replace (r_spb r =? 0) with false in E by (symmetry; apply Z.eqb_neq; exact NZ).
  destruct (handle_spb (r_cs r) (r_spb r) (r_data r) (p_slot p)) as [[k st]|] eqn:HS; [|discriminate].
  assert (X : 0 <= k_len k /\ length (k_mem k) = Z.to_nat RLC_MAX_LEN /\ (st = ResegDefault -> k_st k = ResegDefault)).
  { unfold handle_spb in HS.
    destruct (r_spb r =? 2); [|destruct (r_spb r =? 3)].
    - destruct (first_seg (r_data r) (p_slot p)) as [y|] eqn:Q; [|discriminate]. apply seg_mem in Q; auto.
      injection HS as <- <-. destruct (is_default (k_st y)); cbn [upgrade k_len k_mem k_st]; splits; try apply Q; auto.
    - destruct (second_seg (r_data r) (p_slot p)) as [y|] eqn:Q; [|discriminate]. apply seg_mem in Q; auto.
      injection HS as <- <-. destruct (is_default (k_st y)); cbn [upgrade k_len k_mem k_st]; splits; try apply Q; auto.
    - injection HS as <- <-. splits; auto. discriminate. }
  destruct X as (X1 & X2 & X3). destruct (is_default st) eqn:D.
  - rewrite got_stays in E by reflexivity. injection E as <- <-. cbn [p_slot]. split; [|split; assumption]. apply X3. destruct st; (reflexivity || discriminate).
  - destruct (pl_run (map Rx es) (mk_place k false)) as [[p2 l2]|] eqn:R; [|discriminate]. injection E as <- <-.
    apply (IH (mk_place k false) p2 l2); auto.
Qed.
Lemma reuse_clean : forall a b c, length a = length b -> 2 * Z.of_nat (length a) <= RLC_MAX_LEN ->
  Z.of_nat (length c) <= RLC_MAX_LEN ->
  forall es k p' l, Forall (rx_of a b c) es -> clean k -> not_mixed es ->
  pl_run (map Rx es) (mk_place k false) = Some (p', l) -> p_got p' = true -> clean (p_slot p').
Proof.
  intros a b c L1 L2 L3 es k p' l F (C1 & C2 & C3) NM E G.
  destruct NM as [NM|NM].
  - apply (halves_end es (mk_place k false) p' l); auto.
  - destruct es as [|r es]; [injection E as <- <-; discriminate|].
    cbn [map pl_run pl_step p_got p_slot] in E. inversion NM as [|? ? Z0 _]; subst. rewrite Z0 in E. cbn [Z.eqb] in E.
    destruct (store (k_mem k) 0 (r_data r)) as [m|] eqn:S; [|discriminate].
    rewrite got_stays in E by reflexivity. injection E as <- <-. cbn [p_slot].
    split; [exact C1|]. cbn [k_mem k_len]. split; [|apply Z.mod_pos_bound; lia].
    apply (store_len _ _ _ _ C2) in S; [congruence|lia].
Qed.
