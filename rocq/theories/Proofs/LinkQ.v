(** Start-up, the scheme used for a block, and counterexamples, for C37 and C51. *)
From Coq Require Import ZArith List Bool Lia.
From Verif Require Import Base.Arith Model.CodingScheme Model.Mslot Model.BtsConf Model.LinkAdapt Spec.CodingSpec Spec.LinkSpec
  Proofs.CodingP Proofs.LinkP.
Import ListNotations.
Local Open Scope Z_scope.

Lemma unforced_none os : (forall o, In o os -> unforced o) ->
  y_ini_cs (fst (conf_run os)) = None /\ y_ini_mcs (fst (conf_run os)) = None.
Proof.
  induction os as [|o os IH] using rev_ind; intro U; [split; reflexivity|].
  destruct IH as [A B]. { intros o' I. apply U, in_or_app. left. exact I. }
  rewrite conf_run_app. destruct (conf_run os) as [y b]. cbn [fst] in A, B.
  pose proof (U o ltac:(apply in_or_app; right; left; reflexivity)) as UO.
  destruct o; cbn [conf_step fst y_ini_cs y_ini_mcs]; try destruct UO; split; assumption || reflexivity.
Qed.
Lemma startup os cs mcs ics imcs : (forall o, In o os -> conf_ok o /\ unforced o) -> 0 <= ics -> 0 <= imcs ->
  sound (snd (conf_run (os ++ [Info cs mcs ics imcs]))).
Proof.
  intros C I1 I2. rewrite conf_run_app.
  destruct (unforced_none os (fun o I => proj2 (C o I))) as [A B].
  pose proof (cinv_run os) as V. destruct (conf_run os) as [y b]. cbn [fst] in A, B.
  destruct V as (L & M & _).
  pose proof (limit_rng false 4 os (mk2 4 4) (fun o I => proj1 (C o I)) eq_refl ltac:(cbn; lia)) as R. fold (limit_cs os) in R.
  pose proof (limit_rng true 9 os (mk2 9 9) (fun o I => proj1 (C o I)) eq_refl ltac:(cbn; lia)) as Q. fold (limit_mcs os) in Q.
  unfold sound, sound1.
  cbn [conf_step snd info_ind recalc_ini_mcs recalc_ini_cs recalc_max_mcs recalc_max_cs b_max_cs b_max_mcs b_ini_cs b_ini_mcs
       b_cs_mask b_mcs_mask b_ind_cs b_ind_mcs].
  rewrite A, B, L, M. cbn [recalc_max p_dl p_ul].
  pose proof (highest_le (Z.lor 1 (Z.land cs 15)) (Z.to_nat (p_dl (limit_cs os)))) as H1.
  pose proof (highest_le (Z.lor 1 (Z.land cs 15)) (Z.to_nat (p_ul (limit_cs os)))) as H2.
  pose proof (highest_le (Z.land mcs 511) (Z.to_nat (p_dl (limit_mcs os)))) as H3.
  pose proof (highest_le (Z.land mcs 511) (Z.to_nat (p_ul (limit_mcs os)))) as H4.
  revert H1 H2 H3 H4.
  generalize (highest (Z.lor 1 (Z.land cs 15)) (Z.to_nat (p_dl (limit_cs os)))),
    (highest (Z.lor 1 (Z.land cs 15)) (Z.to_nat (p_ul (limit_cs os)))),
    (highest (Z.land mcs 511) (Z.to_nat (p_dl (limit_mcs os)))), (highest (Z.land mcs 511) (Z.to_nat (p_ul (limit_mcs os)))).
  intros a1 a2 a3 a4 H1 H2 H3 H4.
  destruct (Z.ltb_spec a1 ics), (Z.ltb_spec a2 ics), (Z.ltb_spec a3 imcs), (Z.ltb_spec a4 imcs);
    repeat match goal with |- context [?x =? 0] => destruct (Z.eqb_spec x 0) end; lia.
Qed.

(** * The scheme used for the next block *)
Lemma sup_eq b c : c <> UNKNOWN -> cs_dl_is_supported b c =
  Some (if is_cs c then (number c - 1 <=? p_dl (b_max_cs b)) && Z.testbit (b_cs_mask b) (number c - 1)
        else (number c - 1 <=? p_dl (b_max_mcs b)) && Z.testbit (b_mcs_mask b) (number c - 1)).
Proof. intro U. destruct c; try reflexivity. contradiction. Qed.
Lemma below_ok b n : (n <= 3)%nat -> 0 <= p_dl (b_max_cs b) -> Z.testbit (b_cs_mask b) 0 = true ->
  exists c, cs_below b n = Some c /\ In c (ladder GPRS) /\ number c <= Z.of_nat n + 1 /\
    number c <= p_dl (b_max_cs b) + 1 /\ Z.testbit (b_cs_mask b) (number c - 1) = true.
Proof.
  intros N M T. induction n as [|n IH].
  - cbn [cs_below]. change (sof (snum CS1 + Z.of_nat 0)) with (Some CS1). cbv iota.
    rewrite sup_eq by discriminate. cbn [is_cs number]. change (1 - 1) with 0. rewrite T.
    destruct (Z.leb_spec 0 (p_dl (b_max_cs b))); [|lia]. cbn [andb].
    exists CS1. split; [reflexivity|]. cbn [number]. change (1 - 1) with 0. splits; try lia; [cbn; tauto|exact T].
  - destruct IH as (c & E & I & B1 & B2 & B3); [lia|].
    assert (SD : exists d, sof (snum CS1 + Z.of_nat (S n)) = Some d /\ In d (ladder GPRS) /\ number d = Z.of_nat (S n) + 1).
    { destruct n as [|[|[|n]]]; [exists CS2|exists CS3|exists CS4|lia]; cbn; tauto. }
    destruct SD as (d & SD & ID & ND).
    assert (EQ : cs_below b (S n) = match cs_dl_is_supported b d with
      | None => None | Some true => if (S n <=? 3)%nat then Some d else None | Some false => cs_below b n end).
    { change (cs_below b (S n)) with (match sof (snum CS1 + Z.of_nat (S n)) with
      | None => None | Some c => match cs_dl_is_supported b c with
        | None => None | Some true => if (S n <=? 3)%nat then Some c else None | Some false => cs_below b n end end).
      rewrite SD. reflexivity. }
    rewrite EQ, sup_eq by (intros ->; cbn in ID; intuition discriminate).
    assert (CS : is_cs d = true) by (destruct ID as [<-|[<-|[<-|[<-|[]]]]]; reflexivity). rewrite CS.
    destruct (Z.leb_spec (number d - 1) (p_dl (b_max_cs b))) as [L|L]; cbn [andb].
    + destruct (Z.testbit (b_cs_mask b) (number d - 1)) eqn:TB.
      * destruct (Nat.leb_spec (S n) 3); [|lia]. exists d. splits; try assumption; try reflexivity; lia.
      * exists c. splits; try assumption; lia.
    + exists c. splits; try assumption; lia.
Qed.
(** The reduction for little data. *)
Definition reduce (q : lqconf) (oct : Z) (m : msst) (cs : scheme) : scheme :=
  if l_down q <=? oct then cs else if s_nack m <? l_lower q then cs
  else let cs := mcs_dec_kind cs (s_mode m) in if seqb cs CS2 then mcs_dec_kind cs (s_mode m) else cs.
Lemma reduce_le q oct m k a mm cs : fits k a mm cs -> 0 <= a <= 4 -> 0 <= mm <= 9 -> fits k a mm (reduce q oct m cs).
Proof.
  intros F A M. unfold reduce.
  destruct (l_down q <=? oct); [exact F|]. destruct (s_nack m <? l_lower q); [exact F|]. cbv zeta.
  assert (E : forall km, everywhere (fun k a mm cs => negb (fitsb k a mm cs) || (fitsb k a mm (mcs_dec_kind cs km) &&
     fitsb k a mm (mcs_dec_kind (mcs_dec_kind cs km) km))) = true) by (intros []; vm_compute; reflexivity).
  pose proof (everywhere_ok _ (E (s_mode m)) k a mm cs A M) as P. cbv beta in P. apply fitsb_iff in F. rewrite F in P.
  cbn [negb orb] in P. apply andb_true_iff in P. destruct P as [P1 P2]. apply fitsb_iff in P1. apply fitsb_iff in P2.
  destruct (seqb (mcs_dec_kind cs (s_mode m)) CS2); assumption.
Qed.
Lemma reduce_low q oct m cs : In cs (ladder GPRS) ->
  In (reduce q oct m cs) (ladder GPRS) /\ number (reduce q oct m cs) <= number cs.
Proof.
  intro I. assert (F : fits GPRS (number cs) 0 cs).
  { split; [exact I|]. unfold top. destruct (Z.eqb_spec (number cs) 0); lia. }
  assert (N : 1 <= number cs <= 4) by (destruct I as [<-|[<-|[<-|[<-|[]]]]]; cbn; lia).
  pose proof (reduce_le q oct m GPRS (number cs) 0 cs F ltac:(lia) ltac:(lia)) as [R1 R2].
  split; [exact R1|]. unfold top in R2. destruct (Z.eqb_spec (number cs) 0); lia.
Qed.
Lemma cur_eq q b oct req m : current_cs_dl q b oct req m =
  match (match req with
    | EGPRS_GMSK =>
      if mcs_is_edge (s_cs_dl m) && (snum MCS4 <? snum (s_cs_dl m))
      then Some (if match cs_dl_is_supported b MCS4 with Some true => true | _ => false end then MCS4
                 else if match cs_dl_is_supported b MCS3 with Some true => true | _ => false end then MCS3
                 else if match cs_dl_is_supported b MCS2 with Some true => true | _ => false end then MCS2 else MCS1)
      else Some (s_cs_dl m)
    | GPRS =>
      if mcs_is_edge (s_cs_dl m)
      then cs_below b (Z.to_nat (mcs_chan_code (if snum MCS4 <? snum (s_cs_dl m) then MCS4 else s_cs_dl m)))
      else Some (s_cs_dl m)
    | EGPRS => Some (s_cs_dl m)
    end) with None => None | Some cs => Some (reduce q oct m cs) end.
Proof.
  unfold current_cs_dl, reduce. cbv zeta.
  match goal with |- context [match ?x with Some _ => _ | None => None end = _] => destruct x end; [|reflexivity].
  destruct (l_down q <=? oct); [reflexivity|]. destruct (s_nack m <? l_lower q); reflexivity.
Qed.
Lemma cur_any q b oct m : sound b -> within b m ->
  exists c, current_cs_dl q b oct EGPRS m = Some c /\ fits (s_mode m) (p_dl (b_max_cs b)) (p_dl (b_max_mcs b)) c.
Proof.
  intros (SD & _) (WD & _). destruct SD as (A & _ & M & _). rewrite cur_eq. eexists. split; [reflexivity|].
  apply reduce_le; assumption.
Qed.
Lemma cur_gmsk q b oct m : sound b -> within b m ->
  exists c, current_cs_dl q b oct EGPRS_GMSK m = Some c /\
  fits (match s_mode m with GPRS => GPRS | _ => EGPRS_GMSK end) (p_dl (b_max_cs b)) (p_dl (b_max_mcs b)) c.
Proof.
  intros (SD & _) (WD & _). destruct SD as (A & _ & M & _). rewrite cur_eq.
  assert (G : forall cs, fits (match s_mode m with GPRS => GPRS | _ => EGPRS_GMSK end) (p_dl (b_max_cs b)) (p_dl (b_max_mcs b)) cs ->
    exists c, (match Some cs with Some cs => Some (reduce q oct m cs) | None => None end) = Some c /\
    fits (match s_mode m with GPRS => GPRS | _ => EGPRS_GMSK end) (p_dl (b_max_cs b)) (p_dl (b_max_mcs b)) c).
  { intros cs F. eexists. split; [reflexivity|]. apply reduce_le; assumption. }
  destruct (mcs_is_edge (s_cs_dl m) && (snum MCS4 <? snum (s_cs_dl m))) eqn:E.
  - apply G. apply andb_true_iff in E. destruct E as [E1 E2]. apply Z.ltb_lt in E2.
    assert (K : s_mode m <> GPRS /\ 5 <= p_dl (b_max_mcs b)).
    { destruct WD as [L T]. unfold top in T. destruct (s_mode m); split; try discriminate;
        destruct (s_cs_dl m); try discriminate E1; cbn [snum] in E2; try lia; cbn [number] in T; try lia;
        cbn in L; intuition discriminate. }
    destruct K as [K1 K2].
    repeat match goal with |- context [if ?x then _ else _] => destruct x end;
      (destruct (s_mode m); [congruence| |]; split; [cbn; tauto|unfold top; cbn [number]; lia|cbn; tauto|unfold top; cbn [number]; lia]).
  - apply G. destruct WD as [L T]. destruct (s_mode m); [split; assumption|split; assumption|].
    split.
    + destruct (s_cs_dl m); cbn in L, E; try discriminate E; try (intuition discriminate); cbn; tauto.
    + unfold top in *. destruct (s_cs_dl m); cbn in L, E; try discriminate E; cbn [number] in *; try lia; intuition discriminate.
Qed.
Lemma cur_gprs q b oct m : sound b -> within b m -> Z.testbit (b_cs_mask b) 0 = true ->
  exists c, current_cs_dl q b oct GPRS m = Some c /\ In c (ladder GPRS) /\
    (s_mode m = GPRS -> fits GPRS (p_dl (b_max_cs b)) 0 c) /\ (s_mode m <> GPRS -> number c <= p_dl (b_max_cs b) + 1).
Proof.
  intros (SD & _) (WD & _) T. destruct SD as (A & _ & M & _). rewrite cur_eq.
  destruct (mcs_is_edge (s_cs_dl m)) eqn:E.
  - assert (K : s_mode m <> GPRS).
    { intro K. destruct WD as [L _]. rewrite K in L. destruct (s_cs_dl m); try discriminate E; cbn in L; intuition discriminate. }
    destruct (below_ok b (Z.to_nat (mcs_chan_code (if snum MCS4 <? snum (s_cs_dl m) then MCS4 else s_cs_dl m)))) as (c & EQ & I & B1 & B2 & B3).
    { destruct (s_cs_dl m); try discriminate E; cbn; lia. } { lia. } { exact T. }
    rewrite EQ. destruct (reduce_low q oct m c I) as [R1 R2].
    eexists. split; [reflexivity|]. split; [exact R1|]. split; [congruence|]. intros _. lia.
  - assert (K : s_mode m = GPRS).
    { destruct WD as [L _]. destruct (s_mode m); [reflexivity| |]; cbn in L; destruct (s_cs_dl m); try discriminate E; intuition discriminate. }
    rewrite K in WD. pose proof (reduce_le q oct m GPRS _ _ _ WD A M) as R.
    eexists. split; [reflexivity|]. split; [exact (proj1 R)|]. split; [|congruence]. intros _. split; [exact (proj1 R)|exact (proj2 R)].
Qed.
(** Each error rate has exactly its effect on the downlink scheme. *)
Lemma rate_effect q b now rate m m' : sound b -> within b m -> update_error_rate q b now rate m = Some m' ->
  s_mode m' = s_mode m /\ s_cs_ul m' = s_cs_ul m /\
  let tp := top (s_mode m) (p_dl (b_max_cs b)) (p_dl (b_max_mcs b)) in
  number (s_cs_dl m') =
    if rate <? 0 then number (s_cs_dl m)
    else if l_upper q <? rate then Z.max 1 (number (s_cs_dl m) - 1)
    else if (rate <? l_lower q) && (1000 <? now - s_notlow m) then Z.min tp (number (s_cs_dl m) + 1)
    else number (s_cs_dl m).
Proof.
  intros (SD & _) (WD & _) E. destruct SD as (A & _ & M & _). cbv zeta.
  pose proof (max_known _ _ _ _ WD A M) as K.
  unfold update_error_rate in E. cbv zeta in E.
  assert (EQ : forall x : option msst, (match ms_max_cs (s_mode m) (s_cs_dl m) (p_dl (b_max_cs b)) (p_dl (b_max_mcs b)) with UNKNOWN => None | _ => x end) = x).
  { intro x. destruct (ms_max_cs (s_mode m) (s_cs_dl m) (p_dl (b_max_cs b)) (p_dl (b_max_mcs b))); congruence. }
  rewrite EQ in E. clear EQ K.
  assert (F : everywhere (fun k a mm c => negb (fitsb k a mm c) ||
    ((number (mcs_dec_kind c k) =? Z.max 1 (number c - 1)) &&
     ((0 <? mcs_chan_code c) || (number c =? 1)) &&
     (if snum c <? snum (ms_max_cs k c a mm) then (number (mcs_inc_kind c k) =? number c + 1) && (number c + 1 <=? top k a mm)
      else number c =? top k a mm) && (1 <=? number c))) = true) by (vm_compute; reflexivity).
  pose proof (everywhere_ok _ F (s_mode m) _ _ (s_cs_dl m) A M) as P. cbv beta in P. clear F.
  assert (FB : fitsb (s_mode m) (p_dl (b_max_cs b)) (p_dl (b_max_mcs b)) (s_cs_dl m) = true) by (apply fitsb_iff; exact WD).
  rewrite FB in P. cbn [negb orb] in P. apply andb_true_iff in P. destruct P as [P P4].
  apply andb_true_iff in P. destruct P as [P P3]. apply andb_true_iff in P. destruct P as [P1 P2].
  apply Z.eqb_eq in P1. apply Z.leb_le in P4.
  destruct (rate <? 0); [injection E as <-; splits; reflexivity|].
  destruct (l_upper q <? rate).
  { destruct (0 <? mcs_chan_code (s_cs_dl m)); injection E as <-; cbn [s_mode s_cs_ul s_cs_dl]; splits; try reflexivity; [exact P1|].
    cbn [orb] in P2. apply Z.eqb_eq in P2. rewrite P2. reflexivity. }
  destruct (rate <? l_lower q); cbn [andb]; [|injection E as <-; splits; reflexivity].
  destruct (snum (s_cs_dl m) <? snum (ms_max_cs (s_mode m) (s_cs_dl m) (p_dl (b_max_cs b)) (p_dl (b_max_mcs b)))).
  - apply andb_true_iff in P3. destruct P3 as [Q1 Q2]. apply Z.eqb_eq in Q1. apply Z.leb_le in Q2.
    destruct (1000 <? now - s_notlow m); injection E as <-; cbn [s_mode s_cs_ul s_cs_dl]; splits; try reflexivity; lia.
  - apply Z.eqb_eq in P3. injection E as <-. cbn [s_mode s_cs_ul s_cs_dl].
    splits; try reflexivity. destruct (1000 <? now - s_notlow m); lia.
Qed.
(** After a step up at [t] no other for a second. *)
Lemma no_rise_before q y b t os m m' : sound b -> within b m -> t <= s_notlow m ->
  (forall o, In o os -> exists now r, o = ErrRate now r /\ t <= now <= t + 1000) ->
  la_run q os ((y, b), m) = Some ((y, b), m') -> number (s_cs_dl m') <= number (s_cs_dl m).
Proof.
  intros S. revert m. induction os as [|o os IH]; intros m W N F E; [injection E as <-; lia|].
  destruct (F o (or_introl eq_refl)) as (now & r & -> & T). cbn [la_run la_step snd] in E.
  destruct (update_error_rate q b now r m) as [m1|] eqn:U; [|discriminate E].
  destruct (rate_effect q b now r m m1 S W U) as (_ & _ & X). cbv zeta in X.
  destruct (err_ok q b now r m S W) as (m2 & U2 & W2). rewrite U in U2. injection U2 as <-.
  assert (N1 : t <= s_notlow m1).
  { clear - U N T. unfold update_error_rate in U. cbv zeta in U.
    destruct (ms_max_cs _ _ _ _); try discriminate U.
    all: repeat match type of U with (if ?c then _ else _) = _ => destruct c end; injection U as <-; cbn [s_notlow]; lia. }
  assert (L : number (s_cs_dl m1) <= number (s_cs_dl m)).
  { rewrite X. destruct (Z.ltb_spec 1000 (now - s_notlow m)) as [Q|Q]; [lia|]. rewrite andb_false_r.
    assert (1 <= number (s_cs_dl m)).
    { destruct W as [[L _] _]. destruct (s_cs_dl m); cbn [number]; try lia. destruct (s_mode m); cbn in L; intuition discriminate. }
    destruct (r <? 0); [lia|]. destruct (l_upper q <? r); lia. }
  specialize (IH m1 W2 N1 (fun o I => F o (or_intror I)) E). lia.
Qed.

(** * Counterexamples *)
Definition lq0 : lqconf := mk_lq 33 10 200
  (fun i => nth (Z.to_nat i) [(-256, 6); (5, 8); (7, 13); (12, 256)] (0, 0))
  (fun i => nth (Z.to_nat i) [(-256, 6); (5, 8); (7, 13); (12, 15); (14, 17); (16, 18); (17, 20); (19, 24); (23, 256)] (0, 0)).
Definition la_from (cs : list confop) (os : list laop) : option ((vty * bconf) * msst) :=
  la_run lq0 os (conf_run cs, ms_alloc (snd (conf_run cs)) 0).
Definition seen_la (r : option ((vty * bconf) * msst)) : option (mkind * scheme * scheme) :=
  option_map (fun p => (s_mode (snd p), s_cs_dl (snd p), s_cs_ul (snd p))) r.
Lemma cs1_supported os : (forall o, In o os -> conf_ok o) -> told os = true ->
  cs_dl_is_supported (snd (conf_run os)) CS1 = Some true.
Proof.
  intros C T. destruct (supported os CS1 C T ltac:(discriminate)) as (r & E & I). rewrite E. f_equal. apply I.
  split; [split; [discriminate|left; reflexivity]|]. cbn [number is_cs].
  destruct (maxima os C T) as ([[X|(c & IC & _ & N & _)] _] & _); [lia|].
  destruct IC as [<-|[<-|[<-|[<-|[]]]]]; cbn in N; lia.
Qed.
