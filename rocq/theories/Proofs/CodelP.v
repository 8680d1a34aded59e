(** CoDel. *)
From Coq Require Import ZArith List Bool Lia.
From Verif Require Import Base.Arith Model.Codel Model.LlcQueue Spec.LlcSpec.
Import ListNotations.
Local Open Scope Z_scope.

Lemma inv_sqrt_ok n : 1 <= n -> 0 <= inv_sqrt n <= 255 /\ 65536 <= (inv_sqrt n + 1) * (inv_sqrt n + 1) * n.
Proof.
  intros N. destruct (Z_lt_le_dec n tab_size) as [L|G].
  - assert (F : forallb (fun i => let n := Z.of_nat i in let v := inv_sqrt n in
                  (0 <=? v) && (v <=? 255) && (65536 <=? (v + 1) * (v + 1) * n)) (seq 1 226) = true) by (vm_compute; reflexivity).
    rewrite forallb_forall in F. specialize (F (Z.to_nat n)). cbv zeta in F. rewrite Z2Nat.id in F by lia.
    change tab_size with 227 in L. assert (I : In (Z.to_nat n) (seq 1 226)) by (apply in_seq; lia). specialize (F I). lia.
  - unfold inv_sqrt. replace (tab_size <=? n) with true by lia. change tab_size with 227 in G. lia.
Qed.
Lemma inv_sqrt_exact n : 2 <= n <= 256 -> inv_sqrt n * inv_sqrt n * n <= 65536.
Proof.
  intros N. assert (F : forallb (fun i => let n := Z.of_nat i in let v := inv_sqrt n in
                  v * v * n <=? 65536) (seq 2 255) = true) by (vm_compute; reflexivity).
  rewrite forallb_forall in F. specialize (F (Z.to_nat n)). cbv zeta in F. rewrite Z2Nat.id in F by lia.
  assert (I : In (Z.to_nat n) (seq 2 255)) by (apply in_seq; lia). specialize (F I). lia.
Qed.

(** ** One step *)
Definition bad (s : codel) (o : obs) : Prop := too_long (cd_target s) (cd_maxpacket s) o.
Lemma bad_dec s o : {bad s o} + {~ bad s o}.
Proof.
  unfold bad, too_long. destruct (Z_le_dec (cd_target s) (o_now o - o_recv o)).
  - destruct (Z_le_dec 0 (o_bytes o)), (Z_le_dec (o_bytes o) (cd_maxpacket s)); [right|left|left|left]; lia.
  - right; lia.
Qed.
Lemma step_params s o : let s' := snd (cd_step s o) in
  cd_target s' = cd_target s /\ cd_interval s' = cd_interval s /\ cd_maxpacket s' = cd_maxpacket s.
Proof.
  cbv zeta. unfold cd_step, codel_control. cbv zeta.
  destruct (_ <? cd_target s); [auto|]. destruct ((0 <=? _) && _); [auto|]. destruct (cd_first_above s =? 0); [auto|].
  destruct (o_now o <? _); [auto|]. destruct (cd_dropping s); cbn [negb].
  - destruct (o_now o <? cd_drop_next s); auto.
  - destruct (negb (_ || _)); auto.
Qed.
Lemma run_params l : forall s, cd_target (cd_run s l) = cd_target s /\ cd_interval (cd_run s l) = cd_interval s /\ cd_maxpacket (cd_run s l) = cd_maxpacket s.
Proof.
  induction l as [|o l IH]; intros s; cbn [cd_run]; [auto|]. destruct (step_params s o) as (A & B & C).
  destruct (IH (snd (cd_step s o))) as (D & E & F). rewrite D, E, F. auto.
Qed.
Lemma step_good s o : ~ bad s o -> fst (cd_step s o) = false /\ cd_first_above (snd (cd_step s o)) = 0 /\
  cd_dropping (snd (cd_step s o)) = false /\ cd_drop_next (snd (cd_step s o)) = cd_drop_next s.
Proof.
  intros NB. unfold cd_step, codel_control. cbv zeta. destruct (_ <? cd_target s) eqn:A; [auto|].
  destruct ((0 <=? o_bytes o) && (o_bytes o <=? cd_maxpacket s)) eqn:B; [auto|].
  exfalso. apply NB. unfold bad, too_long. lia.
Qed.
Lemma step_bad s o : bad s o ->
  (cd_first_above s = 0 /\ fst (cd_step s o) = false /\ cd_dropping (snd (cd_step s o)) = false /\
     cd_first_above (snd (cd_step s o)) = o_now o + cd_interval s /\ cd_drop_next (snd (cd_step s o)) = cd_drop_next s) \/
  (cd_first_above s <> 0 /\ cd_first_above (snd (cd_step s o)) = cd_first_above s /\
    (fst (cd_step s o) = false /\ cd_drop_next (snd (cd_step s o)) = cd_drop_next s \/
     fst (cd_step s o) = true /\ cd_dropping (snd (cd_step s o)) = true /\ cd_first_above s <= o_now o /\
      (cd_dropping s = false /\ (cd_drop_next s = 0 -> cd_first_above s + cd_interval s <= o_now o) /\
         1 <= cd_count (snd (cd_step s o)) /\
         cd_drop_next (snd (cd_step s o)) = o_now o + law (cd_interval s) (cd_count (snd (cd_step s o))) \/
       cd_dropping s = true /\ cd_drop_next s <= o_now o /\ cd_count (snd (cd_step s o)) = (cd_count s + 1) mod 2 ^ 32 /\
         cd_drop_next (snd (cd_step s o)) = cd_drop_next s + law (cd_interval s) (cd_count (snd (cd_step s o)))))).
Proof.
  intros [B1 B2]. unfold cd_step, codel_control. cbv zeta.
  destruct (_ <? cd_target s) eqn:A; [lia|]. destruct ((0 <=? o_bytes o) && (o_bytes o <=? cd_maxpacket s)) eqn:B; [lia|].
  destruct (cd_first_above s =? 0) eqn:F; [left; splits; auto; lia|right].
  split; [lia|]. destruct (o_now o <? cd_first_above s) eqn:G; [split; auto|].
  destruct (cd_dropping s) eqn:D; cbn [negb].
  - destruct (o_now o <? cd_drop_next s) eqn:N; [split; auto|]. split; [reflexivity|right].
    splits; auto; [lia|]. right. splits; auto; lia.
  - match goal with |- context [if negb (?ic || ?r) then _ else _] => destruct ic eqn:IC; [|destruct r eqn:R] end; cbn [orb negb].
    + split; [reflexivity|right]. splits; auto; [lia|]. left. splits; auto.
      * intros Z. exfalso. rewrite Z in IC. discriminate.
      * cbn [snd cd_count andb]. destruct (2 <? cd_count s) eqn:C2; lia.
    + split; [reflexivity|right]. splits; auto; [lia|]. left. splits; auto; [lia|]. cbn [snd cd_count andb]. lia.
    + split; auto.
Qed.

(** ** Since when the delay is above target *)
(** After history [h] (latest last): either the delay is not above target, or it has been
    at all observations since one at [t], and not before the first of those. *)
Definition since (s0 s : codel) (h : list obs) : Prop :=
  cd_first_above s = 0 /\ (h = [] \/ exists h1 o, h = h1 ++ [o] /\ ~ bad s0 o) \/
  exists h1 o h2, h = h1 ++ o :: h2 /\ Forall (bad s0) (o :: h2) /\ cd_first_above s = o_now o + cd_interval s0.

Lemma bad_params s0 s o : cd_target s = cd_target s0 -> cd_maxpacket s = cd_maxpacket s0 -> (bad s o <-> bad s0 o).
Proof. unfold bad. intros -> ->. tauto. Qed.

Lemma run_snoc l o : forall s, cd_run s (l ++ [o]) = snd (cd_step (cd_run s l) o).
Proof. induction l; intros s; cbn [app cd_run]; auto. Qed.

Lemma since_run s0 h : start_state s0 -> 0 < cd_interval s0 -> Forall (fun o => 0 <= o_now o) h -> since s0 (cd_run s0 h) h.
Proof.
  intros (S1 & S2 & S3) I. induction h as [|o h IH] using rev_ind; intros F.
  - left. cbn. auto.
  - apply Forall_app in F as [F1 F2]. inversion F2 as [|? ? N _]; subst. specialize (IH F1).
    rewrite run_snoc. destruct (run_params h s0) as (P1 & P2 & P3). set (s := cd_run s0 h) in *.
    destruct (bad_dec s0 o) as [B|NB].
    + assert (B' : bad s o) by (apply (bad_params s0); auto).
      destruct (step_bad s o B') as [(Z & _ & _ & FA & _)|(NZ & FA & _)].
      * right. exists h, o, []. splits; auto. rewrite FA, P2. reflexivity.
      * right. destruct IH as [[Z _]|(h1 & o1 & h2 & E & FB & T)]; [congruence|].
        exists h1, o1, (h2 ++ [o]). rewrite E, <- app_assoc. splits; auto.
        { inversion FB; subst. constructor; auto. apply Forall_app; auto. }
        rewrite FA. exact T.
    + left. assert (NB' : ~ bad s o) by (rewrite (bad_params s0 s o); auto).
      destruct (step_good s o NB') as (_ & FA & _ & _). split; [exact FA|right]. eauto.
Qed.

(** A drop only after a whole interval of observations above target. *)
Lemma drop_after_interval s0 h o : start_state s0 -> 0 < cd_interval s0 ->
  Forall (fun o => 0 <= o_now o) (h ++ [o]) -> fst (cd_step (cd_run s0 h) o) = true ->
  exists h1 o1 h2, h = h1 ++ o1 :: h2 /\ Forall (bad s0) (o1 :: h2 ++ [o]) /\ o_now o1 + cd_interval s0 <= o_now o.
Proof.
  intros S I F D. apply Forall_app in F as [F1 F2].
  pose proof (since_run s0 h S I F1) as SI. destruct (run_params h s0) as (P1 & P2 & P3). set (s := cd_run s0 h) in *.
  destruct (bad_dec s o) as [B|NB]; [|destruct (step_good s o NB) as [X _]; congruence].
  destruct (step_bad s o B) as [(Z & X & _)|(NZ & _ & [[X _]|(X & _ & LE & _)])]; try congruence.
  destruct SI as [[Z _]|(h1 & o1 & h2 & E & FB & T)]; [congruence|].
  exists h1, o1, h2. splits; auto; [|lia].
  inversion FB; subst. constructor; auto. apply Forall_app. split; auto. constructor; [|constructor].
  apply (bad_params s0 s o); auto.
Qed.

(** The first drop of all needs two intervals. *)
Lemma no_drop_yet s0 h : start_state s0 -> cd_drops s0 h = [] -> cd_drop_next (cd_run s0 h) = 0 /\ cd_dropping (cd_run s0 h) = false.
Proof.
  intros (S1 & S2 & S3). revert s0 S1 S2 S3.
  assert (G : forall h s, cd_dropping s = false -> cd_drop_next s = 0 -> cd_drops s h = [] ->
      cd_drop_next (cd_run s h) = 0 /\ cd_dropping (cd_run s h) = false).
  { clear. induction h as [|o h IH]; intros s D N E; cbn [cd_run]; [auto|]. cbn [cd_drops] in E.
    assert (X : fst (cd_step s o) = false /\ cd_drop_next (snd (cd_step s o)) = 0 /\ cd_dropping (snd (cd_step s o)) = false).
    { destruct (cd_step s o) as [d s'] eqn:ES. destruct d; [discriminate|]. cbn [fst snd]. split; [reflexivity|].
      unfold cd_step, codel_control in ES. cbv zeta in ES.
      destruct (_ <? cd_target s); [injection ES as <-; auto|]. destruct ((0 <=? _) && _); [injection ES as <-; auto|].
      destruct (cd_first_above s =? 0); [injection ES as <-; auto|].
      destruct (o_now o <? _); [injection ES as <-; auto|]. rewrite D in ES. cbn [negb] in ES.
      destruct (negb (_ || _)); [injection ES as <-; auto|discriminate]. }
    destruct X as (X1 & X2 & X3). destruct (cd_step s o) as [d s'] eqn:ES. cbn [fst snd] in *. subst d. apply IH; auto. }
  intros s0 _ S2 S3. apply G; auto.
Qed.
Lemma first_drop_two s0 h o : start_state s0 -> 0 < cd_interval s0 ->
  Forall (fun o => 0 <= o_now o) (h ++ [o]) -> cd_drops s0 h = [] -> fst (cd_step (cd_run s0 h) o) = true ->
  exists h1 o1 h2, h = h1 ++ o1 :: h2 /\ Forall (bad s0) (o1 :: h2 ++ [o]) /\ o_now o1 + 2 * cd_interval s0 <= o_now o.
Proof.
  intros S I F ND D. apply Forall_app in F as [F1 F2]. destruct (no_drop_yet s0 h S ND) as [N0 D0].
  pose proof (since_run s0 h S I F1) as SI. destruct (run_params h s0) as (P1 & P2 & P3). set (s := cd_run s0 h) in *.
  destruct (bad_dec s o) as [B|NB]; [|destruct (step_good s o NB) as [X _]; congruence].
  destruct (step_bad s o B) as [(Z & X & _)|(NZ & _ & [[X _]|(X & _ & LE & [(_ & TW & _)|(X1 & _)])])]; try congruence.
  destruct SI as [[Z _]|(h1 & o1 & h2 & E & FB & T)]; [congruence|].
  exists h1, o1, h2. splits; auto; [|specialize (TW N0); lia].
  inversion FB; subst. constructor; auto. apply Forall_app. split; auto. constructor; [|constructor].
  apply (bad_params s0 s o); auto.
Qed.

(** ** The control law *)
(** While dropping goes on from a state whose next drop is at [b], the k-th drop (from 0)
    is not before [b] plus the sum of the laws of the counts in between. *)
Lemma drops_paced l : forall s k t, cd_dropping s = true -> cd_keeps s l ->
  nth_error (cd_drops s l) k = Some t ->
  cd_drop_next s + law_sum (cd_interval s) ((cd_count s + 1) mod 2 ^ 32) k <= t.
Proof.
  induction l as [|o l IH]; intros s k t D K E; [destruct k; discriminate|].
  cbn [cd_drops cd_keeps] in *. destruct K as [K1 K2].
  destruct (bad_dec s o) as [B|NB]; [|destruct (step_good s o NB) as (_ & _ & X & _); congruence].
  destruct (step_params s o) as (_ & PI & _).
  destruct (step_bad s o B) as [(_ & _ & X & _)|(_ & _ & [[X N]|(X & _ & _ & [(X1 & _)|(_ & LE & C & N)])])]; try congruence.
  - assert (CC : cd_count (snd (cd_step s o)) = cd_count s).
    { revert X K1. unfold cd_step, codel_control. cbv zeta.
      repeat match goal with |- context [if ?b then _ else _] => destruct b end; cbn [fst snd cd_count cd_dropping]; intros; congruence. }
    destruct (cd_step s o) as [d s'] eqn:ES. cbn [fst snd] in *. subst d. cbn [app] in E.
    specialize (IH s' k t K1 K2 E). rewrite N, PI, CC in IH. exact IH.
  - destruct (cd_step s o) as [d s'] eqn:ES. cbn [fst snd] in *. subst d. cbn [app] in E.
    destruct k as [|k]; cbn [nth_error] in E.
    + injection E as <-. cbn [law_sum]. lia.
    + specialize (IH s' k t K1 K2 E). rewrite N, PI, C in IH. cbn [law_sum]. lia.
Qed.
Lemma phase_paced s o l k t : cd_dropping s = false -> fst (cd_step s o) = true -> 
  let s1 := snd (cd_step s o) in cd_keeps s1 l -> nth_error (cd_drops s1 l) k = Some t ->
  1 <= cd_count s1 /\ o_now o + law_sum (cd_interval s) (cd_count s1) (S k) <= t.
Proof.
  intros D F s1 K E. unfold s1 in *.
  destruct (bad_dec s o) as [B|NB]; [|destruct (step_good s o NB) as (X & _); congruence].
  destruct (step_params s o) as (_ & PI & _).
  destruct (step_bad s o B) as [(_ & X & _)|(_ & _ & [[X N]|(X & DD & _ & [(_ & _ & C1 & N)|(X1 & _)])])]; try congruence.
  split; [exact C1|]. pose proof (drops_paced l _ k t DD K E) as P. rewrite N, PI in P. cbn [law_sum]. lia.
Qed.
