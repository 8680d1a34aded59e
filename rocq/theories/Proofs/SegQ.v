(** The downlink segmentation over whole TBFs. *)
From Coq Require Import ZArith List Bool Lia.
From Verif Require Import Base.Arith Model.CodingScheme Model.RlcCps Model.Segment Spec.SegSpec Proofs.SegP.
Import ListNotations.
Local Open Scope Z_scope.



Lemma create_ok edge len fin s r0 : len_ok edge len -> agree edge s r0 ->
  exists sb s', create_block edge len fin s = Some (sb, s') /\ all_of s' = all_of s /\
    ((exists R, rx_block edge sb r0 = Some R /\ agree edge s' R) \/
     edge = false /\ sb_e sb = false /\ sb_fbi sb = true /\ exists R x done0, rx_block false sb r0 = Some R /\
       s_done s' = done0 ++ [x] /\ fst R = map fst done0 /\ snd R = [] /\ exists R2, agree false s' R2).
Proof.
  intros LEN AG. unfold create_block.
  destruct (next_ok edge s r0) as [A1 A2]; [|exact AG|].
  { destruct AG as (_ & _ & [X|X] & _); [left; exact X|right; apply X]. }
  destruct (fill_ok edge len fin r0 LEN (S len) (mk_blk (prepare len) 0 0 true false) (next_frame s) [] [] r0)
    as (b' & s' & X1 & X2 & X3); [cbn [b_off]; lia| |reflexivity|exact A1|].
  { unfold binv. cbn [b_oct b_off b_nch b_e b_fbi length sum fold_right].
    destruct LEN as [L1 L2]. splits; auto; [|lia|intros n []].
    unfold prepare. rewrite Nat.sub_0_r. destruct edge; reflexivity. }
  rewrite X1. do 2 eexists. split; [reflexivity|]. split; [congruence|].
  destruct X3 as [(R & Y1 & Y2)|(-> & Y1 & Y2 & Y3)].
  - left. exists R. auto.
  - right. splits; auto.
Qed.

Lemma agree_new edge s r l : agree edge s r -> Forall (fun f => f <> []) l ->
  agree edge (mk_snd (s_llc s) (s_dummy s) (s_queue s ++ l) (s_done s)) r /\
  all_of (mk_snd (s_llc s) (s_dummy s) (s_queue s ++ l) (s_done s)) = all_of s ++ l.
Proof.
  intros (A & B & C & D) E. split.
  - unfold agree. cbn [s_llc s_done s_queue]. splits; auto. apply Forall_app; auto.
  - unfold all_of, under_way. cbn [s_llc s_done s_queue s_dummy]. rewrite !app_assoc. reflexivity.
Qed.

Lemma run_e steps : Forall (step_ok true) steps -> forall s r0, agree true s r0 ->
  exists l s' R, seg_run true steps s = Some (l, s') /\ rx_run true l r0 = Some R /\ agree true s' R /\
    all_of s' = all_of s ++ concat (map ss_new steps).
Proof.
  induction 1 as [|x steps [LEN NE] FA IH]; intros s r0 AG.
  - exists [], s, r0. cbn [seg_run rx_run map concat]. rewrite app_nil_r. auto.
  - destruct (agree_new true s r0 (ss_new x) AG NE) as [A1 A2].
    destruct (create_ok true (ss_len x) (ss_fin x) _ r0 LEN A1) as (sb & s1 & X1 & X2 & [(R & X3 & X4)|(X & _)]); [|discriminate].
    destruct (IH s1 R X4) as (l & s' & R' & Y1 & Y2 & Y3 & Y4).
    exists (sb :: l), s', R'. cbn [seg_run rx_run map concat]. rewrite X1, Y1, X3. splits; auto.
    rewrite Y4, X2, A2, <- app_assoc. reflexivity.
Qed.

(** GPRS: [lost] holds the frame that the defect of the final block swallows. *)
Lemma run_g steps : Forall (step_ok false) steps -> forall s r0, agree false s r0 ->
  exists l s', seg_run false steps s = Some (l, s') /\
    (ends_once l -> exists R lost, rx_run false l r0 = Some R /\ fst R ++ lost = map fst (s_done s') /\
       (lost = [] /\ agree false s' R \/
        exists x l0 b, lost = [x] /\ snd R = [] /\ l = l0 ++ [b] /\ sb_e b = false /\ sb_fbi b = true) /\
       all_of s' = all_of s ++ concat (map ss_new steps)).
Proof.
  induction 1 as [|x steps [LEN NE] FA IH]; intros s r0 AG.
  - exists [], s. split; [reflexivity|]. intros _. exists r0, []. cbn [rx_run map concat]. rewrite !app_nil_r. splits; auto. apply AG.
  - destruct (agree_new false s r0 (ss_new x) AG NE) as [A1 A2].
    destruct (create_ok false (ss_len x) (ss_fin x) _ r0 LEN A1) as (sb & s1 & X1 & X2 & X3).
    destruct X3 as [(R & X3 & X4)|(_ & X3 & X4 & R & y & done0 & Z1 & Z2 & Z3 & Z4 & R2 & Z5)].
    + destruct (IH s1 R X4) as (l & s' & Y1 & Y2).
      exists (sb :: l), s'. cbn [seg_run rx_run map concat]. rewrite X1, Y1. split; [reflexivity|]. intros [_ EO].
      destruct (Y2 EO) as (R' & lost & W1 & W2 & W3 & W4). exists R', lost. rewrite X3. splits; auto.
      * destruct W3 as [W3|(z & l0 & b & W3 & V1 & -> & V2 & V3)]; [left; exact W3|].
        right. exists z, (sb :: l0), b. splits; auto.
      * rewrite W4, X2, A2, <- app_assoc. reflexivity.
    + destruct (IH s1 R2 Z5) as (l & s' & Y1 & Y2).
      exists (sb :: l), s'. cbn [seg_run rx_run map concat]. rewrite X1, Y1. split; [reflexivity|]. intros [EO _].
      rewrite (EO X4) in *. destruct (Y2 I) as (R' & lost & W1 & W2 & W3 & W4).
      assert (SN : steps = [] /\ s' = s1).
      { destruct steps as [|st steps]; cbn [seg_run] in Y1; [split; [reflexivity|congruence]|].
        exfalso. match type of Y1 with match ?c with _ => _ end = _ => destruct c as [[sb2 s2]|] end; [|discriminate].
        match type of Y1 with match ?c with _ => _ end = _ => destruct c as [[l2 s3]|] end; discriminate. }
      destruct SN as [-> ->].
      exists R, [fst y]. rewrite Z1, Z2, map_app, Z3. cbn [rx_run map concat]. splits; auto.
      * right. exists (fst y), [], sb. splits; auto.
      * rewrite X2, A2, app_nil_r. reflexivity.
Qed.

(** ** Statements for the property file *)
Lemma agree_fresh edge : agree edge fresh ([], []).
Proof. unfold agree, fresh, llc_ok, no_llc. cbn [s_done s_llc s_queue l_frame l_idx fst snd map firstn]. splits; auto. Qed.

Lemma seg_egprs : forall steps, Forall (step_ok true) steps ->
  exists blocks s, seg_run true steps fresh = Some (blocks, s) /\
    rx_run true blocks ([], []) = Some (map fst (s_done s), firstn (l_idx (s_llc s)) (l_frame (s_llc s))) /\
    concat (map ss_new steps) = real (s_done s) ++ under_way s ++ s_queue s.
Proof.
  intros steps OK. destruct (run_e steps OK fresh ([], []) (agree_fresh true)) as (l & s & R & A & B & (C1 & C2 & _) & D).
  exists l, s. splits; auto.
  destruct R as [R1 R2]. cbn [fst snd] in *. subst. exact B.
Qed.

Lemma seg_gprs : forall steps, Forall (step_ok false) steps ->
  exists blocks s, seg_run false steps fresh = Some (blocks, s) /\
    (ends_once blocks -> exists frames rest lost,
      rx_run false blocks ([], []) = Some (frames, rest) /\
      frames ++ lost = map fst (s_done s) /\
      (lost = [] /\ rest = firstn (l_idx (s_llc s)) (l_frame (s_llc s)) \/
       exists x l0 b, lost = [x] /\ rest = [] /\ blocks = l0 ++ [b] /\ sb_e b = false /\ sb_fbi b = true) /\
      concat (map ss_new steps) = real (s_done s) ++ under_way s ++ s_queue s).
Proof.
  intros steps OK. destruct (run_g steps OK fresh ([], []) (agree_fresh false)) as (l & s & A & B).
  exists l, s. split; [exact A|]. intros EO. destruct (B EO) as ([R1 R2] & lost & C1 & C2 & C3 & C4).
  exists R1, R2, lost. cbn [fst snd] in *. splits; auto.
  destruct C3 as [(X & _ & Y & _)|X]; [left|right; exact X]. auto.
Qed.

Lemma app_eq_snoc {A} (l l' : list A) x : l = l' ++ [x] -> In x l.
Proof. intros ->. apply in_app_iff. right. left. reflexivity. Qed.

Lemma seg_gprs_open : forall steps, Forall (step_ok false) steps ->
  exists blocks s, seg_run false steps fresh = Some (blocks, s) /\
    (Forall (fun b => sb_fbi b = false) blocks ->
      rx_run false blocks ([], []) = Some (map fst (s_done s), firstn (l_idx (s_llc s)) (l_frame (s_llc s))) /\
      concat (map ss_new steps) = real (s_done s) ++ under_way s ++ s_queue s).
Proof.
  intros steps OK. destruct (seg_gprs steps OK) as (l & s & A & B). exists l, s. split; [exact A|]. intros FB.
  destruct B as (frames & rest & lost & C1 & C2 & C3 & C4).
  { clear - FB. induction FB; cbn [ends_once]; [exact I|]. split; [congruence|exact IHFB]. }
  destruct C3 as [[-> ->]|(x & l0 & b & _ & _ & E & _ & F)].
  - rewrite app_nil_r in C2. subst frames. auto.
  - exfalso. rewrite Forall_forall in FB. specialize (FB b (app_eq_snoc _ _ _ E)). congruence.
Qed.

(** The length of every downlink data block suits the length indicators. *)
Lemma lens_ok : forall c pad, (mcs_is_gprs c = true -> pad = false -> len_ok false (Z.to_nat (block_data_len c pad))) /\
  (mcs_is_edge c = true -> len_ok true (Z.to_nat (block_data_len c pad))).
Proof.
  intros c pad. destruct c, pad; (split; [intros H1 H2|intros H1]; try discriminate); unfold len_ok;
  match goal with |- context [Z.to_nat ?x] => let v := eval vm_compute in (Z.to_nat x) in change (Z.to_nat x) with v end; lia.
Qed.

Lemma dummy_ok : forall n, dummy_frame n = [0x43; 0xc0; 0x01] ++ repeat 0x2b (length (dummy_frame n) - 3) /\
  (6 <= length (dummy_frame n) <= 79)%nat /\ ((6 <= n <= 79)%nat -> length (dummy_frame n) = n).
Proof.
  intro n. assert (L : length (dummy_frame n) = (6 + (Nat.min n 79 - 6))%nat) by (unfold dummy_frame; rewrite app_length, repeat_length; reflexivity).
  rewrite L. split; [|lia]. unfold dummy_frame. replace (6 + (Nat.min n 79 - 6) - 3)%nat with (3 + (Nat.min n 79 - 6))%nat by lia.
  reflexivity.
Qed.
