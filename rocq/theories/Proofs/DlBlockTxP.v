(** Proofs for C09 and C12: puncturing cycle and pieces of retransmitted blocks. *)
From Coq Require Import ZArith List Bool Lia.
From Verif Require Import Base.Arith Model.CodingScheme Model.RlcCps Model.DlBlockTx Spec.CodingSpec
  Proofs.CodingP.
Import ListNotations.
Local Open Scope Z_scope.

Definition all_seg := [RDefault; RFirstSent; RSecondSent].
Definition cur_ok (c cur : scheme) : bool :=
  seqb cur c || existsb (fun cmd => existsb (fun a =>
    match retx_scheme c cmd a with Some x => seqb x cur | None => false end) [true;false]) all_mcs.

Definition inv_b (b : dlblk) : bool :=
  let c := b_init b in
  mcs_is_edge c && cur_ok c (b_cur b) && mcs_is_edge (b_last b) &&
  (0 <=? b_ps b) && (b_ps b <? ps_count (b_last b)) &&
  (negb (is_first_sent (b_seg b)) ||
     (heqb (mcs_header_type (b_last b)) HType3 && mcs_is_family_compat (b_last b) c &&
      (heqb (mcs_header_type c) HType1 || heqb (mcs_header_type c) HType2 ||
       (seqb c MCS4 && seqb (b_last b) MCS1)))).

(** One data unit [u] sent from state [b], leading to [b']. *)
Definition piece_ok (b : dlblk) (u : unit_tx) : bool :=
  let c := b_init b in
  match u_spb u with
  | NoRetx => (u_off u =? 0) && (u_len u =? payload c)
  | FirstSeg => (u_off u =? 0) && (2 * u_len u =? payload c)
  | SecSeg => is_first_sent (b_seg b) &&
      (seqb c MCS4 || (seqb (u_cs u) (b_last b) && (u_off u =? u_len u) && (2 * u_len u =? payload c)))
  end.
Definition rel_b (b : dlblk) (u : unit_tx) (b' : dlblk) : bool :=
  mcs_is_edge (u_cs u) && (0 <=? u_ps u) && (u_ps u <? ps_count (u_cs u)) &&
  (negb (seqb (u_cs u) (b_last b)) || (u_ps u =? b_ps b)) &&
  (negb (is_secseg (u_spb u)) || (is_first_sent (b_seg b) && (u_ps u =? b_ps b))) &&
  seqb (b_last b') (u_cs u) &&
  (b_ps b' =? (if is_firstseg (u_spb u) then u_ps u else (u_ps u + 1) mod ps_count (u_cs u))) &&
  Bool.eqb (is_first_sent (b_seg b')) (is_firstseg (u_spb u)) &&
  piece_ok b u && mcs_is_family_compat (u_cs u) (b_init b).

Definition chk_copy (two : bool) (b : dlblk) : bool :=
  negb (inv_b b) ||
  (let '(cs, pad) := radio_scheme two b in
   (0 <? num_data_blocks (mcs_header_type cs)) &&
   match blk_copy cs pad (dl_spb b) b with
   | None => false
   | Some (u, b') =>
     inv_b b' && rel_b b u b' &&
     (negb (num_data_blocks (mcs_header_type cs) =? 2) ||
      (seqb (fst (radio_scheme two b')) cs && Bool.eqb (snd (radio_scheme two b')) pad &&
       match dl_spb b, dl_spb b' with NoRetx, NoRetx => true | _, _ => false end))
   end).

Definition for_blks (f : dlblk -> bool) : bool :=
  forallb (fun c => forallb (fun last => forallb (fun cur => forallb (fun p => forallb (fun s =>
    f (mk_blk c last cur p s (payload c))) all_seg) [0;1;2]) all_mcs) all_mcs) all_mcs.

Lemma chk_copy_all : for_blks (fun b => chk_copy true b && chk_copy false b) = true.
Proof. vm_compute. reflexivity. Qed.

Definition Inv (b : dlblk) : Prop := inv_b b = true /\ b_len b = payload (b_init b).

Lemma inv_edge b : Inv b -> mcs_is_edge (b_init b) = true.
Proof.
  intros [I _]. unfold inv_b in I. cbv zeta in I. rewrite !andb_true_iff in I.
  destruct I as (((((I1 & _) & _) & _) & _) & _). exact I1.
Qed.
Lemma cur_edge c cur : mcs_is_edge c = true -> cur_ok c cur = true -> mcs_is_edge cur = true.
Proof.
  intros Hc H.
  assert (Q : forallb (fun c => forallb (fun cur => negb (mcs_is_edge c) || negb (cur_ok c cur) || mcs_is_edge cur)
     all_schemes) all_schemes = true) by (vm_compute; reflexivity).
  pose proof (proj1 (forallb_forall _ _) Q c (in_all_schemes c)) as Q1. cbv beta in Q1.
  pose proof (proj1 (forallb_forall _ _) Q1 cur (in_all_schemes cur)) as Q2. cbv beta in Q2.
  rewrite Hc, H in Q2. exact Q2.
Qed.

Lemma for_blks_lift f b : for_blks f = true -> Inv b -> f b = true.
Proof.
  intros H [I L]. destruct b as [c last cur p s n]. cbn [b_len b_init] in L. subst n.
  unfold inv_b in I. cbn [b_init b_last b_cur b_ps b_seg] in I.
  apply andb_prop in I. destruct I as [I _]. apply andb_prop in I. destruct I as [I I1].
  apply andb_prop in I. destruct I as [I I2]. apply andb_prop in I. destruct I as [I I3].
  apply andb_prop in I. destruct I as [I4 I5].
  assert (Hp : In p [0;1;2]).
  { assert (ps_count last <= 3) by (destruct last; vm_compute; discriminate).
    assert (p = 0 \/ p = 1 \/ p = 2) by lia. cbn [In]. intuition. }
  pose proof (cur_edge c cur I4 I5) as I6.
  apply edge_in in I3, I4, I6.
  unfold for_blks in H.
  pose proof (proj1 (forallb_forall _ _) H c I4) as H1. cbv beta in H1.
  pose proof (proj1 (forallb_forall _ _) H1 last I3) as H2. cbv beta in H2.
  pose proof (proj1 (forallb_forall _ _) H2 cur I6) as H3. cbv beta in H3.
  pose proof (proj1 (forallb_forall _ _) H3 p Hp) as H4. cbv beta in H4.
  apply (proj1 (forallb_forall _ _) H4 s). destruct s; cbn; tauto.
Qed.

Lemma copy_len cs pad spb b u b' : blk_copy cs pad spb b = Some (u, b') ->
  b_len b' = b_len b /\ b_init b' = b_init b /\ b_cur b' = b_cur b.
Proof.
  unfold blk_copy. destruct (mcs_is_edge cs && _); [discriminate|].
  destruct (dl_get_data b) as [off st]. intro H. injection H as _ <-. auto.
Qed.

Definition Rel (b : dlblk) (u : unit_tx) (b' : dlblk) : Prop := rel_b b u b' = true /\ b_init b' = b_init b.

Inductive chain : dlblk -> list unit_tx -> dlblk -> Prop :=
| ch_nil b : chain b [] b
| ch_cons b u b1 us b2 : Inv b -> Rel b u b1 -> chain b1 us b2 -> chain b (u :: us) b2
| ch_cur b cur us b2 : Inv b -> cur_ok (b_init b) cur = true ->
    chain (mk_blk (b_init b) (b_last b) cur (b_ps b) (b_seg b) (b_len b)) us b2 -> chain b us b2.

Lemma chain_app b us b1 vs b2 : chain b us b1 -> chain b1 vs b2 -> chain b (us ++ vs) b2.
Proof.
  intros H K. induction H.
  - exact K.
  - cbn [app]. econstructor 2; eauto.
  - econstructor 3; eauto.
Qed.

Lemma copy_step two b : Inv b -> exists cs pad u b',
  radio_scheme two b = (cs, pad) /\ 0 < num_data_blocks (mcs_header_type cs) /\
  blk_copy cs pad (dl_spb b) b = Some (u, b') /\ Inv b' /\ Rel b u b' /\
  (num_data_blocks (mcs_header_type cs) = 2 ->
     radio_scheme two b' = (cs, pad) /\ dl_spb b = NoRetx /\ dl_spb b' = NoRetx).
Proof.
  intro I. pose proof (for_blks_lift _ _ chk_copy_all I) as H. cbv beta in H.
  assert (K : chk_copy two b = true) by (apply andb_prop in H; destruct two; tauto). clear H.
  unfold chk_copy in K. rewrite (proj1 I) in K. cbn [negb orb] in K.
  destruct (radio_scheme two b) as [cs pad] eqn:E.
  destruct (blk_copy cs pad (dl_spb b) b) as [[u b']|] eqn:EC; [|rewrite andb_false_r in K; discriminate K].
  exists cs, pad, u, b'. apply andb_prop in K. destruct K as [K0 K].
  apply andb_prop in K. destruct K as [K K1]. apply andb_prop in K. destruct K as [K2 K3].
  destruct (copy_len _ _ _ _ _ _ EC) as (L & LI & LC).
  splits; auto.
  - lia.
  - split; [exact K2|]. rewrite L, LI. exact (proj2 I).
  - split; [exact K3|exact LI].
  - intro N. rewrite N in K1. cbn [Z.eqb negb orb] in K1.
    change (2 =? 2) with true in K1. cbn [negb orb] in K1.
    apply andb_prop in K1. destruct K1 as [K1 K4]. apply andb_prop in K1. destruct K1 as [K5 K6].
    apply seqb_eq in K5. apply eqb_prop in K6. rewrite surjective_pairing with (p := radio_scheme two b').
    splits; [congruence| |]; destruct (dl_spb b); destruct (dl_spb b'); congruence.
Qed.

Lemma num_blocks_le2 c : num_data_blocks (mcs_header_type c) <= 2.
Proof. destruct c; vm_compute; discriminate. Qed.

Lemma send_first_step two b : Inv b -> exists us b',
  blk_send_first two b = Some (us, b') /\ Inv b' /\ chain b us b' /\ us <> [].
Proof.
  intro I. destruct (copy_step two b I) as (cs & pad & u & b1 & E & N & C & I1 & R & T).
  unfold blk_send_first. rewrite E.
  pose proof (num_blocks_le2 cs) as N2.
  assert (ND : num_data_blocks (mcs_header_type cs) = 1 \/ num_data_blocks (mcs_header_type cs) = 2) by lia.
  assert (ONE : blk_copies 1 cs pad (dl_spb b) b = Some ([u], b1)).
  { cbn [blk_copies]. rewrite C. reflexivity. }
  assert (CH : chain b [u] b1) by (econstructor 2; [exact I|exact R|constructor]).
  destruct ND as [ND|ND]; rewrite ND.
  - change (Z.to_nat 1) with 1%nat. destruct two; rewrite ONE; exists [u], b1; splits; auto; discriminate.
  - change (Z.to_nat 2) with 2%nat. destruct two.
    + rewrite ONE; exists [u], b1; splits; auto; discriminate.
    + destruct (T ND) as (E1 & S0 & S1).
      destruct (copy_step false b1 I1) as (cs' & pad' & u' & b2 & E' & N' & C' & I2 & R' & _).
      rewrite E1 in E'. injection E' as <- <-. rewrite S1 in C'. rewrite S0 in *.
      exists [u; u'], b2. splits; auto; [|econstructor 2; [exact I|exact R|econstructor 2; [exact I1|exact R'|constructor]]|discriminate].
      cbn [blk_copies]. rewrite C. rewrite C'. reflexivity.
Qed.

Lemma chk_second_all : for_blks (fun b => negb (inv_b b) ||
   negb (num_data_blocks (mcs_header_type (b_cur b)) =? 2) ||
   (seqb (fst (radio_scheme true b)) (b_cur b) && negb (snd (radio_scheme true b)) &&
    match dl_spb b with NoRetx => true | _ => false end)) = true.
Proof. vm_compute. reflexivity. Qed.

Lemma send_second_step b : Inv b -> exists us b',
  blk_send_second b = Some (us, b') /\ Inv b' /\ chain b us b'.
Proof.
  intro I. unfold blk_send_second.
  destruct (num_data_blocks (mcs_header_type (b_cur b)) =? 2) eqn:E.
  - pose proof (for_blks_lift _ _ chk_second_all I) as K. cbv beta in K.
    rewrite (proj1 I), E in K. cbn [negb orb] in K.
    apply andb_prop in K. destruct K as [K K1]. apply andb_prop in K. destruct K as [K2 K3].
    apply seqb_eq in K2.
    destruct (copy_step true b I) as (cs & pad & u & b1 & E1 & N & C & I1 & R & T).
    rewrite E1 in K2, K3. cbn [fst snd] in K2, K3. subst cs.
    destruct pad; [discriminate K3|]. destruct (dl_spb b); try discriminate K1.
    exists [u], b1. splits; auto; [cbn [blk_copies]; rewrite C; reflexivity|].
    econstructor 2; [exact I|exact R|constructor].
  - exists [], b. splits; auto. constructor.
Qed.

Lemma retx_step cmd a b : Inv b -> mcs_is_edge cmd = true -> exists b',
  blk_retx cmd a b = Some b' /\ Inv b' /\ chain b [] b'.
Proof.
  intros I H. unfold blk_retx.
  assert (Hi : mcs_is_edge (b_init b) = true).
  { exact (inv_edge b I). }
  destruct (retx_scheme (b_init b) cmd a) as [c|] eqn:E.
  - exists (mk_blk (b_init b) (b_last b) c (b_ps b) (b_seg b) (b_len b)). split; [reflexivity|].
    assert (CO : cur_ok (b_init b) c = true).
    { unfold cur_ok. apply orb_true_iff. right. apply existsb_exists. exists cmd. split; [apply edge_in; exact H|].
      apply existsb_exists. exists a. split; [destruct a; cbn; tauto|]. rewrite E. apply seqb_eq. reflexivity. }
    split.
    + destruct I as [I L]. split; [|exact L]. unfold inv_b in *. cbn [b_init b_last b_cur b_ps b_seg].
      rewrite CO. rewrite !andb_true_iff in I. destruct I as (((((I1 & I2) & I3) & I4) & I5) & I6).
      rewrite I1, I3, I4, I5, I6. reflexivity.
    + econstructor 3; [exact I|exact CO|constructor].
  - exfalso. unfold retx_scheme in E. destruct (c12_table (b_init b) cmd a Hi H) as (m & Hm & _).
    rewrite Hm in E. discriminate E.
Qed.

Lemma run_chain es : forall b, Inv b -> Forall bev_ok es -> exists us b',
  blk_run es b = Some (us, b') /\ Inv b' /\ chain b us b'.
Proof.
  induction es as [|e es IH]; intros b I F.
  - exists [], b. splits; auto. constructor.
  - inversion F as [|x l He Fe]; subst x l. cbn [blk_run].
    assert (S : exists us b1, blk_step e b = Some (us, b1) /\ Inv b1 /\ chain b us b1).
    { destruct e as [cmd a|two|]; cbn [blk_step].
      - destruct (retx_step cmd a b I He) as (b' & -> & I' & C'). exists [], b'. auto.
      - destruct (send_first_step two b I) as (us & b' & H & I' & C' & _). exists us, b'. auto.
      - exact (send_second_step b I). }
    destruct S as (us & b1 & -> & I1 & C1).
    destruct (IH b1 I1 Fe) as (us2 & b2 & -> & I2 & C2).
    exists (us ++ us2), b2. splits; auto. eapply chain_app; eauto.
Qed.

Lemma new_inv c : mcs_is_edge c = true -> exists b, blk_new c = Some b /\ Inv b /\ b_init b = c /\
  b_seg b = RDefault.
Proof.
  intro H. destruct c; try discriminate H; (eexists; split; [reflexivity|]); repeat split.
Qed.

(** What a chain says about its units. *)
Definition prev_ok (b : dlblk) (o : option unit_tx) : Prop :=
  match o with
  | None => is_first_sent (b_seg b) = false
  | Some u => b_last b = u_cs u /\
      b_ps b = (if is_firstseg (u_spb u) then u_ps u else (u_ps u + 1) mod ps_count (u_cs u)) /\
      is_first_sent (b_seg b) = is_firstseg (u_spb u)
  end.

Definition unit_facts (c : scheme) (o : option unit_tx) (u : unit_tx) : Prop :=
  same_family c (u_cs u) /\ 0 <= u_ps u < ps_count (u_cs u) /\
  (forall p, o = Some p -> u_cs u = u_cs p -> u_spb p <> FirstSeg ->
     u_ps u = (u_ps p + 1) mod ps_count (u_cs u)) /\
  match u_spb u with
  | NoRetx => u_off u = 0 /\ u_len u = payload c
  | FirstSeg => u_off u = 0 /\ 2 * u_len u = payload c
  | SecSeg => exists p, o = Some p /\ u_spb p = FirstSeg /\ u_ps u = u_ps p /\
      (c <> MCS4 -> u_cs u = u_cs p /\ u_off u = u_len u /\ 2 * u_len u = payload c)
  end.

Lemma rel_facts b o u b' : Inv b -> prev_ok b o -> Rel b u b' ->
  unit_facts (b_init b) o u /\ prev_ok b' (Some u).
Proof.
  intros I P [R RI]. unfold rel_b in R. rewrite !andb_true_iff in R.
  destruct R as (((((((((R1 & R2) & R3) & R4) & R5) & R6) & R7) & R8) & R9) & R10).
  apply seqb_eq in R6. apply Z.eqb_eq in R7. apply eqb_prop in R8.
  assert (Hi : mcs_is_edge (b_init b) = true).
  { exact (inv_edge b I). }
  split.
  - unfold unit_facts. splits.
    + apply c10_families in R10; auto. unfold same_family in *. tauto.
    + lia.
    + lia.
    + intros p -> Ec Ns. cbn [prev_ok] in P. destruct P as (P1 & P2 & P3).
      rewrite P1, Ec in R4. rewrite (proj2 (seqb_eq _ _) eq_refl) in R4. cbn [negb orb] in R4.
      apply Z.eqb_eq in R4. rewrite R4, P2, Ec.
      destruct (u_spb p); cbn [is_firstseg]; congruence.
    + unfold piece_ok in R9. destruct (u_spb u) eqn:ES; try lia.
      cbn [is_secseg negb orb] in R5. apply andb_prop in R5. destruct R5 as [R5 R5'].
      destruct o as [p|]; cbn [prev_ok] in P; [|congruence]. destruct P as (P1 & P2 & P3).
      exists p. rewrite R5 in P3.
      assert (FS : u_spb p = FirstSeg) by (destruct (u_spb p); cbn in P3; congruence).
      rewrite FS in P2. cbn [is_firstseg] in P2. splits; auto; [lia|].
      intro N4. apply seqb_neq in N4. rewrite N4 in R9. cbn [orb] in R9.
      apply andb_prop in R9. destruct R9 as [_ R9]. apply andb_prop in R9. destruct R9 as [R9 Q].
      apply andb_prop in R9. destruct R9 as [R9 Q2]. apply seqb_eq in R9. splits; [congruence|lia|lia].
  - cbn [prev_ok]. auto.
Qed.

Fixpoint units_ok (c : scheme) (o : option unit_tx) (us : list unit_tx) : Prop :=
  match us with
  | [] => True
  | u :: r => unit_facts c o u /\ units_ok c (Some u) r
  end.

Lemma chain_units b us b' : chain b us b' -> forall o, prev_ok b o -> units_ok (b_init b) o us.
Proof.
  intro H. induction H as [b|b u b1 us b2 I R C IH|b cur us b2 I CO C IH]; intros o P.
  - exact Logic.I.
  - destruct (rel_facts b o u b1 I P R) as [F P']. cbn [units_ok]. split; [exact F|].
    rewrite <- (proj2 R). apply IH. exact P'.
  - cbn [b_init] in IH. apply IH. destruct o; exact P.
Qed.

Lemma history_units c es us b : mcs_is_edge c = true -> Forall bev_ok es ->
  blk_history c es us b -> units_ok c None us.
Proof.
  intros Hc F (b0 & N & R). destruct (new_inv c Hc) as (b0' & N' & I & Ei & Es).
  rewrite N in N'. injection N' as <-.
  destruct (run_chain es b0 I F) as (us' & b' & R' & I' & C). rewrite R in R'. injection R' as <- <-.
  rewrite <- Ei. eapply chain_units; [exact C|]. cbn [prev_ok]. rewrite Es. reflexivity.
Qed.

Lemma history_total c es : mcs_is_edge c = true -> Forall bev_ok es -> exists us b, blk_history c es us b.
Proof.
  intros Hc F. destruct (new_inv c Hc) as (b0 & N & I & Ei & Es).
  destruct (run_chain es b0 I F) as (us' & b' & R' & I' & C).
  exists us', b', b0. auto.
Qed.

Lemma units_nth c us : forall o, units_ok c o us -> forall i u, nth_error us i = Some u ->
  unit_facts c (match i with O => o | S j => nth_error us j end) u.
Proof.
  induction us as [|x us IH]; intros o H i u E.
  - destruct i; discriminate E.
  - destruct H as [H1 H2]. destruct i as [|i].
    + cbn in E. injection E as <-. exact H1.
    + cbn [nth_error] in E. specialize (IH (Some x) H2 i u E). destruct i as [|i]; exact IH.
Qed.

Lemma c09_valid c es us b : mcs_is_edge c = true -> Forall bev_ok es -> blk_history c es us b ->
  forall u, In u us -> 0 <= u_ps u < ps_count (u_cs u).
Proof.
  intros Hc F H u Hin. apply In_nth_error in Hin. destruct Hin as [i Hi].
  pose proof (units_nth c us None (history_units c es us b Hc F H) i u Hi) as K.
  exact (proj1 (proj2 K)).
Qed.

Lemma c09_next c es us b : mcs_is_edge c = true -> Forall bev_ok es -> blk_history c es us b ->
  forall i u v, nth_error us i = Some u -> nth_error us (S i) = Some v ->
  (u_cs v = u_cs u -> u_spb u <> FirstSeg -> u_ps v = (u_ps u + 1) mod ps_count (u_cs v)) /\
  (u_spb v = SecSeg -> u_ps v = u_ps u).
Proof.
  intros Hc F H i u v Hu Hv.
  pose proof (units_nth c us None (history_units c es us b Hc F H) (S i) v Hv) as K.
  cbv beta iota in K. rewrite Hu in K. destruct K as (_ & _ & K1 & K2). split.
  - intros E Ns. exact (K1 u eq_refl E Ns).
  - intro E. rewrite E in K2. destruct K2 as (p & Ep & _ & K3 & _). congruence.
Qed.

Lemma c09_all c es us b m : mcs_is_edge c = true -> Forall bev_ok es -> blk_history c es us b ->
  forall i, (forall k, (k < Z.to_nat (ps_count m))%nat -> exists u, nth_error us (i + k) = Some u /\
               u_cs u = m /\ u_spb u <> FirstSeg) ->
  forall p, 0 <= p < ps_count m -> exists k u, (k < Z.to_nat (ps_count m))%nat /\
     nth_error us (i + k) = Some u /\ u_ps u = p.
Proof.
  intros Hc F H i W p Hp.
  pose proof (c09_next c es us b Hc F H) as NX. pose proof (c09_valid c es us b Hc F H) as VA.
  assert (C : ps_count m = 2 \/ ps_count m = 3) by (destruct m; cbn; auto).
  destruct (W 0%nat) as (u0 & N0 & C0 & S0); [destruct C as [-> | ->]; cbn; lia|].
  destruct (W 1%nat) as (u1 & N1 & C1 & S1); [destruct C as [-> | ->]; cbn; lia|].
  rewrite Nat.add_0_r in N0. rewrite Nat.add_1_r in N1.
  pose proof (VA u0 (nth_error_In _ _ N0)) as V0. rewrite C0 in V0.
  destruct (NX i u0 u1 N0 N1) as [E1 _]. rewrite C0, C1 in E1. specialize (E1 eq_refl S0).
  destruct C as [C|C].
  - rewrite C in *.
    assert (Q : u_ps u0 = p \/ u_ps u1 = p).
    { rewrite E1. assert (A : u_ps u0 = 0 \/ u_ps u0 = 1) by lia. destruct A as [-> | ->];
      [change ((0+1) mod 2) with 1|change ((1+1) mod 2) with 0]; lia. }
    destruct Q; [exists 0%nat, u0|exists 1%nat, u1]; splits; auto; try (cbn; lia);
      rewrite ?Nat.add_0_r, ?Nat.add_1_r; assumption.
  - destruct (W 2%nat) as (u2 & N2 & C2 & S2); [rewrite C; cbn; lia|].
    replace (i + 2)%nat with (S (S i)) in N2 by lia.
    destruct (NX (S i) u1 u2 N1 N2) as [E2 _]. rewrite C1, C2 in E2. specialize (E2 eq_refl S1).
    rewrite C in *.
    assert (Q : u_ps u0 = p \/ u_ps u1 = p \/ u_ps u2 = p).
    { rewrite E2, E1. assert (A : u_ps u0 = 0 \/ u_ps u0 = 1 \/ u_ps u0 = 2) by lia.
      destruct A as [-> | [-> | ->]]; vm_compute ((_ + _) mod _); lia. }
    destruct Q as [Q|[Q|Q]]; [exists 0%nat, u0|exists 1%nat, u1|exists 2%nat, u2]; splits; auto; try (cbn; lia);
      replace (i + 2)%nat with (S (S i)) by lia;
      rewrite ?Nat.add_0_r, ?Nat.add_1_r; assumption.
Qed.

Lemma c12_pieces c es us b : mcs_is_edge c = true -> c <> MCS4 -> Forall bev_ok es -> blk_history c es us b ->
  forall i u, nth_error us i = Some u ->
  same_family c (u_cs u) /\
  match u_spb u with
  | NoRetx => u_off u = 0 /\ u_len u = payload c
  | FirstSeg => u_off u = 0 /\ 2 * u_len u = payload c
  | SecSeg => u_off u = u_len u /\ 2 * u_len u = payload c /\
      exists j p, i = S j /\ nth_error us j = Some p /\ u_spb p = FirstSeg /\
                  u_cs p = u_cs u /\ u_ps p = u_ps u
  end.
Proof.
  intros Hc N4 F H i u E.
  pose proof (units_nth c us None (history_units c es us b Hc F H) i u E) as (K1 & _ & _ & K2).
  split; [exact K1|]. destruct (u_spb u); auto.
  destruct K2 as (p & Ep & K3 & K4 & K5). destruct (K5 N4) as (K6 & K7 & K8). splits; auto.
  destruct i as [|j]; [discriminate Ep|]. exists j, p. auto.
Qed.

Lemma c12_mcs4 : exists es us b u, Forall bev_ok es /\ blk_history MCS4 es us b /\ In u us /\
  u_cs u = MCS4 /\ u_off u = 22 /\ u_off u + u_len u > payload MCS4.
Proof.
  exists [BFirst false; BRetx MCS1 true; BFirst false; BRetx MCS4 true; BFirst false].
  eexists; eexists; exists (mk_unit MCS4 0 SecSeg 22 44).
  split; [repeat constructor|]. split; [eexists; split; reflexivity|].
  split; [cbn; tauto|]. repeat split.
Qed.

Lemma c12_mcs8 : exists cmd m, mcs_is_edge cmd = true /\ retx_scheme MCS8 cmd true = Some m /\
  snum cmd < snum m /\ can_carry true MCS8 MCS6 /\ snum MCS6 <= snum cmd.
Proof.
  exists MCS6, MCS8. repeat split; try (vm_compute; congruence); try (vm_compute; tauto).
Qed.
