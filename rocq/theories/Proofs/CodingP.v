(** Proofs for C08-C12: coding schemes, CPS field, puncturing, retransmission scheme. *)
From Coq Require Import ZArith List Bool Lia.
From Verif Require Import Base.Arith Model.CodingScheme Model.RlcCps Model.DlBlockTx Spec.CodingSpec.
Import ListNotations.
Local Open Scope Z_scope.

Lemma seqb_eq a b : seqb a b = true <-> a = b.
Proof. destruct a, b; vm_compute; split; intro H; try reflexivity; discriminate. Qed.
Lemma seqb_neq a b : seqb a b = false <-> a <> b.
Proof.
  split; intro H.
  - intro E. apply seqb_eq in E. congruence.
  - destruct (seqb a b) eqn:E; [|reflexivity]. apply seqb_eq in E. contradiction.
Qed.
Lemma edge_in c : mcs_is_edge c = true <-> In c all_mcs.
Proof. destruct c; vm_compute; split; intro H; try discriminate; intuition; try discriminate. Qed.

(** C08 *)
Definition b_args (c : scheme) (p p2 : Z) (pad : bool) : bool :=
  mcs_is_edge c && (0 <=? p) && (p <? ps_count c) &&
  (if two_blocks c then (0 <=? p2) && (p2 <? ps_count c) else p2 =? PS_INVALID) &&
  (negb pad || seqb c MCS3 || seqb c MCS6).

Lemma args_cases c p p2 pad : valid_cps_args c p p2 pad ->
  In (p, p2, pad)
     (filter (fun t => b_args c (fst (fst t)) (snd (fst t)) (snd t))
        (list_prod (list_prod [0;1;2] [0;1;2;3]) [true; false])).
Proof.
  intros (Hc & Hp & H2 & Hd). apply filter_In. cbn [fst snd].
  assert (ps_count c <= 3) by (destruct c; vm_compute; discriminate).
  assert (Hp3 : 0 <= p < 3) by lia.
  assert (Ip : In p [0;1;2]) by (assert (p = 0 \/ p = 1 \/ p = 2) by lia; cbn [In]; intuition).
  assert (I2 : In p2 [0;1;2;3]).
  { destruct (two_blocks c).
    - assert (p2 = 0 \/ p2 = 1 \/ p2 = 2) by lia. cbn [In]; intuition.
    - subst p2. right; right; right; left; reflexivity. }
  split.
  - apply in_prod; [apply in_prod; assumption|]. destruct pad; cbn [In]; auto.
  - unfold b_args. apply edge_in in Hc. rewrite Hc.
    rewrite (proj2 (Z.leb_le 0 p)), (proj2 (Z.ltb_lt p (ps_count c))) by lia. cbn [andb].
    apply andb_true_intro; split.
    + destruct (two_blocks c).
      * rewrite (proj2 (Z.leb_le 0 p2)), (proj2 (Z.ltb_lt p2 (ps_count c))) by lia. reflexivity.
      * apply Z.eqb_eq; assumption.
    + destruct pad; [|reflexivity]. destruct (Hd eq_refl); subst c; reflexivity.
Qed.

Definition c08_chk (c : scheme) (t : Z * Z * bool) : bool :=
  let '(p, p2, pad) := t in
  match mcs_cps c p p2 pad with
  | None => false
  | Some v =>
    (0 <=? v) && (v <? 2 ^ cps_width (mcs_header_type c)) &&
    (if seqb c MCS9 && negb (p =? 0) then true else
     match mcs_cps_decode v c with
     | Some (q, q2, d) => (q =? p) && (q2 =? (if two_blocks c then p2 else -1)) && Bool.eqb d pad
     | None => false
     end)
  end.

Lemma c08_all c : forallb (c08_chk c)
     (filter (fun t => b_args c (fst (fst t)) (snd (fst t)) (snd t))
        (list_prod (list_prod [0;1;2] [0;1;2;3]) [true; false])) = true.
Proof. destruct c; vm_compute; reflexivity. Qed.

Lemma c08_round_trip c p p2 pad : valid_cps_args c p p2 pad ->
  exists v, mcs_cps c p p2 pad = Some v /\ 0 <= v < 2 ^ cps_width (mcs_header_type c) /\
    (c <> MCS9 \/ p = PS_1 ->
     mcs_cps_decode v c = Some (p, if two_blocks c then p2 else -1, pad)).
Proof.
  intro H. apply args_cases in H.
  pose proof (proj1 (forallb_forall _ _) (c08_all c) _ H) as K.
  unfold c08_chk in K. destruct (mcs_cps c p p2 pad) as [v|] eqn:E; [|discriminate].
  exists v. split; [reflexivity|].
  apply andb_prop in K. destruct K as [K1 K2]. apply andb_prop in K1. destruct K1 as [Ka Kb].
  apply Z.leb_le in Ka. apply Z.ltb_lt in Kb. split; [lia|].
  intro Hn.
  assert (Hf : seqb c MCS9 && negb (p =? 0) = false).
  { destruct Hn as [Hn|Hn].
    - apply seqb_neq in Hn. rewrite Hn. reflexivity.
    - subst p. rewrite andb_comm. reflexivity. }
  rewrite Hf in K2.
  destruct (mcs_cps_decode v c) as [[[q q2] d]|]; [|discriminate].
  apply andb_prop in K2. destruct K2 as [K2 K3]. apply andb_prop in K2. destruct K2 as [K4 K5].
  apply Z.eqb_eq in K4, K5. apply eqb_prop in K3. congruence.
Qed.

Lemma c08_mcs9 : exists p p2 v, valid_cps_args MCS9 p p2 false /\
  mcs_cps MCS9 p p2 false = Some v /\ mcs_cps_decode v MCS9 <> Some (p, p2, false).
Proof.
  exists 1, 0, 4. repeat split; try (vm_compute; congruence); try (vm_compute; tauto).
Qed.

Definition all_args : list (scheme * (Z * Z * bool)) :=
  flat_map (fun c => map (fun t => (c, t))
     (filter (fun t => b_args c (fst (fst t)) (snd (fst t)) (snd t))
        (list_prod (list_prod [0;1;2] [0;1;2;3]) [true; false]))) all_mcs.
Lemma in_all_args c p p2 pad : valid_cps_args c p p2 pad -> In (c, (p, p2, pad)) all_args.
Proof.
  intro H. apply in_flat_map. exists c. split; [exact (proj1 H)|].
  apply in_map. apply args_cases; exact H.
Qed.
Definition t_eqb (x y : scheme * (Z * Z * bool)) : bool :=
  seqb (fst x) (fst y) && (fst (fst (snd x)) =? fst (fst (snd y))) &&
  (snd (fst (snd x)) =? snd (fst (snd y))) && Bool.eqb (snd (snd x)) (snd (snd y)).
Definition t_cps (x : scheme * (Z * Z * bool)) : option Z :=
  mcs_cps (fst x) (fst (fst (snd x))) (snd (fst (snd x))) (snd (snd x)).
Definition o_eqb (a b : option Z) : bool :=
  match a, b with Some x, Some y => x =? y | None, None => true | _, _ => false end.
Lemma c08_inj_all : forallb (fun x => forallb (fun y =>
    if heqb (mcs_header_type (fst x)) (mcs_header_type (fst y)) && o_eqb (t_cps x) (t_cps y)
    then t_eqb x y else true) all_args) all_args = true.
Proof. vm_compute. reflexivity. Qed.

Lemma c08_identifies c p p2 pad c' p' p2' pad' :
  valid_cps_args c p p2 pad -> valid_cps_args c' p' p2' pad' ->
  mcs_header_type c = mcs_header_type c' -> mcs_cps c p p2 pad = mcs_cps c' p' p2' pad' ->
  c = c' /\ p = p' /\ p2 = p2' /\ pad = pad'.
Proof.
  intros H H' Hh He. apply in_all_args in H, H'.
  pose proof (proj1 (forallb_forall _ _) c08_inj_all _ H) as K. cbv beta in K.
  pose proof (proj1 (forallb_forall _ _) K _ H') as K2. cbv beta in K2.
  unfold t_cps, t_eqb in K2. cbn [fst snd] in K2. rewrite Hh, He in K2.
  assert (E1 : heqb (mcs_header_type c') (mcs_header_type c') = true) by (destruct c'; reflexivity).
  assert (E2 : o_eqb (mcs_cps c' p' p2' pad') (mcs_cps c' p' p2' pad') = true).
  { destruct (mcs_cps c' p' p2' pad'); [apply Z.eqb_refl|reflexivity]. }
  rewrite E1, E2 in K2. cbn [andb] in K2.
  apply andb_prop in K2. destruct K2 as [K2 K3]. apply andb_prop in K2. destruct K2 as [K2 K4].
  apply andb_prop in K2. destruct K2 as [K2 K5].
  apply seqb_eq in K2. apply Z.eqb_eq in K4, K5. apply eqb_prop in K3. auto.
Qed.

(** C10 *)
Lemma c10_size s c : mcs_is_valid c = true -> (mcs_get_by_size_ul s = c <-> mcs_size_ul c = s).
Proof.
  intro V. split; intro H.
  - unfold mcs_get_by_size_ul in H.
    repeat match type of H with
    | context[match ?x with _ => _ end] => is_var x; destruct x; try (subst c; vm_compute in V; discriminate V)
    end; subst c; reflexivity.
  - subst s. destruct c; try discriminate V; reflexivity.
Qed.
Lemma c10_size_none s : mcs_get_by_size_ul s = UNKNOWN <->
  (forall c, mcs_is_valid c = true -> mcs_size_ul c <> s).
Proof.
  split.
  - intros H c V E. apply (c10_size s c V) in E. rewrite H in E. subst c. discriminate V.
  - intro H. destruct (mcs_get_by_size_ul s) eqn:E; try reflexivity;
      exfalso; eapply H; try (apply (c10_size s); [|exact E]); reflexivity.
Qed.

Definition lay_chk (total hdr bh : Z) (l : list (Z * Z)) : bool :=
  forallb (fun x => (hdr + bh <=? fst x) && (0 <? snd x) && (snd x <=? RLC_MAX_LEN) &&
                    (fst x + 8 * snd x <=? total)) l &&
  match l with
  | [a; b] => fst a + 8 * snd a + bh <=? fst b
  | [_] => true
  | _ => false
  end.
Lemma lay_chk_ok total hdr bh l : lay_chk total hdr bh l = true -> lay_ok total hdr bh l.
Proof.
  intro H. apply andb_prop in H. destruct H as [H1 H2]. split.
  - intros i o n E. apply nth_error_In in E.
    pose proof (proj1 (forallb_forall _ _) H1 _ E) as K. cbv beta in K. cbn [fst snd] in K.
    lia.
  - intros i o n o' n' E E'. destruct l as [|a [|b [|c r]]]; try discriminate H2.
    + destruct i; discriminate E'.
    + destruct i as [|[|i]]; try discriminate E'.
      cbn in E, E'. injection E as ->. injection E' as ->. cbn [fst snd] in H2. lia.
Qed.

Lemma c10_layout c pad : mcs_is_valid c = true ->
  exists u d, data_info_init_ul c pad = Some u /\ data_info_init_dl c pad = Some d /\
    Z.of_nat (length u) = num_data_blocks (mcs_header_type c) /\
    Z.of_nat (length d) = num_data_blocks (mcs_header_type c) /\
    lay_ok (total_ul c) (num_data_header_bits_UL (mcs_header_type c))
           (num_data_block_header_bits (mcs_header_type c)) u /\
    lay_ok (total_dl c) (num_data_header_bits_DL (mcs_header_type c))
           (num_data_block_header_bits (mcs_header_type c)) d /\
    total_ul c <= 8 * mcs_used_size_ul c /\ total_dl c <= 8 * mcs_used_size_dl c /\
    mcs_used_size_ul c <= mcs_size_ul c /\ mcs_used_size_dl c <= mcs_size_dl c.
Proof.
  intro V. unfold data_info_init_ul, data_info_init_dl, data_info_init. rewrite V. cbn [negb].
  eexists; eexists. split; [reflexivity|]. split; [reflexivity|].
  splits; try (destruct c; try discriminate V; vm_compute; first [reflexivity|discriminate]);
   try (apply lay_chk_ok; destruct c; try discriminate V; destruct pad; vm_compute; reflexivity).
Qed.

Lemma c10_families c o : mcs_is_edge c = true -> mcs_is_edge o = true ->
  (mcs_is_family_compat c o = true <-> same_family c o).
Proof.
  intros H H'. unfold same_family. split; intro K.
  - destruct c; try discriminate H; destruct o; try discriminate H'; try discriminate K; cbn [In]; tauto.
  - cbn [In] in K. destruct c; try discriminate H; destruct o; try discriminate H'; try reflexivity;
      exfalso; intuition discriminate.
Qed.
Lemma c10_consistent c : mcs_is_valid c = true ->
  mcs_max_data_block_bytes c = payload c /\ mcs_opt_padding_bits c = 8 * padding c /\
  (mcs_is_gprs c = true <-> mcs_header_type c = HGprs) /\
  mcs_is_gprs c = negb (mcs_is_edge c) /\
  (mcs_is_edge c = true ->
     num_data_blocks (mcs_header_type c) = if two_blocks c then 2 else 1).
Proof.
  intro V. destruct c; try discriminate V; splits; try reflexivity; try (split; intro H; try reflexivity; discriminate);
    intro H; try reflexivity; discriminate.
Qed.

(** C11 *)
Lemma c11_inc c k : In c (ladder k) ->
  next_in (ladder k) c (mcs_inc_kind c k) \/ (last_of (ladder k) c /\ mcs_inc_kind c k = c).
Proof.
  intro H. unfold next_in, last_of. destruct k; cbn [ladder In all_mcs] in H;
  repeat (destruct H as [<-|H]; [
    first [ right; split; [|reflexivity];
            first [exists [CS1;CS2;CS3]; reflexivity | exists [MCS1;MCS2;MCS3]; reflexivity
                  | exists [MCS1;MCS2;MCS3;MCS4;MCS5;MCS6;MCS7;MCS8]; reflexivity ]
          | left;
            first [ exists []; eexists; reflexivity | exists [CS1]; eexists; reflexivity
                  | exists [CS1;CS2]; eexists; reflexivity
                  | exists [MCS1]; eexists; reflexivity | exists [MCS1;MCS2]; eexists; reflexivity
                  | exists [MCS1;MCS2;MCS3]; eexists; reflexivity
                  | exists [MCS1;MCS2;MCS3;MCS4]; eexists; reflexivity
                  | exists [MCS1;MCS2;MCS3;MCS4;MCS5]; eexists; reflexivity
                  | exists [MCS1;MCS2;MCS3;MCS4;MCS5;MCS6]; eexists; reflexivity
                  | exists [MCS1;MCS2;MCS3;MCS4;MCS5;MCS6;MCS7]; eexists; reflexivity ] ] |]);
  contradiction.
Qed.
Lemma c11_dec c k : In c (ladder k) ->
  next_in (ladder k) (mcs_dec_kind c k) c \/ (first_of (ladder k) c /\ mcs_dec_kind c k = c).
Proof.
  intro H. unfold next_in, first_of. destruct k; cbn [ladder In all_mcs] in H;
  repeat (destruct H as [<-|H]; [
    first [ right; split; [|reflexivity]; eexists; reflexivity
          | left;
            first [ exists []; eexists; reflexivity | exists [CS1]; eexists; reflexivity
                  | exists [CS1;CS2]; eexists; reflexivity
                  | exists [MCS1]; eexists; reflexivity | exists [MCS1;MCS2]; eexists; reflexivity
                  | exists [MCS1;MCS2;MCS3]; eexists; reflexivity
                  | exists [MCS1;MCS2;MCS3;MCS4]; eexists; reflexivity
                  | exists [MCS1;MCS2;MCS3;MCS4;MCS5]; eexists; reflexivity
                  | exists [MCS1;MCS2;MCS3;MCS4;MCS5;MCS6]; eexists; reflexivity
                  | exists [MCS1;MCS2;MCS3;MCS4;MCS5;MCS6;MCS7]; eexists; reflexivity ] ] |]);
  contradiction.
Qed.
Lemma c11_outside c k : ~ In c (ladder k) -> mcs_inc_kind c k = c /\ mcs_dec_kind c k = c.
Proof.
  intro H. destruct k; destruct c; try (split; reflexivity); exfalso; apply H; cbn; tauto.
Qed.
Lemma c11_plain c : mcs_is_valid c = true ->
  let k := if mcs_is_gprs c then GPRS else EGPRS in
  mcs_inc c = Some (mcs_inc_kind c k) /\ mcs_dec c = Some (mcs_dec_kind c k) /\ In c (ladder k).
Proof. intro V. destruct c; try discriminate V; cbn; repeat split; tauto. Qed.

(** C12 *)
Definition fam_b (a b : scheme) : bool :=
  mcs_is_edge a && mcs_is_edge b && mcs_is_family_compat a b.
Lemma fam_b_true a b : fam_b a b = true <-> same_family a b.
Proof.
  unfold same_family. split; intro K.
  - destruct a, b; try discriminate K; cbn [In]; tauto.
  - cbn [In] in K. destruct a, b; try reflexivity; exfalso; intuition discriminate.
Qed.
Definition carry_b (s : bool) (a b : scheme) : bool :=
  fam_b a b && ((payload b =? payload a) || (payload b - padding b =? payload a) ||
  (s && ((2 * payload b =? payload a) || (2 * payload b - padding b =? payload a)))).
Definition c12_chk (s : bool) (i c : scheme) : bool :=
  match get_retx_mcs i c s with
  | None => false
  | Some m =>
    carry_b s i m &&
    forallb (fun m' => negb (carry_b s i m') ||
       (if snum m <=? snum c then negb (snum m' <=? snum c) || (snum m' <=? snum m)
        else (snum c <? snum m') && (snum m <=? snum m'))) all_schemes
  end.
Lemma c12_all : forallb (fun s => forallb (fun i => forallb (c12_chk s i) all_mcs) all_mcs) [true;false] = true.
Proof. vm_compute. reflexivity. Qed.
Lemma in_all_schemes c : In c all_schemes.
Proof. destruct c; cbn; tauto. Qed.
Lemma carry_b_true s a b : carry_b s a b = true <-> can_carry s a b.
Proof.
  unfold carry_b, can_carry. rewrite andb_true_iff, fam_b_true, !orb_true_iff, andb_true_iff, orb_true_iff, !Z.eqb_eq.
  tauto.
Qed.

Lemma c12_table i c s : mcs_is_edge i = true -> mcs_is_edge c = true ->
  exists m, get_retx_mcs i c s = Some m /\ can_carry s i m /\
   ((snum m <= snum c /\ forall m', can_carry s i m' -> snum m' <= snum c -> snum m' <= snum m) \/
    ((forall m', can_carry s i m' -> snum c < snum m') /\
     (forall m', can_carry s i m' -> snum m <= snum m'))).
Proof.
  intros Hi Hc. apply edge_in in Hi, Hc.
  assert (K : c12_chk s i c = true).
  { pose proof (proj1 (forallb_forall _ _) c12_all s) as K. cbv beta in K.
    assert (Is : In s [true;false]) by (destruct s; cbn; tauto).
    specialize (K Is).
    pose proof (proj1 (forallb_forall _ _) K i Hi) as K2. cbv beta in K2.
    exact (proj1 (forallb_forall _ _) K2 c Hc). }
  unfold c12_chk in K. destruct (get_retx_mcs i c s) as [m|]; [|discriminate K].
  exists m. split; [reflexivity|]. apply andb_prop in K. destruct K as [K1 K2].
  split; [apply carry_b_true; exact K1|].
  assert (K3 : forall m', can_carry s i m' ->
     (if snum m <=? snum c then negb (snum m' <=? snum c) || (snum m' <=? snum m)
        else (snum c <? snum m') && (snum m <=? snum m')) = true).
  { intros m' Hm. pose proof (proj1 (forallb_forall _ _) K2 m' (in_all_schemes m')) as K3.
    cbv beta in K3. apply carry_b_true in Hm. rewrite Hm in K3. exact K3. }
  destruct (snum m <=? snum c) eqn:E.
  - left. split; [lia|]. intros m' Hm Hle. specialize (K3 m' Hm). lia.
  - right. split; intros m' Hm; specialize (K3 m' Hm); lia.
Qed.

Lemma retx_scheme_table i c s : i <> MCS8 -> retx_scheme i c s = get_retx_mcs i c s.
Proof.
  intro H. unfold retx_scheme. apply seqb_neq in H. rewrite H. destruct (get_retx_mcs i c s); reflexivity.
Qed.

Lemma second_block_scheme i1 i2 c s : mcs_is_edge i1 = true -> mcs_is_edge i2 = true ->
  mcs_is_edge c = true ->
  forall c1, (retx_scheme i1 c s = Some c1 \/ c1 = i1) -> two_blocks c1 = true ->
  payload i1 = payload i2 -> retx_scheme i2 c1 s = Some c1.
Proof.
  intros H1 H2 H3 c1 Hc Ht Hp.
  assert (Q : forallb (fun s => forallb (fun i1 => forallb (fun i2 => forallb (fun c => forallb (fun c1 =>
     if ((match retx_scheme i1 c s with Some x => seqb x c1 | None => false end) || seqb c1 i1)
        && two_blocks c1 && (payload i1 =? payload i2)
     then match retx_scheme i2 c1 s with Some x => seqb x c1 | None => false end else true)
     all_mcs) all_mcs) all_mcs) all_mcs) [true;false] = true) by (vm_compute; reflexivity).
  assert (Is : In s [true;false]) by (destruct s; cbn; tauto).
  pose proof (proj1 (forallb_forall _ _) Q s Is) as Q1. cbv beta in Q1.
  apply edge_in in H1, H2, H3.
  pose proof (proj1 (forallb_forall _ _) Q1 i1 H1) as Q2. cbv beta in Q2.
  pose proof (proj1 (forallb_forall _ _) Q2 i2 H2) as Q3. cbv beta in Q3.
  pose proof (proj1 (forallb_forall _ _) Q3 c H3) as Q4. cbv beta in Q4.
  assert (I1 : In c1 all_mcs) by (destruct c1; try discriminate Ht; cbn; tauto).
  pose proof (proj1 (forallb_forall _ _) Q4 c1 I1) as Q5. cbv beta in Q5.
  assert (E : ((match retx_scheme i1 c s with Some x => seqb x c1 | None => false end) || seqb c1 i1) = true).
  { destruct Hc as [Hc|Hc].
    - rewrite Hc. rewrite (proj2 (seqb_eq c1 c1) eq_refl). reflexivity.
    - rewrite (proj2 (seqb_eq c1 i1) Hc). apply orb_true_r. }
  rewrite E, Ht, (proj2 (Z.eqb_eq _ _) Hp) in Q5. cbn [andb] in Q5.
  destruct (retx_scheme i2 c1 s) as [x|]; [|discriminate Q5]. apply seqb_eq in Q5. congruence.
Qed.
