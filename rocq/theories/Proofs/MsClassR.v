(** The technologies of a capability, one element each. *)
From Coq Require Import ZArith List Bool Lia.
Import ListNotations.
From Verif Require Import Model.Csn1 Model.Csn1Tables Model.MsClass Spec.UlControlSpec Spec.MsClassSpec
  Proofs.Csn1Check Proofs.Csn1Ul Proofs.Csn1Fields Proofs.MsClassP Proofs.MsClassQ.
Open Scope Z_scope.

(** An array of elements of 69 bytes behind the count at [c]; [win] are its limits. *)
Definition base_of (c : Z) (k : nat) : Z := c + 1 + 69 * Z.of_nat k.
Definition cwin (c : Z) (win : Z * Z) (k : nat) : Z * Z := inter win (base_of c k + 1) (base_of c k + 1 + 68).
Definition leaves_of (c : Z) (win : Z * Z) : bool :=
  forallb (fun k => leaves (base_of c k + 1 + 26) content_tail (base_of c k + 1) (cwin c win k) &&
  leaves (base_of c k + 1 + 8 + 13) ms_tail (base_of c k + 1 + 8) (inter (cwin c win k) (base_of c k + 1 + 8) (base_of c k + 1 + 8 + 18)) &&
  leaves (base_of c k) T_MS_RA_capability_value_t (base_of c k) win) (seq 0 11).
Definition racap_win : Z * Z := inter (0, RACAP_SIZE) 1 760.
Lemma leaves_racap : leaves_of 0 racap_win = true.
Proof. vm_compute. reflexivity. Qed.

Section Loop.
Variable msg : list Z.
Hypothesis OCT : octets msg.
Notation v := (bit_of msg).
Notation n := (8 * Z.of_nat (length msg)).
Notation fl := (fld v n).
Notation dc := (dec v n).

Section Array.
Variable c0 : Z.
Variable win : Z * Z.
Hypothesis leaves_all : leaves_of c0 win = true.

Lemma last_irrel {A} (l : list A) : forall u d d', last (u :: l) d = last (u :: l) d'.
Proof. induction l as [|x l IH]; intros u d d'; [reflexivity|]. exact (IH x d d'). Qed.

Lemma choose_go off cap base w s : forall l i s', (forall b y e, In (b, y, e) l -> b = 4) -> choose v n dc off cap base w s i l = Go s' ->
  exists e s2 j, In (4, fl (rd s) 4 mod 256, e) l /\ st s2 (stm 1 (mem s) (base + off) j) (rd s + 4) (rem s - 4) /\ 0 <= rem s2 /\ dc e base w s2 = Go s'.
Proof.
  induction l as [|((b, y), e) l IH]; intros i s' F H; [discriminate H|].
  assert (B : b = 4) by (apply (F b y e); now left). subst b. cbn [choose] in H. unfold take in H.
  destruct (Z.eqb_spec (rfield v n (Z.to_nat 4) (rd s) mod 256) y) as [E|E].
  - match type of H with context [rem ?x <? 0] => set (s2 := x) in H end.
    destruct (rem s2 <? 0) eqn:R; [discriminate H|]. exists e, s2, i. split; [left; unfold fld; congruence|]. split.
    + subst s2. apply less_st, put8_st. unfold st. cbn. auto.
    + split; [now apply Z.ltb_ge in R|].
      destruct (dc e base w s2) as [s3|c s3|s3]; try discriminate H. destruct (rem s3 <? 0); [discriminate H|]. destruct (i16 (rem s3) <? 0); [discriminate H|congruence].
  - destruct (IH (i + 1) s') as (e' & s2 & j & Q1 & Q2); [intros; eapply F; right; eassumption|exact H|]. exists e', s2, j. split; [now right|exact Q2].
Qed.

(** The bits read and those left are always the same number. *)
Definition moves (s s1 : state) : Prop := rd s1 + rem s1 = rd s + rem s /\ (0 <= rem s -> 0 <= rem s1 <= rem s).
Definition keep (e : entry) : Prop := plain e = true -> forall base w s s1, dc e base w s = Go s1 -> moves s s1.
Lemma moves_trans a b c : moves a b -> moves b c -> moves a c.
Proof. intros (A1 & A2) (B1 & B2). split; [lia|]. intro R. specialize (A2 R). specialize (B2 ltac:(lia)). lia. Qed.
Lemma moves_refl a : moves a a.
Proof. split; [reflexivity|lia]. Qed.
Lemma keep_uint null b off cap : 0 <= b -> keep (Uint null b off cap).
Proof.
  intros B _ base w s s1 H. cbn [Csn1.dec] in H. unfold dec_uint in H. destruct (Z.leb_spec b (rem s)).
  - destruct (b <=? 32); [|discriminate H]. unfold take in H. apply Go_inj in H.
    pose proof (less_st _ b _ _ _ (put_st (inter w (base + off) (base + off + cap)) (uint_bytes b) (skip_bits s b) (base + off) (rfield v n (Z.to_nat b) (rd s)) _ _ _
      (conj eq_refl (conj eq_refl eq_refl)))) as (_ & S2 & S3). rewrite H in S2, S3. cbn in S2, S3. split; lia.
  - destruct null; [|discriminate H]. destruct (b <=? 32); apply Go_inj in H; [|subst s1; apply moves_refl].
    pose proof (put_st (inter w (base + off) (base + off + cap)) (uint_bytes b) s (base + off) 0 _ _ _
      (conj eq_refl (conj eq_refl eq_refl))) as (_ & S2 & S3). rewrite H in S2, S3. split; lia.
Qed.
Lemma keep_run l : Forall keep l -> forall sk base w s s1, run v n dc sk l base w s = Go s1 -> moves s s1.
Proof.
  induction 1 as [|e l E _ IH]; intros sk base w s s1 H.
  - cbn in H. destruct sk; [|discriminate H]. destruct (i16 (rem s) <? 0); [discriminate H|]. apply Go_inj in H. subst s1. apply moves_refl.
  - destruct sk as [|sk]; [|exact (IH sk base w s s1 H)]. destruct (plain e) eqn:P.
    + apply run_go in H; [|exact P]. destruct H as (s2 & D & _ & H). apply (moves_trans _ s2); [exact (E P _ _ _ _ D)|exact (IH _ _ _ _ _ H)].
    + destruct e; try discriminate P. cbn [Csn1.run] in H. unfold dec_next_exist in H.
      destruct (null && (rem s =? 0)).
      * match type of H with (if rem ?x <? 0 then _ else _) = _ => set (s2 := x) in * end. destruct (rem s2 <? 0); [discriminate H|].
        pose proof (put8_st (inter w (base + off) (base + off + cap)) s (base + off) 0 _ _ _ (conj eq_refl (conj eq_refl eq_refl))) as (_ & S2 & S3). fold s2 in S2, S3.
        apply (moves_trans _ s2); [split; lia|exact (IH _ _ _ _ _ H)].
      * unfold take in H. match type of H with (if rem ?x <? 0 then _ else _) = _ => set (s2 := x) in * end. destruct (rem s2 <? 0) eqn:R; [discriminate H|]. apply Z.ltb_ge in R.
        match eval unfold s2 in s2 with less (put8 ?a ?b ?c ?d) 1 => pose proof (less_st _ 1 _ _ _ (put8_st a b c d _ _ _ (conj eq_refl (conj eq_refl eq_refl)))) as (_ & S2 & S3) end.
        fold s2 in S2, S3. cbn [rd rem skip_bits] in S2, S3. clearbody s2. apply (moves_trans _ s2); [split; lia|exact (IH _ _ _ _ _ H)].
Qed.
Lemma keep_typ null off cap sub : Forall keep sub -> keep (Typ null off cap sub).
Proof.
  intros F _ base w s s1 H. cbn [Csn1.dec] in H. destruct (null && (rem s =? 0)).
  - apply Go_inj in H. subst s1. apply moves_refl.
  - apply table_go in H. exact (keep_run sub F _ _ _ _ _ H).
Qed.
Lemma keep_ne null k off cap : keep (NextExist null k off cap).
Proof. intro P. discriminate P. Qed.
Ltac keeps := repeat (apply Forall_cons; [first [apply keep_uint; lia | apply keep_ne | apply keep_typ; keeps]|]); apply Forall_nil.
Lemma keep_content base w s s1 : run v n dc 0 T_Content_t base w s = Go s1 -> moves s s1.
Proof. apply keep_run. unfold T_Content_t, T_Multislot_capability_t, T_DTM_EGPRS_t, T_DTM_EGPRS_HighMultislotClass_t, T_DownlinkDualCarrierCapability_r7_t. keeps. Qed.

Definition on (s : state) (p : Z) : Prop := rd s = p /\ rem s = n - p.

Lemma alt_long y e : In (4, y, e) [(4, 0, Serialize 7 1 68 T_Content_t); (4, 1, Serialize 7 1 68 T_Content_t); (4, 2, Serialize 7 1 68 T_Content_t);
   (4, 3, Serialize 7 1 68 T_Content_t); (4, 4, Serialize 7 1 68 T_Content_t); (4, 5, Serialize 7 1 68 T_Content_t); (4, 6, Serialize 7 1 68 T_Content_t);
   (4, 7, Serialize 7 1 68 T_Content_t); (4, 8, Serialize 7 1 68 T_Content_t); (4, 9, Serialize 7 1 68 T_Content_t); (4, 10, Serialize 7 1 68 T_Content_t);
   (4, 11, Serialize 7 1 68 T_Content_t); (4, 12, Serialize 7 1 68 T_Content_t); (4, 13, Serialize 7 1 68 T_Content_t);
   (4, 15, Serialize 7 1 31 T_Additional_access_technologies_t)] -> y <> 15 -> e = Serialize 7 1 68 T_Content_t.
Proof. intros I N. repeat (destruct I as [I|I]; [congruence|]). destruct I. Qed.

Lemma i16_small x : 0 <= x < 32768 -> i16 x = x.
Proof. intro R. unfold i16. rewrite Z.mod_small by lia. lia. Qed.

Lemma serial_go k w s s' p : leaves (base_of c0 k + 1 + 26) content_tail (base_of c0 k + 1) (inter w (base_of c0 k + 1) (base_of c0 k + 1 + 68)) = true ->
  leaves (base_of c0 k + 1 + 8 + 13) ms_tail (base_of c0 k + 1 + 8) (inter (inter w (base_of c0 k + 1) (base_of c0 k + 1 + 68)) (base_of c0 k + 1 + 8) (base_of c0 k + 1 + 8 + 18)) = true ->
  0 <= p -> rd s = p + 4 -> rem s = n - (p + 4) -> t_to (tech_at msg p) < bits msg -> long_form msg (tech_at msg p) ->
  dc (Serialize 7 1 68 T_Content_t) (base_of c0 k) w s = Go s' ->
  on s' (t_to (tech_at msg p)) /\ shows msg s' (base_of c0 k + 1) (tech_at msg p) /\ (forall a, a < base_of c0 k + 1 -> mem s' a = mem s a).
Proof.
  intros C1 C2 P R1 R2 LE LF H. cbn [Csn1.dec] in H. unfold take in H. unfold bits in LE.
  pose proof (rfield_range v n (Z.to_nat 7) (rd s)) as RR. change (2 ^ Z.of_nat (Z.to_nat 7)) with 128 in RR.
  assert (X : rfield v n (Z.to_nat 7) (rd s) = field msg (p + 4) 7).
  { rewrite R1. cbn [tech_at t_to] in LE. change (rfield v n (Z.to_nat 7) (p + 4)) with (fl (p + 4) 7). apply (fl_is msg OCT); [lia|lia|].
    rewrite R1 in RR. assert (0 <= field msg (p + 4) 7) by (unfold field; apply Z.mod_pos_bound; lia). lia. }
  rewrite X in H, RR. rewrite (Z.mod_small _ 256) in H by lia. set (len := field msg (p + 4) 7) in *.
  assert (LL : 3 <= len). { destruct LF as (_ & L3 & _). cbn [tech_at t_from t_to] in L3. fold len in L3. lia. }
  replace (0 <? len) with true in H by (symmetry; apply Z.ltb_lt; lia).
  set (s1 := set_rem (less (skip_bits s 7) 7) len) in *.
  set (w1 := inter w (base_of c0 k + 1) (base_of c0 k + 1 + 68)) in *.
  assert (ET : t_to (tech_at msg p) = p + 11 + len) by reflexivity. assert (EF : t_from (tech_at msg p) = p + 11) by reflexivity.
  assert (A : at_ msg s1 (t_from (tech_at msg p)) (t_to (tech_at msg p))).
  { unfold at_. rewrite ET, EF in *. subst s1. cbn [rd rem set_rem less skip_bits]. rewrite R1. lia. }
  destruct (table v n dc T_Content_t (base_of c0 k + 1) w1 s1) as [s2|c s2|s2] eqn:T; try discriminate H.
  pose proof (table_go _ _ _ _ _ _ _ T) as G.
  pose proof (content_go msg OCT _ _ _ _ _ C1 C2 LF A G) as (SH & K).
  assert (RD : rd s2 + rem s2 = p + 11 + len /\ 0 <= rem s2 <= len).
  { pose proof (keep_content _ _ _ _ G) as (K1 & K2). assert (R0 : 0 <= rem s1) by (subst s1; cbn; lia). specialize (K2 R0).
    assert (E1 : rd s1 = p + 11) by (subst s1; cbn; lia). assert (E2 : rem s1 = len) by reflexivity. lia. }
  destruct RD as (RD1 & RD2).
  rewrite i16_small in H by lia. apply Go_inj in H.
  destruct (Z.ltb_spec 0 (rem s2)) as [Q|Q]; subst s'.
  - split; [unfold on; rewrite ET; cbn [rd rem set_rem less skip_bits]; lia|]. split; [exact SH|]. intros a La. cbn [mem skip_bits set_rem]. rewrite K by exact La. reflexivity.
  - split; [unfold on; rewrite ET; cbn [rd rem set_rem less skip_bits]; lia|]. split; [exact SH|]. intros a La. cbn [mem skip_bits set_rem]. rewrite K by exact La. reflexivity.
Qed.

Definition elem_tab (o : Z) : state -> result := table v n dc T_MS_RA_capability_value_t o win.

Lemma leaves_k k : (k < 11)%nat -> leaves (base_of c0 k + 1 + 26) content_tail (base_of c0 k + 1) (cwin c0 win k) = true /\
  leaves (base_of c0 k + 1 + 8 + 13) ms_tail (base_of c0 k + 1 + 8) (inter (cwin c0 win k) (base_of c0 k + 1 + 8) (base_of c0 k + 1 + 8 + 18)) = true /\
  leaves (base_of c0 k) T_MS_RA_capability_value_t (base_of c0 k) win = true.
Proof.
  intro K. pose proof leaves_all as A. unfold leaves_of in A. rewrite forallb_forall in A. specialize (A k ltac:(apply in_seq; lia)).
  apply andb_true_iff in A as [A A3]. apply andb_true_iff in A as [A1 A2]. auto.
Qed.

Lemma field_range p k : 0 <= k -> 0 <= field msg p k < 2 ^ k.
Proof. intro K. unfold field. apply Z.mod_pos_bound. apply Z.pow_pos_nonneg; lia. Qed.

Lemma elem_go k s s' p : (k < 11)%nat -> 0 <= p -> on s p -> t_to (tech_at msg p) < bits msg -> long_form msg (tech_at msg p) ->
  elem_tab (base_of c0 k) s = Go s' ->
  on s' (t_to (tech_at msg p)) /\ shows msg s' (base_of c0 k + 1) (tech_at msg p) /\ (forall a, a < base_of c0 k -> mem s' a = mem s a).
Proof.
  intros K P (O1 & O2) LE LF H. destruct (leaves_k k K) as (C1 & C2 & C3). unfold elem_tab in H. apply table_go in H.
  pose proof (keeps_at v n (base_of c0 k) _ _ _ _ _ C3 H) as KE.
  apply run_go in H; [|reflexivity]. destruct H as (s1 & D & _ & H). apply run_nil_go in H. subst s1.
  cbn [Csn1.dec] in D. apply choose_go in D.
  2: { intros b y e I. repeat (destruct I as [I|I]; [congruence|]). destruct I. }
  destruct D as (e & s2 & j & I & (S1 & S2 & S3) & R & D).
  pose proof (field_range p 4 ltac:(lia)) as FR. pose proof (field_range (p + 4) 7 ltac:(lia)) as FR7.
  assert (X : fl (rd s) 4 mod 256 = field msg p 4).
  { rewrite O1. rewrite (fl_is msg OCT); [|lia|lia|]. - apply Z.mod_small. change (2 ^ 4) with 16 in FR. lia. - cbn [tech_at t_to] in LE. unfold bits in LE. lia. }
  rewrite X in I. apply alt_long in I; [|destruct LF as (LF & _); exact LF]. subst e.
  pose proof (serial_go k win s2 s' p C1 C2 P ltac:(lia) ltac:(lia) LE LF D) as (Q1 & Q2 & Q3). auto.
Qed.

Lemma shows_same s s1 k t : shows msg s (base_of c0 k + 1) t -> (forall a, a < base_of c0 (S k) -> mem s1 a = mem s a) -> shows msg s1 (base_of c0 k + 1) t.
Proof.
  intros H K. unfold shows in *. assert (B : base_of c0 (S k) = base_of c0 k + 69) by (unfold base_of; lia). rewrite !K by lia. exact H.
Qed.

Lemma loop_go : forall l room k s s' K p, techs_at msg p l -> (room + k = 11)%nat -> 0 <= p -> on s p -> Forall (long_form msg) l ->
  rec1_loop v n elem_tab room 69 (base_of c0 k) (Z.of_nat k) s = (Go s', K) ->
  K = Z.of_nat k + Z.of_nat (length l) /\ (forall a, a < base_of c0 k -> mem s' a = mem s a) /\
  (forall j t, nth_error l j = Some t -> shows msg s' (base_of c0 (k + j) + 1) t) /\ (k + length l <= 11)%nat /\ on s' (t_to (last l (tech_at msg p)) + 1).
Proof.
  induction l as [|t l IH]; intros room k s s' K p T RK P O F H; [inversion T|].
  destruct room as [|room]; [discriminate H|]. cbn [rec1_loop] in H.
  assert (ET : t = tech_at msg p) by (inversion T; reflexivity). subst t.
  assert (LE : t_to (tech_at msg p) < bits msg) by (inversion T; assumption).
  destruct (elem_tab (base_of c0 k) s) as [s1|c s1|s1] eqn:E; try discriminate H.
  destruct (rem s1 <? 0); [discriminate H|].
  apply Forall_cons_iff in F as [LF F].
  destruct (elem_go k s s1 p ltac:(lia) P O LE LF E) as ((O1 & O2) & SH & KE).
  pose proof (field_range (p + 4) 7 ltac:(lia)) as FR7.
  assert (TP : 0 <= t_to (tech_at msg p)) by (cbn [tech_at t_to]; lia).
  unfold exist_next in H.
  assert (EX : (0 <? rbit v n (rd s1)) = flag_at msg (t_to (tech_at msg p))).
  { rewrite (fl_flag msg OCT) by (unfold bits in LE; lia). rewrite O1. unfold fld. change (Z.to_nat 1) with 1%nat. cbn [rfield]. unfold rbit. 
    destruct (_ && _); [|reflexivity]. now destruct (v _). }
  rewrite EX in H. destruct (flag_at msg (t_to (tech_at msg p))) eqn:FL.
  - assert (T' : techs_at msg (t_to (tech_at msg p) + 1) l). { inversion T; subst; [congruence|assumption]. }
    replace (base_of c0 k + 69) with (base_of c0 (S k)) in H by (unfold base_of; lia). replace (Z.of_nat k + 1) with (Z.of_nat (S k)) in H by lia.
    destruct (IH room (S k) (less (skip_bits s1 1) 1) s' K _ T' ltac:(lia) ltac:(lia) ltac:(unfold on; cbn [rd rem less skip_bits start]; lia) F H) as (Q1 & Q2 & Q3 & Q4 & Q5).
    cbn [length]. split; [lia|]. split; [|split; [|split]].
    + intros a La. rewrite Q2 by (unfold base_of in *; lia). cbn. now apply KE.
    + intros j u J. destruct j as [|j]; cbn in J.
      * injection J as <-. rewrite Nat.add_0_r. apply (shows_same s1); [exact SH|]. intros a La. rewrite Q2 by exact La. reflexivity.
      * replace (k + S j)%nat with (S k + j)%nat by lia. now apply Q3.
    + lia.
    + destruct l as [|u l]; [inversion T'|]. change (last (tech_at msg p :: u :: l) (tech_at msg p)) with (last (u :: l) (tech_at msg p)). rewrite (last_irrel l u _ (tech_at msg (t_to (tech_at msg p) + 1))). exact Q5.
  - assert (N : l = []). { inversion T; subst; [reflexivity|congruence]. } subst l.
    injection H as H HK. subst s' K. cbn [length]. split; [lia|]. split; [|split; [|split]].
    + intros a La. cbn. now apply KE.
    + intros j u J. destruct j as [|j]; cbn in J; [|destruct j; discriminate J]. injection J as <-. rewrite Nat.add_0_r. exact SH.
    + lia.
    + unfold on. cbn [last rd rem less skip_bits]. lia.
Qed.

Lemma first_class_ok s (ex cl : Z) (f : tech -> option Z) : forall l k, (forall j t, nth_error l j = Some t -> class_in s c0 ex cl (k + j) = f t) ->
  first_class s c0 ex cl (seq k (length l)) = announced (map f l).
Proof.
  induction l as [|t l IH]; intros k F; [reflexivity|]. cbn [length seq first_class map announced].
  pose proof (F 0%nat t eq_refl) as F0. rewrite Nat.add_0_r in F0. rewrite F0. unfold announced. cbn [find]. destruct (f t); [reflexivity|].
  apply IH. intros j u J. specialize (F (S j) u J). now replace (S k + j)%nat with (k + S j)%nat by lia.
Qed.

Lemma shows_class s k t : long_form msg t -> shows msg s (base_of c0 k + 1) t ->
  class_in s c0 2 3 k = gprs_class msg t /\ class_in s c0 10 11 k = egprs_class msg t.
Proof.
  intros (LT & _) (S1 & S2). unfold class_in, gprs_class, egprs_class, get8. replace (content_at c0 k) with (base_of c0 k + 1) by reflexivity.
  rewrite (proj2 (Z.eqb_neq _ _) LT). rewrite S1. destruct (present msg t (multislot_at msg t)); cbn [Z.b2z andb]; [|split; reflexivity].
  destruct (S2 eq_refl) as (G1 & G2 & G3 & G4). rewrite G1, G3. change (1 mod 256 =? 0) with false. cbv iota. split.
  - destruct (present msg t (gprs_at msg t)); [|reflexivity]. change (Z.b2z true mod 256 =? 0) with false. cbv iota. rewrite G2 by reflexivity.
    f_equal. apply Z.mod_small. pose proof (field_range (gprs_at msg t + 1) 5 ltac:(lia)) as R. change (2 ^ 5) with 32 in R. lia.
  - destruct (present msg t (egprs_at msg t)); [|reflexivity]. change (Z.b2z true mod 256 =? 0) with false. cbv iota. rewrite G4 by reflexivity.
    f_equal. apply Z.mod_small. pose proof (field_range (egprs_at msg t + 1) 5 ltac:(lia)) as R. change (2 ^ 5) with 32 in R. lia.
Qed.

End Array.

Theorem classes_announced s l : decode_racap msg = Go s -> capability msg l -> Forall (long_form msg) l ->
  classes msg = (announced (map (gprs_class msg) l), announced (map (egprs_class msg) l)).
Proof.
  intros H C F. assert (PS : parse_ra_cap msg = s) by (unfold parse_ra_cap; now rewrite H).
  unfold decode_racap in H. apply table_go in H. unfold T_MS_Radio_Access_capability_t in H.
  apply run_go in H; [|reflexivity]. destruct H as (s1 & D & _ & H). apply run_go in H; [|reflexivity]. destruct H as (s2 & D2 & _ & H). apply run_nil_go in H. subst s2.
  assert (M : mem s = mem s1). { cbn [Csn1.dec] in D2. unfold dec_padding in D2. destruct (0 <? rem s1); [apply Go_inj in D2; now subst s|]. destruct (rem s1 <? 0); [discriminate D2|]. apply Go_inj in D2. now subst s. }
  cbn [Csn1.dec] in D. change (inter (0, RACAP_SIZE) (0 + 1) (0 + 1 + 759)) with racap_win in D. change (Z.to_nat 11) with 11%nat in D.
  destruct (rec1_loop _ _ _ _ _ _ _ _) as [r K] eqn:L in D. destruct r as [s0|c s0|s0]; try discriminate D. apply Go_inj in D.
  destruct (loop_go 0 racap_win leaves_racap l 11 0 (start n) s0 K 0 C eq_refl ltac:(lia) ltac:(unfold on; cbn [rd rem less skip_bits start]; lia) F L) as (Q1 & _ & Q3 & Q4 & _).
  assert (MS : forall a, mem s a = if a =? 0 then K mod 256 else mem s0 a). { intro a. rewrite M, <- D. reflexivity. }
  assert (SH : forall j t, nth_error l j = Some t -> shows msg s (base_of 0 j + 1) t).
  { intros j t J. specialize (Q3 j t J). cbn in Q3. unfold shows in *. rewrite !MS.
    assert (B : 0 < base_of 0 j) by (unfold base_of; lia).
    rewrite !(proj2 (Z.eqb_neq _ 0)) by lia. exact Q3. }
  assert (EL : elements s 0 = seq 0 (length l)). { unfold elements, get8. rewrite MS. change (0 =? 0) with true. cbv iota. rewrite Z.mod_mod, Q1 by lia. rewrite Z.mod_small by lia. f_equal. lia. }
  unfold classes, get_ms_class_by_capability, get_egprs_ms_class_by_capability. rewrite PS, EL. rewrite Forall_forall in F.
  f_equal; apply (first_class_ok 0); intros j t J; cbn [Nat.add]; apply (shows_class 0); try (now apply SH); apply F; eapply nth_error_In; exact J.
Qed.
End Loop.
