(** The channel quality and the classes in a PACKET RESOURCE REQUEST. *)
From Coq Require Import ZArith List Bool Lia.
Import ListNotations.
From Verif Require Import Model.Csn1 Model.Csn1Tables Model.MsClass Model.L1Meas Spec.UlControlSpec Spec.MsClassSpec Spec.MeasSpec
  Proofs.Csn1Check Proofs.Csn1Ul Proofs.Csn1Fields Proofs.Csn1Msgs Proofs.MsClassP Proofs.MsClassQ Proofs.MsClassR Proofs.L1MeasP.
Open Scope Z_scope.

Definition request_win : Z * Z := inter (inter (0, 1308) 17 777) 18 777.
Lemma leaves_request : leaves_of 17 request_win = true.
Proof. vm_compute. reflexivity. Qed.

Section Request.
Variable msg : list Z.
Hypothesis OCT : octets msg.
Hypothesis L : length msg = 23%nat.
Notation v := (bit_of msg).
Notation n := (8 * Z.of_nat (length msg)).
Notation fl := (fld v n).
Notation go := (run v n (dec v n)).
Notation dc := (dec v n).

Lemma there_field q : 0 <= q < n -> (field msg q 1 =? 0) = negb (there msg q).
Proof. intros _. unfold there. now rewrite negb_involutive. Qed.

(** From the channel request on. *)
Definition request_tail : list entry :=
  [Typ false 778 6 T_Channel_Request_Description_t; NextExist false 1 784 1; Uint false 2 785 1; Uint false 6 786 1; NextExist false 1 787 1;
   Uint false 6 788 1; TArr 8 792 8 64 T_InterferenceMeasurementReport_t; NextExist true 1 856 1; Typ false 860 448 T_PRR_AdditionsR99_t; Padding].

Lemma tail_go p q s : at_ msg q p 184 -> p <= 184 -> go 0%nat request_tail 0 (0, 1308) q = Go s ->
  let mark := p + 24 in let c := if there msg mark then mark + 3 else mark + 1 in let var := c + 6 in
  let lv := if there msg var then var + 7 else var + 1 in
  (forall a, a < 778 -> mem s a = mem q a) /\
  prr_c_value s = field msg c 6 /\ prr_exist_sign_var s = Z.b2z (there msg var) /\ (there msg var = true -> prr_sign_var s = field msg (var + 1) 6) /\
  forall i, (i < 8)%nat -> mem q (793 + 8 * Z.of_nat i) = 0 -> mem q (794 + 8 * Z.of_nat i) = 0 -> mem q (795 + 8 * Z.of_nat i) = 0 ->
    prr_exist s i = Z.b2z (there msg (slot_pos msg lv i)) /\
    (there msg (slot_pos msg lv i) = true -> prr_level s i = field msg (slot_pos msg lv i + 1) 4).
Proof.
  intros A PE G mark c var lv. assert (K0 : forall a, a < 778 -> mem s a = mem q a).
  { apply (keeps_at v n 778 request_tail 0 (0, 1308)); [vm_compute; reflexivity|exact G]. }
  split; [exact K0|]. clear K0. unfold request_tail in G.
  apply run_go in G; [|reflexivity]. destruct G as (q1 & D1 & R0 & G). apply typ_go in D1.
  assert (K1 : forall a, 784 <= a -> mem q1 a = mem q a).
  { clear G. intros a HA. unfold T_Channel_Request_Description_t in D1. pose proof (at_st _ _ _ _ A) as S.
    uint D1 S x1 X1 R1. uint D1 S x2 X2 R2. uint D1 S x3 X3 R3. uint D1 S x4 X4 R4. uint D1 S x5 X5 R5. apply run_nil_go in D1. subst q1.
    destruct S as (S & _). rewrite S. change (uint_bytes 4) with 1%nat. change (uint_bytes 2) with 1%nat. change (uint_bytes 1) with 1%nat. change (uint_bytes 16) with 2%nat.
    cbn [stm]. repeat match goal with |- context [a =? ?x] => replace (a =? x) with false by (symmetry; apply Z.eqb_neq; lia) end. reflexivity. }
  apply (crd_go msg _ _ _ _ _ _ _ (at_st _ _ _ _ A)) in D1. destruct D1 as (g & S1 & S2 & S3).
  destruct (Z.eq_dec (Z.min p 184) p) as [EP|EP]; [|lia]. rewrite EP in *.
  assert (A1 : at_ msg q1 mark 184).
  { unfold at_. pose proof A as (_ & _ & PP & PN). subst mark. lia. }
  apply (opt_f msg OCT 2 _ _ _ _ _ _ _ _ _ _ _ ltac:(lia) A1) in G. destruct G as (_ & q2 & A2 & M2 & G).
  assert (A2' : at_ msg q2 c 184) by (subst c; destruct (there msg mark); [now replace (mark + 3) with (mark + 1 + 2) by lia|exact A2]). clear A2.
  apply run_go in G; [|reflexivity]. destruct G as (q3 & D3 & _ & G). destruct (uintf msg OCT 6 _ _ _ _ _ _ _ _ ltac:(lia) A2' D3) as (_ & A3 & M3).
  fold var in A3. apply (opt_f msg OCT 6 _ _ _ _ _ _ _ _ _ _ _ ltac:(lia) A3) in G. destruct G as (_ & q4 & A4 & M4 & G).
  assert (A4' : at_ msg q4 lv 184) by (subst lv; destruct (there msg var); [now replace (var + 7) with (var + 1 + 6) by lia|exact A4]). clear A4.
  apply run_go in G; [|reflexivity]. destruct G as (q5 & D5 & _ & G). cbn [Csn1.dec] in D5. change (Z.to_nat 8) with 8%nat in D5.
  apply (reports_go msg OCT _ _ _ _ _ _ _ A4') in D5. destruct D5 as (_ & K5 & F).
  keeps G 856 K.
  assert (MM : forall a, 789 <= a -> mem q4 a = mem q a).
  { intros a HA. rewrite M4, M3, M2. unfold upd. destruct (there msg var), (there msg mark);
      repeat match goal with |- context [a =? ?x] => replace (a =? x) with false by (symmetry; apply Z.eqb_neq; lia) end; apply K1; lia. }
  unfold prr_c_value, prr_exist_sign_var, prr_sign_var, prr_exist, prr_level, u32, u16, u8, get8. rewrite !(K 786), !(K 787), !(K 788) by lia. rewrite !K5 by lia.
  split; [|split; [|split]].
  - rewrite M4, M3. unfold upd. destruct (there msg var); cbn [Z.eqb Z.add Pos.eqb Pos.add Pos.succ]; apply small_field; lia.
  - rewrite M4. unfold upd. destruct (there msg var); reflexivity.
  - intro T. rewrite M4, T. unfold upd. cbn [Z.eqb Z.add Pos.eqb Pos.add Pos.succ]. apply small_field; lia.
  - intros i I Z1 Z2 Z3. destruct (F i I) as (F1 & F2 & F3).
    assert (BI : 0 <= Z.of_nat i < 8) by lia. set (j := Z.of_nat i) in *. clearbody j. split.
    + rewrite !K by lia. 
      replace (792 + 8 * j + 1) with (0 + 792 + 8 * j + 1) by lia. replace (792 + 8 * j + 2 + 1) with (0 + 792 + 8 * j + 3) by lia. replace (792 + 8 * j + 2) with (0 + 792 + 8 * j + 2) by lia.
      replace (792 + 8 * j) with (0 + 792 + 8 * j) by lia. rewrite F1, !F2, !MM by lia.
      replace (0 + 792 + 8 * j + 1) with (793 + 8 * j) by lia. replace (0 + 792 + 8 * j + 2) with (794 + 8 * j) by lia. replace (0 + 792 + 8 * j + 3) with (795 + 8 * j) by lia.
      rewrite Z1, Z2, Z3, small_bool. destruct (there msg (slot_pos msg lv i)); reflexivity.
    + intro T. rewrite K by lia. replace (796 + 8 * j) with (0 + 792 + 8 * j + 4) by lia. rewrite (F3 T). apply small_field; lia.
Qed.

Definition with_capability : list entry := NextExist false 1 16 1 :: Typ false 17 760 T_MS_Radio_Access_capability2_t :: request_tail.

(** Up to the capability.  Nothing above 16 has been written. *)
Lemma identity_go s : decode_ul msg = Go s -> message_type msg = RESOURCE_REQUEST ->
  exists q, at_ msg q (request_capability msg) 184 /\ (forall a, 16 <= a < 1376 -> mem q a = 0) /\ go 0%nat with_capability 0 (0, 1308) q = Go s.
Proof.
  intros D M. assert (L' : (23 <= length msg)%nat) by lia. destruct (start_of msg OCT L' s 5 _ _ D M eq_refl) as (s0 & S & G). unfold T_Packet_Resource_Request_t in G.
  assert (Z0 : forall a, 16 <= a < 1376 -> stm 1 (stm 2 (fun _ => 0) 1376 184) 0 5 a = 0).
  { intros a HA. cbn [stm]. repeat match goal with |- context [a =? ?x] => replace (a =? x) with false by (symmetry; apply Z.eqb_neq; lia) end. reflexivity. }
  set (f0 := stm 1 _ 0 5) in *. clearbody f0.
  change (Uint false 2 1 1 :: Uint false 5 2 1 :: Uint false 1 3 1 :: Uint false 6 0 1 :: NextExist false 1 4 1 :: Uint false 2 5 1 ::
    Typ false 8 8 T_PacketResourceRequestID_t :: with_capability) with T_Packet_Resource_Request_t in G.
  unfold T_Packet_Resource_Request_t in G.
  assert (A : at_ msg s0 0 184). { destruct S as (_ & S2 & S3). unfold at_. lia. }
  assert (Z1 : forall a, 16 <= a < 1376 -> mem s0 a = 0). { destruct S as (S1 & _). rewrite S1. exact Z0. }
  clear S Z0 D f0.
  Ltac next G A Z1 b := let D := fresh "D" in let q := fresh "q" in let A' := fresh "A" in let M' := fresh "M" in let Z' := fresh "Z" in
    apply run_go in G; [|reflexivity]; destruct G as (q & D & _ & G); destruct (uintf msg OCT b _ _ _ _ _ _ _ _ ltac:(lia) A D) as (_ & A' & M');
    assert (Z' : forall a, 16 <= a < 1376 -> mem q a = 0) by
      (intros a HA; rewrite M'; unfold upd; match goal with |- context [a =? ?x] => replace (a =? x) with false by (symmetry; apply Z.eqb_neq; lia) end; now apply Z1);
    clear A Z1 D M'; rename A' into A; rename Z' into Z1.
  next G A Z1 2. next G A Z1 5. next G A Z1 1. next G A Z1 6. change (0 + 2 + 5 + 1 + 6) with 14 in A.
  apply (opt_f msg OCT 2 _ _ _ _ _ _ _ _ _ _ _ ltac:(lia) A) in G. destruct G as (_ & q5 & A5 & M5 & G).
  assert (A6 : at_ msg q5 (request_identity msg) 184) by (unfold request_identity; destruct (there msg 14); exact A5).
  assert (Z6 : forall a, 16 <= a < 1376 -> mem q5 a = 0).
  { intros a HA. rewrite M5. unfold upd. destruct (there msg 14); repeat match goal with |- context [a =? ?x] => replace (a =? x) with false by (symmetry; apply Z.eqb_neq; lia) end; now apply Z1. }
  clear A5 M5 A Z1. assert (I : 15 <= request_identity msg <= 17) by (unfold request_identity; destruct (there msg 14); lia).
  apply run_go in G; [|reflexivity]. destruct G as (q7 & D7 & R7 & G). apply typ_go in D7. unfold T_PacketResourceRequestID_t in D7.
  apply run_go in D7; [|reflexivity]. destruct D7 as (q8 & C & _ & D7). apply run_nil_go in D7. subst q8.
  pose proof (at_st _ _ _ _ A6) as S6. apply (choice2_go _ _ _ _ _ _ _ _ _ _ _ _ _ S6) in C. destruct C as (x & q8 & X & RX & S8 & C).
  replace (Z.min (request_identity msg) 184) with (request_identity msg) in * by lia.
  assert (TH : there msg (request_identity msg) = negb (x =? 0)). { rewrite X. apply there_fl; [exact OCT|lia]. }
  exists q7. split; [|split; [|exact G]].
  - unfold request_capability. rewrite TH. destruct (x =? 0); cbn [negb].
    + apply typ_go in C. apply (gtfi_go msg L' _ _ _ _ _ _ _ S8) in C. destruct C as (y & z & _ & _ & _ & _ & (_ & C2 & C3)). unfold at_. lia.
    + apply (uint_go _ _ _ _ _ _ _ _ _ _ _ _ S8) in C; [|lia]. destruct C as (y & _ & _ & _ & (_ & C2 & C3)). unfold at_. lia.
  - intros a HA. destruct (x =? 0).
    + apply typ_go in C. apply (gtfi_go msg L' _ _ _ _ _ _ _ S8) in C. destruct C as (y & z & _ & _ & _ & _ & (C1 & _)). rewrite C1. cbn [stm].
      repeat match goal with |- context [a =? ?x] => replace (a =? x) with false by (symmetry; apply Z.eqb_neq; lia) end. now apply Z6.
    + apply (uint_go _ _ _ _ _ _ _ _ _ _ _ _ S8) in C; [|lia]. destruct C as (y & _ & _ & _ & (C1 & _)). rewrite C1. change (uint_bytes 32) with 4%nat. cbn [stm].
      repeat match goal with |- context [a =? ?x] => replace (a =? x) with false by (symmetry; apply Z.eqb_neq; lia) end. now apply Z6.
Qed.

(** The capability. *)
Lemma capability_go q q' p l : at_ msg q p 184 -> p <= 184 -> techs_at msg p l -> Forall (long_form msg) l ->
  go 0%nat T_MS_Radio_Access_capability2_t 17 (inter (0, 1308) 17 777) q = Go q' ->
  at_ msg q' (t_to (last l (tech_at msg p)) + 1) 184 /\ t_to (last l (tech_at msg p)) < 184 /\
  (forall a, a < 17 -> mem q' a = mem q a) /\ get_ms_class_by_capability q' 17 = announced (map (gprs_class msg) l) /\
  get_egprs_ms_class_by_capability q' 17 = announced (map (egprs_class msg) l).
Proof.
  intros A PE T F G. unfold T_MS_Radio_Access_capability2_t in G. apply run_go in G; [|reflexivity]. destruct G as (q1 & D & R1 & G). apply run_nil_go in G. subst q1.
  cbn [Csn1.dec] in D. change (inter (inter (0, 1308) 17 777) (17 + 1) (17 + 1 + 759)) with request_win in D. change (Z.to_nat 11) with 11%nat in D.
  pose proof A as (A1 & A2 & A3 & A4). assert (O : on msg q p) by (unfold on; lia).
  destruct (rec1_loop _ _ _ _ _ _ _ _) as [r K] eqn:E in D. destruct r as [s0|c s0|s0]; try discriminate D. apply Go_inj in D.
  destruct (loop_go msg OCT 17 request_win leaves_request l 11 0 q s0 K p T eq_refl ltac:(lia) O F E) as (Q1 & Q2 & Q3 & Q4 & (Q5 & Q6)).
  assert (MS : forall a, mem q' a = if a =? 17 then K mod 256 else mem s0 a). { intro a. rewrite <- D. reflexivity. }
  assert (RD : rd q' = rd s0 /\ rem q' = rem s0) by (rewrite <- D; split; reflexivity). destruct RD as (RD1 & RD2).
  assert (SH : forall j t, nth_error l j = Some t -> shows msg q' (base_of 17 j + 1) t).
  { intros j t J. specialize (Q3 j t J). cbn [Nat.add] in Q3. unfold shows in *. rewrite !MS. assert (B : 17 < base_of 17 j) by (unfold base_of; lia).
    rewrite !(proj2 (Z.eqb_neq _ 17)) by lia. exact Q3. }
  assert (EL : elements q' 17 = seq 0 (length l)). { unfold elements, get8. rewrite MS. change (17 =? 17) with true. cbv iota. rewrite Z.mod_mod, Q1 by lia. rewrite Z.mod_small by lia. f_equal. lia. }
  assert (P0 : 0 <= t_to (last l (tech_at msg p))).
  { assert (R : rd s0 = t_to (last l (tech_at msg p)) + 1) by exact Q5. clear - T A3.
    revert A3. induction T as [p T1 T2|p l T1 T2 T IH]; intro A3.
    - cbn [last tech_at t_to]. pose proof (field_range msg (p + 4) 7 ltac:(lia)). lia.
    - pose proof (field_range msg (p + 4) 7 ltac:(lia)) as FR. cbn [tech_at t_to] in IH. specialize (IH ltac:(lia)).
      destruct l as [|u l]; [inversion T|]. change (last (tech_at msg p :: u :: l) (tech_at msg p)) with (last (u :: l) (tech_at msg p)).
      now rewrite (last_irrel l u _ (tech_at msg (p + 11 + field msg (p + 4) 7 + 1))). }
  split; [unfold at_; lia|]. split; [lia|]. split.
  - intros a HA. rewrite MS. replace (a =? 17) with false by (symmetry; apply Z.eqb_neq; lia). apply Q2. unfold base_of. lia.
  - rewrite Forall_forall in F. unfold get_ms_class_by_capability, get_egprs_ms_class_by_capability. rewrite EL.
    split; apply (first_class_ok 17); intros j t J; cbn [Nat.add]; apply (shows_class msg 17); try (now apply SH); apply F; eapply nth_error_In; exact J.
Qed.
End Request.

(** It stays in its structure, and has at most 11 technologies. *)
Lemma capability_keeps msg q q' : run (bit_of msg) (8 * Z.of_nat (length msg)) (dec (bit_of msg) (8 * Z.of_nat (length msg))) 0%nat T_MS_Radio_Access_capability2_t 17 (inter (0, 1308) 17 777) q = Go q' ->
  mem q 17 = 0 -> (forall a, 777 <= a -> mem q' a = mem q a) /\ get8 q' 17 <= 11.
Proof.
  intros G Z0. set (b := fun a : Z => if a =? 17 then 11 else 255).
  assert (F : fine 17 777 false b (mem q) (acc q) (run (bit_of msg) (8 * Z.of_nat (length msg)) (dec (bit_of msg) (8 * Z.of_nat (length msg))) 0%nat T_MS_Radio_Access_capability2_t 17 (inter (0, 1308) 17 777) q)).
  { apply run_ok with (prev := None); [| | |].
    - apply Forall_forall. intros e _. apply dec_sound.
    - vm_compute. reflexivity.
    - split; [|split; [exists []; split; [reflexivity|constructor]|reflexivity]]. intro a. unfold b. destruct (Z.eqb_spec a 17) as [->|N].
      + rewrite Z0. now compute.
      + pose proof (Z.mod_pos_bound (mem q a) 256). lia.
    - split; [lia|exact Logic.I]. }
  rewrite G in F. destruct F as (F1 & _ & F). split; [intros a HA; apply F; lia|]. exact (F1 17).
Qed.

Section Read.
Variable msg : list Z.
Hypothesis OCT : octets msg.
Hypothesis L : length msg = 23%nat.
Variable s : state.
Hypothesis D : decode_ul msg = Go s.
Hypothesis M : message_type msg = RESOURCE_REQUEST.
Variable l : list tech.
Hypothesis T : request_techs msg l.
Hypothesis F : Forall (long_form msg) l.

(** The state in front of the channel request. *)
Lemma body_go : exists q, at_ msg q (request_body msg l) 184 /\ request_body msg l <= 184 /\ (forall a, 777 <= a < 1376 -> mem q a = 0) /\
  run (bit_of msg) (8 * Z.of_nat (length msg)) (dec (bit_of msg) (8 * Z.of_nat (length msg))) 0%nat request_tail 0 (0, 1308) q = Go s /\
  mem q 16 = Z.b2z (there msg (request_capability msg)) /\
  (l <> [] -> get8 q 17 <= 11 /\ get_ms_class_by_capability q 17 = announced (map (gprs_class msg) l) /\ get_egprs_ms_class_by_capability q 17 = announced (map (egprs_class msg) l)).
Proof.
  destruct (identity_go msg OCT L s D M) as (q & A & ZQ & G). unfold with_capability in G.
  apply (ne_f msg OCT _ _ _ _ _ _ _ _ _ _ A) in G; [|reflexivity]. destruct G as (B & q1 & A1 & M1 & G).
  assert (Z1 : forall a, 17 <= a < 1376 -> mem q1 a = 0).
  { intros a HA. rewrite M1. unfold upd. replace (a =? 0 + 16) with false by (symmetry; apply Z.eqb_neq; lia). apply ZQ. lia. }
  destruct l as [|t r] eqn:EL.
  - cbn [request_techs] in T. rewrite T in *. apply skip1' in G. exists q1. cbn [request_body]. split; [exact A1|]. split; [lia|].
    split; [intros a HA; apply Z1; lia|]. split; [exact G|]. split; [now rewrite M1|]. intro N. now destruct N.
  - destruct T as (T1 & T2). rewrite <- EL in *. rewrite T1 in G, M1. apply run_go in G; [|reflexivity]. destruct G as (q2 & D2 & _ & G). apply typ_go in D2.
    assert (BE : request_body msg l = t_to (last l (tech_at msg (request_capability msg + 1))) + 1).
    { rewrite EL. cbn [request_body]. f_equal. f_equal. apply (last_irrel r t). }
    destruct (capability_go msg OCT L q1 q2 _ l A1 ltac:(lia) T2 F D2) as (C1 & C2 & C3 & C4 & C5).
    exists q2. rewrite BE. split; [exact C1|]. split; [lia|].
    split.
    { intros a HA. rewrite <- (Z1 a) by lia. apply (capability_keeps msg _ _ D2); [apply Z1|]; lia. }
    split; [exact G|]. split; [|intros _; split; [|auto]; apply (capability_keeps msg _ _ D2), Z1; lia]. rewrite C3 by lia. rewrite M1, T1. reflexivity.
Qed.
End Read.
