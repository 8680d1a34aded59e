(** The structures filled by the assignment functions, byte by byte, and what the encoder makes of them. *)
From Coq Require Import ZArith List Bool Lia.
From Verif.Model Require Import CodingScheme Csn1 Csn1Tables Csn1Enc BtsConf Assign.
From Verif.Spec Require Import AssignSpec AssignTold.
From Verif.Proofs Require Import Csn1Emit AssignRead.
Import ListNotations.
Open Scope Z_scope.

Lemma mod256_mod x : x mod 256 mod 256 = x mod 256.
Proof. apply Z.mod_mod. lia. Qed.
Lemma byte_other c o x m a : a <> o -> byte_at (st c o x m) a = byte_at m a.
Proof. intros N. unfold byte_at, st. now rewrite (proj2 (Z.eqb_neq a o) N). Qed.
Lemma byte_same o x m a : a = o -> byte_at (st true o x m) a = x mod 256.
Proof. intros ->. unfold byte_at, st. rewrite Z.eqb_refl. cbn [andb]. apply mod256_mod. Qed.
Lemma byte_cond c o x m a : a = o -> byte_at (st c o x m) a = if c then x mod 256 else byte_at m a.
Proof. intros ->. unfold byte_at, st. rewrite Z.eqb_refl. cbn [andb]. destruct c; [apply mod256_mod|reflexivity]. Qed.

Lemma copy_other c l : forall o m a, a < o \/ o + Z.of_nat (length l) <= a -> byte_at (copy c o l m) a = byte_at m a.
Proof.
  induction l as [|x l IH]; intros o m a R; cbn [copy length] in *; [reflexivity|].
  rewrite IH by lia. apply byte_other. lia.
Qed.
Lemma copy_at l : forall o m k x, nth_error l k = Some x -> byte_at (copy true o l m) (o + Z.of_nat k) = x mod 256.
Proof.
  induction l as [|y l IH]; intros o m k x N; destruct k; cbn [nth_error] in N; try discriminate N; cbn [copy].
  - injection N as ->. rewrite copy_other by lia. apply byte_same. lia.
  - replace (o + Z.of_nat (S k)) with (o + 1 + Z.of_nat k) by lia. now apply IH.
Qed.

Lemma fits_eq f a b : fits f a -> a = b -> fits f b.
Proof. now intros H <-. Qed.
Lemma wr_eq f a b : wr f a -> a = b -> wr f b.
Proof. now intros H <-. Qed.

(** ** Timing advance *)
Definition advance_at (m : Z -> Z) (o : Z) (a : advance) : Prop :=
  byte_at m (o + 0) = Z.b2z (given (a_value a)) /\ (forall v, a_value a = Some v -> byte_at m (o + 1) = v mod 256) /\
  byte_at m (o + 2) = Z.b2z (given (a_index a)) /\
  (forall p, a_index a = Some p -> byte_at m (o + 3) = fst p mod 256 /\ byte_at m (o + 4) = snd p mod 256).
Lemma advance_fits m o a : advance_at m o a -> fits (erun m (enc m) 0 T_Packet_Timing_Advance_t o) (advance_bits a).
Proof.
  intros (A & B & C & D). eapply fits_eq.
  - unfold T_Packet_Timing_Advance_t. eapply fits_next; [exact A|cbn [length]; lia|]. cbn [skipn].
    instantiate (1 := match a_value a with Some v => field_bits 6 v | None => [] end ++
                      (given (a_index a) :: match a_index a with Some p => field_bits 4 (fst p) ++ field_bits 3 (snd p) ++ [] | None => [] end)).
    assert (X : fits (erun m (enc m) 0 [NextExist false 2 2 1; Uint false 4 3 1; Uint false 3 4 1] o)
      (given (a_index a) :: match a_index a with Some p => field_bits 4 (fst p) ++ field_bits 3 (snd p) ++ [] | None => [] end)).
    { eapply fits_next; [exact C|cbn [length]; lia|]. cbn [skipn]. destruct (a_index a) as [p|]; cbn [given].
      - destruct (D p eq_refl) as [D1 D2]. apply fits_cons; [reflexivity|apply wr_u8; [reflexivity|lia|exact D1]|].
        apply fits_cons; [reflexivity|apply wr_u8; [reflexivity|lia|exact D2]|]. apply fits_nil.
      - apply fits_nil. }
    destruct (a_value a) as [v|]; cbn [given]; [|exact X].
    apply fits_cons; [reflexivity|apply wr_u8; [reflexivity|lia|exact (B v eq_refl)]|exact X].
  - unfold advance_bits. destruct a as [[v|] [p|]]; cbn [given a_value a_index optb app]; unfold index_bits;
      rewrite ?app_nil_r; reflexivity.
Qed.

(** ** Frequency parameters *)
Lemma skipn_fb j k x : (j <= k)%nat -> skipn (k - j) (field_bits k x) = field_bits j x.
Proof.
  induction k; intros J.
  - now replace j with 0%nat by lia.
  - destruct (Nat.eq_dec j (S k)) as [->|N]; [now rewrite Nat.sub_diag|].
    replace (S k - j)%nat with (S (k - j)) by lia. cbn [field_bits skipn]. apply IHk. lia.
Qed.
Lemma octet_fb x : octet_bits x = field_bits 8 x.
Proof. reflexivity. Qed.
Lemma octs_all m l : forall o, (forall k x, nth_error l k = Some x -> byte_at m (o + Z.of_nat k) = x mod 256) ->
  octs m (length l) o = flat_map octet_bits l.
Proof.
  induction l as [|x l IH]; intros o B; cbn [length octs flat_map]; [reflexivity|].
  pose proof (B 0%nat x eq_refl) as B0. rewrite Z.add_0_r in B0. rewrite B0. rewrite fb_mod256 by lia. rewrite <- octet_fb. f_equal. apply IH.
  intros k y N. specialize (B (S k) y N). replace (o + 1 + Z.of_nat k) with (o + Z.of_nat (S k)) by lia. exact B.
Qed.
Lemma flat_len l : length (flat_map octet_bits l) = (8 * length l)%nat.
Proof. induction l as [|x l IH]; [reflexivity|]. cbn [flat_map]. rewrite app_length, IH. cbn [octet_bits map length]. lia. Qed.
Lemma bitmap_bits m o n l : 1 <= n -> Z.of_nat (length l) = (n + 7) / 8 ->
  (forall k x, nth_error l k = Some x -> byte_at m (o + Z.of_nat k) = x mod 256) ->
  (if 0 <? n mod 8 then field_bits (Z.to_nat (n mod 8)) (byte_at m o) ++ octs m (Z.to_nat (n / 8)) (o + 1)
   else octs m (Z.to_nat (n / 8)) o) = last_bits n l.
Proof.
  intros N L B. unfold last_bits. rewrite flat_len. destruct (0 <? n mod 8) eqn:E.
  - apply Z.ltb_lt in E. pose proof (Z.mod_pos_bound n 8 ltac:(lia)) as MB.
    assert (Q : (n + 7) / 8 = n / 8 + 1) by (Z.div_mod_to_equations; lia).
    assert (P : 0 <= n / 8) by (apply Z.div_pos; lia).
    destruct l as [|x l]; [cbn [length Z.of_nat] in L; lia|]. cbn [length] in L.
    pose proof (B 0%nat x eq_refl) as B0. rewrite Z.add_0_r in B0. rewrite B0, fb_mod256 by lia.
    replace (Z.to_nat (n / 8)) with (length l) by lia. rewrite octs_all with (l := l).
    2: { intros k y K. specialize (B (S k) y K). replace (o + 1 + Z.of_nat k) with (o + Z.of_nat (S k)) by lia. exact B. }
    cbn [flat_map]. rewrite skipn_app, octet_fb, fb_len. cbn [length].
    assert (D : n = 8 * (n / 8) + n mod 8) by (apply Z.div_mod; lia).
    replace (8 * S (length l) - Z.to_nat n)%nat with (8 - Z.to_nat (n mod 8))%nat by lia.
    rewrite skipn_fb by lia. replace (8 - Z.to_nat (n mod 8) - 8)%nat with 0%nat by lia. reflexivity.
  - apply Z.ltb_ge in E. pose proof (Z.mod_pos_bound n 8 ltac:(lia)) as MB.
    assert (P : 0 <= n / 8) by (apply Z.div_pos; lia).
    assert (Q : (n + 7) / 8 = n / 8) by (Z.div_mod_to_equations; lia).
    replace (Z.to_nat (n / 8)) with (length l) by lia. rewrite octs_all with (l := l) by exact B.
    assert (D : n = 8 * (n / 8) + n mod 8) by (apply Z.div_mod; lia).
    replace (8 * length l - Z.to_nat n)%nat with 0%nat by lia. reflexivity.
Qed.
Lemma last_len n l : 1 <= n -> Z.of_nat (length l) = (n + 7) / 8 -> len (last_bits n l) = n.
Proof.
  intros N L. unfold len, last_bits. rewrite skipn_length, flat_len. Z.div_mod_to_equations. lia.
Qed.

Definition frequency_at (m : Z -> Z) (o : Z) (p : slot) : Prop :=
  byte_at m (o + 0) = s_tsc p mod 256 /\
  match s_hop p with
  | None => byte_at m (o + 1) = 0 /\ byte_at m (o + 2) = s_arfcn p mod 256 /\ byte_at m (o + 2 + 1) = s_arfcn p / 256 mod 256
  | Some h =>
    byte_at m (o + 1) = 2 /\ byte_at m (o + 2) = h_maio h mod 256 /\ byte_at m (o + 3) = h_hsn h mod 256 /\
    byte_at m (o + 4) = 0 /\ byte_at m (o + 9) = 0 /\ byte_at m (o + 19) = h_bits h /\
    (forall k x, nth_error (h_ma h) k = Some x -> byte_at m (o + 11 + Z.of_nat k) = x mod 256)
  end.
Lemma frequency_same m1 m2 o p : (forall a, o <= a < o + 28 -> byte_at m1 a = byte_at m2 a) -> slot_ok p ->
  frequency_at m2 o p -> frequency_at m1 o p.
Proof.
  intros E (_ & _ & SO) (A & B). split; [rewrite E by lia; exact A|]. destruct (s_hop p) as [h|].
  - destruct (SO h eq_refl) as (_ & _ & H1 & H2). rewrite !E by lia. repeat (split; [tauto|]).
    intros k x N. assert (K : (k < length (h_ma h))%nat) by (apply nth_error_Some; congruence).
    rewrite E by (Z.div_mod_to_equations; lia). now apply B.
  - rewrite !E by lia. tauto.
Qed.
Ltac look := repeat first [rewrite byte_other by lia | rewrite byte_same by lia].
Lemma gen_freq_at junk o p m : slot_ok p -> frequency_at (gen_freq_params junk o p m) o p.
Proof.
  intros (_ & _ & SO). unfold frequency_at, gen_freq_params. destruct (s_hop p) as [h|].
  - destruct (SO h eq_refl) as (_ & _ & H1 & H2).
    assert (L : Z.of_nat (length (h_ma h)) <= 8) by (Z.div_mod_to_equations; lia).
    set (fresh := fun a => _).
    assert (FR : forall a, a < o + 2 -> byte_at fresh a = byte_at (st true (o + 1) 2 (st true o (s_tsc p) m)) a).
    { intros a A. unfold byte_at, fresh. now replace (o + 2 <=? a) with false by (symmetry; apply Z.leb_gt; lia). }
    split.
    { rewrite copy_other by lia. look. cbn [copy]. look. rewrite FR by lia. now look. }
    split; [rewrite copy_other by lia; cbn [copy]; look; rewrite FR by lia; now look|].
    do 5 (split; [rewrite copy_other by lia; cbn [copy]; look;
                  first [reflexivity | rewrite Z.mod_small; [reflexivity|lia]]|]).
    intros k x N. replace (o + 11 + Z.of_nat k) with (o + 2 + 9 + Z.of_nat k) by lia. now apply copy_at.
  - unfold st16. split; [now look|]. split; [now look|split; now look].
Qed.
Lemma gen_freq_other junk o p m a : slot_ok p -> a < o \/ o + 27 <= a -> byte_at (gen_freq_params junk o p m) a = byte_at m a.
Proof.
  intros (_ & _ & SO) R. unfold gen_freq_params. destruct (s_hop p) as [h|].
  - destruct (SO h eq_refl) as (_ & _ & H1 & H2).
    assert (L : Z.of_nat (length (h_ma h)) <= 8) by (Z.div_mod_to_equations; lia).
    set (fresh := fun a => _). rewrite copy_other by lia. cbn [copy]. look.
    assert (FR : byte_at fresh a = byte_at (st true (o + 1) 2 (st true o (s_tsc p) m)) a).
    { unfold byte_at, fresh. replace ((o + 2 <=? a) && (a <? o + 2 + 25)) with false; [reflexivity|].
      symmetry. apply andb_false_iff. destruct R; [left; apply Z.leb_gt|right; apply Z.ltb_ge]; lia. }
    rewrite FR. now look.
  - unfold st16. now look.
Qed.

Ltac at_addr B := etransitivity; [|exact B]; f_equal; lia.
Lemma frequency_fits m o p : slot_ok p -> frequency_at m o p ->
  fits (erun m (enc m) 0 T_Frequency_Parameters_t o) (frequency_bits (frequency_of p)).
Proof.
  intros (_ & _ & SO) (A & B). unfold frequency_bits, frequency_of, carrier_of. cbn [f_tsc f_carrier]. eapply fits_eq.
  - unfold T_Frequency_Parameters_t. apply fits_cons; [reflexivity|apply wr_u8; [reflexivity|lia|exact A]|].
    apply fits_cons; [reflexivity| |apply fits_nil].
    instantiate (1 := match s_hop p with Some h => _ | None => _ end). destruct (s_hop p) as [h|].
    + destruct (SO h eq_refl) as (_ & _ & H1 & H2). destruct B as (B1 & B2 & B3 & B4 & B5 & B6 & B7).
      eapply wr_union with (i := 2%nat); [exact B1|reflexivity|cbn [length]; lia|reflexivity|reflexivity|].
      apply alt_typ, wr_typ. unfold T_Direct_encoding_1_t.
      apply fits_cons; [reflexivity|apply wr_u8 with (x := h_maio h); [reflexivity|lia|]|].
      { at_addr B2. }
      apply fits_cons; [reflexivity| |apply fits_nil].
      apply wr_typ. unfold T_GPRS_Mobile_Allocation_t.
      apply fits_cons; [reflexivity|apply wr_u8 with (x := h_hsn h); [reflexivity|lia|]|].
      { at_addr B3. }
      apply fits_cons; [reflexivity|apply wr_rec_nil|].
      { at_addr B4. }
      apply fits_cons; [reflexivity| |apply fits_nil].
      eapply wr_union with (i := 0%nat); [|reflexivity|cbn [length]; lia|reflexivity|reflexivity|].
      { at_addr B5. }
      apply alt_typ, wr_typ. unfold T_MobileAllocation_t.
      apply fits_cons; [reflexivity|apply wr_off with (x := h_bits h); [reflexivity|lia|]|].
      { at_addr B6. }
      apply fits_cons; [reflexivity| |apply fits_nil].
      apply wr_bitmap with (n := h_bits h); [|lia]. at_addr B6.
    + destruct B as (B1 & B2 & B3).
      eapply wr_union with (i := 0%nat); [exact B1|reflexivity|cbn [length]; lia|reflexivity|reflexivity|].
      apply alt_uint; [apply wr_u16 with (x := s_arfcn p); [reflexivity|lia|exact B2|exact B3]|lia|reflexivity].
  - f_equal. destruct (s_hop p) as [h|]; rewrite ?app_nil_r; cbn [carrier_bits]; [|reflexivity].
    destruct (SO h eq_refl) as (_ & _ & H1 & H2). destruct B as (B1 & B2 & B3 & B4 & B5 & B6 & B7).
    rewrite last_len by lia. replace (o + 2 + 1 + 7 + 1) with (o + 11) by lia.
    rewrite bitmap_bits with (l := h_ma h) by (assumption || lia). reflexivity.
Qed.
