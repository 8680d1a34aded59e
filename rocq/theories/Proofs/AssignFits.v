(** The timeslots of an assignment, and the addressee, in memory and as the encoder writes them. *)
From Coq Require Import ZArith List Bool Lia.
From Verif.Model Require Import CodingScheme Csn1 Csn1Tables Csn1Enc BtsConf Assign.
From Verif.Spec Require Import AssignSpec AssignTold.
From Verif.Proofs Require Import Csn1Emit AssignRead AssignMem.
Import ListNotations.
Open Scope Z_scope.

(** ** The addressee: the structure of an uplink or downlink identity at [o] *)
Definition who_at (m : Z -> Z) (o : Z) (a : addressee) : Prop :=
  match a with
  | ByTlli t => byte_at m (o + 0) = 1 /\ byte_at m (o + 4) = t mod 256 /\ byte_at m (o + 4 + 1) = t / 256 mod 256 /\
                byte_at m (o + 4 + 2) = t / 65536 mod 256 /\ byte_at m (o + 4 + 3) = t / 65536 / 256 mod 256
  | ByTfi d t => byte_at m (o + 0) = 0 /\ byte_at m (o + 4 + 0) = Z.b2z d /\ byte_at m (o + 4 + 1) = t mod 256
  end.
Lemma tfi_fits m o (d : bool) t : byte_at m (o + 0) = Z.b2z d -> byte_at m (o + 1) = t mod 256 ->
  fits (erun m (enc m) 0 T_Global_TFI_t o) (d :: field_bits 5 t).
Proof.
  intros A B. eapply fits_eq.
  - apply fits_cons; [reflexivity| |apply fits_nil].
    eapply wr_union with (i := if d then 1%nat else 0%nat); [|destruct d; reflexivity|cbn [length]; lia|destruct d; reflexivity|reflexivity|].
    { rewrite A. now destruct d. }
    apply alt_uint; [apply wr_u8; [reflexivity|lia|exact B]|lia|reflexivity].
  - rewrite app_nil_r. now destruct d.
Qed.
Lemma who_wr_ul m o a nl off cap base : base + off = o -> who_at m o a ->
  wr (enc m (Typ nl off cap T_PacketUplinkID_t) base) (who_bits a).
Proof.
  intros <- W. apply wr_typ. destruct a as [t|d t]; destruct W as (A & W).
  - destruct W as (B0 & B1 & B2 & B3). eapply fits_eq.
    + apply fits_cons; [reflexivity| |apply fits_nil].
      eapply wr_choice with (i := 1%nat); [exact A|reflexivity|lia|reflexivity|].
      apply wr_u32 with (x := t); [reflexivity|lia|exact B0|exact B1|exact B2|exact B3].
    + rewrite app_nil_r. reflexivity.
  - destruct W as (B0 & B1). eapply fits_eq.
    + apply fits_cons; [reflexivity| |apply fits_nil].
      eapply wr_choice with (i := 0%nat); [exact A|reflexivity|lia|reflexivity|].
      apply wr_typ. apply tfi_fits; [exact B0|exact B1].
    + rewrite app_nil_r. reflexivity.
Qed.
Lemma who_wr_dl m o a nl off cap base : base + off = o -> who_at m o a ->
  wr (enc m (Typ nl off cap T_PacketDownlinkID_t) base) (who_bits a).
Proof.
  intros <- W. apply wr_typ. destruct a as [t|d t]; destruct W as (A & W).
  - destruct W as (B0 & B1 & B2 & B3). eapply fits_eq.
    + apply fits_cons; [reflexivity| |apply fits_nil].
      eapply wr_choice with (i := 1%nat); [exact A|reflexivity|lia|reflexivity|].
      apply wr_u32 with (x := t); [reflexivity|lia|exact B0|exact B1|exact B2|exact B3].
    + rewrite app_nil_r. reflexivity.
  - destruct W as (B0 & B1). eapply fits_eq.
    + apply fits_cons; [reflexivity| |apply fits_nil].
      eapply wr_choice with (i := 0%nat); [exact A|reflexivity|lia|reflexivity|].
      apply wr_typ. apply tfi_fits; [exact B0|exact B1].
    + rewrite app_nil_r. reflexivity.
Qed.

(** ** The timeslots of an uplink assignment *)
Definition step_of (power : bool) : Z := if power then 3 else 2.
Fixpoint shares_at (power : bool) (m : Z -> Z) (o : Z) (l : list (option share)) : Prop :=
  match l with
  | [] => True
  | x :: r =>
    byte_at m o = Z.b2z (given x) /\
    (forall s, x = Some s -> byte_at m (o + 1) = h_usf s mod 256 /\
      match h_gamma s with Some g => power = true /\ byte_at m (o + 2) = g mod 256 | None => power = false end) /\
    shares_at power m (o + step_of power) r
  end.
Definition shares (power : bool) (gamma : Z) (slots : list (option slot)) (usf : list Z) : list (option share) :=
  map (fun '(q, u) => match q with
                      | Some _ => Some (mk_share u (if power then Some gamma else None))
                      | None => None
                      end) (combine slots usf).
Lemma ul_slots_other power gamma slots : forall o usf m a,
  a < o \/ o + step_of power * Z.of_nat (length slots) <= a ->
  byte_at (ul_slots power gamma o slots usf m) a = byte_at m a.
Proof.
  unfold step_of. induction slots as [|p r IH]; intros o usf m a R; cbn [ul_slots length] in *; [reflexivity|].
  destruct usf as [|u v]; [reflexivity|]. destruct power; rewrite IH by lia; now look.
Qed.
Lemma ul_slots_at power gamma slots : forall o usf m,
  (forall a, o <= a < o + step_of power * Z.of_nat (length slots) -> byte_at m a = 0) ->
  shares_at power (ul_slots power gamma o slots usf m) o (shares power gamma slots usf).
Proof.
  induction slots as [|p r IH]; intros o usf m Q; [exact Logic.I|]. destruct usf as [|u v]; [exact Logic.I|].
  unfold shares. cbn [combine map ul_slots shares_at]. fold (shares power gamma r v). cbn [length] in Q.
  assert (S2 : 2 <= step_of power <= 3) by (destruct power; cbn; lia).
  assert (QO : byte_at m o = 0) by (apply Q; lia).
  split; [|split].
  - destruct power; rewrite ul_slots_other by (cbn [step_of]; lia); look; destruct p; cbn [given]; look; try reflexivity;
      rewrite byte_cond by reflexivity; exact QO.
  - intros s E. destruct p as [p|]; [|discriminate E]. injection E as <-. cbn [h_usf h_gamma given].
    destruct power; rewrite ?ul_slots_other by (cbn [step_of]; lia); look; auto.
  - destruct power; cbn [step_of] in *; apply IH; intros a A; look; apply Q; lia.
Qed.
Lemma shares_same power m1 m2 l : forall o, (forall a, o <= a < o + step_of power * Z.of_nat (length l) -> byte_at m1 a = byte_at m2 a) ->
  shares_at power m2 o l -> shares_at power m1 o l.
Proof.
  assert (S2 : 2 <= step_of power <= 3) by (destruct power; cbn; lia).
  induction l as [|x r IH]; intros o E S; [exact Logic.I|]. cbn [shares_at length] in *. destruct S as (A & B & C).
  split; [rewrite E by lia; exact A|]. split.
  - intros s X. destruct (B s X) as [B1 B2]. split; [rewrite E by lia; exact B1|]. destruct (h_gamma s); [|exact B2].
    destruct B2 as [-> B2]. split; [reflexivity|]. rewrite E by (cbn [step_of]; lia). exact B2.
  - apply IH; [|exact C]. intros a R. apply E. lia.
Qed.
Lemma elements_fit m l : forall o, shares_at false m o l ->
  all_elements m T_Timeslot_Allocation_t 2 o (map (optb (share_bits true)) l).
Proof.
  induction l as [|x r IH]; intros o S; [exact Logic.I|]. destruct S as (A & B & C). cbn [map all_elements]. split.
  - eapply fits_eq.
    + unfold T_Timeslot_Allocation_t. eapply fits_next with (c := given x); [at_addr A|cbn [length]; lia|].
      instantiate (1 := match x with Some s => field_bits 3 (h_usf s) ++ [] | None => [] end).
      destruct x as [s|]; cbn [given skipn]; [|apply fits_nil]. destruct (B s eq_refl) as [B1 _].
      apply fits_cons; [reflexivity|apply wr_u8; [reflexivity|lia|exact B1]|apply fits_nil].
    + destruct x as [s|]; [|reflexivity]. destruct (B s eq_refl) as [_ B2]. cbn [given optb]. unfold share_bits.
      destruct (h_gamma s); [now destruct B2|reflexivity].
  - apply IH. exact C.
Qed.
Fixpoint triples (k : nat) (off : Z) : list entry :=
  match k with O => [] | S j => NextExist false 2 off 1 :: Uint false 3 (off + 1) 1 :: Uint false 5 (off + 2) 1 :: triples j (off + 3) end.
Lemma triples_fit m base l : forall off, shares_at true m (base + off) l ->
  fits (erun m (enc m) 0 (triples (length l) off) base) (slots_bits l).
Proof.
  induction l as [|x r IH]; intros off S; [apply fits_nil|]. destruct S as (A & B & C). cbn [length triples].
  cbn [step_of] in C. rewrite <- Z.add_assoc in C. specialize (IH _ C). unfold slots_bits. cbn [map concat]. fold (slots_bits r).
  eapply fits_eq.
  - eapply fits_next with (c := given x); [exact A|cbn [length]; lia|].
    instantiate (1 := match x with Some s => field_bits 3 (h_usf s) ++ field_bits 5 (match h_gamma s with Some g => g | None => 0 end) ++ slots_bits r | None => slots_bits r end).
    destruct x as [s|]; cbn [given skipn]; [|exact IH]. destruct (B s eq_refl) as [B1 B2].
    apply fits_cons; [reflexivity|apply wr_u8; [reflexivity|lia|at_addr B1]|].
    destruct (h_gamma s) as [g|]; [|discriminate B2]. destruct B2 as [_ B2].
    apply fits_cons; [reflexivity|apply wr_u8; [reflexivity|lia|at_addr B2]|exact IH].
  - destruct x as [s|]; [|reflexivity]. destruct (B s eq_refl) as [_ B2]. cbn [given optb app]. unfold share_bits.
    destruct (h_gamma s) as [g|]; [|discriminate B2]. now rewrite <- app_assoc.
Qed.

Definition dynamic_at (m : Z -> Z) (o : Z) (y : dynamic) : Prop :=
  byte_at m (o + 0) = 0 /\ byte_at m (o + 1) = 0 /\ byte_at m (o + 4) = 0 /\ byte_at m (o + 5) = 1 /\
  byte_at m (o + 6) = y_tfi y mod 256 /\ byte_at m (o + 7) = 0 /\ byte_at m (o + 9) = 0 /\ length (y_slots y) = 8%nat /\
  match y_alpha y with
  | Some a => byte_at m (o + 16) = 1 /\ byte_at m (o + 17) = a mod 256 /\ shares_at true m (o + 18) (y_slots y)
  | None => byte_at m (o + 16) = 0 /\ shares_at false m (o + 17) (y_slots y)
  end.
Lemma wr_zero m off cap base : byte_at m (base + off) = 0 -> wr (enc m (Uint false 1 off cap) base) [false].
Proof. intros B. change [false] with (field_bits 1 0). apply wr_u8; [reflexivity|lia|exact B]. Qed.
Lemma next_none m n off cap r base b : byte_at m (base + off) = 0 -> (n <= length r)%nat ->
  fits (erun m (enc m) 0 (skipn n r) base) b -> fits (erun m (enc m) 0 (NextExist false n off cap :: r) base) (false :: b).
Proof. intros B N F. now apply fits_next with (c := false). Qed.
Lemma next_some m n off cap r base b : byte_at m (base + off) = 1 -> (n <= length r)%nat ->
  fits (erun m (enc m) 0 r base) b -> fits (erun m (enc m) 0 (NextExist false n off cap :: r) base) (true :: b).
Proof. intros B N F. now apply fits_next with (c := true). Qed.
Lemma dynamic_fits m o y : dynamic_at m o y -> fits (erun m (enc m) 0 T_Dynamic_Allocation_t o) (dynamic_bits y).
Proof.
  destruct y as [tfi al l]. intros (A0 & A1 & A4 & A5 & A6 & A7 & A9 & L & U). cbn [y_tfi y_alpha y_slots] in *. eapply fits_eq.
  - unfold T_Dynamic_Allocation_t.
    apply fits_cons; [reflexivity|apply wr_zero; exact A0|]. apply next_none; [exact A1|cbn [length]; lia|]. cbn [skipn].
    apply fits_cons; [reflexivity|apply wr_zero; exact A4|]. apply next_some; [exact A5|cbn [length]; lia|].
    apply fits_cons; [reflexivity|apply wr_u8; [reflexivity|lia|exact A6]|].
    apply next_none; [exact A7|cbn [length]; lia|]. cbn [skipn].
    apply next_none; [exact A9|cbn [length]; lia|]. cbn [skipn].
    apply fits_cons; [reflexivity| |apply fits_nil]. instantiate (1 := alpha_bits al ++ slots_bits l).
    destruct al as [a|]; [destruct U as (U & UA & US)|destruct U as (U & US)].
    + eapply wr_eq.
      * eapply wr_union with (i := 1%nat); [exact U|reflexivity|cbn [length]; lia|reflexivity|reflexivity|].
        apply alt_typ, wr_typ.
        change T_Timeslot_Allocation_Power_Ctrl_Param_t with (Uint false 4 0 1 :: triples 8 1). rewrite <- L.
        apply fits_cons; [reflexivity|apply wr_u8 with (x := a); [reflexivity|lia|at_addr UA]|].
        apply triples_fit. replace (o + 17 + 1) with (o + 18) by lia. exact US.
      * reflexivity.
    + eapply wr_eq.
      * eapply wr_union with (i := 0%nat); [exact U|reflexivity|cbn [length]; lia|reflexivity|reflexivity|].
        apply alt_tarr, wr_tarr with (ws := map (optb (share_bits true)) l); [rewrite map_length; exact L|].
        apply elements_fit. exact US.
      * reflexivity.
  - rewrite app_nil_r. reflexivity.
Qed.

(** ** The timeslots of a downlink assignment *)
Lemma mask_bits {A} (l : list (option A)) : length l = 8%nat -> field_bits 8 (slot_mask 0 l) = map given l.
Proof.
  intros L. do 8 (destruct l as [|? l]; [discriminate L|]). destruct l; [|discriminate L].
  repeat match goal with x : option A |- _ => destruct x; cbn [slot_mask given map] end; reflexivity.
Qed.
Fixpoint gammas_at (m : Z -> Z) (o : Z) (l : list (option Z)) : Prop :=
  match l with
  | [] => True
  | x :: r => byte_at m o = Z.b2z (given x) /\ (forall g, x = Some g -> byte_at m (o + 1) = g mod 256) /\ gammas_at m (o + 2) r
  end.
Lemma dl_slots_other gamma slots : forall o m a, a < o \/ o + 2 * Z.of_nat (length slots) <= a ->
  byte_at (dl_slots gamma o slots m) a = byte_at m a.
Proof.
  induction slots as [|p r IH]; intros o m a R; cbn [dl_slots length] in *; [reflexivity|].
  rewrite IH by lia. now look.
Qed.
Definition gammas (gamma : Z) (slots : list (option slot)) : list (option Z) :=
  map (fun q => match q with Some _ => Some gamma | None => None end) slots.
Lemma dl_slots_at gamma slots : forall o m, gammas_at (dl_slots gamma o slots m) o (gammas gamma slots).
Proof.
  induction slots as [|p r IH]; intros o m; [exact Logic.I|]. cbn [gammas map dl_slots gammas_at]. split; [|split].
  - rewrite dl_slots_other by lia. look. now destruct p.
  - intros g E. destruct p; [|discriminate E]. injection E as <-. rewrite dl_slots_other by lia. now look.
  - apply IH.
Qed.
Lemma gammas_same m1 m2 l : forall o, (forall a, o <= a < o + 2 * Z.of_nat (length l) -> byte_at m1 a = byte_at m2 a) ->
  gammas_at m2 o l -> gammas_at m1 o l.
Proof.
  induction l as [|x r IH]; intros o E S; [exact Logic.I|]. cbn [gammas_at length] in *. destruct S as (A & B & C).
  split; [rewrite E by lia; exact A|]. split; [intros g X; rewrite E by lia; now apply B|].
  apply IH; [|exact C]. intros a R. apply E. lia.
Qed.
Fixpoint pairs (k : nat) (off : Z) : list entry :=
  match k with O => [] | S j => NextExist false 1 off 1 :: Uint false 5 (off + 1) 1 :: pairs j (off + 2) end.
Lemma pairs_fit m base l : forall off, gammas_at m (base + off) l ->
  fits (erun m (enc m) 0 (pairs (length l) off) base) (gammas_bits l).
Proof.
  induction l as [|x r IH]; intros off S; [apply fits_nil|]. destruct S as (A & B & C). cbn [length pairs].
  rewrite <- Z.add_assoc in C. specialize (IH _ C). unfold gammas_bits. cbn [map concat]. fold (gammas_bits r).
  eapply fits_eq.
  - eapply fits_next with (c := given x); [exact A|cbn [length]; lia|].
    instantiate (1 := match x with Some g => field_bits 5 g ++ gammas_bits r | None => gammas_bits r end).
    destruct x as [g|]; cbn [given skipn]; [|exact IH].
    apply fits_cons; [reflexivity|apply wr_u8; [reflexivity|lia|at_addr (B g eq_refl)]|exact IH].
  - now destruct x.
Qed.
Lemma power_fits m o a l : byte_at m (o + 0) = a mod 256 -> length l = 8%nat -> gammas_at m (o + 1) l ->
  fits (erun m (enc m) 0 T_Power_Control_Parameters_t o) (power_bits (a, l)).
Proof.
  intros A L G. unfold power_bits. cbn [fst snd].
  change T_Power_Control_Parameters_t with (Uint false 4 0 1 :: pairs 8 1). rewrite <- L.
  apply fits_cons; [reflexivity|apply wr_u8; [reflexivity|lia|exact A]|]. now apply pairs_fit.
Qed.
