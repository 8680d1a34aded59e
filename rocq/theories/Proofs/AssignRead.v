(** The strings of bits of the assignment messages, and that the reader of AssignSpec.v gets back what they say. *)
From Coq Require Import ZArith List Bool Lia.
From Verif.Model Require Import CodingScheme Csn1Enc.
From Verif.Spec Require Import AssignSpec.
From Verif.Proofs Require Import Csn1Emit.
Import ListNotations.
Open Scope Z_scope.

Lemma num_fb k v r : num k (field_bits k v ++ r) = Some (v mod 2 ^ Z.of_nat k, r).
Proof.
  revert v r. induction k; intros v r; cbn [num field_bits app].
  - unfold ret. cbn [Z.of_nat]. now rewrite Z.pow_0_r, Z.mod_1_r.
  - unfold bind at 1. cbn [flag]. unfold bind. rewrite IHk. unfold ret. f_equal. f_equal.
    rewrite Nat2Z.inj_succ, Z.pow_succ_r by lia. rewrite (Z.mul_comm 2).
    rewrite Z.rem_mul_r by lia. rewrite Z.add_comm. f_equal. f_equal.
    now rewrite Z.testbit_spec' by lia.
Qed.
Lemma num_small k v r : 0 <= v < 2 ^ Z.of_nat k -> num k (field_bits k v ++ r) = Some (v, r).
Proof. intros V. rewrite num_fb, Z.mod_small by exact V. reflexivity. Qed.
Lemma must_ok k v r : 0 <= v < 2 ^ Z.of_nat k -> must k v (field_bits k v ++ r) = Some (tt, r).
Proof. intros V. unfold must, bind. rewrite num_small by exact V. now rewrite Z.eqb_refl. Qed.
Lemma must_0 r : must 1 0 (false :: r) = Some (tt, r).
Proof. reflexivity. Qed.

Definition optb {A} (f : A -> list bool) (o : option A) : list bool :=
  match o with Some x => true :: f x | None => [false] end.
Lemma opt_ok {A} (rd : reader A) (f : A -> list bool) (o : option A) r :
  (forall x, o = Some x -> forall r', rd (f x ++ r') = Some (x, r')) -> opt rd (optb f o ++ r) = Some (o, r).
Proof.
  intros F. destruct o as [x|]; unfold opt, bind; cbn [optb app flag]; [|reflexivity].
  rewrite F by reflexivity. reflexivity.
Qed.
Lemma times_ok {A} (rd : reader A) (f : A -> list bool) (l : list A) : forall r,
  (forall x, In x l -> forall r', rd (f x ++ r') = Some (x, r')) -> times (length l) rd (concat (map f l) ++ r) = Some (l, r).
Proof.
  induction l as [|x l IH]; intros r F; cbn [length times map concat app]; [reflexivity|].
  unfold bind. rewrite <- app_assoc, F by now left. rewrite IH by (intros; apply F; now right). reflexivity.
Qed.
Lemma flags_ok l r : times (length l) flag (l ++ r) = Some (l, r).
Proof. induction l as [|x l IH]; cbn [length times app]; [reflexivity|]. unfold bind. cbn [flag]. now rewrite IH. Qed.

Lemma bind_ok {A C} (rd : reader A) (f : A -> reader C) l x r : rd l = Some (x, r) -> bind rd f l = f x r.
Proof. intros E. unfold bind. now rewrite E. Qed.

(** ** Parts *)
Definition in_bits (k x : Z) : Prop := 0 <= x < 2 ^ k.

Definition who_bits (a : addressee) : list bool :=
  match a with ByTlli t => [true; false] ++ field_bits 32 t | ByTfi d t => [false; d] ++ field_bits 5 t end.
Definition who_ok (a : addressee) : Prop := match a with ByTlli t => in_bits 32 t | ByTfi _ t => in_bits 5 t end.
Lemma who_read a r : who_ok a -> r_addressee (who_bits a ++ r) = Some (a, r).
Proof.
  intros O. destruct a as [t|d t]; cbn [who_bits app who_ok] in *; unfold r_addressee, bind; cbn [flag];
    rewrite num_small by exact O; reflexivity.
Qed.

Definition index_bits (p : Z * Z) : list bool := field_bits 4 (fst p) ++ field_bits 3 (snd p).
Definition advance_bits (a : advance) : list bool := optb (field_bits 6) (a_value a) ++ optb index_bits (a_index a).
Definition advance_ok (a : advance) : Prop :=
  (forall v, a_value a = Some v -> in_bits 6 v) /\ (forall p, a_index a = Some p -> in_bits 4 (fst p) /\ in_bits 3 (snd p)).
Lemma advance_read a r : advance_ok a -> r_advance (advance_bits a ++ r) = Some (a, r).
Proof.
  intros [V I]. unfold r_advance, advance_bits. rewrite <- app_assoc.
  erewrite bind_ok by (apply opt_ok; intros x E r'; apply num_small; exact (V x E)).
  erewrite bind_ok.
  2: { apply opt_ok. intros [x t] E r'. destruct (I _ E) as [I1 I2]. unfold index_bits. cbn [fst snd] in *.
       rewrite <- app_assoc. erewrite bind_ok by (apply num_small; exact I1).
       erewrite bind_ok by (apply num_small; exact I2). reflexivity. }
  unfold ret. now destruct a.
Qed.

Definition carrier_bits (c : carrier) : list bool :=
  match c with
  | Arfcn n => field_bits 2 0 ++ field_bits 10 n
  | Hopping maio hsn ma =>
    field_bits 2 2 ++ field_bits 6 maio ++ field_bits 6 hsn ++ [false] ++ [false] ++ field_bits 6 (len ma - 1) ++ ma
  end.
Definition frequency_bits (f : frequency) : list bool := field_bits 3 (f_tsc f) ++ carrier_bits (f_carrier f).
Definition frequency_ok (f : frequency) : Prop :=
  in_bits 3 (f_tsc f) /\
  match f_carrier f with
  | Arfcn n => in_bits 10 n
  | Hopping maio hsn ma => in_bits 6 maio /\ in_bits 6 hsn /\ 1 <= len ma <= 64
  end.
Lemma frequency_read f r : frequency_ok f -> r_frequency (frequency_bits f ++ r) = Some (f, r).
Proof.
  destruct f as [tsc c]. intros [T C]. cbn [f_tsc f_carrier] in *. unfold r_frequency, frequency_bits. cbn [f_tsc f_carrier].
  rewrite <- app_assoc. erewrite bind_ok by (apply num_small; exact T).
  destruct c as [n|maio hsn ma]; cbn [carrier_bits]; rewrite <- ?app_assoc.
  - erewrite bind_ok by (apply num_small; lia). rewrite Z.eqb_refl.
    erewrite bind_ok by (apply num_small; exact C). reflexivity.
  - destruct C as (C1 & C2 & C3).
    erewrite bind_ok by (apply num_small; lia). change (2 =? 0) with false. rewrite Z.eqb_refl. cbv iota.
    erewrite bind_ok by (apply num_small; exact C1). erewrite bind_ok by (apply num_small; exact C2).
    cbn [app]. erewrite bind_ok by reflexivity. cbv iota. erewrite bind_ok by reflexivity. cbv iota.
    erewrite bind_ok by (apply num_small; change (2 ^ Z.of_nat 6) with 64; lia).
    erewrite bind_ok. 2: { replace (Z.to_nat (len ma - 1 + 1)) with (length ma) by (unfold len; lia). apply flags_ok. }
    reflexivity.
Qed.

Definition share_bits (power : bool) (s : share) : list bool :=
  field_bits 3 (h_usf s) ++ match h_gamma s with Some g => field_bits 5 g | None => [] end.
Definition slots_bits (l : list (option share)) : list bool := concat (map (optb (share_bits true)) l).
Definition alpha_bits (o : option Z) : list bool := match o with Some a => [true] ++ field_bits 4 a | None => [false] end.
Definition dynamic_bits (y : dynamic) : list bool :=
  [false] ++ [false] ++ [false] ++ [true] ++ field_bits 5 (y_tfi y) ++ [false] ++ [false] ++
  alpha_bits (y_alpha y) ++ slots_bits (y_slots y).
Definition share_ok (power : bool) (s : share) : Prop :=
  in_bits 3 (h_usf s) /\ match h_gamma s with Some g => power = true /\ in_bits 5 g | None => power = false end.
Definition powered (y : dynamic) : bool := match y_alpha y with Some _ => true | None => false end.
Definition dynamic_ok (y : dynamic) : Prop :=
  in_bits 5 (y_tfi y) /\ (forall a, y_alpha y = Some a -> in_bits 4 a) /\ length (y_slots y) = 8%nat /\
  (forall s, In (Some s) (y_slots y) -> share_ok (powered y) s).
Lemma dynamic_read y r : dynamic_ok y -> r_dynamic (dynamic_bits y ++ r) = Some (y, r).
Proof.
  destruct y as [tfi al l]. intros (T & A & L & S). unfold powered in S. cbn [y_tfi y_alpha y_slots] in *.
  unfold r_dynamic, dynamic_bits. cbn [y_tfi y_alpha y_slots]. rewrite <- !app_assoc. cbn [app].
  erewrite bind_ok by apply must_0. erewrite bind_ok by apply must_0. erewrite bind_ok by apply must_0.
  erewrite bind_ok.
  2: { change (true :: field_bits 5 tfi ++ ?x) with (optb (field_bits 5) (Some tfi) ++ x). apply opt_ok.
       intros x E r'. injection E as <-. now apply num_small. }
  erewrite bind_ok by apply must_0. erewrite bind_ok by apply must_0.
  assert (Q : forall p, (forall s, In (Some s) l -> share_ok p s) -> forall rd,
      (forall s, share_ok p s -> forall r', rd (share_bits true s ++ r') = Some (s, r')) ->
      times 8 (opt rd) (slots_bits l ++ r) = Some (l, r)).
  { intros p P rd R. rewrite <- L. unfold slots_bits. apply times_ok. intros x IN r'. apply opt_ok. intros s E. subst x.
    apply R. now apply P. }
  destruct al as [a|]; cbn [alpha_bits app].
  - erewrite bind_ok by reflexivity. cbv iota. rewrite <- ?app_assoc.
    erewrite bind_ok by (apply num_small; exact (A a eq_refl)).
    erewrite bind_ok.
    2: { apply (Q true S). intros s [S1 S2] r'. unfold share_bits. destruct s as [u [g|]]; cbn [h_usf h_gamma] in *; [|discriminate S2].
         rewrite <- app_assoc. erewrite bind_ok by (apply num_small; exact S1).
         erewrite bind_ok by (apply num_small; exact (proj2 S2)). reflexivity. }
    reflexivity.
  - erewrite bind_ok by reflexivity. cbv iota.
    erewrite bind_ok.
    2: { apply (Q false S). intros s [S1 S2] r'. unfold share_bits. destruct s as [u [g|]]; cbn [h_usf h_gamma] in *; [destruct S2; discriminate|].
         rewrite app_nil_r. erewrite bind_ok by (apply num_small; exact S1). reflexivity. }
    reflexivity.
Qed.

Definition mac_bits (rrbp : Z) (poll : bool) : list bool := field_bits 2 1 ++ field_bits 2 rrbp ++ field_bits 1 (Z.b2z poll) ++ field_bits 3 0.
Definition start_bits (message : Z) : list bool := field_bits 6 message ++ field_bits 2 0 ++ [false].
Lemma header_read message rrbp poll r : in_bits 6 message -> in_bits 2 rrbp ->
  r_header message (mac_bits rrbp poll ++ start_bits message ++ r) = Some (if poll then Some rrbp else None, r).
Proof.
  intros M R. unfold r_header, mac_bits, start_bits. rewrite <- !app_assoc.
  erewrite bind_ok by (apply must_ok; lia). erewrite bind_ok by (apply num_small; exact R).
  rewrite fb_bool. cbn [app]. erewrite bind_ok by reflexivity.
  erewrite bind_ok by (apply num_small; lia). erewrite bind_ok by (apply must_ok; exact M).
  erewrite bind_ok by (apply num_small; lia). erewrite bind_ok by reflexivity. reflexivity.
Qed.

(** ** Uplink *)
Definition coding_bits (c : coding) (same : bool) (a : advance) (f : option frequency) : list bool :=
  match c with
  | Gprs cs => [false] ++ field_bits 2 cs ++ [same] ++ advance_bits a ++ optb frequency_bits f
  | Egprs mcs reseg w =>
    [true] ++ field_bits 2 0 ++ [false] ++ [false] ++ field_bits 4 mcs ++ [reseg] ++ field_bits 5 ((w - 64) / 32) ++
    [false] ++ [false] ++ [same] ++ [false] ++ advance_bits a ++ [false] ++ optb frequency_bits f
  end.
Definition uplink_bits (u : uplink) : list bool :=
  start_bits 10 ++ who_bits (u_to u) ++ coding_bits (u_coding u) (u_tlli_same u) (u_advance u) (u_frequency u) ++
  field_bits 2 1 ++ dynamic_bits (u_dynamic u).
Definition coding_ok (c : coding) : Prop :=
  match c with
  | Gprs cs => in_bits 2 cs
  | Egprs mcs _ w => in_bits 4 mcs /\ exists k, in_bits 5 k /\ w = 64 + 32 * k
  end.
Definition uplink_ok (u : uplink) : Prop :=
  who_ok (u_to u) /\ coding_ok (u_coding u) /\ advance_ok (u_advance u) /\
  (forall f, u_frequency u = Some f -> frequency_ok f) /\ dynamic_ok (u_dynamic u).
Lemma or_null_ends {A} (rd : reader A) t : ends t -> exists t', or_null rd t = Some (None, t').
Proof. intros [->|[r ->]]; eexists; reflexivity. Qed.
Lemma uplink_read rrbp (poll : bool) u t : in_bits 2 rrbp -> uplink_ok u -> ends t ->
  u_poll u = (if poll then Some rrbp else None) ->
  reads r_uplink (mac_bits rrbp poll ++ uplink_bits u ++ t) = Some u.
Proof.
  destruct u as [po to co same a f y]. intros R (W & C & A & F & Y) E P. cbn [u_poll u_to u_coding u_tlli_same u_advance u_frequency u_dynamic] in *.
  unfold reads, r_uplink, uplink_bits. cbn [u_poll u_to u_coding u_tlli_same u_advance u_frequency u_dynamic].
  rewrite <- !app_assoc.
  erewrite bind_ok by (apply header_read; [unfold in_bits; lia|exact R]). rewrite <- P.
  erewrite bind_ok by (apply who_read; exact W).
  destruct co as [cs|mcs reseg w]; cbn [coding_bits coding_ok] in *; rewrite <- ?app_assoc; cbn [app].
  - erewrite bind_ok by reflexivity. cbv iota. erewrite bind_ok by (apply num_small; exact C).
    erewrite bind_ok by reflexivity. erewrite bind_ok by (apply advance_read; exact A).
    erewrite bind_ok by (apply opt_ok; intros x X r'; apply frequency_read; now apply F).
    erewrite bind_ok by (apply must_ok; lia). erewrite bind_ok by (apply dynamic_read; exact Y).
    destruct (or_null_ends (must 1 0) t E) as [t' N]. erewrite bind_ok by exact N. reflexivity.
  - destruct C as (C & k & K1 & K2). rewrite K2. replace ((64 + 32 * k - 64) / 32) with k by (Z.div_mod_to_equations; lia).
    erewrite bind_ok by reflexivity. cbv iota. erewrite bind_ok by (apply must_ok; lia).
    do 2 erewrite bind_ok by apply must_0. erewrite bind_ok by (apply num_small; exact C).
    erewrite bind_ok by reflexivity. erewrite bind_ok by (apply num_small; exact K1).
    do 2 erewrite bind_ok by apply must_0. erewrite bind_ok by reflexivity. erewrite bind_ok by apply must_0.
    erewrite bind_ok by (apply advance_read; exact A). erewrite bind_ok by apply must_0.
    erewrite bind_ok by (apply opt_ok; intros x X r'; apply frequency_read; now apply F).
    erewrite bind_ok by (apply must_ok; lia). erewrite bind_ok by (apply dynamic_read; exact Y).
    reflexivity.
Qed.

(** ** Downlink *)
Definition gammas_bits (l : list (option Z)) : list bool := concat (map (optb (field_bits 5)) l).
Definition power_bits (p : Z * list (option Z)) : list bool := field_bits 4 (fst p) ++ gammas_bits (snd p).
Definition r99_bits (w : Z) : list bool :=
  [true] ++ field_bits 5 ((w - 64) / 32) ++ field_bits 2 0 ++ [false] ++ [false] ++ [false].
(** Up to the additions. *)
Definition downlink_bits (d : downlink) : list bool :=
  start_bits 2 ++ who_bits (w_to d) ++ [false] ++ field_bits 2 0 ++ [negb (w_acknowledged d)] ++ [w_control_ack d] ++
  w_slots d ++ advance_bits (w_advance d) ++ [false] ++ optb frequency_bits (w_frequency d) ++
  optb (field_bits 5) (w_tfi d) ++ optb power_bits (w_power d) ++ [false] ++ [false].
Definition downlink_ok (d : downlink) : Prop :=
  who_ok (w_to d) /\ length (w_slots d) = 8%nat /\ advance_ok (w_advance d) /\
  (forall f, w_frequency d = Some f -> frequency_ok f) /\ (forall x, w_tfi d = Some x -> in_bits 5 x) /\
  (forall p, w_power d = Some p -> in_bits 4 (fst p) /\ length (snd p) = 8%nat /\ forall g, In (Some g) (snd p) -> in_bits 5 g) /\
  (forall w, w_window d = Some w -> exists k, in_bits 5 k /\ w = 64 + 32 * k).
Definition with_window (d : downlink) (w : option Z) : downlink :=
  mk_downlink (w_poll d) (w_to d) (w_acknowledged d) (w_control_ack d) (w_slots d) (w_advance d) (w_frequency d) (w_tfi d) (w_power d) w.
Lemma downlink_read rrbp (poll : bool) d : in_bits 2 rrbp -> downlink_ok d -> w_poll d = (if poll then Some rrbp else None) ->
  (forall t, ends t -> reads r_downlink (mac_bits rrbp poll ++ downlink_bits d ++ t) = Some (with_window d None)) /\
  (forall w t, w_window d = Some w -> reads r_downlink (mac_bits rrbp poll ++ downlink_bits d ++ (true :: r99_bits w) ++ t) = Some d).
Proof.
  destruct d as [po to ak ca sl a f tfi pw win]. intros R (W & S & A & F & T & PW & WI) P.
  cbn [w_poll w_to w_acknowledged w_control_ack w_slots w_advance w_frequency w_tfi w_power w_window] in *.
  assert (X : forall t x, or_null (
    let* params := opt (let* ws := num 5 in let* lqm := must 2 0 in let* bep := must 1 0 in ret (window_of ws)) in
    let* ext := must 1 0 in let* reduced := must 1 0 in ret params) t = Some x ->
    reads r_downlink (mac_bits rrbp poll ++ downlink_bits (mk_downlink po to ak ca sl a f tfi pw win) ++ t) =
    Some (mk_downlink po to ak ca sl a f tfi pw (match fst x with Some (Some w) => Some w | _ => None end))).
  { intros t [r99 t'] X. unfold reads, r_downlink, downlink_bits.
    cbn [w_poll w_to w_acknowledged w_control_ack w_slots w_advance w_frequency w_tfi w_power w_window].
    rewrite <- !app_assoc.
    erewrite bind_ok by (apply header_read; [unfold in_bits; lia|exact R]). rewrite <- P.
    erewrite bind_ok by (apply who_read; exact W). erewrite bind_ok by apply must_0.
    erewrite bind_ok by (apply must_ok; lia). erewrite bind_ok by reflexivity. erewrite bind_ok by reflexivity.
    erewrite bind_ok by (rewrite <- S; apply flags_ok). erewrite bind_ok by (apply advance_read; exact A).
    erewrite bind_ok by apply must_0.
    erewrite bind_ok by (apply opt_ok; intros y Y r'; apply frequency_read; now apply F).
    erewrite bind_ok by (apply opt_ok; intros y Y r'; apply num_small; now apply T).
    erewrite bind_ok.
    2: { apply opt_ok. intros [al l] Y r'. destruct (PW _ Y) as (P1 & P2 & P3). cbn [fst snd] in *. unfold power_bits. cbn [fst snd].
         rewrite <- app_assoc. erewrite bind_ok by (apply num_small; exact P1).
         erewrite bind_ok. 2: { rewrite <- P2. unfold gammas_bits. apply times_ok. intros g IN r2. apply opt_ok. intros v V r3. subst g. apply num_small. now apply P3. }
         reflexivity. }
    do 2 erewrite bind_ok by apply must_0.
    rewrite (bind_ok _ _ _ _ _ X). cbn [ret fst]. rewrite negb_involutive. reflexivity. }
  split.
  - intros t E. destruct (or_null_ends (A := option Z) (
    let* params := opt (let* ws := num 5 in let* lqm := must 2 0 in let* bep := must 1 0 in ret (window_of ws)) in
    let* ext := must 1 0 in let* reduced := must 1 0 in ret params) t E) as [t' N]. rewrite (X _ _ N). reflexivity.
  - intros w t H. destruct (WI w H) as (k & K1 & K2). rewrite (X _ (Some (Some w), t)).
    + cbn [fst]. now rewrite H.
    + unfold r99_bits, or_null. cbn [app].
      unfold opt at 1. unfold bind at 1. cbn [flag].
      assert (O : opt (let* ws := num 5 in let* lqm := must 2 0 in let* bep := must 1 0 in ret (window_of ws))
                   (true :: (field_bits 5 k ++ field_bits 2 0 ++ [false] ++ [false] ++ [false]) ++ t) =
                  Some (Some w, false :: false :: t)).
      { change (true :: ?x) with ([true] ++ x). rewrite <- !app_assoc. unfold opt. unfold bind at 1. cbn [app flag].
        unfold bind at 1. erewrite bind_ok by (apply num_small; exact K1). erewrite bind_ok by (apply must_ok; lia).
        erewrite bind_ok by apply must_0. unfold ret, window_of. now rewrite K2. }
      rewrite K2. replace ((64 + 32 * k - 64) / 32) with k by (Z.div_mod_to_equations; lia). rewrite <- K2.
      unfold bind at 1. unfold bind at 1. cbn [app] in O. rewrite O. reflexivity.
Qed.
