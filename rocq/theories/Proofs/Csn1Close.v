(** Tables that end a message: they write a definite string of bits and then something that depends on the room. *)
From Coq Require Import ZArith List Bool Lia.
From Verif.Model Require Import Csn1 Csn1Tables Csn1Enc.
From Verif.Proofs Require Import Csn1Emit AssignRead.
Import ListNotations.
Open Scope Z_scope.

Section M.
Variable m : Z -> Z.
Notation enc := (enc m).
Notation erun := (erun m).
Notation etable := (etable m).

(** [T] relates the room left to what was written after [w]; [k] bits more may be needed. *)
Definition gen (T : Z -> list bool -> Prop) (k : Z) (f : estate -> eresult) (w : list bool) : Prop :=
  forall s, 0 <= e_rem s ->
    match f s with
    | EGo s' => exists t, s' = more s (w ++ t) /\ 0 <= e_rem s' /\ T (e_rem s') t
    | EStop _ => e_rem s < len w + k
    | EWild => False
    end.
Lemma gen_eq T k f a b : gen T k f a -> a = b -> gen T k f b.
Proof. now intros H <-. Qed.
Lemma gen_cons T k e r base a b : 0 <= k -> plain e = true -> wr (enc e base) a -> gen T k (erun enc 0 r base) b ->
  gen T k (erun enc 0 (e :: r) base) (a ++ b).
Proof.
  intros K P W F s R.
  assert (E : erun enc 0 (e :: r) base s =
    match enc e base s with
    | EGo s1 => if e_rem s1 <? 0 then EStop ERROR_NEED_MORE_BITS else erun enc 0 r base s1
    | x => x end) by (destruct e; try discriminate P; reflexivity).
  rewrite E. specialize (W s). pose proof (len_nonneg b) as NB. destruct (enc e base s) as [s1|c|].
  - subst s1. destruct (e_rem (more s a) <? 0) eqn:L.
    + apply Z.ltb_lt in L. cbn [more e_rem] in L. rewrite len_app. lia.
    + apply Z.ltb_ge in L. specialize (F (more s a) L).
      destruct (erun enc 0 r base (more s a)) as [s2|c|].
      * destruct F as (t & F1 & F2 & F3). exists t. split; [|auto]. rewrite F1, more_more. now rewrite app_assoc.
      * cbn [more e_rem] in F. rewrite len_app. lia.
      * exact F.
  - rewrite len_app. lia.
  - exact W.
Qed.
Lemma gen_next T k n off cap r base c b : 0 <= k -> byte_at m (base + off) = Z.b2z c -> (n <= length r)%nat ->
  gen T k (erun enc 0 (if c then r else skipn n r) base) b ->
  gen T k (erun enc 0 (NextExist false n off cap :: r) base) (c :: b).
Proof.
  intros K C N F s R. cbn [Csn1Enc.erun]. unfold enc_next_exist. cbn [andb]. rewrite C.
  rewrite emit_more by lia. rewrite fb_bool. pose proof (len_nonneg b) as NB.
  replace (if Z.b2z c =? 0 then n else 0%nat) with (if c then 0%nat else n) by now destruct c.
  assert (X : forall s1, erun enc (if c then 0%nat else n) r base s1 = erun enc 0 (if c then r else skipn n r) base s1).
  { intros s1. destruct c; [reflexivity|]. now apply erun_skip. }
  destruct (e_rem (more s [c]) <? 0) eqn:L.
  - apply Z.ltb_lt in L. cbn [more e_rem] in L. rewrite len_cons, len_nil in L. rewrite len_cons. lia.
  - apply Z.ltb_ge in L. rewrite X. specialize (F _ L).
    destruct (erun enc 0 _ base (more s [c])) as [s2|e|].
    + destruct F as (t & F1 & F2 & F3). exists t. split; [|auto]. now rewrite F1, more_more.
    + cbn [more e_rem] in F. rewrite len_cons in *. rewrite len_nil in F. lia.
    + exact F.
Qed.
Lemma gen_none T k n off cap r base b : 0 <= k -> byte_at m (base + off) = 0 -> (n <= length r)%nat ->
  gen T k (erun enc 0 (skipn n r) base) b -> gen T k (erun enc 0 (NextExist false n off cap :: r) base) (false :: b).
Proof. intros K B N F. now apply gen_next with (c := false). Qed.
Lemma gen_some T k n off cap r base b : 0 <= k -> byte_at m (base + off) = 1 -> (n <= length r)%nat ->
  gen T k (erun enc 0 r base) b -> gen T k (erun enc 0 (NextExist false n off cap :: r) base) (true :: b).
Proof. intros K B N F. now apply gen_next with (c := true). Qed.

(** The end of the message. *)
Definition full (r : Z) (t : list bool) : Prop := r = 0 /\ ends t.
Lemma gen_pad base : gen full 0 (erun enc 0 [Padding] base) [].
Proof.
  intros s R. destruct (padded m base s R) as (w & E & L & N). cbn [Csn1Enc.erun]. rewrite E.
  assert (Z0 : e_rem (more s w) = 0) by (cbn [more e_rem]; lia). rewrite Z0. cbn [Z.ltb Z.compare].
  exists w. rewrite Z0. unfold full. repeat split; auto; lia.
Qed.
(** Additions without content: one bit, if there is room for it. *)
Definition one_more (r : Z) (t : list bool) : Prop := (r = 0 /\ t = []) \/ t = [false].
Lemma gen_null off cap e base : byte_at m (base + off) = 0 -> gen one_more 0 (erun enc 0 [NextExist true 1 off cap; e] base) [].
Proof.
  intros B s R. cbn [Csn1Enc.erun]. unfold enc_next_exist. cbn [andb]. rewrite B. cbn [Z.eqb].
  rewrite emit_more by lia. change (field_bits (Z.to_nat 1) 0) with [false]. destruct (e_rem s =? 0) eqn:E.
  - apply Z.eqb_eq in E. replace (e_rem s <? 0) with false by (symmetry; apply Z.ltb_ge; lia).
    exists []. rewrite more_nil. unfold one_more. auto.
  - apply Z.eqb_neq in E. replace (e_rem (more s [false]) <? 0) with false
      by (symmetry; apply Z.ltb_ge; cbn [more e_rem]; rewrite len_cons, len_nil; lia).
    exists [false]. unfold one_more. split; [reflexivity|]. cbn [more e_rem]. rewrite len_cons, len_nil. split; [lia|auto].
Qed.
Lemma gen_no_additions off cap e base : byte_at m (base + off) = 0 ->
  gen full 0 (erun enc 0 [NextExist true 1 off cap; e; Padding] base) [].
Proof.
  intros B s R. cbn [Csn1Enc.erun]. unfold enc_next_exist. cbn [andb]. rewrite B. cbn [Z.eqb].
  rewrite emit_more by lia. change (field_bits (Z.to_nat 1) 0) with [false]. destruct (e_rem s =? 0) eqn:E.
  - apply Z.eqb_eq in E. replace (e_rem s <? 0) with false by (symmetry; apply Z.ltb_ge; lia). exact (gen_pad base s R).
  - apply Z.eqb_neq in E.
    assert (R1 : 0 <= e_rem (more s [false])) by (cbn [more e_rem]; rewrite len_cons, len_nil; lia).
    replace (e_rem (more s [false]) <? 0) with false by (symmetry; apply Z.ltb_ge; lia).
    pose proof (gen_pad base _ R1) as G. cbn [Csn1Enc.erun] in G.
    destruct (enc Padding base (more s [false])) as [s1|c|].
    + destruct (e_rem s1 <? 0).
      * rewrite len_nil in *. lia.
      * destruct G as (t & G1 & G2 & G3 & G4). exists (false :: t). rewrite G1 in *. rewrite more_more in *.
        cbn [app] in *. split; [reflexivity|]. split; [exact G2|]. split; [exact G3|]. right. eauto.
    + rewrite len_nil in *. lia.
    + exact G.
Qed.
(** Additions with content [w]: all of it, or nothing at all if the message is exactly full. *)
Definition added (w : list bool) (r : Z) (t : list bool) : Prop := r = 0 /\ (t = [] \/ exists t', t = true :: w ++ t').
Lemma gen_additions off cap e base w : byte_at m (base + off) = 1 -> plain e = true -> wr (enc e base) w ->
  gen (added w) (1 + len w) (erun enc 0 [NextExist true 1 off cap; e; Padding] base) [].
Proof.
  intros B P W s R.
  assert (E : erun enc 0 [NextExist true 1 off cap; e; Padding] base s =
    if e_rem s =? 0 then erun enc 0 [Padding] base s
    else if e_rem (more s [true]) <? 0 then EStop ERROR_NEED_MORE_BITS else erun enc 0 [e; Padding] base (more s [true])).
  { cbn [Csn1Enc.erun]. unfold enc_next_exist. cbn [andb]. rewrite B. change (1 =? 0) with false. cbv iota.
    rewrite emit_more by lia. change (field_bits (Z.to_nat 1) 1) with [true]. destruct (e_rem s =? 0) eqn:E; [|reflexivity].
    apply Z.eqb_eq in E. replace (e_rem s <? 0) with false by (symmetry; apply Z.ltb_ge; lia). reflexivity. }
  rewrite E. clear E. rewrite len_nil. pose proof (len_nonneg w) as NW. destruct (e_rem s =? 0) eqn:Z0.
  - apply Z.eqb_eq in Z0. pose proof (gen_pad base s R) as G. destruct (erun enc 0 [Padding] base s) as [s1|c|].
    + destruct G as (t & G1 & G2 & G3 & G4). exists []. assert (len t = 0).
      { rewrite G1 in G3. cbn [more e_rem app] in G3. lia. }
      destruct t; [|unfold len in *; cbn [length] in *; lia]. cbn [app] in *. split; [exact G1|]. split; [exact G2|].
      split; [exact G3|now left].
    + rewrite len_nil in G. lia.
    + exact G.
  - apply Z.eqb_neq in Z0.
    assert (R1 : 0 <= e_rem (more s [true])) by (cbn [more e_rem]; rewrite len_cons, len_nil; lia).
    replace (e_rem (more s [true]) <? 0) with false by (symmetry; apply Z.ltb_ge; lia).
    pose proof (gen_cons full 0 e [Padding] base w [] ltac:(lia) P W (gen_pad base) _ R1) as G.
    destruct (erun enc 0 [e; Padding] base (more s [true])) as [s1|c|].
    + destruct G as (t & G1 & G2 & G3 & G4). rewrite app_nil_r in G1. exists (true :: w ++ t). rewrite more_more in G1.
      cbn [app] in *. split; [exact G1|]. split; [exact G2|]. split; [exact G3|]. right. eauto.
    + rewrite len_app, len_nil in G. cbn [more e_rem] in G. rewrite len_cons, len_nil in G. lia.
    + exact G.
Qed.

(** A union whose alternative ends that way, and the end of the message. *)
Lemma gen_union off cap alts base i nl o c sub a w :
  byte_at m (base + off) = Z.of_nat i -> nth_error alts i = Some (Typ nl o c sub) -> (0 < length alts <= 16)%nat ->
  Z.of_nat i < 2 ^ ix_bits (Z.of_nat (length alts)) ->
  field_bits (Z.to_nat (ix_bits (Z.of_nat (length alts)))) (Z.of_nat i) = a ->
  gen one_more 0 (erun enc 0 sub (base + o)) w -> gen full 0 (erun enc 0 [Union off cap alts; Padding] base) (a ++ w).
Proof.
  intros B E L I A G s R. subst a.
  assert (K : 0 <= ix_bits (Z.of_nat (length alts))).
  { unfold ix_bits. rewrite Nat2Z.id. generalize (length alts). intros k.
    do 17 (destruct k as [|k]; [cbn [nth]; lia|]). cbn [nth]. destruct k; lia. }
  set (b := ix_bits _) in *. set (x := more s (field_bits (Z.to_nat b) (Z.of_nat i))).
  assert (P : enc (Union off cap alts) base s = etable enc sub (base + o) x).
  { cbn [Csn1Enc.enc].
    replace ((Z.of_nat (length alts) <=? 0) || (16 <? Z.of_nat (length alts))) with false
      by (symmetry; apply orb_false_iff; split; [apply Z.leb_gt|apply Z.ltb_ge]; lia).
    fold b. rewrite B, Z.mod_small, Nat2Z.id by lia. rewrite emit_more by lia. fold x.
    change (etable enc sub (base + o) x) with (enc_alt m enc (Typ nl o c sub) base x). clearbody x.
    clear - E. revert alts E. induction i; intros alts E; destruct alts as [|y r]; try discriminate E.
    - now injection E as ->.
    - cbn [nth_error] in E. cbn [epick]. destruct r as [|z q]; [destruct i; discriminate E|]. now apply IHi. }
  assert (Q : erun enc 0 [Union off cap alts; Padding] base s =
    match etable enc sub (base + o) x with
    | EGo s1 => if e_rem s1 <? 0 then EStop ERROR_NEED_MORE_BITS else erun enc 0 [Padding] base s1
    | y => y end) by (rewrite <- P; reflexivity).
  rewrite Q. clear P Q. unfold Csn1Enc.etable. pose proof (len_nonneg w) as NW. rewrite len_app.
  assert (RX : e_rem x = e_rem s - len (field_bits (Z.to_nat b) (Z.of_nat i))) by reflexivity.
  destruct (e_rem x <? 0) eqn:X.
  - apply Z.ltb_lt in X. lia.
  - apply Z.ltb_ge in X. specialize (G x X). destruct (erun enc 0 sub (base + o) x) as [s1|e|].
    + destruct G as (t & G1 & G2 & G3). replace (e_rem s1 <? 0) with false by (symmetry; apply Z.ltb_ge; lia).
      pose proof (gen_pad base s1 G2) as D. destruct (erun enc 0 [Padding] base s1) as [s2|e|].
      * destruct D as (t2 & D1 & D2 & D3 & D4). exists (t ++ t2). cbn [app] in D1. split.
        { rewrite D1, G1. unfold x. rewrite !more_more. now rewrite <- !app_assoc. }
        split; [exact D2|]. split; [exact D3|]. destruct G3 as [[G3 ->] | ->].
        { cbn [app]. exact D4. }
        { right. cbn [app]. eauto. }
      * rewrite len_nil in D. lia.
      * exact D.
    + lia.
    + exact G.
Qed.

Lemma encode_gen (T : Z -> list bool -> Prop) k tab w rrbp : (forall r t, T r t -> r = 0) -> gen T k (erun enc 0 tab 0) w ->
  match encode_dl m tab 1 rrbp 1 0 with
  | Some b => exists t, b = mac_bits rrbp true ++ w ++ t /\ length b = 184%nat /\ T 0 t
  | None => 176 < len w + k
  end.
Proof.
  intros T0 G. unfold encode_dl, Csn1Enc.etable. cbn [e_rem]. change (176 <? 0) with false. cbv iota.
  specialize (G (mk_estate (mac_bits rrbp true) 176) ltac:(cbn [e_rem]; lia)).
  change (field_bits 2 1 ++ field_bits 2 rrbp ++ field_bits 1 1 ++ field_bits 3 0) with (mac_bits rrbp true).
  destruct (erun enc 0 tab 0 (mk_estate (mac_bits rrbp true) 176)) as [s|c|].
  - destruct G as (t & G1 & G2 & G3). pose proof (T0 _ _ G3) as Z0. rewrite Z0 in *. cbn [Z.ltb Z.compare]. rewrite G1 in Z0 |- *.
    cbn [more e_rem e_out] in *. exists t. split; [reflexivity|]. split; [|exact G3].
    rewrite app_length. unfold len in Z0. replace (length (w ++ t)) with 176%nat by lia. reflexivity.
  - exact G.
  - destruct G.
Qed.
End M.
