(** What the encoder writes: every table of fields appends a definite string of bits if there is room for it,
    and fails otherwise. *)
From Coq Require Import ZArith List Bool Lia.
From Verif.Model Require Import Csn1 Csn1Tables Csn1Enc.
Import ListNotations.
Open Scope Z_scope.

Definition len (w : list bool) : Z := Z.of_nat (length w).
Lemma len_app a b : len (a ++ b) = len a + len b.
Proof. unfold len. rewrite app_length. lia. Qed.
Lemma len_nonneg w : 0 <= len w.
Proof. unfold len. lia. Qed.
Lemma len_cons x w : len (x :: w) = 1 + len w.
Proof. unfold len. cbn [length]. lia. Qed.
Lemma len_nil : len [] = 0.
Proof. reflexivity. Qed.

Definition more (s : estate) (w : list bool) : estate := mk_estate (e_out s ++ w) (e_rem s - len w).
Lemma more_nil s : more s [] = s.
Proof. destruct s as [o r]. unfold more. cbn [e_out e_rem]. rewrite app_nil_r, len_nil. f_equal; lia. Qed.
Lemma more_more s a b : more (more s a) b = more s (a ++ b).
Proof. unfold more. cbn [e_out e_rem]. rewrite app_assoc, len_app. f_equal; lia. Qed.

(** One entry: may go beyond the room. *)
Definition wr (f : estate -> eresult) (w : list bool) : Prop :=
  forall s, match f s with EGo s' => s' = more s w | EStop _ => e_rem s < len w | EWild => False end.
(** A table: goes on exactly if there is room. *)
Definition fits (f : estate -> eresult) (w : list bool) : Prop :=
  forall s, 0 <= e_rem s ->
    match f s with EGo s' => len w <= e_rem s /\ s' = more s w | EStop _ => e_rem s < len w | EWild => False end.

Lemma fb_len k v : length (field_bits k v) = k.
Proof. induction k; cbn [field_bits length]; auto. Qed.
Lemma fb_lenz k v : len (field_bits k v) = Z.of_nat k.
Proof. unfold len. rewrite fb_len. reflexivity. Qed.
Lemma emit_more k v s : 0 <= k -> emit k v s = more s (field_bits (Z.to_nat k) v).
Proof. intros K. unfold emit, more. rewrite fb_lenz, Z2Nat.id by lia. reflexivity. Qed.
Lemma fb_mod k v n : (Z.of_nat k <= n) -> field_bits k (v mod 2 ^ n) = field_bits k v.
Proof.
  induction k; intros K; cbn [field_bits]; [reflexivity|].
  rewrite IHk by lia. f_equal. apply Z.mod_pow2_bits_low. lia.
Qed.
Lemma fb_mod256 k v : (k <= 8)%nat -> field_bits k (v mod 256) = field_bits k v.
Proof. intros K. change 256 with (2 ^ 8). apply fb_mod. lia. Qed.
(** A one bit field. *)
Lemma fb_one v : field_bits 1 v = [Z.odd v].
Proof. cbn [field_bits Z.of_nat]. now rewrite Z.bit0_odd. Qed.
Lemma fb_bool c : field_bits 1 (Z.b2z c) = [c].
Proof. now destruct c. Qed.

Section M.
Variable m : Z -> Z.
Notation enc := (enc m).
Notation erun := (erun m).
Notation etable := (etable m).

Lemma wr_uint bits off cap base : 0 <= bits <= 32 ->
  wr (enc (Uint false bits off cap) base) (field_bits (Z.to_nat bits) (object m (uint_bytes bits) (base + off))).
Proof.
  intros B s. cbn [Csn1Enc.enc]. unfold enc_uint.
  destruct (bits <=? e_rem s) eqn:E.
  - replace (bits <=? 32) with true by (symmetry; apply Z.leb_le; lia). apply emit_more. lia.
  - rewrite fb_lenz, Z2Nat.id by lia. apply Z.leb_gt in E. lia.
Qed.
(** Values of at most eight bits. *)
Lemma wr_u8 k bits off cap base x : Z.to_nat bits = k -> 0 <= bits <= 8 -> byte_at m (base + off) = x mod 256 ->
  wr (enc (Uint false bits off cap) base) (field_bits k x).
Proof.
  intros K B X. pose proof (wr_uint bits off cap base ltac:(lia)) as W. rewrite K in W.
  unfold uint_bytes in W. replace (bits <=? 8) with true in W by (symmetry; apply Z.leb_le; lia).
  cbn [object] in W. rewrite X, Z.mul_0_r, Z.add_0_r in W. rewrite fb_mod256 in W; [exact W|lia].
Qed.
Lemma wr_u16 k bits off cap base x : Z.to_nat bits = k -> 8 < bits <= 16 ->
  byte_at m (base + off) = x mod 256 -> byte_at m (base + off + 1) = x / 256 mod 256 ->
  wr (enc (Uint false bits off cap) base) (field_bits k x).
Proof.
  intros K B X Y. pose proof (wr_uint bits off cap base ltac:(lia)) as W. rewrite K in W.
  unfold uint_bytes in W. replace (bits <=? 8) with false in W by (symmetry; apply Z.leb_gt; lia).
  replace (bits <=? 16) with true in W by (symmetry; apply Z.leb_le; lia).
  cbn [object] in W. rewrite X, Y, Z.mul_0_r, Z.add_0_r in W.
  replace (x mod 256 + 256 * ((x / 256) mod 256)) with (x mod 2 ^ 16) in W
    by (change (2 ^ 16) with 65536; Z.div_mod_to_equations; lia).
  rewrite fb_mod in W; [exact W|lia].
Qed.
Lemma wr_u32 k bits off cap base x : Z.to_nat bits = k -> 16 < bits <= 32 ->
  byte_at m (base + off) = x mod 256 -> byte_at m (base + off + 1) = x / 256 mod 256 ->
  byte_at m (base + off + 2) = x / 65536 mod 256 -> byte_at m (base + off + 3) = x / 65536 / 256 mod 256 ->
  wr (enc (Uint false bits off cap) base) (field_bits k x).
Proof.
  intros K B X Y U V. pose proof (wr_uint bits off cap base ltac:(lia)) as W. rewrite K in W.
  unfold uint_bytes in W. replace (bits <=? 8) with false in W by (symmetry; apply Z.leb_gt; lia).
  replace (bits <=? 16) with false in W by (symmetry; apply Z.leb_gt; lia).
  cbn [object] in W. replace (base + off + 1 + 1) with (base + off + 2) in W by lia.
  replace (base + off + 2 + 1) with (base + off + 3) in W by lia.
  rewrite X, Y, U, V, Z.mul_0_r, Z.add_0_r in W.
  replace (x mod 256 + 256 * ((x / 256) mod 256 + 256 * ((x / 65536) mod 256 + 256 * ((x / 65536 / 256) mod 256))))
    with (x mod 2 ^ 32) in W
    by (change (2 ^ 32) with 4294967296; Z.div_mod_to_equations; lia).
  rewrite fb_mod in W; [exact W|lia].
Qed.

Lemma wr_fixed bits v base : 0 <= bits -> wr (enc (Fixed bits v) base) (field_bits (Z.to_nat bits) v).
Proof. intros B s. cbn [Csn1Enc.enc]. unfold enc_fixed. now apply emit_more. Qed.

Lemma wr_off k bits add off cap base x : Z.to_nat bits = k -> 0 <= bits <= 8 -> byte_at m (base + off) = x ->
  wr (enc (UintOff bits add off cap) base) (field_bits k (x - add)).
Proof.
  intros K B X s. cbn [Csn1Enc.enc]. unfold enc_uint_off. destruct (bits <=? e_rem s) eqn:E.
  - replace (bits <=? 32) with true by (symmetry; apply Z.leb_le; lia).
    unfold uint_bytes. replace (bits <=? 8) with true by (symmetry; apply Z.leb_le; lia).
    cbn [object]. rewrite X, Z.mul_0_r, Z.add_0_r, <- K. apply emit_more. lia.
  - rewrite fb_lenz, <- K, Z2Nat.id by lia. apply Z.leb_gt in E. lia.
Qed.

(** An empty recursive array. *)
Lemma wr_rec_nil cnt bits off cap base : byte_at m (base + cnt) = 0 ->
  wr (enc (RecArr cnt bits off cap) base) [false].
Proof.
  intros C s. cbn [Csn1Enc.enc]. unfold enc_rec_arr. rewrite C. cbn [Z.to_nat rec_out].
  change [false] with (field_bits (Z.to_nat 1) 0). now apply emit_more.
Qed.

(** Whole octets. *)
Fixpoint octs (n : nat) (o : Z) : list bool :=
  match n with O => [] | S k => field_bits 8 (byte_at m o) ++ octs k (o + 1) end.
Lemma octets_more n o s : octets_out m n 8 o s = more s (octs n o).
Proof.
  revert o s. induction n; intros o s; cbn [octets_out octs]; [now rewrite more_nil|].
  rewrite emit_more by lia. rewrite IHn, more_more. reflexivity.
Qed.
Lemma wr_bitmap cnt off cap base n : byte_at m (base + cnt) = n -> 0 < n ->
  wr (enc (VarBitmap cnt 0 off cap) base)
     (if 0 <? n mod 8 then field_bits (Z.to_nat (n mod 8)) (byte_at m (base + off)) ++ octs (Z.to_nat (n / 8)) (base + off + 1)
      else octs (Z.to_nat (n / 8)) (base + off)).
Proof.
  intros C N s. cbn [Csn1Enc.enc]. unfold enc_var_bitmap. rewrite C, Z.add_0_r.
  replace (0 <? n) with true by (symmetry; apply Z.ltb_lt; lia).
  destruct (e_rem s <? 0) eqn:E.
  - apply Z.ltb_lt in E. match goal with |- _ < len ?w => pose proof (len_nonneg w) end. lia.
  - destruct (0 <? n mod 8) eqn:F.
    + apply Z.ltb_lt in F. rewrite emit_more by lia. rewrite octets_more, more_more. reflexivity.
    + apply octets_more.
Qed.

(** ** Tables *)
Lemma fits_nil base : fits (erun enc 0 [] base) [].
Proof. intros s R. cbn [Csn1Enc.erun]. rewrite more_nil, len_nil. auto. Qed.

Definition plain (e : entry) : bool := match e with NextExist _ _ _ _ => false | _ => true end.
Lemma fits_cons e r base a b : plain e = true -> wr (enc e base) a -> fits (erun enc 0 r base) b ->
  fits (erun enc 0 (e :: r) base) (a ++ b).
Proof.
  intros P W F s R.
  assert (E : erun enc 0 (e :: r) base s =
    match enc e base s with
    | EGo s1 => if e_rem s1 <? 0 then EStop ERROR_NEED_MORE_BITS else erun enc 0 r base s1
    | x => x end) by (destruct e; try discriminate P; reflexivity).
  rewrite E. specialize (W s). pose proof (len_nonneg b) as NB. destruct (enc e base s) as [s1|c|].
  - subst s1. destruct (e_rem (more s a) <? 0) eqn:L.
    + apply Z.ltb_lt in L. cbn [more e_rem] in L. rewrite len_app. lia.
    + apply Z.ltb_ge in L. specialize (F (more s a) L).
      destruct (erun enc 0 r base (more s a)); cbn [more e_rem] in F, L; rewrite ?len_app.
      * destruct F as [F1 F2]. split; [lia|]. rewrite F2. change (mk_estate (e_out s ++ a) (e_rem s - len a)) with (more s a). apply more_more.
      * lia.
      * exact F.
  - rewrite len_app. lia.
  - exact W.
Qed.

Lemma erun_skip n : forall l base s, (n <= length l)%nat -> erun enc n l base s = erun enc 0 (skipn n l) base s.
Proof.
  induction n; intros l base s L; [reflexivity|]. destruct l; cbn [length] in L; [lia|].
  cbn [Csn1Enc.erun skipn]. apply IHn. lia.
Qed.

Lemma fits_next n off cap r base c b : byte_at m (base + off) = Z.b2z c -> (n <= length r)%nat ->
  fits (erun enc 0 (if c then r else skipn n r) base) b ->
  fits (erun enc 0 (NextExist false n off cap :: r) base) (c :: b).
Proof.
  intros C N F s R. cbn [Csn1Enc.erun]. unfold enc_next_exist. cbn [andb]. rewrite C.
  rewrite emit_more by lia. rewrite fb_bool. pose proof (len_nonneg b) as NB.
  replace (if Z.b2z c =? 0 then n else 0%nat) with (if c then 0%nat else n) by now destruct c.
  assert (X : forall s1, 0 <= e_rem s1 -> erun enc (if c then 0%nat else n) r base s1 = erun enc 0 (if c then r else skipn n r) base s1).
  { intros s1 _. destruct c; [reflexivity|]. now apply erun_skip. }
  destruct (e_rem (more s [c]) <? 0) eqn:L.
  - apply Z.ltb_lt in L. cbn [more e_rem] in L. rewrite len_cons, len_nil in L. rewrite len_cons. lia.
  - apply Z.ltb_ge in L. rewrite X by exact L. specialize (F _ L).
    cbn [more e_rem] in L. rewrite len_cons, len_nil in L.
    destruct (erun enc 0 _ base (more s [c])); cbn [more e_rem] in F; rewrite ?len_cons, ?len_nil in *.
    + destruct F as [F1 F2]. split; [lia|]. rewrite F2. change (mk_estate (e_out s ++ [c]) (e_rem s - len [c])) with (more s [c]).
      rewrite more_more. reflexivity.
    + lia.
    + exact F.
Qed.

Lemma wr_of_fits f w : (forall s, e_rem s < 0 -> exists c, f s = EStop c) -> fits f w -> wr f w.
Proof.
  intros N F s. destruct (Z_lt_ge_dec (e_rem s) 0) as [L|G].
  - destruct (N s L) as [c E]. rewrite E. pose proof (len_nonneg w). lia.
  - specialize (F s ltac:(lia)). destruct (f s); tauto.
Qed.
Lemma fits_table l base w : fits (erun enc 0 l base) w -> fits (etable enc l base) w.
Proof.
  intros F s R. unfold etable. replace (e_rem s <? 0) with false by (symmetry; apply Z.ltb_ge; lia). now apply F.
Qed.
Lemma table_neg l base s : e_rem s < 0 -> exists c, etable enc l base s = EStop c.
Proof. intros L. unfold etable. replace (e_rem s <? 0) with true by (symmetry; apply Z.ltb_lt; lia). eauto. Qed.
Lemma wr_table l base w : fits (erun enc 0 l base) w -> wr (etable enc l base) w.
Proof. intros F. apply wr_of_fits; [apply table_neg|now apply fits_table]. Qed.
Lemma wr_typ nl off cap sub base w : fits (erun enc 0 sub (base + off)) w -> wr (enc (Typ nl off cap sub) base) w.
Proof. intros F. cbn [Csn1Enc.enc]. now apply wr_table. Qed.

(** A union: the selector, then the alternative. *)
Lemma wr_union off cap alts base i e a w :
  byte_at m (base + off) = Z.of_nat i -> nth_error alts i = Some e -> (0 < length alts <= 16)%nat ->
  Z.of_nat i < 2 ^ ix_bits (Z.of_nat (length alts)) ->
  field_bits (Z.to_nat (ix_bits (Z.of_nat (length alts)))) (Z.of_nat i) = a ->
  wr (enc_alt m enc e base) w -> wr (enc (Union off cap alts) base) (a ++ w).
Proof.
  intros B E L I A W s. subst a. cbn [Csn1Enc.enc].
  replace ((Z.of_nat (length alts) <=? 0) || (16 <? Z.of_nat (length alts))) with false
    by (symmetry; apply orb_false_iff; split; [apply Z.leb_gt|apply Z.ltb_ge]; lia).
  rewrite B, Z.mod_small, Nat2Z.id by lia.
  assert (K : 0 <= ix_bits (Z.of_nat (length alts))).
  { unfold ix_bits. rewrite Nat2Z.id. generalize (length alts). intros k.
    do 17 (destruct k as [|k]; [cbn [nth]; lia|]). cbn [nth]. destruct k; lia. }
  set (b := ix_bits _) in *. rewrite emit_more by lia.
  assert (P : epick m enc base (more s (field_bits (Z.to_nat b) (Z.of_nat i))) i alts =
              enc_alt m enc e base (more s (field_bits (Z.to_nat b) (Z.of_nat i)))).
  { generalize (more s (field_bits (Z.to_nat b) (Z.of_nat i))). clear - E. intros s. revert alts E. induction i; intros alts E; destruct alts as [|x r]; try discriminate E.
    - now injection E as ->.
    - cbn [nth_error] in E. cbn [epick]. destruct r as [|y q]; [destruct i; discriminate E|]. now apply IHi. }
  rewrite P. specialize (W (more s (field_bits (Z.to_nat b) (Z.of_nat i)))).
  destruct (enc_alt _ _ _ _ _).
  - subst. apply more_more.
  - cbn [more e_rem] in W. rewrite len_app. lia.
  - exact W.
Qed.
Lemma alt_uint nl bits off cap base w : wr (enc (Uint false bits off cap) base) w -> 0 <= bits <= 32 -> len w = bits ->
  wr (enc_alt m enc (Uint nl bits off cap) base) w.
Proof.
  intros W B L s. cbn [enc_alt]. specialize (W s). cbn [Csn1Enc.enc] in W.
  destruct (bits <=? e_rem s) eqn:E; [exact W|]. apply Z.leb_gt in E. lia.
Qed.
Lemma alt_typ nl off cap sub base w : wr (enc (Typ nl off cap sub) base) w -> wr (enc_alt m enc (Typ nl off cap sub) base) w.
Proof. intros W. exact W. Qed.

(** A choice: the selector of the alternative, then the alternative as a table. *)
Lemma wr_choice off cap alts base i bits v e a w :
  byte_at m (base + off) = Z.of_nat i -> nth_error alts i = Some (bits, v, e) -> 0 <= bits ->
  field_bits (Z.to_nat bits) v = a ->
  wr (enc e base) w -> wr (enc (Choice off cap alts) base) (a ++ w).
Proof.
  intros B E L A W s. subst a. cbn [Csn1Enc.enc]. rewrite B, Nat2Z.id.
  assert (P : echoose enc base s i alts =
    (let s1 := emit bits v s in
     if e_rem s1 <? 0 then EStop ERROR_NEED_MORE_BITS
     else match enc e base s1 with
          | EGo s2 => if e_rem s2 <? 0 then EStop ERROR_NEED_MORE_BITS else EGo s2
          | x => x
          end)).
  { clear - E. revert alts E. induction i; intros alts E; destruct alts as [|[[x y] z] r]; try discriminate E.
    - cbn [nth_error] in E. now injection E as -> -> ->.
    - cbn [nth_error] in E. cbn [echoose]. now apply IHi. }
  rewrite P. cbv zeta. rewrite emit_more by lia. pose proof (len_nonneg w) as NW.
  destruct (e_rem (more s _) <? 0) eqn:Q.
  - apply Z.ltb_lt in Q. cbn [more e_rem] in Q. rewrite len_app. lia.
  - specialize (W (more s (field_bits (Z.to_nat bits) v))). destruct (enc e base _) as [s2|c|].
    + rewrite more_more in W. subst s2. destruct (e_rem (more s (_ ++ w)) <? 0) eqn:Q2; [|reflexivity].
      apply Z.ltb_lt in Q2. cbn [more e_rem] in Q2. lia.
    + cbn [more e_rem] in W. rewrite len_app. lia.
    + exact W.
Qed.

(** An array of structures. *)
Fixpoint all_elements (sub : list entry) (size o : Z) (ws : list (list bool)) : Prop :=
  match ws with [] => True | w :: r => fits (erun enc 0 sub o) w /\ all_elements sub size (o + size) r end.
Lemma wr_elements sub size ws : forall o, all_elements sub size o ws ->
  wr (each_element (etable enc sub) (length ws) size o) (concat ws).
Proof.
  induction ws as [|w r IH]; intros o A s; cbn [each_element length concat].
  - now rewrite more_nil.
  - destruct A as [A1 A2]. pose proof (wr_table _ _ _ A1 s) as W. destruct (etable enc sub o s) as [s1|c|].
    + subst s1. specialize (IH _ A2 (more s w)). destruct (each_element _ _ _ _ _).
      * subst. apply more_more.
      * cbn [more e_rem] in IH. rewrite len_app. lia.
      * exact IH.
    + rewrite len_app. pose proof (len_nonneg (concat r)). lia.
    + exact W.
Qed.
Lemma wr_tarr num off size cap sub base ws : length ws = Z.to_nat num -> all_elements sub size (base + off) ws ->
  wr (enc (TArr num off size cap sub) base) (concat ws).
Proof. intros L A. cbn [Csn1Enc.enc]. rewrite <- L. now apply wr_elements. Qed.
Lemma alt_tarr num off size cap sub base w : wr (enc (TArr num off size cap sub) base) w ->
  wr (enc_alt m enc (TArr num off size cap sub) base) w.
Proof. intros W. exact W. Qed.

(** ** The end of a message *)
Lemma pad_more n s : exists w, pad_octets n s = more s w /\ len w = 8 * Z.of_nat n.
Proof.
  revert s. induction n; intros s; cbn [pad_octets].
  - exists []. rewrite more_nil. auto.
  - rewrite emit_more by lia. destruct (IHn (more s (field_bits (Z.to_nat 8) 43))) as (w & E & L).
    exists (field_bits (Z.to_nat 8) 43 ++ w). rewrite E, more_more, len_app, L. split; [reflexivity|].
    rewrite fb_lenz. lia.
Qed.
(** Nothing, or a zero first. *)
Definition ends (w : list bool) : Prop := w = [] \/ exists r, w = false :: r.
Lemma pad_ends n s : (0 < n)%nat -> exists w, pad_octets n s = more s w /\ len w = 8 * Z.of_nat n /\ ends w.
Proof.
  destruct n; [lia|]. intros _. cbn [pad_octets]. rewrite emit_more by lia.
  destruct (pad_more n (more s (field_bits (Z.to_nat 8) 43))) as (w & E & L).
  exists (field_bits (Z.to_nat 8) 43 ++ w). rewrite E, more_more, len_app, L. split; [reflexivity|split].
  - rewrite fb_lenz. lia.
  - right. exists ([false; true; false; true; false; true; true] ++ w). reflexivity.
Qed.
Lemma padded base s : 0 <= e_rem s -> exists w, enc Padding base s = EGo (more s w) /\ len w = e_rem s /\ ends w.
Proof.
  intros R. cbn [Csn1Enc.enc]. unfold enc_padding. destruct (0 <? e_rem s) eqn:P.
  - apply Z.ltb_lt in P. pose proof (Z.mod_pos_bound (e_rem s) 8 ltac:(lia)) as MB.
    pose proof (Z.div_mod (e_rem s) 8 ltac:(lia)) as DM. pose proof (Z.div_pos (e_rem s) 8 ltac:(lia) ltac:(lia)) as DP.
    destruct (0 <? e_rem s mod 8) eqn:Q.
    + apply Z.ltb_lt in Q. rewrite emit_more by lia.
      set (k := e_rem s mod 8) in *. set (x := Z.land _ _).
      destruct (pad_more (Z.to_nat (e_rem s / 8)) (more s (field_bits (Z.to_nat k) x))) as (w & E & L).
      rewrite E, more_more. exists (field_bits (Z.to_nat k) x ++ w). split; [reflexivity|split].
      * rewrite len_app, fb_lenz, L. lia.
      * right. assert (k = 1 \/ k = 2 \/ k = 3 \/ k = 4 \/ k = 5 \/ k = 6 \/ k = 7) as C by lia.
        subst x. decompose [or] C; match goal with H : k = _ |- _ => rewrite H end; eexists; reflexivity.
    + apply Z.ltb_ge in Q. assert (e_rem s mod 8 = 0) by lia.
      destruct (pad_ends (Z.to_nat (e_rem s / 8)) s ltac:(lia)) as (w & E & L & N).
      exists w. rewrite E. split; [reflexivity|split; [lia|exact N]].
  - apply Z.ltb_ge in P. assert (e_rem s = 0) by lia.
    replace (e_rem s <? 0) with false by (symmetry; apply Z.ltb_ge; lia).
    exists []. rewrite more_nil. split; [reflexivity|split; [rewrite len_nil; lia|now left]].
Qed.
End M.
