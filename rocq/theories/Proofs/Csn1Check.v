(** A checker for CSN.1 tables: which bytes the decoder may touch whatever the message is.
    It follows the decoder with the offsets known and the message unknown; of the bytes of the structure
    it knows only upper bounds [bnd]. *)
From Coq Require Import ZArith List Bool Lia.
Import ListNotations.
From Verif Require Import Model.Csn1 Model.Csn1Tables.
Open Scope Z_scope.

(** An induction principle that reaches the entries inside an entry. *)
Section Ind.
Variable P : entry -> Prop.
Definition entry_list_ok (l : list entry) := Forall P l.
Hypothesis HBit : forall a b c, P (Bit a b c).
Hypothesis HUint : forall a b c d, P (Uint a b c d).
Hypothesis HUintOff : forall a b c d, P (UintOff a b c d).
Hypothesis HUintArr : forall a b c d, P (UintArr a b c d).
Hypothesis HTyp : forall a b c l, Forall P l -> P (Typ a b c l).
Hypothesis HTArr : forall a b c d l, Forall P l -> P (TArr a b c d l).
Hypothesis HVarTArr : forall a b c d l, Forall P l -> P (VarTArr a b c d l).
Hypothesis HBitmap : forall a b c, P (Bitmap a b c).
Hypothesis HVarBitmap : forall a b c d, P (VarBitmap a b c d).
Hypothesis HLeftBmp : forall a b c d e, P (LeftBmp a b c d e).
Hypothesis HVarArr : forall a b c d, P (VarArr a b c d).
Hypothesis HRecArr : forall a b c d, P (RecArr a b c d).
Hypothesis HRecTArr : forall a b c d e l, Forall P l -> P (RecTArr a b c d e l).
Hypothesis HRecTArr1 : forall a b c d e l, Forall P l -> P (RecTArr1 a b c d e l).
Hypothesis HNextExist : forall a b c d, P (NextExist a b c d).
Hypothesis HUnion : forall a b l, Forall P l -> P (Union a b l).
Hypothesis HChoice : forall a b l, Forall (fun x => P (snd x)) l -> P (Choice a b l).
Hypothesis HFixed : forall a b, P (Fixed a b).
Hypothesis HSerialize : forall a b c l, Forall P l -> P (Serialize a b c l).
Hypothesis HPadding : P Padding.
Hypothesis HTrap : forall a, P (Trap a).
Fixpoint entry_ind2 (e : entry) : P e :=
  let fix go (l : list entry) : Forall P l :=
    match l with [] => Forall_nil _ | x :: r => Forall_cons _ (entry_ind2 x) (go r) end in
  let fix goc (l : list (Z * Z * entry)) : Forall (fun x => P (snd x)) l :=
    match l with [] => Forall_nil _ | x :: r => Forall_cons _ (entry_ind2 (snd x)) (goc r) end in
  match e with
  | Bit a b c => HBit a b c
  | Uint a b c d => HUint a b c d
  | UintOff a b c d => HUintOff a b c d
  | UintArr a b c d => HUintArr a b c d
  | Typ a b c l => HTyp a b c l (go l)
  | TArr a b c d l => HTArr a b c d l (go l)
  | VarTArr a b c d l => HVarTArr a b c d l (go l)
  | Bitmap a b c => HBitmap a b c
  | VarBitmap a b c d => HVarBitmap a b c d
  | LeftBmp a b c d e => HLeftBmp a b c d e
  | VarArr a b c d => HVarArr a b c d
  | RecArr a b c d => HRecArr a b c d
  | RecTArr a b c d e l => HRecTArr a b c d e l (go l)
  | RecTArr1 a b c d e l => HRecTArr1 a b c d e l (go l)
  | NextExist a b c d => HNextExist a b c d
  | Union a b l => HUnion a b l (go l)
  | Choice a b l => HChoice a b l (goc l)
  | Fixed a b => HFixed a b
  | Serialize a b c l => HSerialize a b c l (go l)
  | Padding => HPadding
  | Trap a => HTrap a
  end.
End Ind.

Section Check.
Variable lo : Z.              (* the lowest byte that may be touched *)
Variable size : Z.            (* of the whole structure *)
Variable strict : bool.       (* also ask that accesses stay in their members *)
Variable bnd : Z -> Z.        (* upper bounds of bytes *)
Variable m0 : Z -> Z.         (* the bytes before *)
Variable a0 : list access.    (* the accesses before *)

Definition ok (w : Z * Z) (o n : Z) : bool :=
  (lo <=? o) && (o + n <=? size) && (if strict then (fst w <=? o) && (o + n <=? snd w) else true).
(** a byte with a value up to x *)
Definition okb (w : Z * Z) (o x : Z) : bool := ok w o 1 && (0 <=? x) && (x <=? bnd o).
(** n bytes of any value *)
Fixpoint any (n : nat) (o : Z) : bool :=
  match n with O => true | S k => (255 <=? bnd o) && any k (o + 1) end.
Definition okn (w : Z * Z) (n : nat) (o : Z) : bool := ok w o (Z.of_nat n) && any n o.
(** n bytes of any value, one after the other *)
Fixpoint oks (w : Z * Z) (n : nat) (o : Z) : bool :=
  match n with O => true | S k => okb w o 255 && oks w k (o + 1) end.

Definition chk_uint (bits add off cap base : Z) (w : Z * Z) : bool :=
  let m := inter w (base + off) (base + off + cap) in
  (0 <=? bits) && (bits <=? 32) &&
  (if bits <=? 8 then okb m (base + off) (Z.min 255 (2 ^ bits - 1 + add)) && (0 <=? add)
   else okn m (uint_bytes bits) (base + off)).

Fixpoint chk_rep (tab : Z -> bool) (n : nat) (sz o : Z) : bool :=
  match n with O => true | S k => tab o && chk_rep tab k sz (o + sz) end.

(** What an entry tells about the byte it writes: used for the entry right after it. *)
Definition tells (e : entry) (base : Z) : option (Z * Z) :=
  match e with
  | Uint _ bits off _ => if bits <=? 8 then Some (base + off, 2 ^ bits - 1) else None
  | UintOff bits add off _ => if bits <=? 8 then Some (base + off, 2 ^ bits - 1 + add) else None
  | _ => None
  end.
(** The entries that need to be told. *)
Definition asks (e : entry) : bool := match e with VarTArr _ _ _ _ _ => true | _ => false end.
Definition told (prev : option (Z * Z)) (e : entry) (base : Z) : Z :=
  match e, prev with
  | VarTArr cnt _ _ _ _, Some (o, b) => if o =? base + cnt then b else 255
  | _, _ => 255
  end.

Definition chk_run (chk : Z -> entry -> Z -> Z * Z -> bool) :=
  fix chk_run (prev : option (Z * Z)) (l : list entry) (base : Z) (w : Z * Z) {struct l} : bool :=
    match l with
    | [] => true
    | e :: r =>
      match e with
      | NextExist _ n off cap =>
        okb (inter w (base + off) (base + off + cap)) (base + off) 1 && (n <=? length r)%nat &&
        negb (existsb asks (firstn 1 (skipn n r))) && chk_run None r base w
      | _ => chk (told prev e base) e base w && chk_run (tells e base) r base w
      end
    end.

Definition is_alt (e : entry) : bool := match e with Uint _ _ _ _ | Typ _ _ _ _ | TArr _ _ _ _ _ | Trap _ => true | _ => false end.

Fixpoint chk (most : Z) (e : entry) (base : Z) (w : Z * Z) {struct e} : bool :=
  match e with
  | Bit _ off cap => okb (inter w (base + off) (base + off + cap)) (base + off) 1
  | Uint _ bits off cap => chk_uint bits 0 off cap base w
  | UintOff bits add off cap => chk_uint bits add off cap base w
  | Typ _ off cap sub => chk_run chk None sub (base + off) (inter w (base + off) (base + off + cap))
  | TArr num off sz cap sub =>
    chk_rep (fun o => chk_run chk None sub o (inter w (base + off) (base + off + cap))) (Z.to_nat num) sz (base + off)
  | VarTArr cnt off sz cap sub =>
    ok w (base + cnt) 1 &&
    chk_rep (fun o => chk_run chk None sub o (inter w (base + off) (base + off + cap))) (Z.to_nat (Z.min most (bnd (base + cnt)))) sz (base + off)
  | Bitmap bits off cap =>
    (bits <=? 64) && oks (inter w (base + off) (base + off + cap)) (if bits <=? 32 then 4 else 8) (base + off)
  | LeftBmp rest cnt add off cap =>
    (if rest then okb w (base + cnt) 255 else ok w (base + cnt) 1) &&
    oks (inter w (base + off) (base + off + cap)) (Z.to_nat ((bnd (base + cnt) + add + 7) / 8)) (base + off)
  | RecTArr cnt off sz num cap sub =>
    okb w (base + cnt) num && (num <=? 255) &&
    chk_rep (fun o => chk_run chk None sub o (inter w (base + off) (base + off + cap))) (Z.to_nat num) sz (base + off)
  | RecTArr1 cnt off sz num cap sub =>
    okb w (base + cnt) num && (num <=? 255) &&
    chk_rep (fun o => chk_run chk None sub o (inter w (base + off) (base + off + cap))) (Z.to_nat num) sz (base + off)
  | Union off cap alts =>
    okb (inter w (base + off) (base + off + cap)) (base + off) 255 && negb (length alts =? 0)%nat &&
    forallb (fun e => is_alt e && chk 255 e base w) alts
  | Choice off cap alts =>
    okb (inter w (base + off) (base + off + cap)) (base + off) (Z.of_nat (length alts)) && (Z.of_nat (length alts) <=? 255) &&
    forallb (fun x => match snd x with NextExist _ _ _ _ => false | _ => true end && chk 255 (snd x) base w) alts
  | Serialize _ off cap sub => chk_run chk None sub (base + off) (inter w (base + off) (base + off + cap))
  | Fixed _ _ | Padding => true
  | Trap code => i16 code <? 0
  | UintArr _ _ _ _ | VarBitmap _ _ _ _ | VarArr _ _ _ _ | RecArr _ _ _ _ | NextExist _ _ _ _ => false
  end.

(** ** Soundness *)
Definition good (a : access) : Prop :=
  lo <= a_off a /\ a_off a + a_len a <= size /\
  (strict = true -> a_lo a <= a_off a /\ a_off a + a_len a <= a_hi a).
Definition inv (s : state) : Prop :=
  (forall a, mem s a mod 256 <= bnd a) /\ (exists l, acc s = l ++ a0 /\ Forall good l) /\ (forall a, ~ lo <= a < size -> mem s a = m0 a).
Definition fine (r : result) : Prop :=
  match r with Go s => inv s | Stop c s => inv s /\ c < 0 | Wild _ => False end.
Ltac fin := first [assumption | split; [assumption | first [reflexivity | assumption]]].

Lemma ok_good w o n : ok w o n = true -> good (mk_access o n (fst w) (snd w)).
Proof.
  unfold ok, good. cbn [a_off a_len a_lo a_hi]. destruct strict; rewrite !andb_true_iff, !Z.leb_le; intuition; discriminate.
Qed.

Lemma inv_mem s t : inv s -> mem t = mem s -> acc t = acc s -> inv t.
Proof. intros (A & B & D) M C. split; [now rewrite M|split; [now rewrite C|now rewrite M]]. Qed.
Lemma inv_less s n : inv s -> inv (less s n).
Proof. intros; eapply inv_mem; eauto. Qed.
Lemma inv_skip s n : inv s -> inv (skip_bits s n).
Proof. intros; eapply inv_mem; eauto. Qed.
Lemma inv_setrem s n : inv s -> inv (set_rem s n).
Proof. intros; eapply inv_mem; eauto. Qed.

Lemma inv_log s w o n : inv s -> ok w o n = true -> inv (log s w o n).
Proof. intros (A & B & D) H. split; [exact A|split; [|exact D]]. destruct B as (l & B1 & B2). exists (mk_access o n (fst w) (snd w) :: l).
  split; [cbn; now rewrite B1|]. constructor; [now apply ok_good | exact B2]. Qed.

Lemma inv_setm s o x : inv s -> x mod 256 <= bnd o -> lo <= o < size -> inv (setm s o x).
Proof.
  intros (A & B & D) H O. split; [|split; [exact B|]]; intros a; cbn; destruct (a =? o) eqn:E; try apply A; try apply D;
    apply Z.eqb_eq in E; subst.
  - now rewrite Z.mod_mod by lia.
  - intro; contradiction.
Qed.

Lemma inv_store n : forall s o x, inv s -> any n o = true -> lo <= o -> o + Z.of_nat n <= size -> inv (store n s o x).
Proof.
  induction n; intros s o x I H O L; cbn [store any] in *; [exact I|].
  apply andb_true_iff in H as [H1 H2]. apply Z.leb_le in H1. apply IHn; [|exact H2|lia|lia].
  apply inv_setm; [exact I| |lia]. pose proof (Z.mod_pos_bound x 256). lia.
Qed.

Lemma ok_range w o n : ok w o n = true -> lo <= o /\ o + n <= size.
Proof. unfold ok. rewrite !andb_true_iff, !Z.leb_le. tauto. Qed.

Lemma inv_put w n s o x : inv s -> okn w n o = true -> inv (put w n s o x).
Proof.
  intros I H. apply andb_true_iff in H as [H1 H2]. pose proof (ok_range _ _ _ H1). unfold put.
  apply inv_store; [|exact H2|lia|lia]. now apply inv_log.
Qed.

Lemma inv_put8 w s o x y : inv s -> okb w o y = true -> x mod 256 <= y -> inv (put8 w s o x).
Proof.
  intros I H L. unfold okb in H. rewrite !andb_true_iff, !Z.leb_le in H. destruct H as [[H1 H2] H3].
  pose proof (ok_range _ _ _ H1). unfold put8, put. cbn [store]. apply inv_setm; [|lia|lia]. now apply inv_log.
Qed.

Section Sound.
Variable v : Z -> bool.
Variable vlen : Z.
Notation take := (take v vlen).
Notation rfield := (rfield v vlen).

Lemma rfield_range k : forall i, 0 <= rfield k i < 2 ^ Z.of_nat k.
Proof.
  induction k; intro i; [cbn; lia|].
  cbn [Csn1.rfield]. specialize (IHk (i + 1)). rewrite Nat2Z.inj_succ, Z.pow_succ_r by lia.
  assert (0 <= rbit v vlen i <= 1). { unfold rbit. destruct (_ && _); [destruct (v i)|]; cbn; lia. }
  nia.
Qed.

Lemma inv_take s n x s1 : take s n = (x, s1) -> inv s -> inv s1.
Proof. intros E I. injection E as <- <-. now apply inv_skip. Qed.
Lemma take_range s n x s1 : take s n = (x, s1) -> 0 <= n -> 0 <= x < 2 ^ n.
Proof. intros E P. injection E as <- <-. pose proof (rfield_range (Z.to_nat n) (rd s)). rewrite Z2Nat.id in H by lia. exact H. Qed.

Lemma inv_exist s b s1 : exist_next v vlen s = (b, s1) -> inv s -> inv s1.
Proof. intros E I. injection E as <- <-. now apply inv_skip. Qed.

Lemma uint_ok bits add off cap base w s x :
  chk_uint bits add off cap base w = true -> inv s -> 0 <= x < 2 ^ bits ->
  inv (put (inter w (base + off) (base + off + cap)) (uint_bytes bits) s (base + off) (x + add)).
Proof.
  unfold chk_uint. rewrite !andb_true_iff, !Z.leb_le. intros [[B0 B1] H] I X.
  unfold uint_bytes in *. destruct (bits <=? 8) eqn:E.
  - apply andb_true_iff in H as [H A]. apply Z.leb_le in A. eapply inv_put8; [exact I|exact H|].
    pose proof (Z.mod_pos_bound (x + add) 256). pose proof (Z.mod_le (x + add) 256). lia.
  - now apply inv_put.
Qed.

Lemma octets_ok w n : forall bits o s, oks w n o = true -> inv s -> inv (octets_in v vlen n bits w o s).
Proof.
  induction n; intros bits o s H I; cbn in *; [exact I|].
  apply andb_true_iff in H as [H1 H2]. apply IHn; [exact H2|].
  eapply inv_put8; [now apply inv_skip|exact H1|]. match goal with |- ?x mod 256 <= _ => pose proof (Z.mod_pos_bound x 256) end. lia.
Qed.
Lemma oks_firstn w k : forall n o, oks w n o = true -> (k <= n)%nat -> oks w k o = true.
Proof.
  induction k; intros [|n] o H L; cbn in *; try lia; try reflexivity.
  apply andb_true_iff in H as [H1 H2]. rewrite H1. cbn. apply (IHk n); [exact H2|lia].
Qed.
Lemma oks_at w k : forall n o, oks w n o = true -> (k < n)%nat -> okb w (o + Z.of_nat k) 255 = true.
Proof.
  induction k; intros [|n] o H L; cbn [oks] in *; try lia; apply andb_true_iff in H as [H1 H2].
  - now rewrite Z.add_0_r.
  - replace (o + Z.of_nat (S k)) with (o + 1 + Z.of_nat k) by lia. apply (IHk n); [exact H2|lia].
Qed.

Lemma get8_bnd s a : inv s -> 0 <= get8 s a <= bnd a.
Proof. intros (A & _). unfold get8. split; [apply Z.mod_pos_bound; lia|apply A]. Qed.

Lemma rep_ok tab chkt : (forall o s, chkt o = true -> inv s -> fine (tab o s)) ->
  forall n k sz o s, chk_rep chkt k sz o = true -> (n <= k)%nat -> inv s -> fine (repeat_table tab n sz o s).
Proof.
  intros T n. induction n; intros [|k] sz o s H L I; cbn in *; try lia; try exact I.
  apply andb_true_iff in H as [H1 H2]. specialize (T o s H1 I).
  destruct (tab o s); cbn in *; try assumption. apply (IHn k); [exact H2|lia|exact T].
Qed.

Lemma rec_ok tab chkt : (forall o s, chkt o = true -> inv s -> fine (tab o s)) ->
  forall room sz o k s, chk_rep chkt room sz o = true -> inv s -> 0 <= k ->
  fine (fst (rec_loop v vlen tab room sz o k s)) /\ 0 <= snd (rec_loop v vlen tab room sz o k s) <= k + Z.of_nat room.
Proof.
  intros T room. induction room; intros sz o k s H I K; cbn [rec_loop chk_rep] in *.
  - destruct (exist_next v vlen s) as [ex s1] eqn:E. pose proof (inv_exist _ _ _ E I).
    destruct ex; cbn [fst snd fine]; (split; [first [now apply inv_less|split; [now apply inv_less|reflexivity]]|lia]).
  - apply andb_true_iff in H as [H1 H2].
    destruct (exist_next v vlen s) as [ex s1] eqn:E. pose proof (inv_exist _ _ _ E I) as I1.
    destruct ex.
    + pose proof (T o (less s1 1) H1 (inv_less _ 1 I1)) as F.
      destruct (tab o (less s1 1)) as [s2|c s2|s2]; cbn [fst snd fine] in *; [|split; [exact F|lia]|contradiction].
      destruct (rem s2 <? 0); cbn [fst snd fine]; [split; [fin|lia]|].
      destruct (IHroom sz (o + sz) (k + 1) s2 H2 F ltac:(lia)) as [A B]. split; [exact A|lia].
    + cbn [fst snd fine]. split; [now apply inv_less|lia].
Qed.

Lemma rec1_ok tab chkt : (forall o s, chkt o = true -> inv s -> fine (tab o s)) ->
  forall room sz o k s, chk_rep chkt room sz o = true -> inv s -> 0 <= k ->
  fine (fst (rec1_loop v vlen tab room sz o k s)) /\ 0 <= snd (rec1_loop v vlen tab room sz o k s) <= k + Z.of_nat room.
Proof.
  intros T room. induction room; intros sz o k s H I K; cbn [rec1_loop chk_rep] in *.
  - cbn [fst snd fine]. split; [fin|lia].
  - apply andb_true_iff in H as [H1 H2].
    pose proof (T o s H1 I) as F.
    destruct (tab o s) as [s1|c s1|s1]; cbn [fst snd fine] in *; [|split; [exact F|lia]|contradiction].
    destruct (rem s1 <? 0); cbn [fst snd fine]; [split; [fin|lia]|].
    destruct (exist_next v vlen s1) as [ex s2] eqn:E. pose proof (inv_exist _ _ _ E F) as I2.
    destruct ex.
    + destruct (IHroom sz (o + sz) (k + 1) (less s2 1) H2 (inv_less _ 1 I2) ltac:(lia)) as [A B]. split; [exact A|lia].
    + cbn [fst snd fine]. split; [now apply inv_less|lia].
Qed.

Definition known (most : Z) (e : entry) (base : Z) (s : state) : Prop :=
  match e with VarTArr cnt _ _ _ _ => get8 s (base + cnt) <= most | _ => True end.
Definition sound (e : entry) : Prop := forall most base w s, chk most e base w = true -> inv s -> known most e base s -> fine (dec v vlen e base w s).

Definition holds (prev : option (Z * Z)) (s : state) : Prop :=
  match prev with Some (o, b) => get8 s o <= b | None => True end.

Lemma known255 e base s : known 255 e base s.
Proof. destruct e; cbn; try exact I. unfold get8. match goal with |- ?x mod 256 <= _ => pose proof (Z.mod_pos_bound x 256) end. lia. Qed.

Lemma told_known prev e base s : holds prev s -> known (told prev e base) e base s.
Proof.
  intro H. destruct e; try exact I. cbn [told]. destruct prev as [[o b]|]; [|apply (known255 (VarTArr cnt off size0 cap sub))].
  destruct (o =? base + cnt) eqn:E; [|apply (known255 (VarTArr cnt off size0 cap sub))].
  apply Z.eqb_eq in E. subst o. exact H.
Qed.

Lemma get8_put8 w s o x : get8 (put8 w s o x) o = x mod 256.
Proof. unfold get8, put8, put. cbn. rewrite Z.eqb_refl. apply Z.mod_mod. lia. Qed.

Lemma tells_holds most e base w s s1 : chk most e base w = true -> dec v vlen e base w s = Go s1 -> holds (tells e base) s1.
Proof.
  intros H D. destruct e; try exact I; cbn [tells]; destruct (bits <=? 8) eqn:B; try exact I; cbn [holds].
  - cbn [chk] in H. assert (0 <= bits). { unfold chk_uint in H. rewrite !andb_true_iff, !Z.leb_le in H. lia. }
    apply Z.leb_le in B. cbn [dec] in D. unfold dec_uint, uint_bytes in D.
    replace (bits <=? 32) with true in D by (symmetry; apply Z.leb_le; lia).
    replace (bits <=? 8) with true in D by (symmetry; apply Z.leb_le; lia).
    destruct (bits <=? rem s).
    + destruct (take s bits) as [x t] eqn:T. injection D as <-. pose proof (take_range _ _ _ _ T ltac:(lia)).
      change (get8 (put8 (inter w (base + off) (base + off + cap)) t (base + off) x) (base + off) <= 2 ^ bits - 1).
      rewrite get8_put8. pose proof (Z.mod_le x 256). lia.
    + destruct null; [|discriminate D]. injection D as <-. 
      change (get8 (put8 (inter w (base + off) (base + off + cap)) s (base + off) 0) (base + off) <= 2 ^ bits - 1).
      rewrite get8_put8.
      change (0 mod 256) with 0. pose proof (Z.pow_pos_nonneg 2 bits). lia.
  - cbn [chk] in H. assert (0 <= bits /\ 0 <= add).
    { unfold chk_uint in H. rewrite B in H. rewrite !andb_true_iff, !Z.leb_le in H. lia. }
    apply Z.leb_le in B. cbn [dec] in D. unfold dec_uint_off, uint_bytes in D.
    replace (bits <=? 32) with true in D by (symmetry; apply Z.leb_le; lia).
    replace (bits <=? 8) with true in D by (symmetry; apply Z.leb_le; lia).
    destruct (bits <=? rem s); [|discriminate D].
    destruct (take s bits) as [x t] eqn:T. injection D as <-. pose proof (take_range _ _ _ _ T ltac:(lia)).
    change (get8 (put8 (inter w (base + off) (base + off + cap)) t (base + off) (x + add)) (base + off) <= 2 ^ bits - 1 + add).
    rewrite get8_put8. pose proof (Z.mod_le (x + add) 256). lia.
Qed.

Definition lands (sk : nat) (l : list entry) (prev : option (Z * Z)) (s : state) : Prop :=
  (sk <= length l)%nat /\ match sk with O => holds prev s | S _ => existsb asks (firstn 1 (skipn sk l)) = false end.

Lemma run_ok l : Forall sound l ->
  forall sk prev base w s, chk_run chk prev l base w = true -> inv s -> lands sk l prev s ->
  fine (run v vlen (dec v vlen) sk l base w s).
Proof.
  induction 1 as [|e r Se Sr IH]; intros sk prev base w s H I [L P].
  - cbn in L. destruct sk; [|lia]. cbn. destruct (i16 (rem s) <? 0) eqn:E; [split; [exact I|now apply Z.ltb_lt]|exact I].
  - cbn [length] in L. destruct sk as [|k].
    + destruct e.
      all: try (cbn [chk_run] in H; apply andb_true_iff in H as [H1 H2];
        specialize (Se _ base w s H1 I (told_known prev _ base s P));
        pose proof (fun s1 => tells_holds _ _ base w s s1 H1) as T;
        cbn [run]; revert Se T;
        match goal with |- fine ?d -> _ => destruct d as [s1|c s1|s1] end; cbn [fine]; intros F T; try assumption;
        destruct (rem s1 <? 0); [fin | eapply IH; [exact H2|exact F|split; [lia|apply T; reflexivity]]]).
      cbn [chk_run] in H. rewrite !andb_true_iff, Nat.leb_le in H. destruct H as [[[H1 H2] H4] H3].
      apply negb_true_iff in H4.
      cbn [run].
      set (m := inter w (base + off) (base + off + cap)) in *.
      assert (X : inv (snd (dec_next_exist v vlen null n off cap base w (forallb may_be_null (firstn n r)) s)) /\
                  (fst (dec_next_exist v vlen null n off cap base w (forallb may_be_null (firstn n r)) s) = n \/
                   fst (dec_next_exist v vlen null n off cap base w (forallb may_be_null (firstn n r)) s) = O)).
      { unfold dec_next_exist. fold m. destruct (null && (rem s =? 0)); cbn [fst snd].
        - split; [|now left]. eapply inv_put8; [exact I|exact H1|cbn; lia].
        - destruct (take s 1) as [x s1] eqn:E. pose proof (inv_take _ _ _ _ E I).
          match goal with |- context [if ?b then n else O] => destruct b end; cbn [fst snd];
          (split; [apply inv_less; eapply inv_put8; [eassumption|exact H1|cbn; lia]|tauto]). }
      destruct (dec_next_exist _ _ _ _ _ _ _ _ _ _) as [k s1]. cbn [fst snd] in X. destruct X as [X1 X2].
      destruct (rem s1 <? 0); [fin|]. eapply IH; [exact H3|exact X1|].
      split; [destruct X2; lia|]. destruct X2; subst k; [destruct n; [exact Logic.I|exact H4]|exact Logic.I].
    + cbn [run]. cbn [skipn] in P.
      assert (H2 : exists p, chk_run chk p r base w = true).
      { destruct e; cbn [chk_run] in H; rewrite ?andb_true_iff in H; eexists; apply H. }
      destruct H2 as [p H2]. destruct k as [|k].
      * destruct r as [|e2 r].
        -- eapply (IH O None); [reflexivity|exact I|split; [lia|exact Logic.I]].
        -- cbn in P. assert (A : asks e2 = false) by (now destruct (asks e2)).
           eapply (IH O None base w s); [|exact I|split; [cbn; lia|exact Logic.I]].
           destruct e2; try discriminate A; exact H2.
      * eapply IH; [exact H2|exact I|]. split; [lia|exact P].
Qed.

Lemma table_ok l base w s : Forall sound l -> chk_run chk None l base w = true -> inv s -> fine (table v vlen (dec v vlen) l base w s).
Proof.
  intros F H I. unfold table. destruct (rem s <? 0); [fin|]. eapply run_ok; [exact F|exact H|exact I|]. split; [lia|exact Logic.I].
Qed.

Lemma alt_ok e base w s : sound e -> is_alt e = true -> chk 255 e base w = true -> inv s -> fine (dec_alt v vlen (dec v vlen) e base w s).
Proof.
  intros S A H I. destruct e; try discriminate A; cbn [dec_alt]; try (now apply (S 255)); try (split; [exact I|reflexivity]).
  destruct (bits <=? rem s) eqn:E; [|fin]. unfold dec_uint. rewrite E.
  cbn [chk] in H. destruct (bits <=? 32); [|fin].
  destruct (take s bits) as [x s1] eqn:T. cbn [fine]. apply inv_less.
  assert (0 <= bits). { unfold chk_uint in H. rewrite !andb_true_iff, !Z.leb_le in H. lia. }
  rewrite <- (Z.add_0_r x). apply uint_ok; [exact H|eapply inv_take; eauto|eapply take_range; eauto].
Qed.

Lemma pick_ok base w s alts : Forall sound alts -> forallb (fun e => is_alt e && chk 255 e base w) alts = true ->
  alts <> [] -> inv s -> forall i, fine (pick v vlen (dec v vlen) base w s i alts).
Proof.
  intros F H N I. induction F as [|e r Se Fr IH]; intro i; [now destruct N|].
  cbn [forallb] in H. rewrite !andb_true_iff in H. destruct H as [[A C] H].
  destruct r as [|e2 r].
  - destruct i; now apply alt_ok.
  - destruct i; [now apply alt_ok|]. change (fine (pick v vlen (dec v vlen) base w s i (e2 :: r))).
    apply IH; [exact H|discriminate].
Qed.

Lemma choose_ok off cap base w s alts n : Forall (fun x : Z * Z * entry => sound (snd x)) alts ->
  forallb (fun x : Z * Z * entry => match snd x with NextExist _ _ _ _ => false | _ => true end && chk 255 (snd x) base w) alts = true ->
  okb (inter w (base + off) (base + off + cap)) (base + off) n = true -> n <= 255 -> inv s ->
  forall i, 0 <= i -> i + Z.of_nat (length alts) <= n -> fine (choose v vlen (dec v vlen) off cap base w s i alts).
Proof.
  intros F H O N I. induction F as [|[[b x] e] r Se Fr IH]; intros i I0 L; [fin|].
  cbn [forallb snd] in H. rewrite !andb_true_iff in H. destruct H as [[A C] H]. cbn [length] in L. cbn [snd] in Se.
  cbn [choose]. destruct (take s b) as [y s1] eqn:T. destruct (y mod 256 =? x).
  - set (s2 := less _ b).
    assert (I2 : inv s2). { apply inv_less. eapply inv_put8; [eapply inv_take; eauto|exact O|]. rewrite Z.mod_small by lia. lia. }
    destruct (rem s2 <? 0); [fin|]. specialize (Se _ base w s2 C I2 (known255 e base s2)).
    destruct (dec v vlen e base w s2) as [s3|c s3|s3]; cbn [fine] in *; try assumption.
    destruct (rem s3 <? 0); [fin|]. destruct (i16 (rem s3) <? 0) eqn:E; [split; [exact Se|now apply Z.ltb_lt]|exact Se].
  - apply IH; [exact H|lia|lia].
Qed.

Theorem dec_sound e : sound e.
Proof.
  induction e using entry_ind2; intros most base w s HC I KN; try rename H into H0; rename HC into H; cbn [chk] in H; try discriminate H; cbn [dec].
  - unfold dec_bit. destruct (0 <? rem s); [|destruct a; [|fin]].
    + destruct (take s 1) as [x s1] eqn:T. cbn [fine]. apply inv_less. eapply inv_put8; [eapply inv_take; eauto|exact H|].
      pose proof (take_range _ _ _ _ T ltac:(lia)). rewrite Z.mod_small by lia. lia.
    + cbn [fine]. apply inv_less. eapply inv_put8; [exact I|exact H|cbn; lia].
  - assert (0 <= b). { unfold chk_uint in H. rewrite !andb_true_iff, !Z.leb_le in H. lia. }
    unfold dec_uint. destruct (b <=? rem s); [|destruct a; [|fin]].
    + destruct (b <=? 32); [|fin]. destruct (take s b) as [x s1] eqn:T. cbn [fine]. apply inv_less.
      rewrite <- (Z.add_0_r x). apply uint_ok; [exact H|eapply inv_take; eauto|eapply take_range; eauto].
    + destruct (b <=? 32); [|fin]. cbn [fine]. apply (uint_ok b 0 c d base w s 0 H I). pose proof (Z.pow_pos_nonneg 2 b). lia.
  - assert (0 <= a). { unfold chk_uint in H. rewrite !andb_true_iff, !Z.leb_le in H. lia. }
    unfold dec_uint_off. destruct (a <=? rem s); [|fin].
    destruct (a <=? 32); [|fin]. destruct (take s a) as [x s1] eqn:T. cbn [fine]. apply inv_less.
    apply uint_ok; [exact H|eapply inv_take; eauto|eapply take_range; eauto].
  - destruct (a && (rem s =? 0)); [fin|]. now apply table_ok.
  - eapply rep_ok; [|exact H|lia|exact I]. intros o t C J. now apply table_ok.
  - apply andb_true_iff in H as [H1 H2]. pose proof (inv_log s w (base + a) 1 I H1) as I1.
    eapply rep_ok; [|exact H2| |exact I1]. { intros o t C J. now apply table_ok. }
    pose proof (get8_bnd _ (base + a) I1). cbn [known] in KN. change (get8 (log s w (base + a) 1) (base + a)) with (get8 s (base + a)) in *. lia.
  - apply andb_true_iff in H as [H1 H2]. apply Z.leb_le in H1. unfold dec_bitmap.
    destruct (0 <? a); [|fin]. destruct (rem s <? a); [fin|].
    destruct (a <=? 32); [cbn [fine]; apply inv_less; now apply octets_ok|].
    replace (a <=? 64) with true by (symmetry; now apply Z.leb_le). cbn [fine]; apply inv_less; now apply octets_ok.
  - apply andb_true_iff in H as [H1 H2]. unfold dec_left_bmp.
    set (s1 := if a then _ else _).
    assert (I1 : inv s1).
    { subst s1. destruct a; [|now apply inv_log]. eapply inv_put8; [exact I|exact H1|].
      match goal with |- ?x mod 256 <= _ => pose proof (Z.mod_pos_bound x 256) end. lia. }
    pose proof (get8_bnd _ (base + b) I1) as G. set (n := get8 s1 (base + b) + c) in *.
    destruct (0 <? n) eqn:N; [|exact I1]. apply Z.ltb_lt in N. destruct (_ <? 0); [split; [now apply inv_less|reflexivity]|].
    set (m := inter w (base + d) (base + d + e)) in *.
    assert (K : (Z.to_nat (n / 8) <= Z.to_nat ((bnd (base + b) + c + 7) / 8))%nat).
    { apply Z2Nat.inj_le; [apply Z.div_pos; lia| apply Z.div_pos; lia|]. apply Z.div_le_mono; lia. }
    assert (I2 : inv (octets_in v vlen (Z.to_nat (n / 8)) 8 m (base + d) (less s1 n))).
    { apply octets_ok; [eapply oks_firstn; [exact H2|exact K]|now apply inv_less]. }
    destruct (0 <? n mod 8) eqn:M; [|exact I2]. apply Z.ltb_lt in M.
    destruct (take _ _) as [x s2] eqn:T. cbn [fine].
    assert (K2 : (Z.to_nat (n / 8) < Z.to_nat ((bnd (base + b) + c + 7) / 8))%nat).
    { apply Z2Nat.inj_lt; [apply Z.div_pos; lia|apply Z.div_pos; lia|]. Z.div_mod_to_equations; lia. }
    pose proof (oks_at _ _ _ _ H2 K2) as O. rewrite Z2Nat.id in O by (apply Z.div_pos; lia).
    eapply inv_put8; [eapply inv_take; eauto|exact O|].
    match goal with |- ?x mod 256 <= _ => pose proof (Z.mod_pos_bound x 256) end. lia.
  - rewrite !andb_true_iff in H. destruct H as [[H1 H2] H3]. apply Z.leb_le in H2.
    destruct (rec_ok (fun o => table v vlen (dec v vlen) l o (inter w (base + b) (base + b + e)))
               _ (fun o t C J => table_ok l o _ t H0 C J) (Z.to_nat d) c (base + b) 0 s H3 I ltac:(lia)) as [A B].
    destruct (rec_loop _ _ _ _ _ _ _ _) as [[s1|cc s1|s1] k]; cbn [fst snd fine] in *; try assumption.
    assert (0 <= d). { unfold okb in H1. rewrite !andb_true_iff, !Z.leb_le in H1. lia. }
    eapply inv_put8; [exact A|exact H1|]. rewrite Z.mod_small by lia. lia.
  - rewrite !andb_true_iff in H. destruct H as [[H1 H2] H3]. apply Z.leb_le in H2.
    destruct (rec1_ok (fun o => table v vlen (dec v vlen) l o (inter w (base + b) (base + b + e)))
               _ (fun o t C J => table_ok l o _ t H0 C J) (Z.to_nat d) c (base + b) 0 s H3 I ltac:(lia)) as [A B].
    destruct (rec1_loop _ _ _ _ _ _ _ _) as [[s1|cc s1|s1] k]; cbn [fst snd fine] in *; try assumption.
    assert (0 <= d). { unfold okb in H1. rewrite !andb_true_iff, !Z.leb_le in H1. lia. }
    eapply inv_put8; [exact A|exact H1|]. rewrite Z.mod_small by lia. lia.
  - rewrite !andb_true_iff in H. destruct H as [[H1 H2] H3].
    destruct (_ || _); [fin|]. unfold union_index. destruct (take s _) as [x s1] eqn:T.
    apply pick_ok; [exact H0|exact H3| |].
    + destruct l; [discriminate|discriminate].
    + eapply inv_put8; [apply inv_less; eapply inv_take; eauto|exact H1|].
      match goal with |- ?x mod 256 <= _ => pose proof (Z.mod_pos_bound x 256) end. lia.
  - rewrite !andb_true_iff in H. destruct H as [[H1 H2] H3]. apply Z.leb_le in H2.
    eapply choose_ok; eauto; lia.
  - unfold dec_fixed. destruct (a <=? 32); [|fin]. destruct (take s a) as [x s1] eqn:T.
    pose proof (inv_take _ _ _ _ T I). destruct (x =? b); [now apply inv_less|fin].
  - destruct (take s a) as [x s1] eqn:T. pose proof (inv_take _ _ _ _ T I) as I1.
    set (s2 := if 0 <? x mod 256 then _ else _).
    assert (I2 : inv s2). { subst s2. destruct (0 <? x mod 256); [apply inv_setrem|]; now apply inv_less. }
    pose proof (table_ok l (base + b) _ s2 H0 H I2) as F.
    destruct (table _ _ _ _ _ _ s2) as [s3|cc s3|s3]; cbn [fine] in *; try assumption.
    set (s4 := if 0 <? x mod 256 then set_rem s3 _ else s3).
    assert (I4 : inv s4). { subst s4. destruct (0 <? x mod 256); [now apply inv_setrem|assumption]. }
    destruct (0 <? i16 (rem s3)); [now apply inv_skip|assumption].
  - unfold dec_padding. destruct (0 <? rem s); [now apply inv_setrem|]. destruct (rem s <? 0); fin.
  - split; [exact I|now apply Z.ltb_lt].
Qed.

Theorem table_sound l base w s : chk_run chk None l base w = true -> inv s -> fine (table v vlen (dec v vlen) l base w s).
Proof. apply table_ok. apply Forall_forall. intros e _. apply dec_sound. Qed.

End Sound.
End Check.
