(** Lemmas for C53 and C58. *)
From Coq Require Import ZArith List Bool Lia.
From Verif Require Import Base.Arith Model.UlController Model.Ta Spec.TaSpec Proofs.UlcP.
Import ListNotations.
Local Open Scope Z_scope.

Lemma qta2ta_eq q : qta2ta q = clamp63 (q / 4).
Proof.
  unfold qta2ta, clamp63. destruct (Z.ltb_spec q 0).
  - pose proof (Z.div_lt_upper_bound q 4 0 ltac:(lia) ltac:(lia)). lia.
  - pose proof (Z.div_pos q 4 ltac:(lia) ltac:(lia)). destruct (Z.ltb_spec 252 q).
    + pose proof (Z.div_le_lower_bound q 4 63 ltac:(lia) ltac:(lia)). change (252 / 4) with 63. lia.
    + pose proof (Z.div_le_upper_bound q 4 63 ltac:(lia) ltac:(lia)). lia.
Qed.
Lemma qta2ta_rng q : 0 <= qta2ta q <= 63.
Proof. rewrite qta2ta_eq. unfold clamp63. lia. Qed.
Lemma limit_eq x : ta_limit x = clamp63 x.
Proof. unfold ta_limit, clamp63. destruct (Z.ltb_spec x 0); [destruct (Z.ltb_spec 63 0); lia|destruct (Z.ltb_spec 63 x); lia]. Qed.
Lemma set_eq old ta : 0 <= ta -> ms_set_ta old ta = if ta <=? 63 then ta else old.
Proof.
  intro H. unfold ms_set_ta, ta_is_valid. destruct (Z.eqb_spec ta old) as [->|]; destruct (Z.leb_spec ta 63) || destruct (Z.leb_spec old 63);
    try reflexivity; destruct (Z.ltb_spec ta 64); try lia; reflexivity.
Qed.
Lemma set_legal old ta : ta_legal old -> 0 <= ta -> ta_legal (ms_set_ta old ta).
Proof. intros L H. rewrite set_eq by exact H. unfold ta_legal in *. destruct (Z.leb_spec ta 63); [left; lia|exact L]. Qed.
Lemma update_eq old d : ta_legal old -> update_tbf_ta old d = if d =? 0 then old else clamp63 (old + d).
Proof.
  intro L. unfold update_tbf_ta. destruct (d =? 0); [reflexivity|].
  rewrite set_eq, limit_eq; [|rewrite limit_eq; unfold clamp63; lia].
  destruct (Z.leb_spec (clamp63 (old + d)) 63) as [|E]; [reflexivity|unfold clamp63 in E; lia].
Qed.
Lemma settbf_eq old ta : 0 <= ta <= 63 -> set_tbf_ta old ta = ta.
Proof.
  intro H. unfold set_tbf_ta. destruct (Z.eqb_spec old ta) as [->|]; [reflexivity|].
  rewrite limit_eq. replace (clamp63 ta) with ta by (unfold clamp63; lia).
  rewrite set_eq by lia. destruct (Z.leb_spec ta 63); [reflexivity|lia].
Qed.
(** What an indication does. *)
Lemma upd_effect en t tb fn ta ra tas ms : (forall x, ta_legal (tas x)) -> (ra = true -> 0 <= ta <= 63) ->
  let tas' := bts_update_tbf_ta en t tb fn ta ra tas in
  (tas' ms <> tas ms -> en = true /\ polled t tb fn ms) /\
  (tas' ms = tas ms \/ tas' ms = if ra then ta else clamp63 (tas ms + ta)).
Proof.
  intros L R. cbv zeta. unfold bts_update_tbf_ta. destruct en; cbn [negb]; [|split; [congruence|left; reflexivity]].
  destruct (get_node t fn) as [[f o]|] eqn:G; [|split; [congruence|left; reflexivity]].
  destruct (get_sound t fn _ G) as [I E]. cbn [i_fn] in E. subst f.
  destruct o as [|b r|]; [split; [congruence|left; reflexivity]| |split; [congruence|left; reflexivity]].
  destruct (tb b) as [[[|] m]|] eqn:TB; try (split; [congruence|left; reflexivity]).
  destruct (Z.eq_dec ms m) as [->|N].
  - rewrite upd_same. split.
    + intros _. split; [reflexivity|]. exists b, r. split; assumption.
    + destruct ra.
      * right. rewrite Z.mod_small by (specialize (R eq_refl); lia). apply settbf_eq, R. reflexivity.
      * rewrite update_eq by apply L. destruct (ta =? 0); [left|right]; reflexivity.
  - rewrite upd_diff by exact N. split; [congruence|left; reflexivity].
Qed.
Lemma step_legal o tas : (forall x, ta_legal (tas x)) -> forall x, ta_legal (ta_step o tas x).
Proof.
  intros L x.
  assert (C : forall y, ta_legal (clamp63 y)) by (intro y; left; unfold clamp63; lia).
  destruct o; cbn [ta_step].
  - unfold upd. destruct (x =? ms); [right; reflexivity|apply L].
  - unfold upd. destruct (x =? ms); [|apply L]. apply set_legal; [apply L|apply qta2ta_rng].
  - unfold upd. destruct (x =? ms); [|apply L]. apply set_legal; [apply L|apply qta2ta_rng].
  - destruct (upd_effect enabled t tb fn (sign_qta2ta bto) false tas x L ltac:(discriminate)) as [_ [E|E]]; rewrite E; [apply L|apply C].
  - destruct (upd_effect enabled t tb fn (qta2ta qta) true tas x L (fun _ => qta2ta_rng qta)) as [_ [E|E]]; rewrite E; [apply L|].
    left. apply qta2ta_rng.
Qed.
Lemma run_legal os ms : ta_legal (ta_run os ms).
Proof.
  unfold ta_run. assert (G : forall s, (forall x, ta_legal (s x)) -> forall x, ta_legal (fold_left (fun s o => ta_step o s) os s x)).
  { induction os as [|o os IH]; intros s L x; [apply L|]. cbn [fold_left]. apply IH. apply step_legal, L. }
  apply G. intro. right. reflexivity.
Qed.
Lemma found t fn it : get_node t fn = Some it -> forall tb ms b r, i_own it = OPoll b r -> tb b = Some (true, ms) ->
  forall ta tas, (forall x, ta_legal (tas x)) ->
  bts_update_tbf_ta true t tb fn ta false tas ms = if ta =? 0 then tas ms else clamp63 (tas ms + ta).
Proof.
  intros G tb ms b r O TB ta tas L. unfold bts_update_tbf_ta. cbn [negb]. rewrite G.
  destruct it as [f o]. cbn [i_own] in O. subst o. rewrite TB, upd_same. apply update_eq, L.
Qed.
Lemma adj_pos q : 0 <= q -> sign_qta2ta q = adjustment q.
Proof.
  intro H. unfold sign_qta2ta, adjustment. cbv zeta. rewrite Z.abs_eq by lia.
  destruct (Z.ltb_spec q (-252)); [lia|].
  destruct (Z.eq_dec q 0) as [->|N0]; [reflexivity|]. rewrite Z.sgn_pos by lia.
  destruct (Z.ltb_spec 252 q).
  - pose proof (Z.div_le_lower_bound q 4 63 ltac:(lia) ltac:(lia)). destruct (Z.leb_spec q 2); [lia|].
    change (252 / 4) with 63. change (252 <? -2) with false. change (2 <? 252) with true. cbv iota. lia.
  - pose proof (Z.div_le_upper_bound q 4 63 ltac:(lia) ltac:(lia)).
    destruct (Z.ltb_spec q (-2)); [lia|]. destruct (Z.ltb_spec 2 q), (Z.leb_spec q 2); lia.
Qed.
Lemma adj_rng q : -64 <= sign_qta2ta q <= 64.
Proof.
  unfold sign_qta2ta. cbv zeta.
  set (q1 := if 252 <? (if q <? -252 then -252 else q) then 252 else if q <? -252 then -252 else q).
  assert (R : -252 <= q1 <= 252).
  { unfold q1. destruct (Z.ltb_spec q (-252)); [change (252 <? -252) with false; cbv iota; lia|destruct (Z.ltb_spec 252 q); lia]. }
  clearbody q1. pose proof (Z.div_le_lower_bound q1 4 (-63) ltac:(lia) ltac:(lia)).
  pose proof (Z.div_le_upper_bound q1 4 63 ltac:(lia) ltac:(lia)).
  destruct (q1 <? -2); [lia|]. destruct (2 <? q1); lia.
Qed.

(** * C58 *)
Lemma set_nth_len l i v : length (set_nth l i v) = length l.
Proof. revert i. induction l as [|x l IH]; intros [|i]; cbn; congruence. Qed.
Lemma set_nth_same l i v : (i < length l)%nat -> nth_error (set_nth l i v) i = Some v.
Proof. revert i. induction l as [|x l IH]; intros [|i] H; cbn in *; try lia; [reflexivity|]. apply IH. lia. Qed.
Lemma set_nth_diff l i j v : i <> j -> nth_error (set_nth l i v) j = nth_error l j.
Proof. revert i j. induction l as [|x l IH]; intros [|i] [|j] N; cbn; try congruence; try reflexivity. apply IH. congruence. Qed.
Lemma first_free_some l i k : first_free l i = Some k ->
  (i <= k)%nat /\ nth_error l (k - i) = Some TAI_FREE /\ (forall j, (j < k - i)%nat -> nth_error l j <> Some TAI_FREE).
Proof.
  revert i. induction l as [|x l IH]; intros i; cbn [first_free]; [discriminate|].
  destruct (Z.eqb_spec x TAI_FREE) as [->|N].
  - intro E. injection E as <-. rewrite Nat.sub_diag. splits; [lia|reflexivity|intros; lia].
  - intro E. destruct (IH _ E) as (A & B & C). replace (k - i)%nat with (S (k - S i)) by lia.
    splits; [lia|exact B|]. intros [|j] L; cbn; [congruence|]. apply C. lia.
Qed.
Lemma first_free_none l i : first_free l i = None -> forall j, nth_error l j <> Some TAI_FREE.
Proof.
  revert i. induction l as [|x l IH]; intros i; cbn [first_free]; [intros _ [|j]; discriminate|].
  destruct (Z.eqb_spec x TAI_FREE) as [->|N]; [discriminate|]. intros E [|j]; cbn; [congruence|]. exact (IH _ E j).
Qed.
Record tinv (l : list Z) (h : held) : Prop := {
  ti_len : length l = 16%nat;
  ti_held : forall i, In i h -> 0 <= i < 16 /\ entry l i <> Some TAI_FREE;
  ti_nodup : NoDup h }.

Lemma upd_ok i v l : length l = 16%nat -> 0 <= i < 16 -> exists l', update_ta i v l = Some l' /\ length l' = 16%nat /\
  entry l' i = Some v /\ forall j, 0 <= j -> j <> i -> entry l' j = entry l j.
Proof.
  intros L R. unfold update_ta. destruct (Z.leb_spec 0 i); [|lia]. destruct (Z.ltb_spec i 16); [|lia]. cbn [andb].
  eexists. split; [reflexivity|]. split; [rewrite set_nth_len; exact L|]. split.
  - apply set_nth_same. lia.
  - intros j J N. apply set_nth_diff. lia.
Qed.
Lemma res_ok ta l : length l = 16%nat -> exists r l', reserve_tai ta l = (r, l') /\ length l' = 16%nat /\
  ((0 <= r < 16 /\ entry l r = Some TAI_FREE /\ (forall j, 0 <= j < r -> entry l j <> Some TAI_FREE) /\
    entry l' r = Some ta /\ (forall j, 0 <= j -> j <> r -> entry l' j = entry l j)) \/
   (r = TAI_FREE /\ l' = l /\ forall j, 0 <= j < 16 -> entry l j <> Some TAI_FREE)).
Proof.
  intro L. unfold reserve_tai. destruct (first_free l 0) as [k|] eqn:E.
  - destruct (first_free_some _ _ _ E) as (_ & A & B). rewrite Nat.sub_0_r in A, B.
    assert (K : (k < 16)%nat) by (rewrite <- L; apply nth_error_Some; congruence).
    do 2 eexists. split; [reflexivity|]. split; [rewrite set_nth_len; exact L|]. left.
    unfold entry. rewrite Nat2Z.id. splits; try lia; [exact A| |apply set_nth_same; lia|].
    + intros j J. apply B. lia.
    + intros j J N. apply set_nth_diff. lia.
  - do 2 eexists. split; [reflexivity|]. split; [exact L|]. right. splits; [reflexivity|reflexivity|].
    intros j J. apply (first_free_none _ _ E).
Qed.
Lemma subslot_iff rfn ss : subslot ptcch_slot_map (rfn mod 416) 0 = Some ss <-> subslot_of rfn ss.
Proof.
  unfold subslot_of, ptcch_slot_map. set (x := rfn mod 416). clearbody x. cbn [subslot].
  repeat match goal with |- context [?a =? x] => destruct (Z.eqb_spec a x) as [<-|] end;
  split; intro H; try (injection H as <-; lia); try (f_equal; lia); try discriminate H; exfalso; lia.
Qed.
Lemma tai_step_ok o l h : tinv l h -> tai_ok o ->
  exists l' a, tai_step o l = Some (l', a) /\ tinv l' (held_step o a h) /\
  match o with
  | Reserve ta => exists r, a = Some r /\
      ((0 <= r < 16 /\ ~ In r h /\ entry l' r = Some ta /\ (forall j, 0 <= j -> j <> r -> entry l' j = entry l j)) \/
       (r = TAI_FREE /\ l' = l /\ forall j, 0 <= j < 16 -> entry l j <> Some TAI_FREE))
  | Release i => entry l' i = Some TAI_FREE /\ forall j, 0 <= j -> j <> i -> entry l' j = entry l j
  | Burst en rfn qta => forall j, 0 <= j ->
      (en = true /\ subslot_of rfn j -> entry l' j = Some (clamp63 (qta / 4))) /\
      (~ (en = true /\ subslot_of rfn j) -> entry l' j = entry l j)
  end.
Proof.
  intros [L HH ND] OK. destruct o; cbn [tai_step].
  - destruct (res_ok ta l L) as (r & l' & E & L' & [(R & F & M & S & D)|(R & -> & F)]); rewrite E; do 2 eexists; (split; [reflexivity|]).
    + assert (NI : ~ In r h) by (intro I; apply (HH r I); exact F).
      split.
      * cbn [held_step]. destruct (Z.ltb_spec r 16); [|lia]. split; [exact L'| |constructor; assumption].
        intros i [<-|I]; [split; [exact R|]; rewrite S; unfold TAI_FREE; cbn [tai_ok] in OK; intro Q; injection Q as Q; lia|].
        destruct (HH i I) as [RI FI]. split; [exact RI|]. rewrite D; [exact FI|lia|]. intros ->. contradiction.
      * exists r. split; [reflexivity|]. left. splits; try assumption; lia.
    + split.
      * cbn [held_step]. rewrite R. change (TAI_FREE <? 16) with false. cbv iota. split; assumption.
      * exists r. split; [reflexivity|]. right. splits; assumption || reflexivity.
  - unfold release_tai. destruct (upd_ok tai TAI_FREE l L OK) as (l' & E & L' & S & D). rewrite E. do 2 eexists.
    split; [reflexivity|]. split; [|split; assumption]. cbn [held_step]. split; [exact L'| |apply NoDup_filter; exact ND].
    intros i I. apply filter_In in I. destruct I as [I N]. apply negb_true_iff in N. apply Z.eqb_neq in N.
    destruct (HH i I) as [RI FI]. split; [exact RI|]. rewrite D; [exact FI|lia|exact N].
  - unfold rcv_ptcch_rach. destruct enabled; cbn [negb].
    2: { do 2 eexists. split; [reflexivity|]. split; [split; assumption|]. intros j J. split; [intros [Q _]; discriminate Q|reflexivity]. }
    destruct (subslot ptcch_slot_map (rfn mod 416) 0) as [ss|] eqn:SS.
    + apply subslot_iff in SS. pose proof SS as [R _].
      destruct (upd_ok ss (qta2ta qta) l L R) as (l' & E & L' & S & D). rewrite E. do 2 eexists. split; [reflexivity|].
      rewrite qta2ta_eq in S. split.
      * cbn [held_step]. split; [exact L'| |exact ND]. intros i I. destruct (HH i I) as [RI FI]. split; [exact RI|].
        destruct (Z.eq_dec i ss) as [->|N]; [rewrite S; unfold TAI_FREE, clamp63; intro Q; injection Q as Q; lia|].
        rewrite D; [exact FI|lia|exact N].
      * intros j J. destruct (Z.eq_dec j ss) as [->|N].
        -- split; [intros _; exact S|]. intro Q. exfalso. apply Q. split; [reflexivity|exact SS].
        -- split; [|intros _; apply D; assumption]. intros [_ [Q1 Q2]]. destruct SS as [Q3 Q4]. exfalso. apply N. lia.
    + do 2 eexists. split; [reflexivity|]. split; [split; assumption|]. intros j J.
      split; [|reflexivity]. intros [_ Q]. apply subslot_iff in Q. congruence.
Qed.
Lemma tinv0 : tinv ptcch0 [].
Proof. split; [reflexivity|intros i []|constructor]. Qed.
Lemma tai_run_ok os l h : tinv l h -> (forall o, In o os -> tai_ok o) -> exists l' h', tai_run os l h = Some (l', h') /\ tinv l' h'.
Proof.
  revert l h. induction os as [|o os IH]; intros l h V C; [exists l, h; split; [reflexivity|exact V]|].
  destruct (tai_step_ok o l h V (C o (or_introl eq_refl))) as (l' & a & E & V' & _).
  cbn [tai_run]. rewrite E. apply IH; [exact V'|]. intros; apply C; right; assumption.
Qed.
(** Without stray bursts, an index that nobody holds is free. *)
Lemma tai_avail os l h : tinv l h -> (forall i, 0 <= i < 16 -> ~ In i h -> entry l i = Some TAI_FREE) ->
  (forall o, In o os -> tai_ok o) -> no_stray os l h ->
  forall l' h', tai_run os l h = Some (l', h') -> forall i, 0 <= i < 16 -> ~ In i h' -> entry l' i = Some TAI_FREE.
Proof.
  revert l h. induction os as [|o os IH]; intros l h V A C N l' h' E i I NI.
  - cbn [tai_run] in E. injection E as <- <-. apply A; assumption.
  - pose proof (C o (or_introl eq_refl)) as OK.
    destruct (tai_step_ok o l h V OK) as (l1 & a & E1 & V1 & S). cbn [no_stray] in N. cbn [tai_run] in E.
    rewrite E1 in N, E. destruct N as [N0 N].
    refine (IH l1 _ V1 _ (fun o' I' => C o' (or_intror I')) N l' h' E i I NI).
    clear E N NI i I. intros i I NI. destruct o.
    + destruct S as (r & -> & [(R & NR & S1 & S2)|(R & -> & F)]).
      * cbn [held_step] in NI. destruct (Z.ltb_spec r 16); [|lia]. rewrite S2; [|lia|intros ->; apply NI; left; reflexivity].
        apply A; [exact I|]. intro Q. apply NI. right. exact Q.
      * exfalso. apply (F i I). apply A; [exact I|]. cbn [held_step] in NI. rewrite R in NI. exact NI.
    + destruct S as [S1 S2]. destruct (Z.eq_dec i tai) as [->|Q]; [exact S1|]. rewrite S2 by (try lia; exact Q).
      apply A; [exact I|]. intro H. apply NI. cbn [held_step]. destruct a; apply filter_In; (split; [exact H|]);
      apply negb_true_iff, Z.eqb_neq; exact Q.
    + destruct (S i ltac:(lia)) as [S1 S2].
      assert (HI : ~ In i h) by (destruct a; exact NI).
      rewrite S2; [apply A; assumption|]. intros [-> Q]. apply HI, N0, Q.
Qed.
Lemma tai_one_step os l h o : (forall o, In o os -> tai_ok o) -> tai_run os ptcch0 [] = Some (l, h) -> tai_ok o ->
  exists l' a, tai_step o l = Some (l', a) /\
  match o with
  | Reserve ta => exists r, a = Some r /\
      ((0 <= r < 16 /\ ~ In r h /\ entry l' r = Some ta /\ (forall j, 0 <= j -> j <> r -> entry l' j = entry l j)) \/
       (r = TAI_FREE /\ l' = l /\ forall j, 0 <= j < 16 -> entry l j <> Some TAI_FREE))
  | Release i => entry l' i = Some TAI_FREE /\ forall j, 0 <= j -> j <> i -> entry l' j = entry l j
  | Burst en rfn qta => forall j, 0 <= j ->
      (en = true /\ subslot_of rfn j -> entry l' j = Some (clamp63 (qta / 4))) /\
      (~ (en = true /\ subslot_of rfn j) -> entry l' j = entry l j)
  end.
Proof.
  intros C E OK. destruct (tai_run_ok os ptcch0 [] tinv0 C) as (l1 & h1 & E1 & V). rewrite E in E1. injection E1 as <- <-.
  destruct (tai_step_ok o l h V OK) as (l' & a & S & _ & R). exists l', a. split; assumption.
Qed.
Lemma tai_available os l h : (forall o, In o os -> tai_ok o) -> no_stray os ptcch0 [] ->
  tai_run os ptcch0 [] = Some (l, h) -> forall i, 0 <= i < 16 -> ~ In i h -> entry l i = Some TAI_FREE.
Proof.
  intros C N E. refine (tai_avail os ptcch0 [] tinv0 _ C N l h E).
  intros i I _. unfold entry, ptcch0, TAI_NUM. apply nth_error_repeat. lia.
Qed.
