(** The result of an allocation. *)
From Coq Require Import ZArith List Bool Lia.
From Verif Require Import Base.Arith Model.Mslot Model.Alloc Model.Cell Spec.AllocSpec Spec.MslotSpec Proofs.AllocP.
Import ListNotations.
Local Open Scope Z_scope.

(** ** Sizes *)
Lemma filter_le : forall A (f g : A -> bool) l, (forall x, In x l -> f x = true -> g x = true) ->
  (length (filter f l) <= length (filter g l))%nat.
Proof.
  intros A f g l. induction l as [|x l IH]; intro H; cbn [filter]; [ lia | ].
  assert (IH' : (length (filter f l) <= length (filter g l))%nat) by (apply IH; intros y Iy; apply H; right; exact Iy).
  destruct (f x) eqn:E.
  - rewrite (H x (or_introl eq_refl) E). cbn [length]. lia.
  - destruct (g x); cbn [length]; lia.
Qed.
Lemma size_mono : forall a b, (forall ts, on a ts -> on b ts) -> size a <= size b.
Proof.
  intros a b H. unfold size. apply inj_le. apply filter_le.
  intros i I B. apply in_seq in I. apply (H (Z.of_nat i)). split; [ lia | exact B ].
Qed.
Lemma size_pos : forall x ts, on x ts -> 0 < size x.
Proof.
  intros x ts [R B]. unfold size.
  assert (I : In (Z.to_nat ts) (filter (fun i => Z.testbit x (Z.of_nat i)) (seq 0 8))).
  { apply filter_In. split; [ apply in_seq; lia | rewrite Z2Nat.id by lia; exact B ]. }
  destruct (filter _ _); [ contradiction | cbn [length]; lia ].
Qed.
Lemma size_on : forall x, 0 < size x -> exists ts, on x ts.
Proof.
  intros x. unfold size. destruct (filter _ _) as [|i l] eqn:E; cbn [length]; [ lia | ].
  intros _. assert (I : In i (i :: l)) by (left; reflexivity). rewrite <- E in I. apply filter_In in I.
  destruct I as [I B]. apply in_seq in I. exists (Z.of_nat i). split; [ lia | exact B ].
Qed.
Lemma bitcount_size : forall x, 0 <= x < 256 -> bitcount x = size x.
Proof.
  intros x H. unfold bitcount, size. change (seq 0 16) with (seq 0 8 ++ seq 8 8). rewrite filter_app, app_length.
  assert (filter (fun i => Z.testbit x (Z.of_nat i)) (seq 8 8) = []) as ->; [ | cbn [length]; lia ].
  assert (G : forall l, (forall i, In i l -> (8 <= i)%nat) -> filter (fun i => Z.testbit x (Z.of_nat i)) l = []).
  { induction l as [|i l IH]; intro Hl; cbn [filter]; [ reflexivity | ].
    rewrite m8_bits; [ | lia | specialize (Hl i (or_introl eq_refl)); lia ].
    apply IH. intros j Ij. apply Hl. right. exact Ij. }
  apply G. intros i I. apply in_seq in I. lia.
Qed.
Lemma can_serve_mono : forall a ul dl ul' dl', can_serve a ul dl ->
  (forall ts, on ul' ts -> on ul ts) -> (forall ts, on dl' ts -> on dl ts) -> can_serve a ul' dl'.
Proof.
  intros a ul dl ul' dl' [C1 [C2 [C3 C4]]] HU HD. unfold can_serve.
  pose proof (size_mono _ _ HU). pose proof (size_mono _ _ HD).
  splits; [ lia | lia | | ].
  - destruct (ab_sum a); [ lia | exact I ].
  - destruct (ab_gaps a) as [[[[tta ttb] tra] trb]|]; [ | exact I ].
    destruct C4 as [C4|C4]; [ left | right ]; intros u d Hu Hd; apply C4; auto.
Qed.

(** ** The table of classes *)
Definition bad_of (mask ul_ts : Z) : Z :=
  let rx_bad := Z.shiftl (not8 mask) ul_ts mod 65536 in Z.land (Z.lor rx_bad (Z.shiftr rx_bad 8)) 0xff.
Definition implb' (a b : bool) : bool := if a then b else true.
Definition gap_check (m : mslot) (rx tx : Z) (sel : bool) (k : Z) : bool :=
  forallb (fun w => forallb (fun d =>
    implb' (Z.testbit (not8 (bad_of (if sel then snd (fill_rx_mask m k) else fst (fill_rx_mask m k)) (fst w))) d)
      (forallb (fun u => implb' (Z.testbit (snd w) u)
         ((rx <=? after u d) && (tx <=? 6 - after u d) && (0 <=? after u d))) slots8)) slots8)
    (windows 8 0 (Z.shiftl 1 k - 1)).
Definition row_check (i : nat) : bool :=
  let m := nth i mslot_table mslot_na in
  match ability_of (Z.of_nat i) with
  | None => false
  | Some a =>
    (m_tx m <=? 8) &&
    forallb (fun k =>
      let k := Z.of_nat k in
      let nrx := Z.min (m_rx m) (m_sum m - k) in
      forallb (fun w => size (snd w) =? k) (windows 8 0 (Z.shiftl 1 k - 1)) &&
      forallb (fun w => size (snd w) =? nrx) (windows 8 0 (Z.shiftl 1 nrx - 1)) &&
      (k <=? ab_tx a) && (nrx <=? ab_rx a) && (match ab_sum a with Some s => k + nrx <=? s | None => true end) &&
      match ab_gaps a with
      | Some (tta, ttb, tra, trb) => gap_check m trb tta false k && gap_check m tra ttb true k
      | None => true
      end) (seq 1 (Z.to_nat (m_tx m)))
  end.
Lemma rows_ok : forallb row_check (seq 1 45) = true.
Proof. vm_compute. reflexivity. Qed.

Lemma get_mslot_row : forall def cl, m_tx (get_mslot def cl) <> MS_NA ->
  exists i, (1 <= i <= 45)%nat /\ known_class def cl = Z.of_nat i /\ get_mslot def cl = nth i mslot_table mslot_na.
Proof.
  intros def cl H. unfold get_mslot, known_class in *.
  set (k := if cl =? 0 then def else cl) in *.
  destruct (46 <=? cl) eqn:E; [ exfalso; apply H; reflexivity | ].
  destruct (Z_le_gt_dec k 0) as [L|L]; [ exfalso; apply H; replace (Z.to_nat k) with 0%nat by lia; reflexivity | ].
  destruct (Z_le_gt_dec 46 k) as [L2|L2].
  - exfalso. apply H. rewrite nth_overflow; [ reflexivity | ]. change (length mslot_table) with 46%nat. lia.
  - exists (Z.to_nat k). splits; [ lia | lia | lia | reflexivity ].
Qed.
Lemma row_facts : forall i, (1 <= i <= 45)%nat -> exists a, ability_of (Z.of_nat i) = Some a /\
  let m := nth i mslot_table mslot_na in
  m_tx m <= 8 /\ forall k, 1 <= k <= m_tx m ->
  let nrx := Z.min (m_rx m) (m_sum m - k) in
  (forall w, In w (windows 8 0 (Z.shiftl 1 k - 1)) -> size (snd w) = k) /\
  (forall w, In w (windows 8 0 (Z.shiftl 1 nrx - 1)) -> size (snd w) = nrx) /\
  k <= ab_tx a /\ nrx <= ab_rx a /\ (match ab_sum a with Some s => k + nrx <= s | None => True end) /\
  match ab_gaps a with
  | Some (tta, ttb, tra, trb) => gap_check m trb tta false k = true /\ gap_check m tra ttb true k = true
  | None => True
  end.
Proof.
  intros i Hi. pose proof rows_ok as R. rewrite forallb_forall in R. specialize (R i). 
  assert (I : In i (seq 1 45)) by (apply in_seq; lia). specialize (R I). clear I.
  unfold row_check in R. destruct (ability_of (Z.of_nat i)) as [a|]; [ | discriminate ].
  exists a. split; [ reflexivity | ]. cbv zeta in R |- *. set (m := nth i mslot_table mslot_na) in *. clearbody m.
  apply andb_true_iff in R. destruct R as [R1 R2]. split; [ lia | ].
  intros k Hk. rewrite forallb_forall in R2. specialize (R2 (Z.to_nat k)).
  assert (I : In (Z.to_nat k) (seq 1 (Z.to_nat (m_tx m)))) by (apply in_seq; lia). specialize (R2 I).
  rewrite Z2Nat.id in R2 by lia.
  repeat match type of R2 with (_ && _) = true =>
    apply andb_true_iff in R2; let X := fresh "X" in destruct R2 as [R2 X] end.
  rewrite forallb_forall in R2. rewrite forallb_forall in X3.
  splits.
  - intros w Iw. specialize (R2 w Iw). lia.
  - intros w Iw. specialize (X3 w Iw). lia.
  - lia.
  - lia.
  - destruct (ab_sum a); [ lia | exact Logic.I ].
  - destruct (ab_gaps a) as [[[[tta ttb] tra] trb]|]; [ | exact Logic.I ]. apply andb_true_iff in X. exact X.
Qed.

(** ** Several timeslots *)
(** A candidate of the search. *)
Record cand (m : mslot) (ul dl tx rx : Z) : Prop := mk_cand {
  cd_ex : exists k w sel win, 1 <= k <= m_tx m /\ In w (windows 8 0 (Z.shiftl 1 k - 1)) /\
    In win (windows 8 0 (Z.shiftl 1 (Z.min (m_rx m) (m_sum m - k)) - 1)) /\
    tx = Z.land (snd w) ul /\ Z.testbit tx (fst w) = true /\ 0 <= fst w < 8 /\
    rx = Z.land (Z.land dl (not8 (bad_of (if sel : bool then snd (fill_rx_mask m k) else fst (fill_rx_mask m k)) (fst w)))) (snd win);
  cd_req : let req := Z.min (bitcount tx) (bitcount rx) in
    (if m_type m =? 1 then Z.min req 2 else req) = bitcount (Z.land tx rx) }.
Definition best_ok (m : mslot) (ul dl : Z) (b : best) : Prop :=
  let '(c, tx, rx) := b in (tx = 0 /\ rx = 0) \/ cand m ul dl tx rx.

Lemma windows_ts : forall n ts win w, In w (windows n ts win) -> ts <= fst w < ts + Z.of_nat n.
Proof.
  induction n as [|n IH]; intros ts win w I; cbn [windows In] in I; [ contradiction | ].
  destruct I as [<-|I]; [ cbn [fst]; lia | ]. apply IH in I. lia.
Qed.

Lemma skip_req : forall m tr rx tx ch ch', skip_slot m tr rx tx ch = (false, ch') ->
  let req := Z.min (bitcount tx) (bitcount rx) in
  (if m_type m =? 1 then Z.min req 2 else req) = bitcount (Z.land tx rx).
Proof.
  intros m tr rx tx ch ch'. unfold skip_slot. cbv zeta.
  match goal with |- context [if (_ && ?c) then (true, ch) else _] => destruct ((m_type m =? 1) && c) end; [ discriminate | ].
  destruct (Z.testbit ch rx); [ discriminate | ].
  intro H. apply (f_equal fst) in H. cbn [fst] in H. apply negb_false_iff in H. lia.
Qed.

Lemma try_masks_ok : forall t m ul dl k w win st, 1 <= k <= m_tx m ->
  In w (windows 8 0 (Z.shiftl 1 k - 1)) ->
  In win (windows 8 0 (Z.shiftl 1 (Z.min (m_rx m) (m_sum m - k)) - 1)) ->
  Z.testbit (Z.land (snd w) ul) (fst w) = true ->
  best_ok m ul dl (snd st) ->
  best_ok m ul dl (snd (try_masks t m (fill_rx_mask m k) (fst w) dl (Z.land (snd w) ul) (snd win) st)).
Proof.
  intros t m ul dl k w win st Hk Iw Iwin B P. unfold try_masks.
  apply (fold_inv _ _ (fun st => best_ok m ul dl (snd st))); [ exact P | ].
  intros [ch b] sel _ Pb. cbn [snd] in Pb.
  destruct (filter_bad _ _ _ _) as [rx|] eqn:E; [ | exact Pb ].
  destruct (skip_slot m sel rx (Z.land (snd w) ul) ch) as [skip ch'] eqn:S.
  destruct skip; [ exact Pb | ].
  destruct (capacity t rx (Z.land (snd w) ul) <=? fst (fst b)); [ exact Pb | ].
  cbn [snd]. right. split; [ | exact (skip_req _ _ _ _ _ _ S) ].
  exists k, w, sel, win. pose proof (windows_ts _ _ _ _ Iw) as Wt. change (Z.of_nat 8) with 8 in Wt.
  splits; auto; try lia.
  unfold filter_bad in E. cbv zeta in E.
  match type of E with (if ?c then _ else _) = _ => destruct c end; [ discriminate | ].
  inversion E. reflexivity.
Qed.
Lemma try_rx_ok : forall t m ul dl k w b, 1 <= k <= m_tx m ->
  In w (windows 8 0 (Z.shiftl 1 k - 1)) -> Z.testbit (Z.land (snd w) ul) (fst w) = true ->
  best_ok m ul dl b -> best_ok m ul dl (try_rx t m (fill_rx_mask m k) k (fst w) dl (Z.land (snd w) ul) b).
Proof.
  intros t m ul dl k w b Hk Iw B P. unfold try_rx. cbv zeta.
  apply (fold_inv _ _ (fun st => best_ok m ul dl (snd st))); [ exact P | ].
  intros st win Iwin Pst.
  match goal with |- context [if ?c then st else _] => destruct c end; [ exact Pst | ].
  now apply try_masks_ok.
Qed.
Lemma try_tx_ok : forall t m ul dl k b, 1 <= k <= m_tx m -> best_ok m ul dl b -> best_ok m ul dl (try_tx t m ul dl k b).
Proof.
  intros t m ul dl k b Hk P. unfold try_tx. cbv zeta.
  apply (fold_inv _ _ (best_ok m ul dl)); [ exact P | ].
  intros b' w Iw Pb.
  match goal with |- context [if ?c then b' else _] => destruct c end; [ exact Pb | ].
  destruct (Z.testbit (Z.land (snd w) ul) (fst w)) eqn:B; cbn [negb]; [ | exact Pb ].
  match goal with |- context [if ?c then b' else _] => destruct c end; [ exact Pb | ].
  now apply try_rx_ok.
Qed.

Lemma cand_serve : forall i ul dl tx rx, (1 <= i <= 45)%nat -> 0 <= ul < 256 -> 0 <= dl < 256 ->
  cand (nth i mslot_table mslot_na) ul dl tx rx ->
  exists a, ability_of (Z.of_nat i) = Some a /\ can_serve a tx rx.
Proof.
  intros i ul dl tx rx Hi Hul Hdl [(k & w & sel & win & Hk & Iw & Iwin & Etx & Btx & Hts & Erx) _].
  destruct (row_facts i Hi) as (a & Ea & R). cbv zeta in R. set (m := nth i mslot_table mslot_na) in *.
  destruct R as [_ R]. destruct (R k Hk) as (R1 & R2 & R3 & R4 & R5 & R6). clear R.
  exists a. split; [ exact Ea | ].
  assert (S1 : size tx <= k). { rewrite <- (R1 w Iw). apply size_mono. intros ts O. subst tx. apply on_land in O. tauto. }
  assert (S2 : size rx <= Z.min (m_rx m) (m_sum m - k)).
  { rewrite <- (R2 win Iwin). apply size_mono. intros ts O. subst rx. apply on_land in O. tauto. }
  unfold can_serve. splits; [ lia | lia | destruct (ab_sum a); [ lia | exact I ] | ].
  destruct (ab_gaps a) as [[[[tta ttb] tra] trb]|]; [ | exact I ].
  assert (G : forall r x, gap_check m r x sel k = true -> gaps_ok tx rx r x).
  { intros r x G u d Ou Od. unfold gap_check in G. rewrite forallb_forall in G. specialize (G w Iw).
    rewrite forallb_forall in G. specialize (G d (proj2 (in_slots8 d) (proj1 Od))).
    subst rx tx. apply on_land in Od. destruct Od as [Od _]. apply on_land in Od. destruct Od as [_ [_ Od]].
    rewrite Od in G. unfold implb' at 1 in G. rewrite forallb_forall in G.
    apply on_land in Ou. destruct Ou as [[Ru Ou] _]. specialize (G u (proj2 (in_slots8 u) Ru)). rewrite Ou in G.
    unfold implb' in G. lia. }
  destruct R6 as [R6 R7]. destruct sel; [ right | left ]; apply G; assumption.
Qed.

Lemma find_multi_ok : forall t def cl ul0 dl0 u d, 0 <= ul0 < 256 -> 0 <= dl0 < 256 ->
  find_multi_slots t (get_mslot def cl) ul0 dl0 = Some (u, d) ->
  0 < u < 256 /\ 0 < d < 256 /\
  (forall ts, on u ts \/ on d ts -> pd_enabled (t ts) = true) /\
  (ul0 <> 0 -> forall ts, on u ts -> on ul0 ts) /\ (dl0 <> 0 -> forall ts, on d ts -> on dl0 ts) /\
  (exists a, ability_of (known_class def cl) = Some a /\ can_serve a u d) /\
  Z.min 2 (Z.min (size u) (size d)) <= size (Z.land u d) /\ shares u d.
Proof.
  intros t def cl ul0 dl0 u d Hul0 Hdl0 H. unfold find_multi_slots in H. cbv zeta in H.
  destruct (m_tx (get_mslot def cl) =? MS_NA) eqn:NA; [ discriminate | ].
  apply Z.eqb_neq in NA. destruct (get_mslot_row def cl NA) as (i & Hi & Ei & Em).
  rewrite Em in H, NA. set (m := nth i mslot_table mslot_na) in *.
  destruct (find_possible_ok t (Z.max (m_rx m) (m_tx m)) 255) as [Rp Hp].
  set (ps := find_possible_pdchs t (Z.max (m_rx m) (m_tx m)) 255) in *. clearbody ps.
  set (dl := Z.land (if dl0 =? 0 then 255 else dl0) ps) in *.
  set (ul := Z.land (if ul0 =? 0 then 255 else ul0) ps) in *.
  assert (Rul : 0 <= ul < 256) by (apply land_m8_r; exact Rp).
  assert (Rdl : 0 <= dl < 256) by (apply land_m8_r; exact Rp).
  assert (B : best_ok m ul dl (fold_left (fun b k => try_tx t m ul dl (Z.of_nat k) b) (seq 1 (Z.to_nat (m_tx m))) (-1, 0, 0))).
  { apply (fold_inv _ _ (best_ok m ul dl)); [ left; split; reflexivity | ].
    intros b k Ik P. apply in_seq in Ik. apply try_tx_ok; [ lia | exact P ]. }
  match type of B with best_ok _ _ _ ?x => destruct x as [[c mul] mdl] end.
  destruct ((mul =? 0) || (mdl =? 0)) eqn:Z0; [ discriminate | ].
  apply orb_false_iff in Z0. destruct Z0 as [Z1 Z2]. apply Z.eqb_neq in Z1, Z2.
  inversion H; subst mul mdl. clear H.
  destruct B as [[B _]|C]; [ congruence | ].
  pose proof C as [(k & w & sel & win & Hk & Iw & Iwin & Etx & Btx & Hts & Erx) RQ]. cbv zeta in RQ.
  assert (Ru : 0 <= u < 256) by (rewrite Etx; apply land_m8_r; exact Rul).
  assert (Rd : 0 <= d < 256). { rewrite Erx. apply land_m8. - apply land_m8; [ exact Rdl | apply not8_m8 ].
    - clear - Iwin. assert (G : forall n ts x w, In w (windows n ts x) -> 0 <= snd w).
      { induction n as [|n IH]; intros ts x w I; cbn [windows In] in I; [ contradiction | ].
        destruct I as [<-|I]; [ | eapply IH; exact I ]. cbn [snd]. unfold wrap_window. apply Z.land_nonneg. right. lia. }
      eapply G. exact Iwin. }
  assert (Uul : forall ts, on u ts -> on ul ts) by (intros ts O; rewrite Etx in O; apply on_land in O; tauto).
  assert (Ddl : forall ts, on d ts -> on dl ts).
  { intros ts O. rewrite Erx in O. apply on_land in O. destruct O as [O _]. apply on_land in O. tauto. }
  assert (Ou : on u (fst w)) by (split; [ exact Hts | exact Btx ]).
  destruct (m8_nonzero d Rd Z2) as [td Od].
  pose proof (size_pos _ _ Ou) as Su. pose proof (size_pos _ _ Od) as Sd.
  assert (RQ' : Z.min 2 (Z.min (size u) (size d)) <= size (Z.land u d)).
  { rewrite !bitcount_size in RQ by first [ assumption | apply land_m8; [ assumption | lia ] ].
    destruct (m_type m =? 1); lia. }
  splits; try lia.
  - intros ts [O|O]; [ apply Uul in O | apply Ddl in O ]; unfold ul, dl in O; apply on_land in O; destruct O as [_ O]; exact (proj1 (Hp ts O)).
  - intros N ts O. apply Uul in O. unfold ul in O. apply on_land in O. destruct (ul0 =? 0) eqn:E; [ lia | tauto ].
  - intros N ts O. apply Ddl in O. unfold dl in O. apply on_land in O. destruct (dl0 =? 0) eqn:E; [ lia | tauto ].
  - rewrite Ei. eapply cand_serve; [ exact Hi | | | exact C ]; assumption.
  - destruct (size_on (Z.land u d)) as [ts O]; [ lia | ]. apply on_land in O. exists ts. exact O.
Qed.

(** ** The two algorithms *)
Lemma least_busy_dl : forall b n mask ts, counters_ok b -> on mask ts ->
  find_least_busy (b n) DL mask usage_num false <> None.
Proof.
  intros b n mask ts C [R B]. unfold find_least_busy.
  match goal with |- context [fold_left ?f slots8 None] => set (F := f) end.
  assert (G : forall l acc, (forall x, In x l -> In x slots8) -> (acc <> None \/ exists x, In x l /\ Z.testbit mask x = true) -> fold_left F l acc <> None).
  { induction l as [|x l IH]; intros acc SB H; cbn [fold_left].
    - destruct H as [H|[x [[] _]]]. exact H.
    - assert (Hx : 0 <= x < 8) by (apply in_slots8, SB; left; reflexivity).
      apply IH; [ intros y Iy; apply SB; right; exact Iy | ]. unfold F. cbn [is_ul]. cbv zeta. destruct (Z.testbit mask x) eqn:M; cbn [negb].
      + left. destruct acc as [[u r]|].
        * destruct (usage_num (b n x) DL <? u); discriminate.
        * unfold usage_num, num_tbfs. pose proof (C n x DL Hx) as [C1 C2].
          destruct (Z.ltb_spec (pd_gprs (b n x) DL + pd_egprs (b n x) DL) 2147483647); [ discriminate | lia ].
      + destruct H as [H|[y [[<-|I] My]]]; [ left; exact H | congruence | right; exists y; auto ]. }
  assert (fold_left F slots8 None <> None).
  { apply G; [ auto | ]. right. exists ts. split; [ now apply in_slots8 | exact B ]. }
  destruct (fold_left F slots8 None); [ cbn [option_map]; discriminate | congruence ].
Qed.

(** What the reserved timeslots are afterwards. *)
Definition reserved_ok (b : bts) (d : dir) (r : ares) : Prop :=
  0 <= r_rul r < 256 /\ 0 <= r_rdl r < 256 /\ 0 <= r_common r < 8 /\
  (forall ts, on (r_rul r) ts \/ on (r_rdl r) ts -> pd_enabled (b (r_trx r) ts) = true) /\
  (forall ts, on (r_mask r) ts -> on (match d with UL => r_rul r | DL => r_rdl r end) ts).

Lemma get_single_sub : forall b n dl ul x ts, counters_ok b -> 0 <= dl < 256 -> 0 <= ul < 256 ->
  on (get_single_ts (b n) DL dl ul x) ts -> on dl ts /\ on ul ts.
Proof.
  intros b n dl ul x ts C Hd Hu O. unfold get_single_ts in O. cbv zeta in O.
  destruct x as [x|].
  - apply on_land in O. destruct O as [O _]. now apply on_land in O.
  - destruct (find_least_busy (b n) DL (Z.land dl ul) usage_num false) as [r|] eqn:E; cbn [option_map] in O.
    + apply on_land in O. destruct O as [O _]. now apply on_land in O.
    + exfalso. assert (Z.land dl ul = 0).
      { destruct (Z.eq_dec (Z.land dl ul) 0) as [e|N]; [ exact e | ].
        destruct (m8_nonzero (Z.land dl ul)) as [k Ok]; [ apply land_m8; lia | exact N | ].
        exact (False_ind _ (least_busy_dl b n _ k C Ok E)). }
      rewrite H in O. apply on_nonzero in O. apply O. reflexivity.
Qed.
Lemma select_range : forall t q ul dl, 0 <= ul < 256 -> 0 <= dl < 256 -> 0 <= select_slot_set t q ul dl < 256.
Proof.
  intros t q ul dl Hu Hd. unfold select_slot_set.
  destruct (q_single q); [ | destruct (is_ul (q_dir q)); assumption ].
  unfold get_single_ts. cbv zeta. pose proof (ffs_m8 (Z.land dl ul)).
  destruct (match option_map snd (v_common (q_ms q)) with Some x => Some x | None => _ end) as [x|]; [ | lia ].
  rewrite <- Z.land_assoc. apply land_m8; [ exact Hd | ]. apply Z.land_nonneg. left. lia.
Qed.

Lemma alloc_a_ok : forall b q r, ms_ok b (q_ms q) -> alloc_a b q = Some r -> granted b (q_dir q) r /\ reserved_ok b (q_dir q) r.
Proof.
  intros b q r M H. unfold alloc_a in H.
  destruct (find_trx b q) as [n|] eqn:F; [ | discriminate ].
  assert (Hn : 0 <= n < 8).
  { unfold find_trx in F. unfold ms_ok in M. destruct (v_trx (q_ms q)) as [k|].
    - inversion F; subst. tauto.
    - destruct ((0 <=? q_trx q) && (q_trx q <? 8)) eqn:E.
      + inversion F; subst. lia.
      + apply find_some in F. destruct F as [F _]. now apply in_slots8. }
  clear F. cbv zeta in H.
  match type of H with context [find_possible_pdchs (b n) 1 ?m] => destruct (find_possible_ok (b n) 1 m) as [_ P]; set (mask := find_possible_pdchs (b n) 1 m) in * end.
  clearbody mask. destruct (mask =? 0); [ discriminate | ].
  destruct (find_least_busy (b n) (q_dir q) mask usage_a true) as [[[ts tfi] usf]|] eqn:L; [ | discriminate ].
  apply find_least_busy_ok in L. destruct L as [L1 [L2 L3]]. specialize (L2 eq_refl).
  pose proof (proj1 L1) as Hts. destruct (P ts L1) as [Pe _].
  inversion H; subst r. clear H. pose proof (shift1_m8 ts Hts).
  split.
  - split; cbn [r_trx r_mask r_tfi r_usf]; try lia.
    + intros k O. apply on_shift1 in O; [ | exact Hts ]. subst k. exact Pe.
    + intros k O. apply on_shift1 in O; [ | exact Hts ]. subst k. exact L2.
    + intros D k O. apply on_shift1 in O; [ | exact Hts ]. subst k. rewrite upd_same. exact (L3 D).
  - unfold reserved_ok. cbn [r_trx r_mask r_rul r_rdl r_common]. splits; try lia.
    + intros k O. assert (on (Z.shiftl 1 ts) k) as O' by tauto. apply on_shift1 in O'; [ | exact Hts ]. subst k. exact Pe.
    + intros k O. destruct (q_dir q); exact O.
Qed.

Lemma alloc_b_ok : forall def b q r, ms_ok b (q_ms q) -> counters_ok b -> alloc_b def b q = Some r ->
  granted b (q_dir q) r /\ reserved_ok b (q_dir q) r.
Proof.
  intros def b q r M C H. unfold alloc_b in H. cbv zeta in H.
  destruct (req_tfi_find_free b q) as [[tfi n]|] eqn:T; [ | discriminate ].
  assert (TF : 0 <= n < 8 /\ trx_free (b n) (q_dir q) tfi /\ (forall k, v_trx (q_ms q) = Some k -> n = k)).
  { unfold req_tfi_find_free in T. unfold ms_ok in M. destruct (v_trx (q_ms q)) as [k|].
    - match type of T with (if ?c then _ else _) = _ => destruct c end; [ discriminate | ].
      pose proof (tfi_find_free_full b (q_dir q) k) as F. rewrite T in F. destruct F as [[A1 A2] [F _]].
      splits; try lia; [ exact F | ]. intros k' K. inversion K; subst. apply A2. tauto.
    - pose proof (tfi_find_free_full b (q_dir q) (q_trx q)) as F. rewrite T in F. destruct F as [[A1 A2] [F _]].
      splits; try lia; [ exact F | ]. intros k' K. discriminate. }
  clear T. destruct TF as [Hn [TF TK]].
  assert (R0 : 0 <= v_rul (q_ms q) < 256 /\ 0 <= v_rdl (q_ms q) < 256 /\
     (v_rul (q_ms q) <> 0 \/ v_rdl (q_ms q) <> 0 -> v_trx (q_ms q) = Some n) /\
     forall ts, on (v_rul (q_ms q)) ts \/ on (v_rdl (q_ms q)) ts -> pd_enabled (b n ts) = true).
  { unfold ms_ok in M. destruct (v_trx (q_ms q)) as [k|].
    - destruct M as [M1 [M2 [M3 M4]]]. rewrite (TK k eq_refl). splits; try lia; auto.
    - destruct M as [-> ->]. splits; try lia. intros ts [O|O]; apply on_nonzero in O; congruence. }
  destruct R0 as [RU [RD [_ RE]]].
  match type of H with match ?x with _ => _ end = _ => destruct x as [[rul rdl]|] eqn:SL end; [ | discriminate ].
  assert (S : 0 <= rul < 256 /\ 0 <= rdl < 256 /\ forall ts, on rul ts \/ on rdl ts -> pd_enabled (b n ts) = true).
  { destruct ((v_rdl (q_ms q) =? 0) || (v_rul (q_ms q) =? 0)).
    - apply find_multi_ok in SL; [ | lia | lia ]. destruct SL as [S1 [S2 [S3 _]]]. splits; try lia. exact S3.
    - inversion SL; subst. splits; try lia. exact RE. }
  clear SL RE. destruct S as [HU [HD HE]].
  pose proof (select_range (b n) q rul rdl HU HD) as SR.
  set (sel := select_slot_set (b n) q rul rdl) in *.
  destruct (sel =? 0) eqn:S0; [ discriminate | ]. apply Z.eqb_neq in S0.
  assert (TFI : forall mask, (forall ts, on mask ts -> pd_enabled (b n ts) = true) ->
     forall ts, on mask ts -> tfi_free (b n ts) (q_dir q) tfi).
  { intros mask E ts O. destruct TF as [_ [T1 T2]]. split; [ exact T1 | ]. apply T2; [ exact (proj1 O) | exact (E ts O) ]. }
  destruct (q_dir q) eqn:D.
  - assert (SUB : forall ts, on sel ts -> on rdl ts).
    { intros ts O. unfold sel, select_slot_set in O. rewrite D in O. cbn [is_ul] in O.
      destruct (q_single q); [ | exact O ]. apply get_single_sub in O; [ tauto | exact C | lia | lia ]. }
    clearbody sel.
    destruct ((ffs sel - 1 <? 0) || (ffs (Z.land sel rul) - 1 <? 0)) eqn:FF; [ discriminate | ].
    apply orb_false_iff in FF. destruct FF as [F1 F2]. pose proof (ffs_m8 (Z.land sel rul)).
    inversion H; subst r. clear H.
    assert (EN : forall ts, on sel ts -> pd_enabled (b n ts) = true) by (intros ts O; apply HE; right; apply SUB; exact O).
    split.
    + split; cbn [r_trx r_mask r_tfi r_usf]; try lia; try exact EN; try (apply TFI; exact EN). discriminate.
    + unfold reserved_ok. cbn [r_trx r_mask r_rul r_rdl r_common]. splits; try lia; [ exact HE | exact SUB ].
  - destruct (allocate_usf (b n) sel rdl) as [[u usf]|] eqn:A; [ | discriminate ].
    apply allocate_usf_ok in A; [ | lia | lia ]. destruct A as [A1 A2].
    destruct ((ffs u - 1 <? 0) || (ffs (Z.land rdl u) - 1 <? 0)) eqn:FF; [ discriminate | ].
    apply orb_false_iff in FF. destruct FF as [F1 F2]. pose proof (ffs_m8 (Z.land rdl u)).
    inversion H; subst r. clear H.
    assert (EN : forall ts, on u ts -> pd_enabled (b n ts) = true) by (intros ts O; apply HE; right; apply A2; exact O).
    split.
    + split; cbn [r_trx r_mask r_tfi r_usf]; try lia; try exact EN; try (apply TFI; exact EN).
      intros _ ts O. apply A2. exact O.
    + unfold reserved_ok. cbn [r_trx r_mask r_rul r_rdl r_common]. splits; try lia; [ | auto ].
      intros ts [O|O]; [ exact (EN ts O) | apply HE; right; exact O ].
Qed.

Lemma alloc_all_ok : forall a def b dis q r, ms_ok b (q_ms q) -> counters_ok b -> fst (alloc a def b dis q) = Some r ->
  granted b (q_dir q) r /\ reserved_ok b (q_dir q) r.
Proof.
  intros a def b dis q r M C H. unfold alloc in H. destruct a; cbn [fst] in H.
  - now apply alloc_a_ok.
  - eapply alloc_b_ok; eassumption.
  - destruct (dis && negb (idle_pdch_avail b)); cbn [fst] in H; [ now apply alloc_a_ok | ].
    destruct (alloc_b def b q) as [r'|] eqn:E; cbn [fst] in H; [ | now apply alloc_a_ok ].
    inversion H; subst. eapply alloc_b_ok; eassumption.
Qed.
