(** Proofs about the scheduler. *)
From Coq Require Import ZArith List Bool Lia.
From Verif Require Import Base.Arith Model.FrameNo Model.UlController Model.CodingScheme Model.Sched
  Spec.FrameSpec Spec.SchedSpec.
Import ListNotations.
Local Open Scope Z_scope.

Lemma land31 x : Z.land x 31 = x mod 32.
Proof. change 31 with (Z.ones 5). rewrite Z.land_ones by lia. reflexivity. Qed.
Lemma land31_ok x : tfi_ok (Z.land x 31).
Proof. rewrite land31. unfold tfi_ok. apply Z.mod_pos_bound. lia. Qed.
Lemma dist_range f t : 0 <= dist f t < 32.
Proof. apply Z.mod_pos_bound. lia. Qed.
Lemma dist_self t : dist t t = 0.
Proof. unfold dist. rewrite Z.sub_diag. reflexivity. Qed.
Lemma dist_inj f t t' : tfi_ok t -> tfi_ok t' -> dist f t = dist f t' -> t = t'.
Proof. unfold dist, tfi_ok. intros. Z.div_mod_to_equations. lia. Qed.
Lemma dist_zero f t : tfi_ok f -> tfi_ok t -> dist f t = 0 -> f = t.
Proof. intros F T E. apply (dist_inj f); auto. rewrite dist_self. auto. Qed.
(** After [g] comes the point one further. *)
Lemma dist_after f g t : tfi_ok t -> tfi_ok g -> t <> g -> dist f g <= dist f t ->
  dist (Z.land (g + 1) 31) t = dist f t - dist f g - 1.
Proof. rewrite land31. unfold dist, tfi_ok. intros. Z.div_mod_to_equations. lia. Qed.
Lemma dist_after_le f g t : tfi_ok t -> tfi_ok g -> dist f t < dist f g ->
  dist (Z.land (g + 1) 31) t = 32 + dist f t - dist f g - 1.
Proof. rewrite land31. unfold dist, tfi_ok. intros. Z.div_mod_to_equations. lia. Qed.
Lemma dist_after_self g : dist (Z.land (g + 1) 31) g = 31.
Proof. rewrite land31. unfold dist. Z.div_mod_to_equations. lia. Qed.
Lemma dist_step f t : tfi_ok f -> tfi_ok t -> t <> f -> dist f t = 1 + dist (Z.land (f + 1) 31) t.
Proof. rewrite land31. unfold dist, tfi_ok. intros. Z.div_mod_to_equations. lia. Qed.

(** ** Uplink *)

Definition invb (ul : Z -> option ultbf) (g : bool) (t : Z) : bool :=
  match ul t with Some u => u_flow u && negb (g && u_egprs u) | None => false end.
Lemma invb_iff ul g t : tfi_ok t -> (invb ul g t = true <-> invitable ul g t).
Proof.
  intros T. unfold invb, invitable. split.
  - destruct (ul t) as [u|]; [|discriminate]. intros E. apply andb_true_iff in E. destruct E as [E1 E2].
    split; [exact T|]. exists u. splits; auto. intros ->. cbn [andb] in E2. now destruct (u_egprs u).
  - intros (_ & u & -> & -> & G). cbn [andb]. destruct g; cbn [andb]; auto. rewrite G; auto.
Qed.

Lemma ul_loop_some n : forall ul g from t u, tfi_ok from -> (n <= 32)%nat ->
  select_ul_loop n ul g from = Some (t, u) ->
  tfi_ok t /\ ul t = Some u /\ invb ul g t = true /\ dist from t < Z.of_nat n /\
  forall t', tfi_ok t' -> invb ul g t' = true -> dist from t <= dist from t'.
Proof.
  induction n; intros ul g from t u F N; cbn [select_ul_loop]; [discriminate|].
  assert (R : select_ul_loop n ul g (Z.land (from + 1) 31) = Some (t, u) -> invb ul g from = false ->
     tfi_ok t /\ ul t = Some u /\ invb ul g t = true /\ dist from t < Z.of_nat (S n) /\
     forall t', tfi_ok t' -> invb ul g t' = true -> dist from t <= dist from t').
  { intros E V. apply IHn in E; [|apply land31_ok|lia]. destruct E as (T & U & I & D & M).
    assert (t <> from) by (intros ->; congruence).
    splits; auto.
    - rewrite dist_step by auto. lia.
    - intros t' T' I'. assert (t' <> from) by (intros ->; congruence).
      rewrite (dist_step from t), (dist_step from t') by auto. specialize (M t' T' I'). lia. }
  destruct (ul from) as [x|] eqn:X.
  - destruct (u_flow x) eqn:FL; cbn [negb].
    + destruct (g && u_egprs x) eqn:GE.
      * intros E. apply R; auto. unfold invb. rewrite X, FL, GE. reflexivity.
      * intros E. injection E as <- <-. splits; auto.
        -- unfold invb. rewrite X, FL, GE. reflexivity.
        -- rewrite dist_self. lia.
        -- intros t' T' _. rewrite dist_self. apply dist_range.
    + intros E. apply R; auto. unfold invb. now rewrite X, FL.
  - intros E. apply R; auto. unfold invb. now rewrite X.
Qed.
Lemma ul_loop_none n : forall ul g from, tfi_ok from -> (n <= 32)%nat ->
  select_ul_loop n ul g from = None ->
  forall t, tfi_ok t -> dist from t < Z.of_nat n -> invb ul g t = false.
Proof.
  induction n; intros ul g from F N; cbn [select_ul_loop].
  - intros _ t _ D. pose proof (dist_range from t). lia.
  - assert (R : select_ul_loop n ul g (Z.land (from + 1) 31) = None -> invb ul g from = false ->
      forall t, tfi_ok t -> dist from t < Z.of_nat (S n) -> invb ul g t = false).
    { intros E V t T D. destruct (Z.eq_dec t from) as [->|NE]; [exact V|].
      rewrite dist_step in D by auto. apply (IHn _ _ (Z.land (from + 1) 31)); auto;
        [apply land31_ok|lia|lia]. }
    destruct (ul from) as [x|] eqn:X.
    + destruct (u_flow x) eqn:FL; cbn [negb].
      * destruct (g && u_egprs x) eqn:GE; [|discriminate].
        intros E. apply R; auto. unfold invb. now rewrite X, FL, GE.
      * intros E. apply R; auto. unfold invb. now rewrite X, FL.
    + intros E. apply R; auto. unfold invb. now rewrite X.
Qed.

Lemma select_uplink_some ul g next t u next' : tfi_ok next ->
  select_uplink ul g next = (Some (t, u), next') ->
  invitable ul g t /\ ul t = Some u /\ next' = (t + 1) mod 32 /\
  forall t', invitable ul g t' -> dist next t <= dist next t'.
Proof.
  intros N. unfold select_uplink. destruct (select_ul_loop 32 ul g next) as [[a x]|] eqn:E; [|discriminate].
  intros W. injection W as <- <- <-.
  apply ul_loop_some in E; [|auto|lia]. destruct E as (T & U & I & _ & M). splits; auto.
  - apply invb_iff; auto.
  - apply land31.
  - intros t' V. pose proof (proj1 V). apply M; auto. apply invb_iff; auto.
Qed.
Lemma select_uplink_none ul g next : tfi_ok next ->
  (fst (select_uplink ul g next) = None <-> forall t, ~ invitable ul g t).
Proof.
  intros N. unfold select_uplink. destruct (select_ul_loop 32 ul g next) as [[a x]|] eqn:E; cbn [fst].
  - split; [discriminate|]. intros Q. exfalso. apply ul_loop_some in E; [|auto|lia].
    destruct E as (T & U & I & _). apply (Q a). apply invb_iff; auto.
  - split; [|reflexivity]. intros _ t V. pose proof (proj1 V) as T.
    apply invb_iff in V; auto. rewrite (ul_loop_none _ _ _ _ N (le_n 32) E t T) in V; [discriminate|].
    apply dist_range.
Qed.
Lemma select_uplink_idle ul g next next' : select_uplink ul g next = (None, next') -> next' = next.
Proof.
  unfold select_uplink. destruct (select_ul_loop 32 ul g next) as [[a x]|]; [discriminate|].
  intros E. now injection E as <-.
Qed.

(** ** The measure for fairness: members of a set at or before [t]. *)

Definition before (f t : Z) (s : Z) : bool := dist f s <=? dist f t.
Definition load (f t : Z) (l : list Z) : nat := length (filter (before f t) l).

Lemma filter_lt {A} (f f' : A -> bool) l x : (forall y, In y l -> f' y = true -> f y = true) ->
  In x l -> f x = true -> f' x = false -> (length (filter f' l) < length (filter f l))%nat.
Proof.
  intros Q I Fx Fx'.
  assert (L : forall l, (forall y, In y l -> f' y = true -> f y = true) ->
     (length (filter f' l) <= length (filter f l))%nat).
  { clear. induction l as [|y r IH]; intros Q; cbn [filter]; [lia|].
    assert (forall z, In z r -> f' z = true -> f z = true) by (intros; apply Q; [right|]; auto).
    specialize (IH H). specialize (Q y (or_introl eq_refl)).
    destruct (f' y); [rewrite Q by reflexivity; cbn [length]; lia|].
    destruct (f y); cbn [length]; lia. }
  induction l as [|y r IH]; [contradiction|]. cbn [filter].
  assert (Qr : forall z, In z r -> f' z = true -> f z = true) by (intros; apply Q; [right|]; auto).
  destruct I as [->|I].
  - rewrite Fx, Fx'. cbn [length]. specialize (L r Qr). lia.
  - specialize (IH Qr I). specialize (Q y (or_introl eq_refl)).
    destruct (f' y); [rewrite Q by reflexivity; cbn [length]; lia|].
    destruct (f y); cbn [length]; lia.
Qed.
Lemma load_drop f t g l : tfi_ok t -> Forall tfi_ok l -> In g l -> g <> t -> dist f g <= dist f t ->
  (load (Z.land (g + 1) 31) t l < load f t l)%nat.
Proof.
  intros T FA I NE D. pose proof (proj1 (Forall_forall _ _) FA g I) as G.
  unfold load. apply (filter_lt _ _ l g); auto.
  - intros s Is. pose proof (proj1 (Forall_forall _ _) FA s Is) as Sk.
    unfold before. rewrite !Z.leb_le. intros B.
    rewrite (dist_after f g t) in B; auto.
    destruct (Z.eq_dec s g) as [->|Sg]; [rewrite dist_after_self in B; pose proof (dist_range f t); pose proof (dist_range f g); lia|].
    destruct (Z_le_gt_dec (dist f g) (dist f s)) as [L|L].
    + rewrite (dist_after f g s) in B; auto. lia.
    + rewrite (dist_after_le f g s) in B; auto; [|lia]. pose proof (dist_range f t); pose proof (dist_range f g); pose proof (dist_range f s); lia.
  - unfold before. apply Z.leb_le. lia.
  - unfold before. apply Z.leb_gt. rewrite dist_after_self. rewrite (dist_after f g t); auto.
    pose proof (dist_range f t). pose proof (dist_range f g). lia.
Qed.
Lemma load_pos f t l : In t l -> (1 <= load f t l)%nat.
Proof.
  intros I. unfold load. assert (In t (filter (before f t) l)).
  { apply filter_In. split; auto. unfold before. apply Z.leb_refl. }
  destruct (filter (before f t) l); [contradiction|cbn [length]; lia].
Qed.
Lemma load_le f t l : (load f t l <= length l)%nat.
Proof. unfold load. induction l as [|x r IH]; cbn [filter length]; [lia|]. destruct (before f t x); cbn [length]; lia. Qed.

Lemma ul_fair_load S t (T : tfi_ok t) (FS : Forall tfi_ok S) : forall l next, tfi_ok next ->
  (forall ul g, In (ul, g) l -> invitable ul g t) ->
  (forall ul g t', In (ul, g) l -> invitable ul g t' -> In t' S) ->
  (load next t S <= length l)%nat -> l <> [] -> In (Some t) (ul_rounds l next).
Proof.
  induction l as [|[ul g] r IH]; intros next N E C L NE; [contradiction|].
  cbn [ul_rounds]. destruct (select_uplink ul g next) as [[[a u]|] next'] eqn:W.
  - destruct (select_uplink_some _ _ _ _ _ _ N W) as (V & U & -> & M).
    cbn [option_map fst]. destruct (Z.eq_dec a t) as [->|NEa]; [left; reflexivity|]. right.
    assert (Ia : In a S) by (apply (C ul g); [left; reflexivity|exact V]).
    assert (It : In t S) by (apply (C ul g); [left; reflexivity|apply E; left; reflexivity]).
    assert (D : dist next a <= dist next t) by (apply M, E; left; reflexivity).
    pose proof (load_drop next t a S T FS Ia NEa D) as LD. rewrite land31 in LD.
    cbn [length] in L. pose proof (load_pos ((a + 1) mod 32) t S It).
    apply IH.
    + unfold tfi_ok. apply Z.mod_pos_bound. lia.
    + intros; apply E; right; auto.
    + intros ul' g' t' I. apply C; right; auto.
    + lia.
    + intros ->. cbn [length] in L. lia.
  - exfalso. pose proof (proj1 (select_uplink_none ul g next N)) as Q. rewrite W in Q.
    apply (Q eq_refl t). apply E. left; reflexivity.
Qed.
Lemma ul_fair S t l next : tfi_ok next -> tfi_ok t -> Forall tfi_ok S ->
  (forall ul g, In (ul, g) l -> invitable ul g t) ->
  (forall ul g t', In (ul, g) l -> invitable ul g t' -> In t' S) ->
  (length S <= length l)%nat -> In t S -> In (Some t) (ul_rounds l next).
Proof.
  intros N T FS E C L I. apply (ul_fair_load S); auto.
  - pose proof (load_le next t S). lia.
  - intros ->. destruct S; [contradiction|cbn [length] in L; lia].
Qed.
Lemma all_tfis t : tfi_ok t -> In t (map Z.of_nat (seq 0 32)).
Proof.
  intros T. apply in_map_iff. exists (Z.to_nat t). unfold tfi_ok in T. split; [lia|]. apply in_seq. lia.
Qed.
Lemma all_tfis_ok : Forall tfi_ok (map Z.of_nat (seq 0 32)).
Proof. apply Forall_forall. intros x I. apply in_map_iff in I. destruct I as (n & <- & I). apply in_seq in I. unfold tfi_ok. lia. Qed.
Lemma ul_fair32 t l next : tfi_ok next -> tfi_ok t -> length l = 32%nat ->
  (forall ul g, In (ul, g) l -> invitable ul g t) -> In (Some t) (ul_rounds l next).
Proof.
  intros N T L E. apply (ul_fair (map Z.of_nat (seq 0 32))); auto.
  - apply all_tfis_ok.
  - intros ul g t' _ V. apply all_tfis, V.
  - rewrite map_length, seq_length. lia.
  - now apply all_tfis.
Qed.

(** ** Downlink *)

Lemma rank_prio c d fn : rank_is c d fn (compute_priority c d fn (frames_since_last (d_last_poll d) fn)).
Proof.
  unfold rank_is, compute_priority. set (age := frames_since_last (d_last_poll d) fn).
  assert (P : must_poll d <-> d_ctrl_ts d && need_poll d = true).
  { unfold must_poll, need_poll, POLL_ACK_AFTER_FRAMES. rewrite andb_true_iff, !orb_true_iff, Z.leb_le. tauto. }
  assert (A : long_unpolled c d age <-> d_ctrl_ts d
     && (msecs_to_frames (Z.min (c_t3190 c / 2) (c_idle c)) <? age)
     && (0 <? msecs_to_frames (Z.min (c_t3190 c / 2) (c_idle c))) = true).
  { unfold long_unpolled. rewrite !andb_true_iff, !Z.ltb_lt. tauto. }
  assert (W : has_work d <-> (d_state d =? 0) && d_have_data d || d_resend d = true).
  { unfold has_work. rewrite orb_true_iff, andb_true_iff, Z.eqb_eq. tauto. }
  assert (K : kept_alive c d fn age <-> d_ctrl_ts d && (msecs_to_frames 200 <? age) && keep_open c d fn = true).
  { unfold kept_alive. rewrite !andb_true_iff, Z.ltb_lt. tauto. }
  cbv zeta. rewrite P, A, W, K. unfold unacked.
  destruct (d_ctrl_ts d && need_poll d); [left; auto|right].
  destruct (d_ctrl_ts d && _ && _); [left; splits; auto; discriminate|right].
  destruct (_ || _); [left; splits; auto; discriminate|right].
  destruct (d_ctrl_ts d && _ && _); [left; splits; auto; discriminate|right].
  destruct (d_empty d); cbn [negb]; [right|left]; splits; auto; discriminate.
Qed.
Lemma rank_unique c d fn r r' : rank_is c d fn r -> rank_is c d fn r' -> r = r'.
Proof. unfold rank_is. cbv zeta. intros. intuition (subst; auto; contradiction). Qed.

Definition candb (c : sconf) (dl : Z -> option dltbf) (fn : Z) (req : mkind) (t : Z) : option (dltbf * Z) :=
  match dl t with
  | None => None
  | Some d =>
    if negb (d_state d =? 0) && negb (d_state d =? 1) then None
    else if keqb req GPRS && d_egprs d then None
    else
      let prio := compute_priority c d fn (frames_since_last (d_last_poll d) fn) in
      if prio =? PRIO_NONE then None
      else if keqb req EGPRS_GMSK && negb (can_produce_gmsk d prio) then None
      else Some (d, prio)
  end.
Lemma keqb_iff a b : keqb a b = true <-> a = b.
Proof. destruct a, b; cbn; split; congruence. Qed.
Lemma candb_iff c dl fn req t r : tfi_ok t ->
  (sendable c dl fn req t r <-> exists d, candb c dl fn req t = Some (d, r)).
Proof.
  intros T. unfold sendable, candb. split.
  - intros (_ & d & -> & St & R & R0 & G & M).
    pose proof (rank_unique _ _ _ _ _ R (rank_prio c d fn)) as E. rewrite <- E. exists d.
    assert (S0 : negb (d_state d =? 0) && negb (d_state d =? 1) = false)
      by (destruct St as [-> | ->]; reflexivity).
    rewrite S0. cbv zeta.
    destruct (keqb req GPRS && d_egprs d) eqn:X.
    { apply andb_true_iff in X. destruct X as [X1 X2]. apply keqb_iff in X1. rewrite G in X2; auto; discriminate. }
    unfold PRIO_NONE. destruct (r =? 0) eqn:Z0; [apply Z.eqb_eq in Z0; contradiction|].
    destruct (keqb req EGPRS_GMSK && negb (can_produce_gmsk d r)) eqn:Y; [|reflexivity]. exfalso.
    apply andb_true_iff in Y. destruct Y as [Y1 Y2]. apply keqb_iff in Y1.
    unfold can_produce_gmsk in Y2. destruct (d_egprs d) eqn:EG; cbn [negb] in Y2; [|discriminate].
    destruct (M Y1 eq_refl) as [-> | [-> RS]].
    + cbn in Y2. discriminate.
    + cbn in Y2. rewrite RS in Y2. discriminate.
  - intros (d & E). destruct (dl t) as [x|] eqn:X; [|discriminate].
    destruct (negb (d_state x =? 0) && negb (d_state x =? 1)) eqn:S0; [discriminate|].
    destruct (keqb req GPRS && d_egprs x) eqn:G; [discriminate|].
    cbv zeta in E. set (p := compute_priority c x fn (frames_since_last (d_last_poll x) fn)) in *.
    destruct (p =? PRIO_NONE) eqn:Z0; [discriminate|].
    destruct (keqb req EGPRS_GMSK && negb (can_produce_gmsk x p)) eqn:Y; [discriminate|].
    assert (x = d /\ p = r) as [-> Ep] by (split; congruence).
    split; [exact T|]. exists d. splits; auto.
    + destruct (Z.eqb_spec (d_state d) 0); [left; auto|]. destruct (Z.eqb_spec (d_state d) 1); [right; auto|discriminate].
    + rewrite <- Ep. apply rank_prio.
    + apply Z.eqb_neq in Z0. unfold PRIO_NONE in Z0. congruence.
    + intros ->. cbn [keqb andb] in G. exact G.
    + intros -> EG. cbn [keqb andb] in Y. unfold can_produce_gmsk in Y. rewrite EG in Y. cbn [negb] in Y.
      unfold PRIO_CONTROL, PRIO_NEW_DATA in Y. rewrite Ep in Y.
      destruct (Z.eqb_spec r 5); [left; auto|]. destruct (Z.eqb_spec r 3); [right|discriminate].
      split; auto. destruct (d_resend d); auto; discriminate.
Qed.

Lemma candb_pos c dl fn req t d p : candb c dl fn req t = Some (d, p) -> 0 < p.
Proof.
  unfold candb. destruct (dl t) as [x|]; [|discriminate].
  destruct (_ && _); [discriminate|]. destruct (_ && _); [discriminate|]. cbv zeta.
  set (q := compute_priority c x fn _). destruct (q =? PRIO_NONE) eqn:E; [discriminate|].
  destruct (_ && _); [discriminate|]. intros W. assert (q = p) by congruence. subst p.
  apply Z.eqb_neq in E. unfold PRIO_NONE in E.
  assert (0 <= q); [|lia]. unfold q, compute_priority, PRIO_CONTROL, PRIO_HIGH_AGE, PRIO_NEW_DATA, PRIO_LOW_AGE, PRIO_SENT_DATA, PRIO_NONE.
  repeat match goal with |- context [if ?b then _ else _] => destruct b end; lia.
Qed.
Lemma dl_loop_eq n c dl fn req tfi best :
  select_dl_loop (S n) c dl fn req tfi best =
  select_dl_loop n c dl fn req (Z.land (tfi + 1) 31)
    (match candb c dl fn req tfi with
     | Some (d, p) => if best_prio best <? p then Some (tfi, d, p) else best
     | None => best
     end).
Proof.
  cbn [select_dl_loop]. unfold candb. destruct (dl tfi) as [d|]; [|reflexivity].
  destruct (_ && _); [reflexivity|]. destruct (_ && _); [reflexivity|]. cbv zeta.
  destruct (_ =? _); [reflexivity|]. destruct (_ && _); [reflexivity|].
  destruct (_ <? _); reflexivity.
Qed.
(** The result is the best so far, or the first of the highest among the rest. *)
Lemma dl_loop_ok n : forall c dl fn req from best, tfi_ok from -> (n <= 32)%nat ->
  let res := select_dl_loop n c dl fn req from best in
  (res = best /\ (forall t d p, tfi_ok t -> dist from t < Z.of_nat n -> candb c dl fn req t = Some (d, p) ->
       p <= best_prio best)) \/
  (exists t d p, res = Some (t, d, p) /\ tfi_ok t /\ dist from t < Z.of_nat n /\
     candb c dl fn req t = Some (d, p) /\ best_prio best < p /\
     forall t' d' p', tfi_ok t' -> dist from t' < Z.of_nat n -> candb c dl fn req t' = Some (d', p') ->
       p' < p \/ (p' = p /\ dist from t <= dist from t')).
Proof.
  induction n; intros c dl fn req from best F N res.
  - left. split; [reflexivity|]. intros t d p _ D. pose proof (dist_range from t). lia.
  - subst res. rewrite dl_loop_eq.
    assert (N' : (n <= 32)%nat) by lia.
    assert (LR : forall t, tfi_ok t -> t <> from -> dist from t < Z.of_nat (S n) ->
      dist (Z.land (from + 1) 31) t < Z.of_nat n).
    { intros t T NE D. rewrite dist_step in D; auto. lia. }
    destruct (candb c dl fn req from) as [[d0 p0]|] eqn:C0.
    + destruct (best_prio best <? p0) eqn:B.
      * apply Z.ltb_lt in B.
        destruct (IHn c dl fn req (Z.land (from + 1) 31) (Some (from, d0, p0)) (land31_ok (from + 1)) N') as [[E A]|(t & d & p & E & T & D & C & Q & A)].
        -- right. exists from, d0, p0. rewrite E. splits; auto.
           ++ rewrite dist_self. lia.
           ++ intros t' d' p' T' D' C'. destruct (Z.eq_dec t' from) as [->|NE].
              ** right. rewrite C0 in C'. split; [congruence|lia].
              ** specialize (A t' d' p' T' (LR t' T' NE D') C'). cbn [best_prio] in A.
                 rewrite dist_self. pose proof (dist_range from t').
                 destruct (Z_lt_le_dec p' p0); [left; lia|right; lia].
        -- right. exists t, d, p. rewrite E. cbn [best_prio] in Q.
           assert (t <> from) by (intros ->; rewrite C0 in C; assert (p0 = p) by congruence; lia).
           splits; auto; [rewrite dist_step by auto; lia|lia|].
           intros t' d' p' T' D' C'. destruct (Z.eq_dec t' from) as [->|NE].
           ++ rewrite C0 in C'. assert (p0 = p') by congruence. left; lia.
           ++ destruct (A t' d' p' T' (LR t' T' NE D') C') as [|[]]; [left; auto|right].
              split; auto. rewrite (dist_step from t), (dist_step from t') by auto. lia.
      * apply Z.ltb_ge in B.
        destruct (IHn c dl fn req (Z.land (from + 1) 31) best (land31_ok (from + 1)) N') as [[E A]|(t & d & p & E & T & D & C & Q & A)].
        -- left. split; [exact E|]. intros t' d' p' T' D' C'. destruct (Z.eq_dec t' from) as [->|NE].
           ++ rewrite C0 in C'. assert (p0 = p') by congruence. lia.
           ++ eapply A; eauto.
        -- right. exists t, d, p. rewrite E.
           assert (t <> from) by (intros ->; rewrite C0 in C; assert (p0 = p) by congruence; lia).
           splits; auto; [rewrite dist_step by auto; lia|].
           intros t' d' p' T' D' C'. destruct (Z.eq_dec t' from) as [->|NE].
           ++ rewrite C0 in C'. assert (p0 = p') by congruence. left; lia.
           ++ destruct (A t' d' p' T' (LR t' T' NE D') C') as [|[]]; [left; auto|right].
              split; auto. rewrite (dist_step from t), (dist_step from t') by auto. lia.
    + destruct (IHn c dl fn req (Z.land (from + 1) 31) best (land31_ok (from + 1)) N') as [[E A]|(t & d & p & E & T & D & C & Q & A)].
      * left. split; [exact E|]. intros t' d' p' T' D' C'. destruct (Z.eq_dec t' from) as [->|NE]; [congruence|].
        eapply A; eauto.
      * right. exists t, d, p. rewrite E. assert (t <> from) by (intros ->; congruence).
        splits; auto; [rewrite dist_step by auto; lia|].
        intros t' d' p' T' D' C'. destruct (Z.eq_dec t' from) as [->|NE]; [congruence|].
        destruct (A t' d' p' T' (LR t' T' NE D') C') as [|[]]; [left; auto|right].
        split; auto. rewrite (dist_step from t), (dist_step from t') by auto. lia.
Qed.

Lemma select_dl_some c dl fn req next t d p next' : tfi_ok next ->
  select_dl c dl fn req next = (Some (t, d, p), next') ->
  sendable c dl fn req t p /\ dl t = Some d /\ next' = (t + 1) mod 32 /\
  forall t' p', sendable c dl fn req t' p' -> p' < p \/ (p' = p /\ dist next t <= dist next t').
Proof.
  intros N. unfold select_dl.
  destruct (dl_loop_ok 32 c dl fn req next None N (le_n 32)) as [[E A]|(a & x & q & E & T & D & C & Q & A)];
    rewrite E; [discriminate|].
  intros W. injection W as <- <- <- <-. splits.
  - apply candb_iff; auto. exists x. exact C.
  - unfold candb in C. destruct (dl a) as [y|]; [|discriminate].
    destruct (_ && _); [discriminate|]. destruct (_ && _); [discriminate|]. cbv zeta in C.
    destruct (_ =? _); [discriminate|]. destruct (_ && _); [discriminate|]. congruence.
  - apply land31.
  - intros t' p' Sd. pose proof (proj1 Sd) as T'. apply candb_iff in Sd; auto. destruct Sd as [d' C'].
    apply (A t' d' p'); auto. apply dist_range.
Qed.
Lemma select_dl_none c dl fn req next : tfi_ok next ->
  (fst (select_dl c dl fn req next) = None <-> forall t p, ~ sendable c dl fn req t p).
Proof.
  intros N. unfold select_dl.
  destruct (dl_loop_ok 32 c dl fn req next None N (le_n 32)) as [[E A]|(a & x & q & E & T & D & C & Q & A)];
    rewrite E; cbn [fst].
  - split; [|reflexivity]. intros _ t p Sd. pose proof (proj1 Sd) as T. apply candb_iff in Sd; auto.
    destruct Sd as [d C]. specialize (A t d p T (proj2 (dist_range _ _)) C). apply candb_pos in C. cbn [best_prio] in A. unfold PRIO_NONE in A. lia.
  - split; [discriminate|]. intros Z0. exfalso. apply (Z0 a q). apply candb_iff; eauto.
Qed.

Lemma dl_fair_load S t (T : tfi_ok t) (FS : Forall tfi_ok S) : forall l next, tfi_ok next ->
  (forall r, In r l -> top r t) ->
  (forall r t', In r l -> top r t' -> In t' S) ->
  (load next t S <= length l)%nat -> l <> [] -> In (Some t) (dl_rounds l next).
Proof.
  induction l as [|r tl IH]; intros next N E C L NE; [contradiction|].
  cbn [dl_rounds]. destruct (E r (or_introl eq_refl)) as (p & Sd & Mx).
  destruct (select_dl (dr_conf r) (dr_dl r) (dr_fn r) (dr_req r) next) as [[[[a d] q]|] next'] eqn:W.
  - destruct (select_dl_some _ _ _ _ _ _ _ _ _ N W) as (V & U & -> & M).
    cbn [option_map fst]. destruct (Z.eq_dec a t) as [->|NEa]; [left; reflexivity|]. right.
    assert (Q : p = q /\ dist next a <= dist next t).
    { pose proof (Mx a q V). destruct (M t p Sd) as [|[]]; split; auto; lia. }
    destruct Q as [<- D].
    assert (Ia : In a S) by (apply (C r); [left; reflexivity|exists p; auto]).
    assert (It : In t S) by (apply (C r); [left; reflexivity|exists p; auto]).
    pose proof (load_drop next t a S T FS Ia NEa D) as LD. rewrite land31 in LD.
    cbn [length] in L. pose proof (load_pos ((a + 1) mod 32) t S It).
    apply IH.
    + unfold tfi_ok. apply Z.mod_pos_bound. lia.
    + intros; apply E; right; auto.
    + intros r' t' I. apply C; right; auto.
    + lia.
    + intros ->. cbn [length] in L. lia.
  - exfalso. pose proof (proj1 (select_dl_none (dr_conf r) (dr_dl r) (dr_fn r) (dr_req r) next N)) as Q.
    rewrite W in Q. apply (Q eq_refl t p Sd).
Qed.
Lemma dl_fair S t l next : tfi_ok next -> tfi_ok t -> Forall tfi_ok S ->
  (forall r, In r l -> top r t) ->
  (forall r t', In r l -> top r t' -> In t' S) ->
  (length S <= length l)%nat -> In t S -> In (Some t) (dl_rounds l next).
Proof.
  intros N T FS E C L I. apply (dl_fair_load S); auto.
  - pose proof (load_le next t S). lia.
  - intros ->. destruct S; [contradiction|cbn [length] in L; lia].
Qed.

Lemma age_ok last fn a : in_hyper last -> age_is last fn a -> frames_since_last last fn = a.
Proof.
  unfold in_hyper, age_is, frames_since_last, HYP. intros L [A ->].
  change (2715648 / 2) with 1357824 in *.
  assert (E : (((last + a) mod 2715648 + 2715648 - last) mod 4294967296) mod 2715648 = a).
  { Z.div_mod_to_equations. lia. }
  rewrite E. destruct (last <? 0) eqn:B; [apply Z.ltb_lt in B; lia|].
  destruct (a <? 1357824) eqn:C; [reflexivity|apply Z.ltb_ge in C; lia].
Qed.
