(** Paging. *)
From Coq Require Import ZArith List Bool Lia Permutation.
From Verif Require Import Base.Arith Model.Paging Spec.PagingSpec.
Import ListNotations.
Open Scope Z_scope.

Lemma fldb_length : forall n v, length (fldb n v) = n.
Proof. induction n as [|n IH]; intros v; cbn; [reflexivity|rewrite IH; reflexivity]. Qed.

Lemma uint_fldb : forall n v acc r, uint n acc (fldb n v ++ r) = Some (acc * 2 ^ Z.of_nat n + v mod 2 ^ Z.of_nat n, r).
Proof.
  induction n as [|n IH]; intros v acc r.
  - cbn [uint fldb app]. change (2 ^ Z.of_nat 0) with 1. rewrite Z.mod_1_r. do 2 f_equal. lia.
  - cbn [fldb app uint]. rewrite IH. do 2 f_equal.
    rewrite Nat2Z.inj_succ, Z.pow_succ_r by lia.
    replace (2 * 2 ^ Z.of_nat n) with (2 ^ Z.of_nat n * 2) by lia.
    rewrite Z.rem_mul_r by lia. rewrite <- Z.testbit_spec' by lia. lia.
Qed.
Lemma uint_exact : forall n v r, 0 <= v < 2 ^ Z.of_nat n -> uint n 0 (fldb n v ++ r) = Some (v, r).
Proof. intros n v r H. rewrite uint_fldb, Z.mod_small by exact H. reflexivity. Qed.

Lemma octs_fldb : forall o r, Forall (fun x => 0 <= x < 256) o -> octs (length o) (flat_map (fldb 8) o ++ r) = Some (o, r).
Proof.
  induction o as [|x o IH]; intros r H; [reflexivity|]. inversion H; subst. cbn [length octs flat_map].
  rewrite <- app_assoc, uint_exact by (cbn; lia). rewrite IH by assumption. reflexivity.
Qed.
Lemma flat8_length : forall o, Z.of_nat (length (flat_map (fldb 8) o)) = 8 * Z.of_nat (length o).
Proof.
  induction o as [|x o IH]; [reflexivity|]. cbn [flat_map length]. rewrite app_length, fldb_length. lia.
Qed.

Lemma good_len : forall p, good p -> exists len, pag_len p = Some len /\ Z.of_nat (length (pag_info p)) = len /\ 0 < len <= 74.
Proof.
  intros p (C & O & L). unfold pag_len, pag_info, is_tmsi in *.
  destruct (Z.land (nth 0 (pg_id p) 0) 7 =? 4).
  - rewrite L. cbn [Z.of_nat Pos.of_succ_nat Pos.succ Z.eqb Pos.eqb negb]. eexists. split; [reflexivity|].
    rewrite !app_length, !fldb_length. destruct (pg_id p) as [|x o]; [discriminate|]. cbn [skipn].
    cbn [length] in L. pose proof (flat8_length o). lia.
  - rewrite Z.gtb_ltb. destruct (8 <? Z.of_nat (length (pg_id p))) eqn:E; [apply Z.ltb_lt in E; lia|].
    eexists. split; [reflexivity|]. rewrite !app_length, !fldb_length. pose proof (flat8_length (pg_id p)). lia.
Qed.

Lemma read_info : forall p r, good p -> r_info (tl (pag_info p) ++ r) = Some (asks p, r) /\ exists l, pag_info p = true :: l.
Proof.
  intros p r (C & O & L). unfold pag_info, asks, is_tmsi. change (fldb 1 1) with [true]. change (fldb 1 0) with [false].
  split; [|eexists; reflexivity]. cbn [tl app r_info].
  destruct (Z.land (nth 0 (pg_id p) 0) 7 =? 4).
  - cbn [app]. destruct (pg_id p) as [|x o]; [discriminate|]. cbn [length] in L. cbn [skipn tl].
    rewrite <- !app_assoc. assert (L4 : length o = 4%nat) by lia. inversion O as [|? ? _ Oo]; subst.
    pose proof (octs_fldb o (fldb 2 (pg_chan p) ++ [false] ++ r) Oo) as E. rewrite L4 in E. rewrite E. rewrite uint_exact by (cbn; lia). reflexivity.
  - cbn [app]. rewrite <- !app_assoc. rewrite uint_exact by (cbn; lia). rewrite Nat2Z.id.
    rewrite octs_fldb by assumption. rewrite uint_exact by (cbn; lia). reflexivity.
Qed.

(** Reading a sequence of records followed by nothing or a zero. *)
Lemma read_pages : forall ps r, Forall good ps -> (r = [] \/ exists r', r = false :: r') ->
  forall fuel, (length ps < fuel)%nat -> r_pages fuel (flat_map pag_info ps ++ r) = Some (map asks ps).
Proof.
  induction ps as [|p ps IH]; intros r G R fuel F; cbn [flat_map map app].
  - destruct fuel; [lia|]. cbn [r_pages]. destruct R as [->|(r' & ->)]; reflexivity.
  - inversion G; subst. destruct fuel; [cbn in F; lia|]. destruct (read_info p (flat_map pag_info ps ++ r) H1) as (A & l & E).
    rewrite <- app_assoc. rewrite E in A |- *. cbn [tl app] in A. cbn [app r_pages].
    rewrite A. rewrite IH; auto. cbn in F. lia.
Qed.

Lemma fill_spec : forall q v, Forall good q -> Z.of_nat (length v) <= 184 ->
  exists sent rest, q = sent ++ rest /\ pag_fill v q = (v ++ flat_map pag_info sent, rest) /\
    Z.of_nat (length (v ++ flat_map pag_info sent)) <= 184 /\
    (rest = [] \/ exists p rest', rest = p :: rest' /\
       184 < Z.of_nat (length (v ++ flat_map pag_info sent)) + Z.of_nat (length (pag_info p))).
Proof.
  induction q as [|p q IH]; intros v G L.
  - exists [], []. cbn [flat_map pag_fill app]. rewrite app_nil_r. auto.
  - inversion G; subst. destruct (good_len p H1) as (len & E & El & B). cbn [pag_fill]. rewrite E.
    rewrite Z.gtb_ltb. destruct (184 <? Z.of_nat (length v) + len) eqn:X.
    + exists [], (p :: q). cbn [flat_map app]. rewrite app_nil_r. splits; auto. right. exists p, q.
      apply Z.ltb_lt in X. split; [reflexivity|lia].
    + apply Z.ltb_ge in X. destruct (IH (v ++ pag_info p)) as (sent & rest & Q & F & Lf & R); [assumption|rewrite app_length; lia|].
      exists (p :: sent), rest. cbn [flat_map app]. rewrite app_assoc. splits; [congruence|exact F|exact Lf|exact R].
Qed.

Lemma head_length : length pag_head = 18%nat.
Proof. reflexivity. Qed.

Lemma infos_length : forall ps, Forall good ps -> (length ps <= length (flat_map pag_info ps))%nat.
Proof.
  induction 1 as [|p ps G Gs IH]; [cbn; lia|]. cbn [flat_map length]. rewrite app_length.
  destruct (good_len p G) as (len & _ & E & B). lia.
Qed.

(** The message: the head, the records, zeros. *)
Lemma message_reads : forall sent n, Forall good sent ->
  mobile_reads ((pag_head ++ flat_map pag_info sent) ++ repeat false n) = Some (map asks sent).
Proof.
  intros sent n G. rewrite <- app_assoc. unfold mobile_reads.
  change pag_head with (fldb 8 0x40 ++ fldb 6 0x22 ++ fldb 4 0). rewrite <- !app_assoc.
  rewrite uint_exact by (cbn; lia). rewrite uint_exact by (cbn; lia). rewrite uint_exact by (cbn; lia).
  apply read_pages; [exact G|destruct n; [left; reflexivity|right; eexists; reflexivity]|].
  rewrite app_length. pose proof (infos_length sent G). lia.
Qed.

Lemma request_spec : forall q, Forall good q -> q <> [] ->
  exists m sent rest, pag_request q = (Some m, rest) /\ q = sent ++ rest /\ sent <> [] /\
    length m = 184%nat /\ mobile_reads m = Some (map asks sent) /\
    (rest = [] \/ exists p rest', rest = p :: rest' /\
       184 < 18 + Z.of_nat (length (flat_map pag_info sent)) + Z.of_nat (length (pag_info p))).
Proof.
  intros q G N. destruct (fill_spec q pag_head G) as (sent & rest & Q & F & L & R); [rewrite head_length; cbn; lia|].
  exists ((pag_head ++ flat_map pag_info sent) ++ repeat false (184 - length (pag_head ++ flat_map pag_info sent))), sent, rest.
  splits.
  - unfold pag_request. destruct q as [|p q]; [congruence|]. rewrite F. reflexivity.
  - exact Q.
  - intros ->. cbn [flat_map app] in *. destruct R as [->|(p & rest' & -> & X)]; [congruence|].
    subst q. inversion G; subst. destruct (good_len p H1) as (len & _ & E & B). rewrite app_nil_r, head_length in X. lia.
  - rewrite app_length, repeat_length. lia.
  - apply message_reads. subst q. apply Forall_app in G. tauto.
  - destruct R as [R|(p & rest' & R & X)]; [left; exact R|]. right. exists p, rest'. split; [exact R|].
    rewrite app_length, head_length in X. lia.
Qed.

(** Histories. *)
Lemma q_run_spec : forall ops q sent, Forall good q -> Forall good (added ops) ->
  exists q' sent', q_run q sent ops = Some (q', sent ++ sent') /\ Forall good q' /\
    Permutation (sent' ++ map asks q') (map asks (q ++ added ops)).
Proof.
  induction ops as [|o ops IH]; intros q sent G A.
  - exists q, []. cbn [q_run added flat_map]. rewrite !app_nil_r. splits; auto.
  - destruct o as [p|]; cbn [q_run added flat_map app] in *.
    + inversion A; subst. destruct (IH (p :: q) sent) as (q' & s' & E & G' & P); [constructor; assumption|assumption|].
      exists q', s'. splits; [exact E|exact G'|]. rewrite P. cbn [app map]. rewrite !map_app. cbn [map].
      apply Permutation_middle.
    + fold (added ops) in A |- *. destruct q as [|p q].
      * cbn [pag_request]. destruct (IH [] sent) as (q' & s' & E & G' & P); [constructor|assumption|].
        exists q', s'. splits; assumption.
      * destruct (request_spec (p :: q) G) as (m & s1 & rest & E & Q & _ & _ & M & _); [discriminate|].
        rewrite E, M. rewrite Q in G |- *. apply Forall_app in G. destruct G as (_ & G2).
        destruct (IH rest (sent ++ map asks s1) G2 A) as (q' & s' & E' & G' & P).
        exists q', (map asks s1 ++ s'). splits; [rewrite E', app_assoc; reflexivity|exact G'|].
        rewrite <- !app_assoc, !map_app. apply Permutation_app_head. rewrite P, map_app. reflexivity.
Qed.

(** What add_paging queues. *)
Lemma imsi_octets_ok : forall n l, (length l <= n)%nat -> Forall (fun d => 0 <= d < 10) l ->
  Forall (fun o => 0 <= o < 256) (imsi_octets l).
Proof.
  induction n as [|n IH]; intros l L F; [destruct l; [constructor|cbn in L; lia]|].
  destruct l as [|d [|e l]]; cbn [imsi_octets]; [constructor| |].
  - inversion F; subst. repeat constructor; lia.
  - inversion F as [|? ? Hd F1]; subst. inversion F1 as [|? ? He F2]; subst. constructor; [lia|]. apply IH; [cbn in L; lia|assumption].
Qed.
Lemma add_good : forall chan i q, 0 <= chan < 4 -> good_id i -> Forall good q -> Forall good (add_paging chan i q).
Proof.
  intros chan i q C I G. unfold add_paging. destruct (encode_id i) as [o|] eqn:E; [|exact G]. constructor; [|exact G].
  unfold good. cbn [pg_chan pg_id]. split; [exact C|]. destruct i as [t|[|d l]]; cbn [encode_id good_id] in *.
  - injection E as <-. split; [|reflexivity].
    repeat constructor; try (apply Z.mod_pos_bound; lia); lia.
  - discriminate.
  - destruct (Nat.leb _ 8) eqn:L; [|discriminate]. injection E as <-. apply Nat.leb_le in L. inversion I as [|? ? Hd Hl]; subst.
    split.
    + constructor; [destruct (Nat.odd (length l)); lia|]. apply (imsi_octets_ok (length l)); [lia|exact Hl].
    + cbn [nth]. replace (Z.land (d * 16 + (if Nat.odd (length l) then 0 else 8) + 1) 7) with 1; [exact L|].
      change 7 with (Z.ones 3). rewrite Z.land_ones by lia. change (2 ^ 3) with 8.
      destruct (Nat.odd (length l)); Z.div_mod_to_equations; lia.
Qed.

(** The newest first: two long identities per block keep an old record waiting. *)
Definition old_page : page := Page 0 [0xf4; 1; 2; 3; 4].
Definition imsi_page : page := Page 0 [0x29; 0x26; 0x24; 0; 0; 0; 0; 0].
Fixpoint busy (n : nat) : list qop :=
  match n with O => [] | S n => QAdd imsi_page :: QAdd imsi_page :: QSend :: busy n end.
Lemma busy_starves : forall n sent, q_run [old_page] sent (busy n) = Some ([old_page], sent ++ flat_map (fun _ => [asks imsi_page; asks imsi_page]) (seq 0 n)).
Proof.
  assert (R : exists m, pag_request [imsi_page; imsi_page; old_page] = (Some m, [old_page]) /\
    mobile_reads m = Some [asks imsi_page; asks imsi_page]).
  { eexists. split; [vm_compute; reflexivity|vm_compute; reflexivity]. }
  destruct R as (m & R & M).
  assert (K : forall n k sent, q_run [old_page] sent (busy n) =
    Some ([old_page], sent ++ flat_map (fun _ => [asks imsi_page; asks imsi_page]) (seq k n))).
  { induction n as [|n IH]; intros k sent; [cbn [busy q_run seq flat_map]; rewrite app_nil_r; reflexivity|].
    cbn [busy q_run]. rewrite R, M, (IH (Datatypes.S k)). cbn [seq flat_map]. rewrite <- app_assoc. reflexivity. }
  intros n sent. exact (K n 0%nat sent).
Qed.

(** ** Slots *)
Lemma marked_In : forall m a b, marked m a b = true <-> In (a, b) m.
Proof.
  intros m a b. unfold marked. rewrite existsb_exists. split.
  - intros ((x, y) & I & E). cbn in E. apply andb_prop in E. destruct E as (E1 & E2). apply Z.eqb_eq in E1, E2. subst. exact I.
  - intros I. exists (a, b). cbn. rewrite !Z.eqb_refl. auto.
Qed.

Lemma scan_spec : forall m t l first, (first = -1 \/ (0 <= first /\ pt_has t first = true)) -> (forall x, In x l -> 0 <= x) ->
  let '(f, brk) := scan m t first l in
  (brk = true -> exists ts, In ts l /\ pt_has t ts = true /\ marked m (pt_trx t) ts = true) /\
  (brk = false -> (f = -1 \/ (0 <= f /\ pt_has t f = true)) /\ ((exists ts, In ts l /\ pt_has t ts = true) \/ 0 <= first -> 0 <= f)) /\
  (f = first \/ In f l).
Proof.
  intros m t l. induction l as [|ts l IH]; intros first F P; cbn [scan].
  - splits; [discriminate| |auto]. intros _. split; [exact F|]. intros [(x & [] & _)|X]; exact X.
  - destruct (pt_has t ts) eqn:Hs.
    + cbv zeta. set (f1 := if first <? 0 then ts else first).
      assert (F1 : f1 = -1 \/ (0 <= f1 /\ pt_has t f1 = true)).
      { right. unfold f1. destruct (first <? 0) eqn:E; [split; [apply P; left; reflexivity|exact Hs]|].
        apply Z.ltb_ge in E. destruct F as [F|F]; [lia|exact F]. }
      assert (Fp : 0 <= f1) by (unfold f1; destruct (first <? 0) eqn:E; [apply P; left; reflexivity|apply Z.ltb_ge in E; exact E]).
      assert (Fi : f1 = first \/ In f1 (ts :: l)) by (unfold f1; destruct (first <? 0); [right; left; reflexivity|left; reflexivity]).
      destruct (marked m (pt_trx t) ts) eqn:M.
      * splits; [|discriminate|exact Fi]. intros _. exists ts. cbn. auto.
      * specialize (IH f1 F1 (fun x X => P x (or_intror X))). destruct (scan m t f1 l) as (f, brk).
        destruct IH as (A & B & C). splits.
        -- intros X. destruct (A X) as (x & X1 & X2). exists x. cbn. tauto.
        -- intros X. destruct (B X) as (B1 & B2). split; [exact B1|]. intros _. apply B2. right. exact Fp.
        -- destruct C as [->|C]; [exact Fi|right; right; exact C].
    + specialize (IH first F (fun x X => P x (or_intror X))). destruct (scan m t first l) as (f, brk).
      destruct IH as (A & B & C). splits.
      * intros X. destruct (A X) as (x & X1 & X2). exists x. cbn. tauto.
      * intros X. destruct (B X) as (B1 & B2). split; [exact B1|]. intros [(x & [<-|X1] & X2)|Y]; [congruence| |apply B2; right; exact Y].
        apply B2. left. exists x. auto.
      * destruct C as [->|C]; [left; reflexivity|right; right; exact C].
Qed.

Definition covered (m : marks) (t : ptbf) : Prop := exists ts, In ts ts8 /\ pt_has t ts = true /\ In (pt_trx t, ts) m.
Definition uses_slot (t : ptbf) : Prop := exists ts, In ts ts8 /\ pt_has t ts = true.

Lemma ts8_pos : forall x, In x ts8 -> 0 <= x.
Proof. unfold ts8. cbn [In]. intros x H. lia. Qed.

Lemma mark_mono : forall m o x, In x m -> In x (mark_tbf m o).
Proof.
  intros m o x I. unfold mark_tbf. destruct o as [t|]; [|exact I]. destruct (scan m t (-1) ts8) as (f, b).
  destruct (_ && _); [right; exact I|exact I].
Qed.
Lemma mark_covers : forall m t, uses_slot t -> covered (mark_tbf m (Some t)) t.
Proof.
  intros m t U. unfold mark_tbf. pose proof (scan_spec m t ts8 (-1) (or_introl eq_refl) ts8_pos) as S.
  destruct (scan m t (-1) ts8) as (f, b). destruct S as (A & B & C). destruct b; cbn [negb andb].
  - destruct (A eq_refl) as (ts & T1 & T2 & T3). exists ts. apply marked_In in T3. auto.
  - destruct (B eq_refl) as (B1 & B2). assert (0 <= f) by (apply B2; left; exact U).
    destruct (0 <=? f) eqn:E; [|apply Z.leb_gt in E; lia].
    exists f. destruct B1 as [->|(_ & B1)]; [lia|]. destruct C as [->|C]; [lia|]. splits; [exact C|exact B1|left; reflexivity].
Qed.
Lemma mark_only : forall m o x, In x (mark_tbf m o) -> In x m \/
  exists t, o = Some t /\ fst x = pt_trx t /\ In (snd x) ts8 /\ pt_has t (snd x) = true.
Proof.
  intros m o x. unfold mark_tbf. destruct o as [t|]; [|auto].
  pose proof (scan_spec m t ts8 (-1) (or_introl eq_refl) ts8_pos) as S. destruct (scan m t (-1) ts8) as (f, b).
  destruct S as (A & B & C). destruct b; cbn [negb andb]; [auto|]. destruct (0 <=? f) eqn:E; [|auto].
  apply Z.leb_le in E. intros [<-|I]; [|auto]. right. exists t. cbn [fst snd]. destruct (B eq_refl) as (B1 & _).
  destruct C as [->|C]; [lia|]. destruct B1 as [->|(_ & B1)]; [lia|]. auto.
Qed.

Lemma fold_mono : forall l m x, In x m -> In x (fold_left mark_ms l m).
Proof.
  induction l as [|a l IH]; intros m x I; [exact I|]. cbn [fold_left]. apply IH. unfold mark_ms. apply mark_mono, mark_mono, I.
Qed.
Lemma covered_mono : forall m m' t, (forall x, In x m -> In x m') -> covered m t -> covered m' t.
Proof. intros m m' t M (ts & A & B & C). exists ts. auto. Qed.
Lemma fold_covers : forall l m t, active l t -> uses_slot t -> covered (fold_left mark_ms l m) t.
Proof.
  induction l as [|a l IH]; intros m t (x & I & E) U; [contradiction|]. cbn [fold_left]. destruct I as [->|I].
  - apply (covered_mono (mark_ms m x)); [intros y; apply fold_mono|]. unfold mark_ms. destruct E as [->| ->].
    + apply (covered_mono (mark_tbf m (Some t))); [intros y; apply mark_mono|]. apply mark_covers. exact U.
    + apply mark_covers. exact U.
  - apply IH; [exists x; auto|exact U].
Qed.
Lemma fold_only : forall l m x, In x (fold_left mark_ms l m) -> In x m \/
  exists t, active l t /\ fst x = pt_trx t /\ In (snd x) ts8 /\ pt_has t (snd x) = true.
Proof.
  induction l as [|a l IH]; intros m x I; [left; exact I|]. cbn [fold_left] in I. apply IH in I. destruct I as [I|(t & (y & A1 & A2) & R)].
  - unfold mark_ms in I. apply mark_only in I. destruct I as [I|(t & E & R)].
    + apply mark_only in I. destruct I as [I|(t & E & R)]; [left; exact I|]. right. exists t. split; [|exact R]. exists a. cbn. auto.
    + right. exists t. split; [|exact R]. exists a. cbn. auto.
  - right. exists t. split; [|exact R]. exists y. cbn. auto.
Qed.

Lemma grid : forall a b, In a ts8 -> In b ts8 -> In (a, b) (flat_map (fun trx => map (fun ts => (trx, ts)) ts8) ts8).
Proof. intros a b A B. apply in_flat_map. exists a. split; [exact A|]. apply in_map. exact B. Qed.

Lemma page_covers : forall l t, active l t -> In (pt_trx t) ts8 -> (exists ts, In ts ts8 /\ pt_has t ts = true) ->
  exists ts, pt_has t ts = true /\ In (pt_trx t, ts) (page_unknown l).
Proof.
  intros l t A T U. destruct (fold_covers l [] t A U) as (ts & I & P & M). exists ts. split; [exact P|].
  unfold page_unknown. apply filter_In. split; [apply grid; assumption|]. cbn [fst snd]. apply marked_In. exact M.
Qed.
Lemma page_only : forall l trx ts, In (trx, ts) (page_unknown l) -> exists t, active l t /\ pt_trx t = trx /\ pt_has t ts = true.
Proof.
  intros l trx ts I. unfold page_unknown in I. apply filter_In in I. destruct I as (_ & M). apply marked_In in M. cbn [fst snd] in M.
  apply fold_only in M. destruct M as [[]|(t & A & E & _ & P)]. exists t. cbn [fst snd] in *. auto.
Qed.
Lemma grid_nodup : NoDup (flat_map (fun trx => map (fun ts => (trx, ts)) ts8) ts8).
Proof.
  assert (D : forall a b : Z * Z, {a = b} + {a <> b}) by (intros; decide equality; apply Z.eq_dec).
  unfold ts8. cbn [flat_map map app]. repeat (constructor; [cbn [In]; intuition discriminate|]). constructor.
Qed.
Lemma page_once : forall l, NoDup (page_unknown l).
Proof. intros l. apply NoDup_filter. exact grid_nodup. Qed.

Lemma known_spec : forall x, match page_known x with
  | Some (trx, ts) => exists t, (pm_ul x = Some t \/ pm_dl x = Some t) /\ trx = pt_trx t /\ In ts ts8 /\ pt_has t ts = true
  | None => forall t, pm_ul x = Some t \/ pm_dl x = Some t -> forall ts, In ts ts8 -> pt_has t ts = false
  end.
Proof.
  assert (F : forall o, match first_slot o with
    | Some (trx, ts) => exists t, o = Some t /\ trx = pt_trx t /\ In ts ts8 /\ pt_has t ts = true
    | None => forall t, o = Some t -> forall ts, In ts ts8 -> pt_has t ts = false end).
  { intros [t|]; cbn [first_slot]; [|discriminate]. destruct (find (pt_has t) ts8) as [ts|] eqn:E.
    - apply find_some in E. exists t. tauto.
    - intros t' X ts I. injection X as <-. exact (find_none _ _ E ts I). }
  intros x. unfold page_known. pose proof (F (pm_ul x)) as U. pose proof (F (pm_dl x)) as D.
  destruct (first_slot (pm_ul x)) as [(a, b)|].
  - destruct U as (t & E & R). exists t. auto.
  - destruct (first_slot (pm_dl x)) as [(a, b)|].
    + destruct D as (t & E & R). exists t. auto.
    + intros t [E|E]; eauto.
Qed.
