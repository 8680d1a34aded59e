(** Lemmas about single blocks. *)
From Coq Require Import ZArith List Bool Lia.
From Verif Require Import Base.Arith Model.FrameNo Model.UlController Model.ImmAss Model.SingleBlock.
From Verif Require Import Spec.FrameSpec Spec.ImmAssSpec Spec.SingleBlockSpec Proofs.FrameP Proofs.UlcP Proofs.UlcProps Proofs.ImmAssP Proofs.ImmAssQ.
Import ListNotations.
Local Open Scope Z_scope.

Lemma ta_ok q : qta2ta q = advance q /\ 0 <= advance q < 64.
Proof.
  unfold qta2ta, advance. rewrite Z.shiftr_div_pow2 by lia. change (2 ^ 2) with 4.
  destruct (Z.ltb_spec q 0); [|destruct (Z.ltb_spec 252 q)]; Z.div_mod_to_equations; lia.
Qed.

Lemma pick_ts_some l ts : pick_ts l = Some ts -> exists s, nth_error l ts = Some s /\ sl_on s = true.
Proof.
  unfold pick_ts. intros E. apply find_some in E. destruct E as [_ E]. destruct (nth_error l ts) as [s|]; [|discriminate]. now exists s.
Qed.
Lemma pick_ts_none l ts s : length l = 8%nat -> pick_ts l = None -> nth_error l ts = Some s -> sl_on s = false.
Proof.
  unfold pick_ts. intros L E N. assert (B : (ts < 8)%nat) by (rewrite <- L; apply nth_error_Some; congruence).
  pose proof (find_none _ _ E ts) as X. cbv beta in X. rewrite N in X. apply X. cbn [In]. lia.
Qed.
Lemma pick_some c : forall k trx ts, pick c k = Some (trx, ts) ->
  exists j s, trx = (k + j)%nat /\ nth_error (nth j c []) ts = Some s /\ slot_at c j ts = Some s /\ sl_on s = true.
Proof.
  induction c as [|l c IH]; cbn [pick]; intros k trx ts E; [discriminate|]. destruct (pick_ts l) as [x|] eqn:P.
  - injection E as <- <-. destruct (pick_ts_some _ _ P) as (s & A & B). exists 0%nat, s. cbn [nth slot_at nth_error]. unfold slot_at. cbn [nth_error]. rewrite A. repeat split; auto.
  - destruct (IH _ _ _ E) as (j & s & A & B & C & D). exists (S j), s. cbn [nth]. unfold slot_at in *. cbn [nth_error]. repeat split; auto. lia.
Qed.
Lemma pick_none c : Forall (fun l => length l = 8%nat) c -> forall k, pick c k = None ->
  forall trx ts s, slot_at c trx ts = Some s -> sl_on s = false.
Proof.
  induction 1 as [|l c L F IH]; intros k E trx ts s A.
  - unfold slot_at in A. now destruct trx.
  - cbn [pick] in E. destruct (pick_ts l) as [x|] eqn:P; [discriminate|]. unfold slot_at in A. destruct trx as [|trx]; cbn [nth_error] in A.
    + exact (pick_ts_none _ _ _ L P A).
    + exact (IH _ E trx ts s A).
Qed.

Lemma sba_upper bal frees t s last id : keeps_order bal -> ulc_reach bal frees t s ->
  in_hyper last -> block_start last ->
  ahead (ts_now s) last + 52 + 5 * Z.of_nat (length (inorder t)) < HYP / 2 ->
  ahead last (snd (fst (sba_alloc bal t last id))) <= 52 + 5 * Z.of_nat (length (inorder t)).
Proof.
  intros KO RE HL BL A. pose proof (reach_rel bal KO frees t s RE) as R. rewrite HALF_eq in A.
  pose proof R as [Hn SS W T]. unfold sba_alloc, get_next_free_fn.
  rewrite next_fn_spec by (auto; unfold AGCH_START_OFFSET; lia). unfold AGCH_START_OFFSET.
  set (st := (last + 52) mod HYP).
  assert (Hs : in_hyper st) by apply in_hyper_mod.
  assert (Bs : block_start st).
  { unfold st. apply block_start_mod. unfold block_start in *.
    replace (last + 52) with (last + 1 * 52) by lia. rewrite Z_mod_plus_full. exact BL. }
  pose proof (ahead_range (ts_now s) last) as AR.
  assert (As : ahead (ts_now s) st = ahead (ts_now s) last + 52).
  { unfold st. pose proof (ahead_back (ts_now s) last HL) as AB. rewrite <- AB at 1.
    rewrite Zplus_mod_idemp_l, <- Z.add_assoc. apply ahead_add. rewrite H_val. unfold HALF in A. lia. }
  destruct (walk_ok (ts_now s) (inorder t) st Hn SS W Hs Bs ltac:(lia)) as (P1 & P2 & P3 & P4 & P5).
  set (fn := next_free_walk (inorder t) st) in *. destruct (reserve bal t fn (OSba id)) as [t' ok]. cbn [fst snd].
  rewrite (ahead_shift (ts_now s) last fn) by lia. lia.
Qed.

Lemma means_one last fn now x : in_hyper last -> in_hyper fn -> in_hyper now -> ahead last fn <= 31623 -> ahead last now <= ahead last fn ->
  (means now (time_of (fn mod 42432)) x <-> x = fn).
Proof.
  intros HL HF HN A B. assert (AN : ahead now fn <= 31623).
  { rewrite (ahead_shift last now fn B). pose proof (ahead_range last now). lia. }
  split.
  - intros (HX & T & Wn). apply time_inj in T; [|apply Z.mod_pos_bound; lia|apply Z.mod_pos_bound; lia].
    unfold in_hyper, ahead in *. rewrite H_val in *. clear A B HL. Z.div_mod_to_equations. lia.
  - intros ->. split; [exact HF|]. split; [reflexivity|]. now left.
Qed.

Lemma single_ok : forall bal frees c id ext ra rfn qta alpha gamma, keeps_order bal -> cell_ok bal frees c -> burst_ok ext ra rfn alpha gamma ->
  (single_block bal c id ext ra rfn qta alpha gamma = SbReject <-> forall trx ts s, slot_at c trx ts = Some s -> sl_on s = false) /\
  single_block bal c id ext ra rfn qta alpha gamma <> SbBad /\
  forall trx ts fn t m, single_block bal c id ext ra rfn qta alpha gamma = SbAssign trx ts fn t m ->
    exists s plen vec up start, slot_at c trx ts = Some s /\ sl_on s = true /\
      get_node (sl_tree s) fn = None /\ get_sba t fn = Some id /\ block_start fn /\ 52 <= ahead (sl_last s) fn <= 31623 /\
      m = IaSent plen vec /\
      mobile_reads (l1_block plen vec) = Some (plen, mk_msg false (ip_ts (sl_ia s)) (ip_tsc (sl_ia s)) (freq_of (sl_ia s))
        (mk_request (if ext then 127 else ra) (time_of rfn)) (advance qta) (ma_of (sl_ia s)) (RUp up)) /\
      start_of up = Some start /\
      forall now x, in_hyper now -> ahead (sl_last s) now <= ahead (sl_last s) fn -> (means now start x <-> x = fn).
Proof.
  intros bal frees c id ext ra rfn qta alpha gamma KO [CL CO] (RA & RF & AL & GA). unfold single_block. destruct (ta_ok qta) as [-> TA]. cbv zeta.
  rewrite (proj2 (Z.ltb_lt _ _)) by lia. cbn [negb]. destruct (pick c 0) as [[trx ts]|] eqn:P.
  - destruct (pick_some _ _ _ _ P) as (j & s & EJ & NE & SA & ON). cbn [Nat.add] in EJ. subst j. rewrite NE.
    destruct (CO trx ts s SA ON) as (PO & MA & HL & BL & BD & st & RE & AH).
    destruct (sba_exact bal frees (sl_tree s) st (sl_last s) id KO RE HL BL AH) as (t & fn & E & HF & BF & (A1 & _) & FR & _ & OW & _).
    pose proof (sba_upper bal frees (sl_tree s) st (sl_last s) id KO RE HL BL AH) as UP. rewrite E in UP |- *. cbn [fst snd] in UP.
    split; [split; [discriminate|intros X; rewrite (X trx ts s SA) in ON; discriminate]|]. split; [discriminate|].
    intros trx0 ts0 fn0 t0 m X. injection X as <- <- <- <- <-.
    set (q := mk_par false ra rfn (advance qta) 7 false (fn2rfn fn) alpha gamma (-1) ext).
    assert (R0 : 0 <= fn2rfn fn < 42432) by (unfold fn2rfn; apply Z.mod_pos_bound; reflexivity).
    assert (PQ : par_ok q).
    { unfold par_ok, q, fits in *. cbn [q_ra q_ext q_rfn q_ta q_usf q_start q_alpha q_gamma q_tai].
      split; [destruct ext; lia|]. split; [intros ->; exact RA|]. repeat split; lia. }
    destruct (ul_room (sl_ia s) NoTbf q eq_refl) as (plen & vec & W); [intros [_ []]|exact MA|].
    destruct (read_uplink (sl_ia s) NoTbf q plen vec PO PQ eq_refl Logic.I W) as [_ RD].
    exists s, plen, vec, (uplink_for NoTbf q), (time_of (fn2rfn fn)).
    split; [exact SA|]. split; [exact ON|]. split; [exact FR|]. split; [exact OW|]. split; [exact BF|]. split; [lia|]. split; [exact W|].
    split. { rewrite RD. unfold message_for, q. cbn [q_down q_ra q_rfn q_ta q_ext]. rewrite (Z.mod_small (advance qta)) by lia. reflexivity. }
    split. { unfold uplink_for, q. cbn [q_ext q_start]. now destruct ext. }
    intros now x HN B. change (fn2rfn fn) with (fn mod 42432). apply (means_one (sl_last s)); auto; lia.
  - split; [split; [intros _; exact (pick_none c CL _ P)|reflexivity]|]. split; [discriminate|]. discriminate.
Qed.

(** Single blocks reserved one after the other: the blocks from frame 52 on. *)
Definition nth_blk (i : Z) : Z := 52 + 52 * (i / 12) + nth (Z.to_nat (i mod 12)) block_starts 0.
Lemma bs_row : forallb (fun i => forallb (fun j => (negb (Nat.ltb i j) || (nth i block_starts 0 <? nth j block_starts 0)) && (0 <=? nth i block_starts 0) && (nth i block_starts 0 <? 52))
  (seq 0 12)) (seq 0 12) = true.
Proof. vm_compute. reflexivity. Qed.
Lemma bs_at i j : (i < 12)%nat -> (j < 12)%nat -> 0 <= nth i block_starts 0 < 52 /\ ((i < j)%nat -> nth i block_starts 0 < nth j block_starts 0).
Proof.
  intros A B. pose proof (proj1 (forallb_forall _ _) bs_row i ltac:(apply in_seq; lia)) as X. cbv beta in X.
  pose proof (proj1 (forallb_forall _ _) X j ltac:(apply in_seq; lia)) as Y. cbv beta in Y. rewrite !andb_true_iff, Z.leb_le, Z.ltb_lt in Y.
  destruct Y as [[Y1 Y2] Y3]. split; [lia|]. intros L. rewrite (proj2 (Nat.ltb_lt _ _) L) in Y1. cbn [negb orb] in Y1. now apply Z.ltb_lt.
Qed.
Lemma blk_mono i j : 0 <= i < j -> nth_blk i < nth_blk j.
Proof.
  intros L. unfold nth_blk. pose proof (Z.mod_pos_bound i 12 ltac:(lia)). pose proof (Z.mod_pos_bound j 12 ltac:(lia)).
  destruct (bs_at (Z.to_nat (i mod 12)) (Z.to_nat (j mod 12)) ltac:(lia) ltac:(lia)) as [A1 A2].
  destruct (bs_at (Z.to_nat (j mod 12)) (Z.to_nat (i mod 12)) ltac:(lia) ltac:(lia)) as [B1 _].
  pose proof (Z.div_mod i 12 ltac:(lia)). pose proof (Z.div_mod j 12 ltac:(lia)).
  destruct (Z.eq_dec (i / 12) (j / 12)) as [E|N]; [rewrite E; specialize (A2 ltac:(lia)); lia|]. lia.
Qed.
Lemma blk_start i : block_start (nth_blk i).
Proof.
  unfold block_start, nth_blk. pose proof (Z.mod_pos_bound i 12 ltac:(lia)). destruct (bs_at (Z.to_nat (i mod 12)) 0 ltac:(lia) ltac:(lia)) as [A _].
  replace (52 + 52 * (i / 12) + nth (Z.to_nat (i mod 12)) block_starts 0) with (nth (Z.to_nat (i mod 12)) block_starts 0 + (1 + i / 12) * 52) by lia.
  rewrite Z_mod_plus_full, Z.mod_small by lia. apply nth_In. change (length block_starts) with 12%nat. lia.
Qed.
Lemma blk_all x : block_start x -> 52 <= x -> exists i, 0 <= i /\ x = nth_blk i.
Proof.
  unfold block_start. intros B L. destruct (In_nth block_starts (x mod 52) 0 B) as (n & N & E). change (length block_starts) with 12%nat in N.
  pose proof (Z.div_mod x 52 ltac:(lia)). assert (1 <= x / 52) by (apply Z.div_le_lower_bound; lia).
  exists (Z.of_nat n + (x / 52 - 1) * 12). split; [lia|]. unfold nth_blk. rewrite Z_mod_plus_full, Z_div_plus_full by lia.
  rewrite Z.mod_small, Z.div_small, Nat2Z.id by lia. lia.
Qed.
Lemma insert_len x : forall t t', tree_insert t x = Some t' -> length (inorder t') = S (length (inorder t)).
Proof.
  induction t as [|l IHl it r IHr]; cbn [tree_insert]; intros t' E; [injection E as <-; reflexivity|]. cbv zeta in E.
  destruct (_ <? 0); [|destruct (0 <? _); [|discriminate]].
  - destruct (tree_insert l x) as [l'|]; [|discriminate]. injection E as <-. cbn [inorder]. rewrite !app_length. cbn [length]. rewrite (IHl l' eq_refl). lia.
  - destruct (tree_insert r x) as [r'|]; [|discriminate]. injection E as <-. cbn [inorder]. rewrite !app_length. cbn [length]. rewrite (IHr r' eq_refl). lia.
Qed.
Lemma burst_eq t id t' fn ok : sba_alloc (fun t => t) t 0 id = (t', fn, ok) -> exists m, burst_at t id = SbAssign 0 7 fn t' m.
Proof.
  intros E. unfold burst_at, single_block. change (qta2ta 12 <? 64) with true. cbv beta iota zeta delta [negb].
  replace (pick (one_cell t) 0) with (Some (0%nat, 7%nat)) by reflexivity. cbv beta iota.
  replace (nth_error (nth 0 (one_cell t) []) 7) with (Some (one_slot t)) by reflexivity. cbv beta iota.
  change (sl_tree (one_slot t)) with t. change (sl_last (one_slot t)) with 0. rewrite E. eexists. reflexivity.
Qed.
Lemma ahead_zero x : in_hyper x -> ahead 0 x = x.
Proof. unfold in_hyper, ahead. intros. rewrite Z.sub_0_r. now apply Z.mod_small. Qed.
Lemma flood_next k s id : ulc_reach (fun t => t) (fun _ => []) (bursts k) s -> ts_now s = 0 -> length (inorder (bursts k)) = k ->
  (forall x, get_node (bursts k) x <> None <-> exists i, 0 <= i < Z.of_nat k /\ x = nth_blk i) -> 52 + 5 * Z.of_nat k < HYP / 2 ->
  exists t, sba_alloc (fun t => t) (bursts k) 0 id = (t, nth_blk (Z.of_nat k), true) /\ in_hyper (nth_blk (Z.of_nat k)) /\
    ulc_reach (fun t => t) (fun _ => []) t (mk_ts (t_set (ts_m s) (nth_blk (Z.of_nat k)) (Some (OSba id))) (ts_now s)).
Proof.
  intros RE N0 LE IV B. assert (KO : keeps_order (fun t : tree => t)) by (intros t; reflexivity).
  destruct (sba_exact (fun t => t) (fun _ => []) (bursts k) s 0 id KO RE) as (t & fn & E & HF & BF & (A1 & A2) & FR & EA & OW & RE').
  { split; [lia|reflexivity]. } { vm_compute. tauto. } { rewrite N0, LE. change (ahead 0 0) with 0. lia. }
  rewrite (ahead_zero fn HF) in *. destruct (blk_all fn BF A1) as (j & J & ->).
  assert (j = Z.of_nat k) as ->.
  { destruct (Z.lt_trichotomy j (Z.of_nat k)) as [L|[L|L]]; [|exact L|].
    - elim (proj2 (IV (nth_blk j))); [exists j; split; [lia|reflexivity]|exact FR].
    - pose proof (blk_mono (Z.of_nat k) j ltac:(lia)) as M. assert (M0 : 52 <= nth_blk (Z.of_nat k)).
      { destruct k as [|k']; [vm_compute; discriminate|]. pose proof (blk_mono 0 (Z.of_nat (S k')) ltac:(lia)) as Q. change (nth_blk 0) with 52 in Q. lia. }
      assert (HK : in_hyper (nth_blk (Z.of_nat k))) by (unfold in_hyper in *; lia).
      specialize (EA (nth_blk (Z.of_nat k)) HK (blk_start _)). rewrite (ahead_zero _ HK) in EA. specialize (EA ltac:(lia)).
      apply IV in EA. destruct EA as (i & I & Q). pose proof (blk_mono i (Z.of_nat k) ltac:(lia)). lia. }
  exists t. auto.
Qed.
Lemma flood_run k : 52 + 5 * Z.of_nat k < HYP / 2 -> exists s, ulc_reach (fun t => t) (fun _ => []) (bursts k) s /\ ts_now s = 0 /\
  length (inorder (bursts k)) = k /\ forall x, get_node (bursts k) x <> None <-> exists i, 0 <= i < Z.of_nat k /\ x = nth_blk i.
Proof.
  induction k as [|k IH]; intros B.
  - exists (mk_ts t_empty 0). split. { exists 0, [], []. split; [split; [lia|reflexivity]|]. split; [exact Logic.I|]. split; reflexivity. }
    split; [reflexivity|]. split; [reflexivity|]. intros x. cbn [bursts get_node]. split; [congruence|]. intros (i & I & _). lia.
  - destruct (IH ltac:(lia)) as (s & RE & N0 & LE & IV). destruct (flood_next k s (Z.of_nat k) RE N0 LE IV ltac:(lia)) as (t & E & HB & RE').
    destruct (burst_eq (bursts k) (Z.of_nat k) _ _ _ E) as (m & EB). assert (ET : bursts (S k) = t) by (cbn [bursts]; now rewrite EB). rewrite ET.
    exists (mk_ts (t_set (ts_m s) (nth_blk (Z.of_nat k)) (Some (OSba (Z.of_nat k)))) (ts_now s)). split; [exact RE'|]. split; [exact N0|].
    assert (KO : keeps_order (fun t : tree => t)) by (intros u; reflexivity).
    split.
    + unfold sba_alloc, reserve in E. destruct (tree_insert (bursts k) _) as [t1|] eqn:TI; [|discriminate E]. injection E as -> _.
      rewrite (insert_len _ _ _ TI). now rewrite LE.
    + intros x. rewrite (rel_get _ t _ x (reach_rel _ KO _ t _ RE')). cbn [ts_m]. unfold t_set.
      specialize (IV x). rewrite (rel_get _ (bursts k) _ x (reach_rel _ KO _ (bursts k) _ RE)) in IV.
      destruct (Z.eqb_spec x (nth_blk (Z.of_nat k))) as [->|NE]; cbn [option_map].
      * split; [intros _; exists (Z.of_nat k); split; [lia|reflexivity]|discriminate].
      * rewrite IV. split; intros (i & I & ->); exists i; (split; [|reflexivity]); [lia|]. assert (i <> Z.of_nat k) by (intros ->; now apply NE). lia.
Qed.
Lemma flood_refuted : exists k fn t m, burst_at (bursts k) 9999 = SbAssign 0 7 fn t m /\ get_sba t fn = Some 9999 /\
  exists x, means 0 (time_of (fn mod 42432)) x /\ x <> fn /\ ahead x 0 = 10790.
Proof.
  exists (Z.to_nat 7290). assert (K : Z.of_nat (Z.to_nat 7290) = 7290) by (apply Z2Nat.id; lia). set (k := Z.to_nat 7290) in *. clearbody k.
  assert (B : 52 + 5 * Z.of_nat k < HYP / 2) by (rewrite K; reflexivity). destruct (flood_run k B) as (s & RE & N0 & LE & IV).
  destruct (flood_next k s 9999 RE N0 LE IV B) as (t & E & HB & RE'). destruct (burst_eq _ _ _ _ _ E) as (m & EB).
  assert (KO : keeps_order (fun t : tree => t)) by (intros u; reflexivity).
  assert (G : get_sba t (nth_blk (Z.of_nat k)) = Some 9999).
  { unfold get_sba. rewrite (rel_get _ t _ _ (reach_rel _ KO _ t _ RE')). cbn [ts_m]. unfold t_set. rewrite Z.eqb_refl. reflexivity. }
  rewrite K in EB, G. change (nth_blk 7290) with 31642 in EB, G. exists 31642, t, m. split; [exact EB|]. split; [exact G|].
  exists (31642 - 42432 + 2715648). split; [|split; [discriminate|reflexivity]].
  split; [split; [discriminate|reflexivity]|]. split; [reflexivity|]. right. discriminate.
Qed.
Lemma hopping_refuted : exists c trx ts s fn t, slot_at c trx ts = Some s /\ pdch_ok (sl_ia s) /\ 
  single_block (fun t => t) c 1 false 0x7d 1000 12 0 0 = SbAssign trx ts fn t IaFail /\ get_sba t fn = Some 1.
Proof.
  exists [repeat off_slot 7 ++ [mk_slot true (mk_iap 7 5 871 (Some (0, 1, repeat 255 8))) Leaf 0]], 0%nat, 7%nat, (mk_slot true (mk_iap 7 5 871 (Some (0, 1, repeat 255 8))) Leaf 0).
  exists 52, (Node Leaf (mk_item 52 (OSba 1)) Leaf). split; [reflexivity|]. split; [|split; vm_compute; reflexivity].
  unfold pdch_ok, fits. cbn [sl_ia ip_ts ip_tsc ip_arfcn ip_fh]. split; [lia|]. split; [lia|]. split; [lia|]. split; [lia|]. split; [lia|].
  split; [rewrite repeat_length; lia|]. intros x I. apply repeat_spec in I. subst x. lia.
Qed.
