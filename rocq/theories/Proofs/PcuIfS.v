(** More proofs about the PCU interface (C73): single messages. *)
From Coq Require Import ZArith List Bool Lia.
From Verif Require Import Model.FrameNo Model.BtsConf Model.PcuIf Spec.PcuIfSpec Proofs.PcuIfP Proofs.PcuIfQ Proofs.PcuIfR.
Import ListNotations.
Local Open Scope Z_scope.

Lemma nth_cut : forall (l : list Z) n k, (k < n)%nat -> nth k (firstn n l) 0 = nth k l 0.
Proof.
  induction l as [|x l IH]; intros [|n] [|k] H; cbn [firstn nth]; try lia; try reflexivity. apply IH. lia.
Qed.
Lemma cut_short : forall (l : list Z) n, n <= 2003 -> short (firstn 2003 l) n = (Z.of_nat (length l) <? n).
Proof.
  intros l n H. unfold short. rewrite firstn_length.
  destruct (Z.ltb_spec (Z.of_nat (Nat.min 2003 (length l))) n), (Z.ltb_spec (Z.of_nat (length l)) n); lia.
Qed.

Lemma slot_in : forall b x t, wfx (b_trx b) -> x < 8 -> t < 8 -> slot_of b x t <> None.
Proof.
  intros b x t [L F] Hx Ht. unfold slot_of.
  destruct (nth_error (b_trx b) (Z.to_nat x)) as [y|] eqn:E.
  - rewrite Forall_forall in F. pose proof (F y (nth_error_In _ _ E)) as G. apply nth_error_Some. lia.
  - apply nth_error_None in E. lia.
Qed.
Lemma octets_ok : forall len l, len <= Z.of_nat (length l) -> octets_at len l = Some (firstn (Z.to_nat len) l).
Proof. intros len l H. unfold octets_at. destruct (Z.leb_spec len (Z.of_nat (length l))); [reflexivity|lia]. Qed.

(** ** No memory outside *)
Definition no_slot_raw (ty : Z) (raw : list Z) : Prop :=
  (ty = 2 /\ nth 0 raw 0 = 5 /\ (8 <= nth 170 raw 0 \/ 8 <= nth 171 raw 0))
  \/ (ty = 16 /\ (8 <= nth 10 raw 0 \/ 8 <= nth 11 raw 0)).
Lemma disp_safe : forall e s b ty raw, wfx (b_trx b) -> ~ no_slot_raw ty raw ->
  ~ ((ty = 2 \/ ty = 4) /\ 162 < nth 1 raw 0) -> disp e s b ty raw <> Fault.
Proof.
  intros e s b ty raw W NS TL. unfold disp.
  destruct (Z.eqb_spec ty 2) as [->|_].
  { destruct (short raw 180) eqn:Sh; [discriminate|]. unfold short in Sh.
    assert (L : di_len (pos_data raw) <= Z.of_nat (length (skipn 2 raw))).
    { cbn [di_len pos_data]. rewrite skipn_length. assert (nth 1 raw 0 <= 162) by (destruct (Z_le_gt_dec (nth 1 raw 0) 162); [easy|exfalso; apply TL; lia]). lia. }
    assert (T : forall s1 a1 rc1,
      (if (rc1 <? 0) && e_tap e then
         match octets_at (di_len (pos_data raw)) (skipn 2 raw) with Some o => Done s1 (a1 ++ [ATap o]) rc1 | None => Fault end
       else Done s1 a1 rc1) <> Fault).
    { intros. rewrite (octets_ok _ _ L). destruct (_ && _); discriminate. }
    unfold rx_data. destruct (Z.ltb_spec (Z.of_nat (length (skipn 2 raw))) (di_len (pos_data raw))); [lia|].
    rewrite andb_false_r. destruct (Z.eqb_spec (di_sapi (pos_data raw)) 5) as [S5|_].
    - cbn [di_sapi pos_data] in S5.
      assert (X : di_trx (pos_data raw) < 8 /\ di_ts (pos_data raw) < 8).
      { cbn [di_trx di_ts pos_data]. unfold no_slot_raw in NS. lia. }
      pose proof (slot_in b _ _ W (proj1 X) (proj2 X)) as Sl.
      destruct (slot_of b (di_trx (pos_data raw)) (di_ts (pos_data raw))) as [p|]; [|congruence].
      rewrite andb_false_r. destruct (negb _); [discriminate|].
      destruct (p_on p); [|apply T]. rewrite (octets_ok _ _ L) at 1. apply T.
    - destruct (di_sapi (pos_data raw) =? 4); [|apply T]. destruct (rx_bcch e s b (pos_data raw)). apply T. }
  destruct (ty =? 17). { destruct (short raw 5); [discriminate|]. unfold rx_cnf. destruct (_ || _); discriminate. }
  destruct (Z.eqb_spec ty 16) as [->|_].
  { destruct (short raw 13); [discriminate|]. unfold rx_rts.
    assert (X : rt_trx (pos_rts raw) < 8 /\ rt_ts (pos_rts raw) < 8).
    { cbn [rt_trx rt_ts pos_rts]. unfold no_slot_raw in NS. lia. }
    pose proof (slot_in b _ _ W (proj1 X) (proj2 X)) as Sl.
    destruct (slot_of b (rt_trx (pos_rts raw)) (rt_ts (pos_rts raw))) as [p|]; [|congruence].
    rewrite andb_false_r.
    destruct (rt_sapi _ =? 5); [|destruct (rt_sapi _ =? 7)]; try discriminate; destruct (_ || _); try discriminate;
      destruct (p_on p); discriminate. }
  destruct (ty =? 34).
  { destruct (short raw 15); [discriminate|]. unfold rx_rach.
    destruct (_ <? _); [discriminate|]. destruct (bts_rfn_to_fn _ _); [|discriminate].
    destruct (ri_sapi _ =? 1); [discriminate|]. destruct (ri_sapi _ =? 7); [|discriminate].
    destruct (Z.leb_spec 8 (ri_trx (pos_rach raw))) as [|X1]; [discriminate|].
    destruct (Z.leb_spec 8 (ri_ts (pos_rach raw))) as [|X2]; [discriminate|]. cbn [orb].
    pose proof (slot_in b _ _ W X1 X2) as Sl.
    destruct (slot_of b (ri_trx (pos_rach raw)) (ri_ts (pos_rach raw))) as [p|]; [|congruence].
    destruct (p_on p); discriminate. }
  destruct (ty =? 50).
  { destruct (short raw 1003); [discriminate|]. unfold rx_info.
    destruct (negb _); [discriminate|]. destruct (negb _); [destruct (b_active b); discriminate|].
    cbv zeta. destruct (match s_bssgp s with Some g => Some g | None => _ end); [|discriminate].
    destruct (negb _); [discriminate|]. destruct (set_trxs _ _ _ _) as [[xs a]|]; [|discriminate].
    destruct (_ && _); discriminate. }
  destruct (ty =? 51); [destruct (short raw 5); discriminate|].
  destruct (ty =? 82); [destruct (short raw 4); discriminate|].
  destruct (ty =? 96).
  { destruct (short raw 11); [discriminate|]. unfold rx_pag. destruct (_ <=? _); [discriminate|].
    destruct (e_mi _ _) as [[]|]; discriminate. }
  destruct (ty =? 3). { destruct (short raw 11); [discriminate|]. unfold rx_susp. destruct (s_bssgp s); discriminate. }
  destruct (Z.eqb_spec ty 4) as [->|_].
  { destruct (short raw 164) eqn:Sh; [discriminate|]. unfold short in Sh. unfold rx_app. cbn [fst snd].
    rewrite octets_ok; [discriminate|]. rewrite skipn_length.
    assert (nth 1 raw 0 <= 162) by (destruct (Z_le_gt_dec (nth 1 raw 0) 162); [easy|exfalso; apply TL; lia]). lia. }
  destruct (ty =? 83); [discriminate|].
  destruct (ty =? 128); [|discriminate].
  destruct (short raw 4); [discriminate|].
  destruct (Z.ltb_spec (HDR + Z.of_nat (length raw)) (HDR + SZ_CONT + (256 * nth 2 raw 0 + nth 3 raw 0))) as [|L]; [discriminate|].
  unfold rx_cont. destruct (_ =? 130); [|discriminate].
  destruct (Z.ltb_spec (256 * nth 2 raw 0 + nth 3 raw 0) SZ_NADDR) as [|L2]; [discriminate|].
  destruct (naddr_at (skipn 4 raw)) as (n & r & E).
  { rewrite skipn_length. unfold SZ_CONT, SZ_NADDR, HDR in *. lia. }
  rewrite E. discriminate.
Qed.
Lemma read_safe : forall e s d, wf s -> ~ no_slot d -> ~ too_long d -> sock_read e s d <> Fault.
Proof.
  intros e s d W NS TL. destruct (read_cases e s d) as [[-> H] | [[L H] | (ty & nr & p & q & raw & -> & H)]];
    rewrite H; try discriminate.
  rewrite rx_disp. unfold no_slot, too_long, kind, oct, DATA_IND, APP_INFO, RTS_REQ in *.
  cbn [nth] in NS, TL. apply disp_safe.
  - now apply have_bwf.
  - unfold no_slot_raw. rewrite !nth_cut by lia. exact NS.
  - rewrite nth_cut by lia. exact TL.
Qed.

(** ** Ending the process *)
Lemma slots_none : forall nr trx mask is ts ps, set_slots nr trx mask ts is ps = None ->
  exists k i, nth_error is k = Some i /\ (k < length ps)%nat /\ Z.testbit mask (ts + Z.of_nat k) = true /\
    is_hop i <> 0 /\ 64 < is_malen i.
Proof.
  induction is as [|i is IH]; intros ts [|p ps] E; cbn [set_slots] in E; try discriminate.
  destruct (set_slot nr trx mask ts i p) as [[p1 a1]|] eqn:E1.
  - destruct (set_slots nr trx mask (ts + 1) is ps) as [[r a2]|] eqn:E2; [discriminate|].
    apply IH in E2. destruct E2 as (k & j & H1 & H2 & H3 & H4). exists (S k), j. cbn [nth_error length].
    split; [exact H1|]. split; [lia|]. split; [|exact H4]. rewrite <- H3. f_equal. lia.
  - exists 0%nat, i. cbn [nth_error length]. split; [reflexivity|]. split; [lia|].
    replace (ts + Z.of_nat 0) with ts by lia. unfold set_slot in E1.
    destruct (Z.testbit mask ts); [|destruct (p_on p); discriminate].
    destruct (Z.eqb_spec (is_hop i) 0); [discriminate|]. destruct (Z.ltb_spec 64 (is_malen i)); [easy|discriminate].
Qed.
Lemma trxs_none : forall nr is n xs, Forall (fun x => length (x_pdch x) = 8%nat) xs -> set_trxs nr n is xs = None ->
  exists j xi k i, nth_error is j = Some xi /\ (j < length xs)%nat /\ nth_error (ix_ts xi) k = Some i /\ (k < 8)%nat /\
    Z.testbit (ix_mask xi) (Z.of_nat k) = true /\ is_hop i <> 0 /\ 64 < is_malen i.
Proof.
  induction is as [|i is IH]; intros n [|x xs] F E; cbn [set_trxs] in E; try discriminate.
  inversion F as [|? ? F1 F2]; subst.
  destruct (set_slots nr n (ix_mask i) 0 (ix_ts i) (x_pdch x)) as [[ps a1]|] eqn:E1.
  - destruct (set_trxs nr (n + 1) is xs) as [[r a2]|] eqn:E2; [discriminate|].
    destruct (IH _ _ F2 E2) as (j & xi & k & t & H1 & H2 & H3). exists (S j), xi, k, t. cbn [nth_error length].
    split; [exact H1|]. split; [lia|]. exact H3.
  - apply slots_none in E1. destruct E1 as (k & t & H1 & H2 & H3 & H4). exists 0%nat, i, k, t. cbn [nth_error length].
    split; [reflexivity|]. split; [lia|]. split; [exact H1|]. split; [lia|]. split; [exact H3|]. exact H4.
Qed.
Lemma nth_map_seq : forall A (f : nat -> A) n k x, nth_error (map f (seq 0 n)) k = Some x -> x = f k /\ (k < n)%nat.
Proof.
  intros A f n k x H. assert (K : (k < length (map f (seq 0 n)))%nat) by (apply nth_error_Some; congruence).
  rewrite map_length, seq_length in K. split; [|exact K].
  apply nth_error_nth with (d := f 0%nat) in H. rewrite map_nth in H. rewrite seq_nth in H by exact K.
  subst x. f_equal.
Qed.
Definition long_ma_raw (raw : list Z) : Prop :=
  exists x t : nat, (x < 8)%nat /\ (t < 8)%nat /\
    Z.testbit (nth (8 + 112 * x + 2) raw 0) (Z.of_nat t) = true /\
    nth (8 + 112 * x + 8 + 13 * t + 1) raw 0 <> 0 /\ 64 < nth (8 + 112 * x + 8 + 13 * t + 4) raw 0.
Lemma disp_alive : forall e s b ty raw, wfx (b_trx b) ->
  (forall st, disp e s b ty raw = Exit st -> ty = 50 /\ 1003 <= Z.of_nat (length raw)) /\
  (disp e s b ty raw = Halt ->
     (ty = 2 /\ nth 0 raw 0 = 5 /\ HYP <= at_num 4 164 raw) \/ (ty = 50 /\ long_ma_raw raw)).
Proof.
  intros e s b ty raw W. unfold disp.
  destruct (Z.eqb_spec ty 2) as [->|_].
  { destruct (short raw 180) eqn:Sh; [split; discriminate|].
    assert (T : forall s1 a1 rc1 o,
      (if (rc1 <? 0) && e_tap e then
         match octets_at (di_len (pos_data raw)) (skipn 2 raw) with Some o => Done s1 (a1 ++ [ATap o]) rc1 | None => Fault end
       else Done s1 a1 rc1) = o -> o <> Halt /\ forall st, o <> Exit st).
    { intros s1 a1 rc1 o <-. destruct (_ && _); [destruct (octets_at _ _)|]; split; discriminate. }
    unfold rx_data. destruct (e_log e && _); [split; discriminate|].
    destruct (Z.eqb_spec (di_sapi (pos_data raw)) 5) as [S5|_].
    - destruct (e_log e && _); [split; discriminate|].
      destruct (Z.ltb_spec (di_fn (pos_data raw)) HYP) as [Lt|Ge]; cbn [negb].
      + destruct (slot_of b _ _) as [p|]; [|split; discriminate].
        destruct (p_on p); [destruct (octets_at (di_len (pos_data raw)) (skipn 2 raw)) as [oo|] eqn:O|];
          (split; [intros st E | intros E]; exfalso; apply T in E; destruct E as [E1 E2]; first [now apply E1 | now apply (E2 st)]).
      + split; [discriminate|]. intros _. left. easy.
    - destruct (di_sapi (pos_data raw) =? 4).
      + destruct (rx_bcch e s b (pos_data raw)) as [s1 rc].
        split; [intros st E | intros E]; exfalso; apply T in E; destruct E as [E1 E2]; first [now apply E1 | now apply (E2 st)].
      + split; [intros st E | intros E]; exfalso; apply T in E; destruct E as [E1 E2]; first [now apply E1 | now apply (E2 st)]. }
  destruct (ty =? 17). { destruct (short raw 5); [split; discriminate|]. unfold rx_cnf. destruct (_ || _); split; discriminate. }
  destruct (ty =? 16).
  { destruct (short raw 13); [split; discriminate|]. unfold rx_rts.
    destruct (e_log e && _); [split; discriminate|].
    destruct (rt_sapi _ =? 5); [|destruct (rt_sapi _ =? 7)]; try (split; discriminate); destruct (_ || _); try (split; discriminate);
      destruct (slot_of _ _ _) as [p|]; try (split; discriminate); destruct (p_on p); split; discriminate. }
  destruct (ty =? 34).
  { destruct (short raw 15); [split; discriminate|]. unfold rx_rach.
    destruct (_ <? _); [split; discriminate|].
    assert (M : exists fn, bts_rfn_to_fn (b_fn b) (fn2rfn (ri_fn (pos_rach raw))) = Some fn).
    { unfold bts_rfn_to_fn. pose proof (Z.mod_pos_bound (ri_fn (pos_rach raw)) RFN_MODULUS ltac:(reflexivity)) as M.
      fold (fn2rfn (ri_fn (pos_rach raw))) in M.
      destruct (Z.ltb_spec (fn2rfn (ri_fn (pos_rach raw))) RFN_MODULUS); [|lia]. cbn [negb].
      destruct (b_fn b =? FN_UNSET); eexists; reflexivity. }
    destruct M as [fn ->].
    destruct (ri_sapi _ =? 1); [split; discriminate|]. destruct (ri_sapi _ =? 7); [|split; discriminate].
    destruct (_ || _); [split; discriminate|]. destruct (slot_of _ _ _) as [p|]; [|split; discriminate].
    destruct (p_on p); split; discriminate. }
  destruct (Z.eqb_spec ty 50) as [->|_].
  { destruct (short raw 1003) eqn:Sh; [split; discriminate|]. unfold short in Sh.
    split; [intros st _; lia|]. intros E. right. split; [reflexivity|]. unfold rx_info in E.
    destruct (negb _); [discriminate|]. destruct (negb _); [destruct (b_active b); discriminate|].
    cbv zeta in E. destruct (match s_bssgp s with Some g => Some g | None => _ end); [|discriminate].
    destruct (negb _); [discriminate|].
    destruct (set_trxs (b_nr b) 0 (in_trx (pos_info raw)) (b_trx b)) as [[xs a]|] eqn:Q; [destruct (_ && _); discriminate|].
    destruct W as [_ W]. destruct (trxs_none _ _ _ _ W Q) as (j & xi & k & t & H1 & H2 & H3 & H4 & H5 & H6 & H7).
    cbn [in_trx pos_info] in H1. apply nth_map_seq in H1. destruct H1 as [-> Hj].
    cbn [ix_ts pos_itrx] in H3. apply nth_map_seq in H3. destruct H3 as [-> Hk].
    exists j, k. split; [easy|]. split; [easy|]. cbn [ix_mask pos_itrx is_hop is_malen pos_its] in *. easy. }
  destruct (ty =? 51); [destruct (short raw 5); split; discriminate|].
  destruct (ty =? 82); [destruct (short raw 4); split; discriminate|].
  destruct (ty =? 96).
  { destruct (short raw 11); [split; discriminate|]. unfold rx_pag. destruct (_ <=? _); [split; discriminate|].
    destruct (e_mi _ _) as [[]|]; split; discriminate. }
  destruct (ty =? 3). { destruct (short raw 11); [split; discriminate|]. unfold rx_susp. destruct (s_bssgp s); split; discriminate. }
  destruct (ty =? 4).
  { destruct (short raw 164) eqn:Sh; [split; discriminate|]. unfold rx_app. destruct (octets_at _ _); split; discriminate. }
  destruct (ty =? 83); [split; discriminate|].
  destruct (ty =? 128); [|split; discriminate].
  destruct (short raw 4); [split; discriminate|]. destruct (_ <? _); [split; discriminate|].
  unfold rx_cont. destruct (_ =? 130); [|split; discriminate].
  destruct (_ <? _); [split; discriminate|]. destruct (rd_naddr _) as [[n r]|]; split; discriminate.
Qed.
Lemma at_num_cut : forall k n l, (n + k <= 2003)%nat -> at_num k n (firstn 2003 l) = at_num k n l.
Proof.
  intros k n l H. unfold at_num. f_equal. apply map_ext_in. intros j Hj. apply in_seq in Hj. apply nth_cut. lia.
Qed.
Lemma read_alive : forall e s d, wf s ->
  (forall st, sock_read e s d = Exit st -> d = [] \/ (kind d = INFO_IND /\ 1007 <= Z.of_nat (length d))) /\
  (sock_read e s d = Halt -> no_frame d \/ long_ma d).
Proof.
  intros e s d W. destruct (read_cases e s d) as [[-> H] | [[L H] | (ty & nr & p & q & raw & -> & H)]];
    rewrite H; try (split; discriminate).
  - split; [|discriminate]. intros; now left.
  - rewrite rx_disp. pose proof (have_bwf s nr W) as B. unfold no_frame, long_ma, kind, oct, INFO_IND, DATA_IND, data_fn.
    cbn [nth length].
    destruct (disp_alive e (fst (have_bts s nr)) (snd (have_bts s nr)) ty (firstn 2003 raw) B) as [A1 A2]. split.
    + intros st E. right. destruct (A1 st E) as [-> E1]. split; [reflexivity|]. rewrite firstn_length in E1. lia.
    + intros E. destruct (A2 E) as [(-> & E1 & E2) | (-> & x & t & Hx & Ht & E1 & E2 & E3)].
      * left. rewrite nth_cut in E1 by lia. rewrite at_num_cut in E2 by lia. repeat split; try easy.
        unfold at_num, le in E2. cbn [map seq fold_right Nat.add] in E2. unfold oct. cbn [nth]. lia.
      * right. split; [reflexivity|]. exists x, t. rewrite !nth_cut in * by lia.
        change (12 + 112 * x + 2)%nat with (4 + (8 + 112 * x + 2))%nat.
        change (12 + 112 * x + 8 + 13 * t + 1)%nat with (4 + (8 + 112 * x + 8 + 13 * t + 1))%nat.
        change (12 + 112 * x + 8 + 13 * t + 4)%nat with (4 + (8 + 112 * x + 8 + 13 * t + 4))%nat.
        easy.
Qed.
