(** More proofs about the PCU interface (C73): blocks, requests to send, INFO.ind. *)
From Coq Require Import ZArith List Bool Lia.
From Verif Require Import Model.FrameNo Model.BtsConf Model.PcuIf Spec.PcuIfSpec Proofs.PcuIfP Proofs.PcuIfQ Proofs.PcuIfR
  Proofs.PcuIfS Proofs.PcuIfT.
Import ListNotations.
Local Open Scope Z_scope.

(** ** Only timeslots in use *)
Lemma trxs_uses : forall nr is n xs xs' a, set_trxs nr n is xs = Some (xs', a) -> Forall (fun x => uses x = None) a.
Proof.
  assert (S : forall nr trx mask is ts ps ps' a, set_slots nr trx mask ts is ps = Some (ps', a) ->
              Forall (fun x => uses x = None) a).
  { induction is as [|i is IH]; intros ts [|p ps] ps' a E; cbn [set_slots] in E; try (injection E as <- <-; constructor).
    destruct (set_slot nr trx mask ts i p) as [[p1 a1]|] eqn:E1; [|discriminate].
    destruct (set_slots nr trx mask (ts + 1) is ps) as [[r a2]|] eqn:E2; [|discriminate].
    injection E as <- <-. apply Forall_app. split; [|eapply IH; eauto]. unfold set_slot in E1.
    destruct (Z.testbit mask ts), (is_hop i =? 0), (64 <? is_malen i), (p_on p); try discriminate;
      injection E1 as <- <-; repeat constructor. }
  induction is as [|i is IH]; intros n [|x xs] xs' a E; cbn [set_trxs] in E; try (injection E as <- <-; constructor).
  destruct (set_slots nr n (ix_mask i) 0 (ix_ts i) (x_pdch x)) as [[ps a1]|] eqn:E1; [|discriminate].
  destruct (set_trxs nr (n + 1) is xs) as [[r a2]|] eqn:E2; [|discriminate].
  injection E as <- <-. apply Forall_app. split; [eapply S; eauto|eapply IH; eauto].
Qed.
Definition fine (b : bts) (x : act) : Prop :=
  match uses x with
  | None => True
  | Some (n, x, t) => n = b_nr b /\ exists p, slot_of b x t = Some p /\ p_on p = true
  end.
Lemma disp_uses : forall e s b ty raw s' a rc, disp e s b ty raw = Done s' a rc -> Forall (fine b) a.
Proof.
  intros e s b ty raw s' a rc E. unfold disp in E.
  assert (X : forall s0 a0 rc0, Done s0 a0 rc0 = Done s' a rc -> Forall (fine b) a0 -> Forall (fine b) a) by congruence.
  assert (Z0 : forall s0 rc0, Done s0 [] rc0 = Done s' a rc -> Forall (fine b) a) by (intros; eapply X; [eassumption|constructor]).
  assert (Z1 : forall s0 x rc0, Done s0 [x] rc0 = Done s' a rc -> uses x = None -> Forall (fine b) a).
  { intros s0 x rc0 H U. eapply X; [exact H|]. constructor; [|constructor]. unfold fine. now rewrite U. }
  destruct (ty =? 2).
  { destruct (short raw 180); [eapply Z0; exact E|]. set (d := pos_data raw) in *. clearbody d. unfold rx_data in E.
    assert (T : forall s1 a1 rc1, Forall (fine b) a1 ->
      (if (rc1 <? 0) && e_tap e then
         match octets_at (di_len d) (skipn 2 raw) with Some o => Done s1 (a1 ++ [ATap o]) rc1 | None => Fault end
       else Done s1 a1 rc1) = Done s' a rc -> Forall (fine b) a).
    { clear E. intros s1 a1 rc1 Q E1. destruct (_ && _).
      - destruct (octets_at _ _); [|discriminate]. eapply X; [exact E1|]. apply Forall_app. split; [exact Q|].
        constructor; [exact Logic.I|constructor].
      - eapply X; [exact E1|exact Q]. }
    destruct (e_log e && _); [discriminate|]. destruct (di_sapi d =? 5).
    - destruct (e_log e && _); [discriminate|]. destruct (negb _); [discriminate|].
      destruct (slot_of b (di_trx d) (di_ts d)) as [p|] eqn:Sl; [|discriminate].
      destruct (p_on p) eqn:On.
      + destruct (octets_at (di_len d) (skipn 2 raw)) eqn:O; eapply T; try exact E; [|constructor].
        constructor; [|constructor]. cbn. split; [reflexivity|]. now exists p.
      + eapply T; [|exact E]. constructor.
    - destruct (di_sapi d =? 4); [destruct (rx_bcch e s b d) as [s1 rc1]|]; (eapply T; [|exact E]; constructor). }
  destruct (ty =? 17).
  { destruct (short raw 5); [eapply Z0; exact E|]. unfold rx_cnf in E.
    destruct (_ || _); [eapply Z1; [exact E|reflexivity]|eapply Z0; exact E]. }
  destruct (ty =? 16).
  { destruct (short raw 13); [eapply Z0; exact E|]. set (r := pos_rts raw) in *. clearbody r. unfold rx_rts in E.
    destruct (e_log e && _); [discriminate|].
    destruct (rt_sapi _ =? 5); [|destruct (rt_sapi _ =? 7)]; [| |eapply Z0; exact E];
      (destruct (_ || _); [eapply Z0; exact E|]; destruct (slot_of b (rt_trx r) (rt_ts r)) as [p|] eqn:Sl; [|discriminate];
       destruct (p_on p) eqn:On; [|eapply Z0; exact E]; eapply X; [exact E|]; constructor; [|constructor];
       cbn; split; [reflexivity|]; now exists p). }
  destruct (ty =? 34).
  { destruct (short raw 15); [eapply Z0; exact E|]. set (r := pos_rach raw) in *. clearbody r. unfold rx_rach in E.
    destruct (_ <? _); [eapply Z0; exact E|]. destruct (bts_rfn_to_fn _ _) as [fn|]; [|discriminate].
    destruct (ri_sapi _ =? 1); [eapply Z1; [exact E|reflexivity]|]. destruct (ri_sapi _ =? 7); [|eapply Z0; exact E].
    destruct (_ || _); [eapply Z0; exact E|]. destruct (slot_of b (ri_trx r) (ri_ts r)) as [p|] eqn:Sl; [|discriminate].
    destruct (p_on p) eqn:On; [|eapply Z0; exact E]. eapply X; [exact E|]. constructor; [|constructor].
    cbn. split; [reflexivity|]. now exists p. }
  destruct (ty =? 50).
  { destruct (short raw 1003); [eapply Z0; exact E|]. apply info_inv in E.
    destruct E as [(_ & -> & _) | (_ & _ & _ & xs & g & E & _ & _)]; [constructor|].
    apply trxs_uses in E. eapply Forall_impl; [|exact E]. intros x U. unfold fine. now rewrite U. }
  destruct (ty =? 51); [destruct (short raw 5); eapply Z0; exact E|].
  destruct (ty =? 82); [destruct (short raw 4); eapply Z0; exact E|].
  destruct (ty =? 96).
  { destruct (short raw 11); [eapply Z0; exact E|]. unfold rx_pag in E. destruct (_ <=? _); [eapply Z0; exact E|].
    destruct (e_mi _ _) as [[]|]; first [eapply Z0; exact E | eapply Z1; [exact E|reflexivity]]. }
  destruct (ty =? 3).
  { destruct (short raw 11); [eapply Z0; exact E|]. unfold rx_susp in E. destruct (s_bssgp s); (eapply Z1; [exact E|reflexivity]). }
  destruct (ty =? 4).
  { destruct (short raw 164); [eapply Z0; exact E|]. unfold rx_app in E. destruct (octets_at _ _); [|discriminate].
    eapply Z1; [exact E|reflexivity]. }
  destruct (ty =? 83); [eapply Z0; exact E|].
  destruct (ty =? 128); [|eapply Z0; exact E].
  destruct (short raw 4); [eapply Z0; exact E|]. destruct (_ <? _); [eapply Z0; exact E|].
  unfold rx_cont in E. destruct (_ =? 130); [|eapply Z0; exact E]. destruct (_ <? _); [eapply Z0; exact E|].
  destruct (rd_naddr _) as [[n r]|]; [|discriminate]. eapply Z1; [exact E|reflexivity].
Qed.
Lemma read_uses : forall e s d s' a rc x nr trx ts, sock_read e s d = Done s' a rc -> In x a ->
  uses x = Some (nr, trx, ts) -> is_on s nr trx ts = true.
Proof.
  intros e s d s' a rc x nr trx ts E I U.
  destruct (read_cases e s d) as [[-> H] | [[L H] | (ty & n & p & q & raw & -> & H)]]; rewrite H in E; [discriminate| |].
  - injection E as <- <- <-. contradiction.
  - rewrite rx_disp in E. apply disp_uses in E. rewrite Forall_forall in E. specialize (E x I).
    unfold fine in E. rewrite U in E. destruct E as (-> & pp & E1 & E2). rewrite have_nr.
    rewrite <- (have_on s n). unfold is_on. rewrite have_find. now rewrite E1.
Qed.

(** ** Blocks and requests to send *)
Lemma data_len : forall m, ok_data m -> length (enc_data m) = 180%nat.
Proof.
  intros m (_ & _ & L & _). unfold enc_data. rewrite !app_length, !octets_le_length, L. reflexivity.
Qed.
Lemma find_have : forall s nr b, find_bts s nr = Some b -> have_bts s nr = (s, b).
Proof. intros s nr b H. unfold have_bts. now rewrite H. Qed.
Lemma read_msg : forall e s ty nr raw, (length raw <= 2003)%nat -> sock_read e s (header ty nr ++ raw) = rx e s ty nr raw.
Proof.
  intros e s ty nr raw H. unfold sock_read. change (Z.to_nat MAX_READ) with 2007%nat.
  rewrite firstn_all2 by (rewrite app_length; change (length (header ty nr)) with 4%nat; lia). reflexivity.
Qed.
Lemma rx_have : forall e s ty nr raw b, find_bts s nr = Some b ->
  rx e s ty nr raw = disp e s b ty raw.
Proof. intros e s ty nr raw b F. rewrite rx_disp, (find_have _ _ _ F). reflexivity. Qed.
Lemma pos_enc_data : forall m, ok_data m -> pos_data (enc_data m) = m.
Proof.
  intros m H. pose proof (layout_data m H []) as L. rewrite app_nil_r in L.
  rewrite data_at in L by (rewrite data_len by easy; lia).
  apply (f_equal (fun x => match x with Some (a, _) => a | None => m end)) in L. exact L.
Qed.
Lemma enc_data_body : forall m k, ok_data m -> (k <= 162)%nat -> firstn k (skipn 2 (enc_data m)) = firstn k (di_data m).
Proof.
  intros m k (_ & _ & L & _) K. unfold enc_data. cbn [app skipn]. rewrite firstn_app, L.
  replace (k - 162)%nat with 0%nat by lia. cbn [firstn]. now rewrite app_nil_r.
Qed.
Lemma block : forall e s m nr, wf s -> ok_data m -> di_sapi m = 5 -> di_len m <= 162 -> di_fn m < HYP ->
  is_on s nr (di_trx m) (di_ts m) = true ->
  exists s' a b', sock_read e s (header DATA_IND nr ++ enc_data m) = Done s' (ABlock nr (di_trx m) (di_ts m)
      (firstn (Z.to_nat (di_len m)) (di_data m)) (di_fn m) (di_rssi m) (Z.quot (di_ber m) 100) (di_ta m)
      (Z.quot (di_lqual m) 10) :: a) (e_rc e) /\
    (forall x, In x a -> exists o, x = ATap o) /\
    find_bts s' nr = Some b' /\ b_fn b' = di_fn m.
Proof.
  intros e s m nr W Hm S5 HL HF On. pose proof (data_len m Hm) as L.
  unfold is_on in On. destruct (find_bts s nr) as [b|] eqn:F; [|discriminate].
  rewrite read_msg by lia. rewrite (rx_have _ _ _ _ _ b F). unfold disp, DATA_IND.
  change (2 =? 2) with true. cbn iota. unfold short. rewrite L. change (Z.of_nat 180 <? 180) with false. cbn iota.
  rewrite (pos_enc_data m Hm).
  destruct (slot_of b (di_trx m) (di_ts m)) as [p|] eqn:Sl; [|discriminate].
  assert (O : octets_at (di_len m) (skipn 2 (enc_data m)) = Some (firstn (Z.to_nat (di_len m)) (di_data m))).
  { rewrite octets_ok by (rewrite skipn_length, L; lia). f_equal. apply enc_data_body; [easy|].
    destruct Hm as (_ & Hl & _). unfold u8, byte in Hl. lia. }
  assert (Nb : b_nr b = nr) by now apply find_in in F.
  unfold rx_data. 
  assert (Lb : (Z.of_nat (length (skipn 2 (enc_data m))) <? di_len m) = false)
    by (rewrite skipn_length, L; apply Z.ltb_ge; change (Z.of_nat (180 - 2)) with 178; lia).
  rewrite Lb, andb_false_r, S5. change (5 =? 5) with true. cbn iota. rewrite Sl, andb_false_r.
  assert (Lf : (di_fn m <? HYP) = true) by (apply Z.ltb_lt; exact HF). rewrite Lf. cbn [negb]. rewrite On, O, Nb.
  assert (F' : find_bts (set_bts s (set_fn b (di_fn m))) nr = Some (set_fn b (di_fn m))) by (apply (set_find s b); [exact F | exact Nb]).
  destruct ((e_rc e <? 0) && e_tap e).
  - exists (set_bts s (set_fn b (di_fn m))), [ATap (firstn (Z.to_nat (di_len m)) (di_data m))], (set_fn b (di_fn m)).
    split; [reflexivity|]. split; [|easy]. intros x [<-|[]]. eexists. reflexivity.
  - exists (set_bts s (set_fn b (di_fn m))), [], (set_fn b (di_fn m)).
    split; [reflexivity|]. split; [|easy]. intros x [].
Qed.
Lemma rts_len : forall sp ar m, length sp = 3%nat -> length (enc_rts sp ar m) = 13%nat.
Proof. intros sp ar m H. unfold enc_rts. rewrite !app_length, !octets_le_length, H. reflexivity. Qed.
Lemma pos_enc_rts : forall sp ar m, length sp = 3%nat -> u16 ar -> ok_rts m -> pos_rts (enc_rts sp ar m) = m.
Proof.
  intros sp ar m H A M. pose proof (layout_rts sp ar m H A M []) as L. rewrite app_nil_r in L.
  rewrite rts_at in L by (rewrite rts_len by easy; lia).
  apply (f_equal (fun x => match x with Some (a, _) => a | None => m end)) in L. exact L.
Qed.
Lemma request : forall e s sp ar m nr, wf s -> length sp = 3%nat -> u16 ar -> ok_rts m -> rt_sapi m = 5 ->
  0 <= rt_trx m < 8 -> 0 <= rt_ts m < 8 -> find_bts s nr <> None ->
  sock_read e s (header RTS_REQ nr ++ enc_rts sp ar m) =
  Done s (if is_on s nr (rt_trx m) (rt_ts m) then [ARts nr (rt_trx m) (rt_ts m) (rt_fn m) (rt_blk m)] else []) 0.
Proof.
  intros e s sp ar m nr W Hs Ha Hm S5 Hx Ht F. pose proof (rts_len sp ar m Hs) as L.
  unfold is_on. destruct (find_bts s nr) as [b|] eqn:Fb; [|congruence]. clear F.
  rewrite read_msg by lia. rewrite (rx_have _ _ _ _ _ b Fb). unfold disp, RTS_REQ.
  change (16 =? 2) with false. change (16 =? 17) with false. change (16 =? 16) with true. cbn iota.
  unfold short. rewrite L. change (Z.of_nat 13 <? 13) with false. cbn iota. rewrite (pos_enc_rts sp ar m Hs Ha Hm).
  assert (Bw : wfx (b_trx b)).
  { destruct W as [_ W]. rewrite Forall_forall in W. apply W. now apply find_in in Fb. }
  pose proof (slot_in b _ _ Bw (proj2 Hx) (proj2 Ht)) as Sl.
  assert (Nb : b_nr b = nr) by now apply find_in in Fb.
  unfold rx_rts. rewrite S5. change (5 =? 5) with true. cbn iota.
  replace (8 <=? rt_trx m) with false by lia. replace (8 <=? rt_ts m) with false by lia. cbn [orb].
  destruct (slot_of b (rt_trx m) (rt_ts m)) as [p|]; [|congruence]. rewrite andb_false_r. cbn iota. now rewrite Nb.
Qed.

(** ** INFO.ind *)
Lemma concat_len : forall A (f : A -> list Z) n l, (forall x, In x l -> length (f x) = n) ->
  length (concat (map f l)) = (n * length l)%nat.
Proof.
  induction l as [|x l IH]; intros H; cbn [map concat length]; [lia|].
  rewrite app_length, H by (now left). rewrite IH by (intros; apply H; now right). lia.
Qed.
Lemma its_len : forall t, ok_its t -> length (enc_its t) = 13%nat.
Proof. intros t H. unfold enc_its. rewrite app_length, H. reflexivity. Qed.
Lemma itrx_len : forall t, ok_itrx t -> length (enc_itrx t) = 112%nat.
Proof.
  intros t (_ & _ & L & F). unfold enc_itrx. rewrite !app_length, !octets_le_length.
  rewrite (concat_len _ enc_its 13) by (intros x Hx; apply its_len; rewrite Forall_forall in F; now apply F).
  rewrite L. reflexivity.
Qed.
Lemma info_len : forall nse cell rep cv ext i,
  length nse = 7%nat -> length cell = 11%nat -> length rep = 3%nat -> length ext = 4%nat -> ok_info i ->
  length (enc_info nse cell rep cv ext i) = 1003%nat.
Proof.
  intros nse cell rep cv ext i L1 L2 L3 L4 (_ & _ & T1 & T2 & _ & _ & _ & _ & _ & _ & _ & N1 & _ & N2 & _ & N3 & _ & N4 & N5 & N6).
  unfold enc_info. rewrite !app_length, !octets_le_length, L1, L2, L3, L4.
  rewrite (concat_len _ enc_itrx 112) by (intros x Hx; apply itrx_len; rewrite Forall_forall in T2; now apply T2).
  rewrite !(concat_len _ (octets_le 2) 2) by (intros; apply octets_le_length).
  rewrite <- (map_id (in_ip i)).
  rewrite (concat_len _ (fun x => x) 16) by (intros x Hx; rewrite Forall_forall in N6; now apply N6).
  rewrite T1, N1, N2, N3, N4, N5. reflexivity.
Qed.
Lemma pos_enc_info : forall nse cell rep cv ext i,
  length nse = 7%nat -> length cell = 11%nat -> length rep = 3%nat -> length ext = 4%nat -> ok_info i ->
  pos_info (enc_info nse cell rep cv ext i) = i.
Proof.
  intros nse cell rep cv ext i L1 L2 L3 L4 H.
  pose proof (layout_info nse cell rep cv ext i L1 L2 L3 L4 H []) as L. rewrite app_nil_r in L.
  destruct (info_at (enc_info nse cell rep cv ext i)) as [r E]; [rewrite info_len by easy; lia|].
  rewrite E in L. apply (f_equal (fun x => match x with Some (a, _) => a | None => i end)) in L. exact L.
Qed.
Lemma info_taken : forall e s i nr nse cell rep cv ext, wf s ->
  length nse = 7%nat -> length cell = 11%nat -> length rep = 3%nat -> length ext = 4%nat -> ok_info i ->
  in_version i = 12 -> Z.testbit (in_flags i) 0 = true -> Z.testbit (in_flags i) 1 = false -> short_ma i ->
  In 4 (in_atype i) \/ In 41 (in_atype i) -> e_ns e = true -> e_bssgp e = true ->
  exists s' a b', sock_read e s (header INFO_IND nr ++ enc_info nse cell rep cv ext i) = Done s' a 0 /\
    find_bts s' nr = Some b' /\ b_active b' = true /\ b_bsic b' = in_bsic i /\
    b_cgi b' = mk_cgi (in_mcc i) (in_mnc i) (flag (in_mnc3 i)) (in_lac i) (in_rac i mod 256) (in_ci i) /\
    slots_as as_wanted i b' /\
    (forall x xi, nth_error (in_trx i) x = Some xi -> exists xb, nth_error (b_trx b') x = Some xb /\ x_arfcn xb = ix_arfcn xi) /\
    (in_t3142 i <> 0 ->
       t_3142 (s_t s') = in_t3142 i /\ t_3169 (s_t s') = in_t3169 i /\ t_3191 (s_t s') = in_t3191 i /\
       t_3193 (s_t s') = in_t3193 i * 10 /\ t_3195 (s_t s') = in_t3195 i /\
       b_n3101 b' = in_n3101 i /\ b_n3103 b' = in_n3103 i /\ b_n3105 b' = in_n3105 i) /\
    (s_bssgp s = None ->
       s_bssgp s' = Some (mk_bg nr (in_bvci i) (in_nsei i) (b_cgi b'))) /\
    s_bssgp s' <> None.
Proof.
  intros e s i nr nse cell rep cv ext W L1 L2 L3 L4 Hi V A D SM NA NS BG.
  pose proof (info_len nse cell rep cv ext i L1 L2 L3 L4 Hi) as L.
  rewrite read_msg by lia. rewrite rx_disp.
  pose proof (have_wf s nr W) as W1. pose proof (have_find s nr) as F. pose proof (have_nr s nr) as N.
  pose proof (have_bwf s nr W) as Bw.
  assert (Bg : s_bssgp (fst (have_bts s nr)) = s_bssgp s) by (unfold have_bts; destruct (find_bts s nr); reflexivity).
  set (s1 := fst (have_bts s nr)) in *. set (b := snd (have_bts s nr)) in *. clearbody s1 b.
  unfold disp, INFO_IND. change (50 =? 2) with false. change (50 =? 17) with false. change (50 =? 16) with false.
  change (50 =? 34) with false. change (50 =? 50) with true. cbn iota.
  unfold short. rewrite L. change (Z.of_nat 1003 <? 1003) with false. cbn iota.
  rewrite (pos_enc_info nse cell rep cv ext i L1 L2 L3 L4 Hi).
  destruct Hi as (_ & _ & T1 & T2 & _).
  destruct (set_trxs (b_nr b) 0 (in_trx i) (b_trx b)) as [[xs a]|] eqn:Q.
  2: { exfalso. destruct Bw as [_ Bw]. destruct (trxs_none _ _ _ _ Bw Q) as (j & xi & k & t & H1 & H2 & H3 & H4 & H5 & H6 & H7).
       specialize (SM j xi k t H1 H3 H6). lia. }
  assert (Ns : ns_ok e i = true).
  { unfold ns_ok. rewrite NS, andb_true_r. apply existsb_exists.
    destruct NA as [NA|NA]; [exists 4|exists 41]; (split; [exact NA|reflexivity]). }
  assert (Gx : exists g, info_bg e s1 b i = Some g /\ (s_bssgp s = None -> g = mk_bg nr (in_bvci i) (in_nsei i) (info_id i))).
  { unfold info_bg. rewrite Bg, BG, N. destruct (s_bssgp s) as [g|]; eexists; (split; [reflexivity|]); [discriminate|reflexivity]. }
  destruct Gx as (g & G1 & G2).
  exists (mk_pcu (s_bts (set_bts s1 (info_bts s1 b i xs))) (info_t (s_t s1) i) (Some g) (s_e1 s1) (s_vty s1)), a, (info_bts s1 b i xs).
  assert (R : rx_info e s1 b i =
    Done (mk_pcu (s_bts (set_bts s1 (info_bts s1 b i xs))) (info_t (s_t s1) i) (Some g) (s_e1 s1) (s_vty s1)) a 0).
  { unfold rx_info. rewrite V. change (12 =? 12) with true. rewrite A, D. cbn [negb andb]. cbv zeta.
    fold (info_id i). fold (info_bg e s1 b i). rewrite G1, Ns, Q. cbn [negb]. reflexivity. }
  rewrite R. split; [reflexivity|]. split.
  { change (find_bts (mk_pcu (s_bts ?x) ?t ?g ?l ?v) ?n) with (find_bts x n). apply (set_find s1 b); [exact F|exact N]. }
  repeat (split; [reflexivity|]). destruct Bw as [B1 B2].
  destruct (trxs_tell _ _ _ _ _ _ Q B2) as (X1 & X2 & _ & _ & X5). split.
  { intros x t Hx Ht.
    destruct (nth_error (in_trx i) x) as [xi|] eqn:Ex; [|apply nth_error_None in Ex; lia].
    rewrite Forall_forall in T2. destruct (T2 xi (nth_error_In _ _ Ex)) as (_ & _ & Lt & Ft).
    destruct (nth_error (ix_ts xi) t) as [it|] eqn:Et; [|apply nth_error_None in Et; lia].
    rewrite Forall_forall in Ft. pose proof (Ft it (nth_error_In _ _ Et)) as Oi.
    destruct (X5 x xi t it Ex Et ltac:(lia) Ht Oi) as (xb & p & Y1 & Y2 & Y3 & Y4).
    exists xi, it, p. split; [reflexivity|]. split; [exact Et|]. split; [|exact Y4].
    unfold slot_of. rewrite !Nat2Z.id. cbn [b_trx info_bts]. now rewrite Y1. }
  split.
  { intros x xi Ex. assert (Hx : (x < 8)%nat) by (rewrite <- T1; apply nth_error_Some; congruence).
    rewrite Forall_forall in T2. destruct (T2 xi (nth_error_In _ _ Ex)) as (_ & _ & Lt & Ft).
    destruct (nth_error (ix_ts xi) 0) as [it|] eqn:Et; [|apply nth_error_None in Et; lia].
    rewrite Forall_forall in Ft. pose proof (Ft it (nth_error_In _ _ Et)) as Oi.
    destruct (X5 x xi 0%nat it Ex Et ltac:(lia) ltac:(lia) Oi) as (xb & p & Y1 & Y2 & _). exists xb. easy. }
  split.
  { intros T. cbn [s_t b_n3101 b_n3103 b_n3105 info_bts]. unfold info_t, timed.
    destruct (Z.eqb_spec (in_t3142 i) 0); [congruence|]. cbn [negb]. repeat split. }
  split; [|discriminate]. intros Sn. cbn [s_bssgp b_cgi info_bts]. now rewrite (G2 Sn).
Qed.
