(** Proofs about the scheduler: reservations, control messages, synchronisation. *)
From Coq Require Import ZArith List Bool Lia.
From Verif Require Import Base.Arith Model.FrameNo Model.UlController Model.CodingScheme Model.Sched
  Model.DlBlockTx Spec.FrameSpec Spec.SchedSpec Proofs.FrameP Proofs.UlcP Proofs.SchedP.
Import ListNotations.
Local Open Scope Z_scope.

(** ** One mobile per block *)

Lemma by_rel now t m fn : rel now t m ->
  get_sba t fn = (match m fn with Some (OSba s) => Some s | _ => None end) /\
  get_tbf_poll t fn = (match m fn with Some (OPoll b _) => Some b | _ => None end).
Proof.
  intros R. unfold get_sba, get_tbf_poll. rewrite (rel_get now t m fn R).
  destruct (m fn) as [[| |]|]; cbn [option_map]; auto.
Qed.

Lemma in_hyper_next fn : in_hyper fn -> block_start fn -> in_hyper (fn_next_block fn).
Proof. intros F B. apply (proj1 (next_block_ok fn F B)). Qed.

Lemma one_mobile bal frees e s fn ts s' o : keeps_order bal -> ulc_reach bal frees (p_ulc s) ts ->
  in_hyper fn -> block_start fn -> usf_ok e -> tfi_ok (p_ul s) ->
  ahead (ts_now ts) (fn_next_block fn) < HALF ->
  (forall b, ts_m ts (fn_next_block fn) <> Some (OUsf b)) ->
  rts_step bal e s fn (fn2bn fn) = (s', o) ->
  exists m', (forall x, get_node (p_ulc s') x = option_map (mk_item x) (m' x)) /\
    (forall x, x <> fn_next_block fn -> m' x = ts_m ts x) /\
    (ts_m ts (fn_next_block fn) <> None -> m' (fn_next_block fn) = ts_m ts (fn_next_block fn)) /\
    (forall a b, may_send m' e (fn_next_block fn) (o_usf o) a -> may_send m' e (fn_next_block fn) (o_usf o) b -> a = b) /\
    (forall b, may_send m' e (fn_next_block fn) (o_usf o) (ByTbf b) ->
       m' (fn_next_block fn) = Some (OUsf b) \/ exists r, m' (fn_next_block fn) = Some (OPoll b r)).
Proof.
  intros KO RE F B (U1 & U2 & U3) N A NU. apply (reach_rel bal KO) in RE.
  pose proof (rts_next_ok fn F B) as RN. pose proof (in_hyper_next fn F B) as HP.
  set (p := fn_next_block fn) in *. set (m := ts_m ts) in *.
  destruct (by_rel _ _ _ p RE) as [GS GP].
  unfold rts_step, rts_uplink. rewrite RN. fold p. rewrite GS, GP.
  set (c := select_ctrl _ _ _ _ _).
  assert (SAME : forall x y, get_node (p_ulc s) x = option_map (mk_item x) (m x) /\ (x = y -> x = y)).
  { intros x y. split; auto. apply (rel_get _ _ _ x RE). }
  destruct (m p) as [[tb|b r|sb]|] eqn:MP.
  - exfalso. now apply (NU tb).
  - (* a poll *)
    intros E.
    assert (R : p_ulc s' = p_ulc s /\ o_usf o = match e_by_id e b with
       | Some u => if u_usf u =? USF_INVALID then 7 else u_usf u | None => 7 end).
    { cbv zeta in E. destruct (e_by_id e b) as [u|]; [destruct (u_usf u =? USF_INVALID)|];
        cbv beta iota in E; match type of E with context [rts_block ?a1 ?a2 ?a3 ?a4 ?a5] => destruct (rts_block a1 a2 a3 a4 a5) as [[? ?] ?] end;
        injection E as <- <-; auto. }
    destruct R as [-> ->]. exists m. splits; auto.
    + intros x. apply (proj1 (SAME x x)).
    + assert (X : forall a, may_send m e p (match e_by_id e b with
         | Some u => if u_usf u =? USF_INVALID then 7 else u_usf u | None => 7 end) a -> a = ByTbf b).
      { intros a [(x & Q & _)|[(x & r' & Q & ->)|(NZ & t & u & T & Et & Q & ->)]]; [congruence|congruence|].
        destruct (e_by_id e b) as [v|] eqn:Eb; [|lia].
        destruct (u_usf v =? USF_INVALID) eqn:V; [lia|]. apply Z.eqb_neq in V. unfold USF_INVALID in V.
        destruct (U3 _ _ Eb) as [<- X]. destruct (X V) as (t' & T' & Et').
        assert (t = t') by (apply (U2 t t' u v); auto). subst t'. rewrite Et in Et'. congruence. }
      intros a a' Ha Ha'. rewrite (X a Ha), (X a' Ha'). reflexivity.
    + intros b' [(x & Q & _)|[(x & r' & Q & W)|(NZ & t & u & T & Et & Q & W)]]; [congruence| |].
      * right. exists r'. injection W as ->. exact Q.
      * right. exists r. rewrite MP. repeat f_equal. injection W as ->.
        destruct (e_by_id e b) as [v|] eqn:Eb; [|lia].
        destruct (u_usf v =? USF_INVALID) eqn:V; [lia|]. apply Z.eqb_neq in V. unfold USF_INVALID in V.
        destruct (U3 _ _ Eb) as [<- X]. destruct (X V) as (t' & T' & Et').
        assert (t = t') by (apply (U2 t t' u v); auto). subst t'. rewrite Et in Et'. congruence.
  - (* a single block *)
    intros E.
    assert (R : p_ulc s' = p_ulc s /\ o_usf o = 7).
    { cbv zeta in E. cbv beta iota in E. match type of E with context [rts_block ?a1 ?a2 ?a3 ?a4 ?a5] => destruct (rts_block a1 a2 a3 a4 a5) as [[? ?] ?] end.
      injection E as <- <-; auto. }
    destruct R as [-> ->]. exists m. splits; auto.
    + intros x. apply (proj1 (SAME x x)).
    + assert (X : forall a, may_send m e p 7 a -> a = BySba sb).
      { intros a [(x & Q & ->)|[(x & r' & Q & ->)|(NZ & _)]]; [congruence|congruence|lia]. }
      intros a a' Ha Ha'. rewrite (X a Ha), (X a' Ha'). reflexivity.
    + intros b' [(x & Q & W)|[(x & r' & Q & W)|(NZ & _)]]; [discriminate|congruence|lia].
  - (* free *)
    destruct (select_uplink (e_ul e) (p_cs14 s =? MS_RESYNC_NUM_FRAMES - 1) (p_ul s)) as [[[t u]|] nul] eqn:SU.
    + destruct (select_uplink_some _ _ _ _ _ _ N SU) as (V & Et & _ & _). pose proof (proj1 V) as T.
      pose proof (rel_reserve bal KO _ _ m p (OUsf (u_id u)) RE HP A) as RR. rewrite MP in RR.
      destruct RR as (t' & ER & RE'). rewrite ER.
      intros E.
      assert (R : p_ulc s' = t' /\ o_usf o = u_usf u).
      { cbv zeta in E. cbn [fst] in E. cbv beta iota in E. match type of E with context [rts_block ?a1 ?a2 ?a3 ?a4 ?a5] => destruct (rts_block a1 a2 a3 a4 a5) as [[? ?] ?] end.
        injection E as <- <-; auto. }
      destruct R as [-> ->]. exists (t_set m p (Some (OUsf (u_id u)))).
      assert (MP' : t_set m p (Some (OUsf (u_id u))) p = Some (OUsf (u_id u))) by (unfold t_set; now rewrite Z.eqb_refl).
      assert (X : forall a, may_send (t_set m p (Some (OUsf (u_id u)))) e p (u_usf u) a -> a = ByTbf (u_id u)).
      { intros a [(x & Q & _)|[(x & r' & Q & _)|(NZ & t2 & u2 & T2 & Et2 & Q & ->)]]; [congruence|congruence|].
        assert (t = t2) by (apply (U2 t t2 u u2); auto). subst t2. rewrite Et in Et2. congruence. }
      splits.
      * intros x. apply (rel_get _ _ _ x RE').
      * intros x NX. unfold t_set. destruct (Z.eqb_spec x p); [contradiction|reflexivity].
      * intros Q. contradiction.
      * intros a a' Ha Ha'. rewrite (X a Ha), (X a' Ha'). reflexivity.
      * intros b' Hb. left. rewrite MP'. apply X in Hb. congruence.
    + intros E.
      assert (R : p_ulc s' = p_ulc s /\ o_usf o = 7).
      { cbv zeta in E. cbv beta iota in E. match type of E with context [rts_block ?a1 ?a2 ?a3 ?a4 ?a5] => destruct (rts_block a1 a2 a3 a4 a5) as [[? ?] ?] end.
        injection E as <- <-; auto. }
      destruct R as [-> ->]. exists m. splits; auto.
      * intros x. apply (proj1 (SAME x x)).
      * intros a a' [(x & Q & _)|[(x & r' & Q & _)|(NZ & _)]]; [congruence|congruence|lia].
      * intros b' [(x & Q & _)|[(x & r' & Q & _)|(NZ & _)]]; [congruence|congruence|lia].
Qed.

(** Different blocks are followed by different blocks. *)
Lemma next_block_inj a b : in_hyper a -> in_hyper b -> block_start a -> block_start b ->
  fn_next_block a = fn_next_block b -> a = b.
Proof.
  intros A B Sa Sb E.
  destruct (next_block_ok a A Sa) as (HN & _ & Ra & Na & _).
  destruct (next_block_ok b B Sb) as (_ & _ & Rb & Nb & _). rewrite <- E in Rb, Nb.
  set (n := fn_next_block a) in *. clearbody n.
  unfold ahead, in_hyper, HYP in *.
  destruct (Z.eq_dec ((n - a) mod 2715648) ((n - b) mod 2715648)) as [Q|Q].
  - Z.div_mod_to_equations. lia.
  - exfalso. destruct (Z_lt_le_dec ((n - a) mod 2715648) ((n - b) mod 2715648)).
    + apply (Nb 1); [lia|]. replace ((b + 1) mod 2715648) with a; auto. Z.div_mod_to_equations. lia.
    + apply (Na 1); [lia|]. replace ((a + 1) mod 2715648) with b; auto. Z.div_mod_to_equations. lia.
Qed.

(** ** Uplink rounds within a request *)
Lemma rts_ul_round bal e s fn bn s' o : rts_step bal e s fn bn = (s', o) ->
  let pfn := rts_next_fn fn bn in
  (get_sba (p_ulc s) pfn <> None \/ get_tbf_poll (p_ulc s) pfn <> None -> p_ul s' = p_ul s) /\
  (get_sba (p_ulc s) pfn = None -> get_tbf_poll (p_ulc s) pfn = None ->
   let '(x, next) := select_uplink (e_ul e) (p_cs14 s =? 17) (p_ul s) in
   p_ul s' = next /\ o_usf o = match x with Some (_, u) => u_usf u | None => 7 end).
Proof.
  intros E pfn. unfold rts_step, rts_uplink in E. fold pfn in E.
  change (MS_RESYNC_NUM_FRAMES - 1) with 17 in E. cbv zeta in E.
  destruct (get_sba (p_ulc s) pfn) as [sb|].
  - split; [|discriminate]. intros _. cbv beta iota in E.
    match type of E with context [rts_block ?a1 ?a2 ?a3 ?a4 ?a5] => destruct (rts_block a1 a2 a3 a4 a5) as [[? ?] ?] end. injection E as <- <-; auto.
  - destruct (get_tbf_poll (p_ulc s) pfn) as [b|].
    + split; [|discriminate]. intros _. destruct (e_by_id e b) as [u|]; [destruct (_ =? _)|]; cbv beta iota in E;
      match type of E with context [rts_block ?a1 ?a2 ?a3 ?a4 ?a5] => destruct (rts_block a1 a2 a3 a4 a5) as [[? ?] ?] end; injection E as <- <-; auto.
    + split; [intros [[]|[]]; reflexivity|]. intros _ _.
      destruct (select_uplink _ _ _) as [[[t u]|] next]; cbv beta iota in E;
      match type of E with context [rts_block ?a1 ?a2 ?a3 ?a4 ?a5] => destruct (rts_block a1 a2 a3 a4 a5) as [[? ?] ?] end; injection E as <- <-; auto.
Qed.

(** ** Control messages *)

Lemma no_app_pending r : no_app r ->
  match k_dl_ass (cr_cands r) with Some t => t_app t | None => false end && cr_stored r = false.
Proof.
  intros Q. destruct (k_dl_ass (cr_cands r)) as [t|] eqn:E; [|reflexivity].
  destruct (Q t E) as [-> | ->]; [reflexivity|apply andb_false_r].
Qed.
Lemma ctrl_sent r prio : no_app r -> r_sent (cr_run r prio) = r_made (cr_run r prio).
Proof.
  intros Q. apply no_app_pending in Q. unfold cr_run, select_ctrl. rewrite Q.
  destruct (rot_loop _ _ _ _); [reflexivity|]. cbv zeta.
  match goal with |- context [match ?q with Some m => mk_cres prio (Some m) (Some m) _ | None => _ end] => destruct q end;
  [reflexivity|]. destruct (cr_paging r); reflexivity.
Qed.

(** Which candidate sits at which place. *)
Definition due_at (r : cround) (i : Z) : option cmsg :=
  match next_list (cr_cands r) i with
  | None => None
  | Some t => match rot_kind (cr_cands r) t with
              | None => None
              | Some kd => if cr_make r kd (t_id t) then Some (mk_cmsg kd (Some (t_id t))) else None
              end
  end.
Lemma rot_loop_eq n r i : rot_loop (S n) (cr_make r) (cr_cands r) i =
  match due_at r i with Some m => Some m | None => rot_loop n (cr_make r) (cr_cands r) ((i + 1) mod 4) end.
Proof.
  cbn [rot_loop]. unfold due_at. destruct (next_list _ i) as [t|]; [|reflexivity].
  destruct (rot_kind _ t) as [kd|]; [|reflexivity]. destruct (cr_make r kd (t_id t)); reflexivity.
Qed.

Lemma due_at_kind r kd t : due r kd t -> first_for r kd t ->
  0 <= kind_no kd <= 3 /\ due_at r (kind_no kd) = Some (mk_cmsg kd (Some (t_id t))).
Proof.
  intros [M D] Fi. unfold due_at.
  assert (X : forall kd' t', kind_no kd' < kind_no kd -> cand_of (cr_cands r) kd' = Some t' ->
     (t_id t' =? t_id t) = false).
  { intros kd' t' L C. apply Z.eqb_neq. apply (Fi kd' t' L C). }
  assert (X' : forall kd', kind_no kd' < kind_no kd -> opt_is (cand_of (cr_cands r) kd') t = false).
  { intros kd' L. unfold opt_is. destruct (cand_of (cr_cands r) kd') eqn:E; [|reflexivity]. now apply X with kd'. }
  assert (OI : forall o, o = Some t -> opt_is o t = true) by (intros o ->; apply Z.eqb_refl).
  destruct kd; cbn [kind_no] in *; (try contradiction); unfold next_list; cbn [Z.eqb Pos.eqb].
  - destruct D as [E R]. rewrite E. unfold rot_kind. rewrite (OI _ E).
    split; [lia|]. destruct (t_reject t); cbn [andb]; [now rewrite M|].
    destruct R as [->|R]; [cbn [negb]; now rewrite M|discriminate].
  - destruct D as [E R]. rewrite E. unfold rot_kind. rewrite (OI _ E).
    pose proof (X' KUlAss eq_refl) as X0. cbn [cand_of] in X0. rewrite X0, R. cbn [andb]. rewrite M. split; [lia|auto].
  - rewrite D. unfold rot_kind. rewrite (OI _ D).
    pose proof (X' KUlAss eq_refl) as X0. pose proof (X' KDlAss eq_refl) as X1. cbn [cand_of] in X0, X1.
    rewrite X0, X1. cbn [andb]. rewrite M. split; [lia|auto].
  - rewrite D. unfold rot_kind. rewrite (OI _ D).
    pose proof (X' KUlAss eq_refl) as X0. pose proof (X' KDlAss eq_refl) as X1. pose proof (X' KUlAck eq_refl) as X2.
    cbn [cand_of] in X0, X1, X2. rewrite X0, X1, X2. cbn [andb]. rewrite M. split; [lia|auto].
Qed.

(** A due message at distance [d] is sent at once if nothing comes before. *)
Lemma rot_loop_reaches : forall n r i k, 0 <= i < 4 -> 0 <= k < 4 -> (k - i) mod 4 < Z.of_nat n ->
  due_at r k <> None -> exists m, rot_loop n (cr_make r) (cr_cands r) i = Some m /\
  ((k - i) mod 4 = 0 -> due_at r k = Some m).
Proof.
  induction n; intros r i k I K D M.
  - pose proof (Z.mod_pos_bound (k - i) 4). lia.
  - rewrite rot_loop_eq. destruct (Z.eq_dec k i) as [->|NE].
    + destruct (due_at r i) as [m|] eqn:E; [|contradiction]. exists m. auto.
    + destruct (due_at r i) as [m|] eqn:E.
      * exists m. split; auto. intros Q. exfalso. Z.div_mod_to_equations. lia.
      * destruct (IHn r ((i + 1) mod 4) k) as (m & E' & Q).
        -- apply Z.mod_pos_bound. lia.
        -- exact K.
        -- Z.div_mod_to_equations. lia.
        -- exact M.
        -- exists m. split; auto. intros Z0. exfalso. Z.div_mod_to_equations. lia.
Qed.
Lemma ctrl_rot r prio k : no_app r -> 0 <= prio < 4 -> 0 <= k < 4 -> due_at r k <> None ->
  exists m, r_sent (cr_run r prio) = Some m /\ r_prio (cr_run r prio) = (prio + 1) mod 4 /\
  ((k - prio) mod 4 = 0 -> due_at r k = Some m).
Proof.
  intros Q P K D. apply no_app_pending in Q.
  destruct (rot_loop_reaches 4 r prio k P K) as (m & E & M); auto.
  { apply Z.mod_pos_bound. lia. }
  exists m. unfold cr_run, select_ctrl. rewrite Q, (Z.mod_small prio 4), E by lia. cbn [r_sent r_prio]. auto.
Qed.

Lemma ctrl_rotation_load kd t : forall l prio, 0 <= prio < 4 ->
  (forall r, In r l -> no_app r /\ due r kd t /\ first_for r kd t) ->
  (kind_no kd - prio) mod 4 < Z.of_nat (length l) ->
  In (Some (mk_cmsg kd (Some (t_id t)))) (ctrl_rounds l prio).
Proof.
  induction l as [|r tl IH]; intros prio P Q L.
  - cbn [length] in L. pose proof (Z.mod_pos_bound (kind_no kd - prio) 4). lia.
  - cbn [ctrl_rounds]. destruct (Q r (or_introl eq_refl)) as (NA & D & Fi).
    destruct (due_at_kind r kd t D Fi) as [K E].
    destruct (ctrl_rot r prio (kind_no kd) NA P) as (m & S1 & S2 & S3); [lia|rewrite E; discriminate|].
    rewrite S1, S2. destruct (Z.eq_dec ((kind_no kd - prio) mod 4) 0) as [Z0|NZ].
    + left. specialize (S3 Z0). congruence.
    + right. apply IH.
      * apply Z.mod_pos_bound. lia.
      * intros r' I. apply Q. right; auto.
      * cbn [length] in L. Z.div_mod_to_equations. lia.
Qed.
Lemma ctrl_rotation kd t l prio : 0 <= prio < 4 -> length l = 4%nat ->
  (forall r, In r l -> no_app r /\ due r kd t /\ first_for r kd t) ->
  In (Some (mk_cmsg kd (Some (t_id t)))) (ctrl_rounds l prio).
Proof.
  intros P L Q. apply ctrl_rotation_load; auto. rewrite L. apply Z.mod_pos_bound. lia.
Qed.

(** Whenever an assignment can be made, some message goes out. *)
Lemma ctrl_busy r prio t : no_app r ->
  (k_dl_ass (cr_cands r) = Some t /\ cr_make r KDlAss (t_id t) = true) \/
  (k_dl_ass (cr_cands r) = None /\ k_ul_ass (cr_cands r) = Some t /\ cr_make r KUlAss (t_id t) = true) ->
  r_sent (cr_run r prio) <> None.
Proof.
  intros Q D. apply no_app_pending in Q. unfold cr_run, select_ctrl. rewrite Q.
  destruct (rot_loop _ _ _ _); [discriminate|].
  destruct D as [[-> ->]|(-> & -> & ->)]; discriminate.
Qed.

(** ** Candidates *)

Lemma fold_ul l : forall k, fold_left cand_ul l k = mk_cands
  (match last_with t_ul_ass l with Some t => Some t | None => k_ul_ass k end)
  (match last_with t_dl_ass l with Some t => Some t | None => k_dl_ass k end)
  (match last_with t_nacc l with Some t => Some t | None => k_nacc k end)
  (match last_with t_ul_ack l with Some t => Some t | None => k_ul_ack k end).
Proof.
  induction l as [|x r IH]; intros k; cbn [fold_left last_with]; [now destruct k|].
  rewrite IH. cbn [k_ul_ass k_dl_ass k_nacc k_ul_ack cand_ul].
  f_equal; match goal with |- context [last_with ?f r] => destruct (last_with f r); [reflexivity|destruct (f x); reflexivity] end.
Qed.
Lemma fold_dl l : forall k, fold_left cand_dl l k = mk_cands
  (match last_with t_ul_ass l with Some t => Some t | None => k_ul_ass k end)
  (match last_with t_dl_ass l with Some t => Some t | None => k_dl_ass k end)
  (match last_with t_nacc l with Some t => Some t | None => k_nacc k end)
  (k_ul_ack k).
Proof.
  induction l as [|x r IH]; intros k; cbn [fold_left last_with]; [now destruct k|].
  rewrite IH. cbn [k_ul_ass k_dl_ass k_nacc k_ul_ack cand_dl].
  f_equal; match goal with |- context [last_with ?f r] => destruct (last_with f r); [reflexivity|destruct (f x); reflexivity] end.
Qed.
Lemma candidates_are ul dl :
  let both f := match last_with f dl with Some t => Some t | None => last_with f ul end in
  candidates ul dl = mk_cands (both t_ul_ass) (both t_dl_ass) (both t_nacc) (last_with t_ul_ack ul).
Proof.
  unfold candidates. rewrite fold_dl, fold_ul. cbn [k_ul_ass k_dl_ass k_nacc k_ul_ack]. cbv zeta.
  f_equal; match goal with |- context [last_with ?f ul] => destruct (last_with f ul); reflexivity end.
Qed.

(** ** Turns within a list *)

Lemma last_with_app {A} (f : A -> bool) a b :
  last_with f (a ++ b) = match last_with f b with Some y => Some y | None => last_with f a end.
Proof.
  induction a as [|x r IH]; cbn [app last_with]; [destruct (last_with f b); reflexivity|].
  rewrite IH. destruct (last_with f b); reflexivity.
Qed.
Lemma last_with_In {A} (f : A -> bool) l x : last_with f l = Some x -> In x l.
Proof.
  induction l as [|y r IH]; cbn [last_with]; [discriminate|].
  destruct (last_with f r); [right; apply IH; congruence|]. destruct (f y); [left; congruence|discriminate].
Qed.
Definition placed (f : ctbf -> bool) (id : Z) (l : list ctbf) (n : nat) : Prop :=
  exists a t b, l = a ++ t :: b /\ t_id t = id /\ f t = true /\ (length b <= n)%nat.
Lemma filter_le {A} (f : A -> bool) l : (length (filter f l) <= length l)%nat.
Proof. induction l as [|x r IH]; cbn [filter length]; [lia|]. destruct (f x); cbn [length]; lia. Qed.
Lemma placed_rotate f id l n i : placed f id l n -> i <> id -> placed f id (rotate_in_list i l) n.
Proof.
  intros (a & t & b & -> & T & F & L) NE. unfold rotate_in_list.
  exists (filter (fun t => t_id t =? i) (a ++ t :: b) ++ filter (fun t => negb (t_id t =? i)) a), t,
    (filter (fun t => negb (t_id t =? i)) b).
  splits; auto.
  - rewrite (filter_app (fun t => negb (t_id t =? i))). cbn [filter].
    destruct (Z.eqb_spec (t_id t) i); [congruence|]. cbn [negb]. rewrite <- app_assoc. reflexivity.
  - pose proof (filter_le (fun t => negb (t_id t =? i)) b). lia.
Qed.
Lemma placed_lev f id l n e : placed f id l n -> lev_keeps f id e -> placed f id (lev_do l e) n.
Proof.
  intros P K. destruct e as [x|i|g|i]; cbn [lev_do lev_keeps] in *.
  - destruct P as (a & t & b & -> & T & F & L). exists (x :: a), t, b. splits; auto.
  - destruct P as (a & t & b & -> & T & F & L).
    exists (filter (fun t => negb (t_id t =? i)) a), t, (filter (fun t => negb (t_id t =? i)) b). splits; auto.
    + rewrite filter_app. cbn [filter]. destruct (Z.eqb_spec (t_id t) i); [congruence|reflexivity].
    + pose proof (filter_le (fun t => negb (t_id t =? i)) b). lia.
  - destruct P as (a & t & b & -> & T & F & L). exists (map g a), (g t), (map g b).
    destruct (K t) as [K1 K2]. splits; auto; [apply map_app|congruence|now rewrite map_length].
  - now apply placed_rotate.
Qed.
Lemma placed_levs f id n es : forall l, placed f id l n -> Forall (lev_keeps f id) es ->
  placed f id (fold_left lev_do es l) n.
Proof.
  induction es as [|e r IH]; intros l P Fe; cbn [fold_left]; [exact P|].
  inversion Fe; subst. apply IH; auto. now apply placed_lev.
Qed.
Lemma turn_load f id : forall rounds l n, placed f id l n ->
  (forall es, In es rounds -> Forall (lev_keeps f id) es) -> (n < length rounds)%nat ->
  In (Some id) (list_rounds f rounds l).
Proof.
  induction rounds as [|es r IH]; intros l n P K L; [cbn [length] in L; lia|].
  cbn [list_rounds]. cbv zeta. assert (P1 := placed_levs f id n es l P (K es (or_introl eq_refl))).
  set (l1 := fold_left lev_do es l) in *. destruct P1 as (a & t & b & E & T & F & LB).
  rewrite E, last_with_app. cbn [last_with]. destruct (last_with f b) as [x|] eqn:B.
  - destruct (Z.eq_dec (t_id x) id) as [->|NE]; [left; reflexivity|]. right.
    assert (Ix := last_with_In _ _ _ B). cbn [length] in L.
    assert (LT : (length (filter (fun t => negb (t_id t =? t_id x)%Z) b) < length b)%nat).
    { clear - Ix. induction b as [|y q IH]; [contradiction|]. cbn [filter length].
      destruct Ix as [->|Ix].
      - rewrite Z.eqb_refl. cbn [negb]. pose proof (filter_le (fun t => negb (t_id t =? t_id x)) q). lia.
      - specialize (IH Ix). destruct (negb (t_id y =? t_id x)); cbn [length]; lia. }
    apply (IH _ (n - 1)%nat).
    + exists (filter (fun t => t_id t =? t_id x) (a ++ t :: b) ++ filter (fun t => negb (t_id t =? t_id x)) a), t,
        (filter (fun t => negb (t_id t =? t_id x)) b). splits; auto.
      * unfold rotate_in_list. rewrite (filter_app (fun t => negb (t_id t =? t_id x))). cbn [filter].
        destruct (Z.eqb_spec (t_id t) (t_id x)); [congruence|]. cbn [negb]. rewrite <- app_assoc. reflexivity.
      * lia.
    + intros; apply K; right; auto.
    + lia.
  - rewrite F. left. congruence.
Qed.
Lemma turn f id t l rounds : In t l -> t_id t = id -> f t = true ->
  (forall es, In es rounds -> Forall (lev_keeps f id) es) -> length rounds = length l ->
  In (Some id) (list_rounds f rounds l).
Proof.
  intros I T F K L. apply in_split in I. destruct I as (a & b & ->).
  apply (turn_load f id rounds _ (length b)); auto.
  - exists a, t, b. splits; auto.
  - rewrite L, app_length. cbn [length]. lia.
Qed.

(** ** Synchronisation *)

Lemma rts_block_gprs e s fn c blk egprs ndl : tfi_ok (p_dl s) ->
  rts_block e s fn GPRS c = (blk, egprs, ndl) -> egprs = false.
Proof.
  intros N. unfold rts_block. destruct (r_sent c); [congruence|].
  destruct (select_dl (e_conf e) (e_dl e) fn GPRS (p_dl s)) as [[[[t d] p]|] n] eqn:E; [|congruence].
  intros W. destruct (select_dl_some _ _ _ _ _ _ _ _ _ N E) as ((_ & d' & D & _ & _ & _ & G & _) & D' & _).
  assert (d = d') by congruence. subst d'. specialize (G eq_refl). congruence.
Qed.
Lemma rts_block_data e s fn req c blk egprs ndl t eg rq p :
  rts_block e s fn req c = (blk, egprs, ndl) -> blk = SbData t eg rq p -> egprs = eg /\ rq = req.
Proof.
  unfold rts_block. destruct (r_sent c); [intros E ->; discriminate|].
  destruct (select_dl (e_conf e) (e_dl e) fn req (p_dl s)) as [[[[t' d] p']|] n].
  - destruct (e_block e t'); [intros E ->; split; congruence|].
    destruct (_ && _); intros E ->; discriminate.
  - destruct (_ && _); intros E ->; discriminate.
Qed.
Lemma rts_block_next e s fn req c blk egprs ndl : tfi_ok (p_dl s) ->
  rts_block e s fn req c = (blk, egprs, ndl) -> tfi_ok ndl.
Proof.
  intros N. unfold rts_block. destruct (r_sent c); [intros E; congruence|].
  unfold select_dl. destruct (select_dl_loop 32 _ _ _ _ _ _) as [[[t d] p]|]; intros E.
  - assert (ndl = Z.land (t + 1) 31) by congruence. subst. apply land31_ok.
  - congruence.
Qed.

Lemma rts_uplink_req bal e s fn bn u nul t req : rts_uplink bal e s fn bn = (u, nul, t, req) ->
  (p_cs14 s = 17 -> req = GPRS) /\
  (p_cs14 s <> 17 -> req <> GPRS) /\
  (req = EGPRS -> forall x, u = Some x -> u_mode x = EGPRS).
Proof.
  unfold rts_uplink. change (MS_RESYNC_NUM_FRAMES - 1) with 17. cbv zeta.
  match goal with |- context [match get_sba ?a ?b with _ => _ end] =>
    set (X := match get_sba a b with Some _ => _ | None => _ end) end.
  destruct X as [[u' nul'] t']. intros E.
  assert (u' = u) by congruence. subst u'.
  assert (R : req = match u with
      | Some x => if keqb (if p_cs14 s =? 17 then GPRS else EGPRS) EGPRS && negb (keqb (u_mode x) EGPRS)
                  then EGPRS_GMSK else if p_cs14 s =? 17 then GPRS else EGPRS
      | None => if p_cs14 s =? 17 then GPRS else EGPRS end) by congruence.
  rewrite R. destruct (Z.eqb_spec (p_cs14 s) 17) as [Q|Q]; splits.
  - intros _. destruct u; reflexivity.
  - intros NQ; contradiction.
  - destruct u; discriminate.
  - intros; contradiction.
  - intros _. destruct u as [x|]; [|discriminate]. cbn [keqb andb]. destruct (negb _); discriminate.
  - intros W x ->. cbn [keqb andb] in W. destruct (keqb (u_mode x) EGPRS) eqn:K; [now apply keqb_iff|discriminate].
Qed.

Lemma sync_step bal e s fn bn s' o : 0 <= p_cs14 s <= 17 -> tfi_ok (p_dl s) ->
  rts_step bal e s fn bn = (s', o) ->
  0 <= p_cs14 s' <= 17 /\ tfi_ok (p_dl s') /\ (undecodable o -> e_gprs e = true -> p_cs14 s' = p_cs14 s + 1).
Proof.
  intros C N. unfold rts_step. destruct (rts_uplink bal e s fn bn) as [[[u nul] t] req] eqn:U.
  set (c := select_ctrl _ _ _ _ _). destruct (rts_block e s fn req c) as [[blk eg] ndl] eqn:B.
  intros E. assert (E1 : s' = mk_ps nul ndl (r_prio c) (if eg && e_gprs e then (p_cs14 s + 1) mod 4294967296 else 0) t) by congruence.
  assert (E2 : o_block o = blk) by (assert (X : o = mk_out blk (match u with Some x => u_usf x | None => USF_UNUSED end)) by congruence; now rewrite X).
  subst s'. cbn [p_cs14 p_dl].
  destruct (rts_uplink_req _ _ _ _ _ _ _ _ _ U) as (R1 & _ & _).
  assert (G : p_cs14 s = 17 -> eg = false).
  { intros Q. rewrite (R1 Q) in B. eapply rts_block_gprs; eauto. }
  splits.
  - destruct (eg && e_gprs e) eqn:X; [|lia]. apply andb_true_iff in X. destruct X as [X _].
    destruct (Z.eq_dec (p_cs14 s) 17) as [Q|Q]; [rewrite G in X by auto; discriminate|].
    rewrite Z.mod_small; lia.
  - destruct (eg && e_gprs e) eqn:X; [|lia]. apply andb_true_iff in X. destruct X as [X _].
    destruct (Z.eq_dec (p_cs14 s) 17) as [Q|Q]; [rewrite G in X by auto; discriminate|].
    rewrite Z.mod_small; lia.
  - eapply rts_block_next; eauto.
  - unfold undecodable. rewrite E2. destruct blk as [m|t' eg' rq p| |] eqn:Bk; try contradiction.
    destruct eg'; [|contradiction]. intros _ ->.
    destruct (rts_block_data _ _ _ _ _ _ _ _ _ _ _ _ B eq_refl) as [-> ->].
    cbn [andb]. rewrite Z.mod_small; lia.
Qed.
Lemma sync_run bal l : forall s s' os, 0 <= p_cs14 s <= 17 -> tfi_ok (p_dl s) ->
  rts_run bal l s = (s', os) -> 0 <= p_cs14 s' <= 17 /\ tfi_ok (p_dl s').
Proof.
  induction l as [|q r IH]; intros s s' os C N; cbn [rts_run]; [intros E; injection E as <- <-; auto|].
  destruct (rts_step bal (q_env q) s (q_fn q) (q_bn q)) as [s1 o] eqn:S1.
  destruct (rts_run bal r s1) as [s2 os2] eqn:S2. intros E. injection E as <- <-.
  destruct (sync_step _ _ _ _ _ _ _ C N S1) as (C1 & N1 & _). eapply IH; eauto.
Qed.
Lemma sync_count bal l : forall s s' os, 0 <= p_cs14 s <= 17 -> tfi_ok (p_dl s) ->
  rts_run bal l s = (s', os) -> Forall (fun q => e_gprs (q_env q) = true) l -> Forall undecodable os ->
  p_cs14 s' = p_cs14 s + Z.of_nat (length l).
Proof.
  induction l as [|q r IH]; intros s s' os C N; cbn [rts_run]; [intros E _ _; injection E as <- <-; cbn; lia|].
  destruct (rts_step bal (q_env q) s (q_fn q) (q_bn q)) as [s1 o] eqn:S1.
  destruct (rts_run bal r s1) as [s2 os2] eqn:S2. intros E FA FB. injection E as <- <-.
  inversion FA; subst. inversion FB; subst.
  destruct (sync_step _ _ _ _ _ _ _ C N S1) as (C1 & N1 & D). rewrite (IH _ _ _ C1 N1 S2) by auto.
  rewrite D by auto. cbn [length]. lia.
Qed.
Lemma run_app bal l1 : forall l2 s, rts_run bal (l1 ++ l2) s =
  let '(s1, o1) := rts_run bal l1 s in let '(s2, o2) := rts_run bal l2 s1 in (s2, o1 ++ o2).
Proof.
  induction l1 as [|q r IH]; intros l2 s; cbn [app rts_run].
  - destruct (rts_run bal l2 s); reflexivity.
  - destruct (rts_step bal (q_env q) s (q_fn q) (q_bn q)) as [s1 o]. rewrite IH.
    destruct (rts_run bal r s1) as [s2 o2]. destruct (rts_run bal l2 s2); reflexivity.
Qed.
Lemma run_len bal l : forall s, length (snd (rts_run bal l s)) = length l.
Proof.
  induction l as [|q r IH]; intros s; cbn [rts_run]; [reflexivity|].
  destruct (rts_step bal (q_env q) s (q_fn q) (q_bn q)) as [s1 o]. specialize (IH s1).
  destruct (rts_run bal r s1); cbn [snd length] in *. lia.
Qed.
Lemma sync_ok bal l1 l2 : length l2 = 18%nat -> Forall (fun q => e_gprs (q_env q) = true) l2 ->
  let os := snd (rts_run bal (l1 ++ l2) ps_init) in
  ~ Forall undecodable (skipn (length l1) os).
Proof.
  intros L G os FU. subst os. rewrite run_app in FU.
  destruct (rts_run bal l1 ps_init) as [s1 o1] eqn:E1.
  destruct (rts_run bal l2 s1) as [s2 o2] eqn:E2. cbn [snd] in FU.
  pose proof (run_len bal l1 ps_init) as LN. rewrite E1 in LN. cbn [snd] in LN.
  rewrite <- LN, skipn_app, skipn_all, Nat.sub_diag in FU. cbn [skipn app] in FU.
  destruct (sync_run bal l1 ps_init s1 o1) as [C N]; auto; [cbn; lia|unfold tfi_ok; cbn; lia|].
  pose proof (sync_count bal l2 s1 s2 o2 C N E2 G FU) as Q.
  destruct (sync_run bal l2 s1 s2 o2 C N E2) as [C2 _]. rewrite L in Q. lia.
Qed.

(** A USF for a mobile that is not in EGPRS mode. *)
Lemma usf_block bal e s fn bn s' o u nul t req : tfi_ok (p_dl s) ->
  rts_step bal e s fn bn = (s', o) -> rts_uplink bal e s fn bn = (Some u, nul, t, req) ->
  u_mode u <> EGPRS ->
  match o_block o with
  | SbData tfi true rq p => rq = EGPRS_GMSK /\ (p = 5 \/ (p = 3 /\
      exists d, e_dl e tfi = Some d /\ d_resend d = false))
  | _ => True
  end.
Proof.
  intros N. unfold rts_step. intros E U NE. rewrite U in E.
  set (c := select_ctrl _ _ _ _ _) in *. destruct (rts_block e s fn req c) as [[blk eg] ndl] eqn:B.
  assert (E2 : o_block o = blk) by (assert (X : o = mk_out blk (u_usf u)) by congruence; now rewrite X).
  rewrite E2. destruct blk as [m|tfi eg' rq p| |] eqn:Bk; auto. destruct eg'; auto.
  destruct (rts_block_data _ _ _ _ _ _ _ _ _ _ _ _ B eq_refl) as [-> ->].
  destruct (rts_uplink_req _ _ _ _ _ _ _ _ _ U) as (R1 & R2 & R3).
  assert (RQ : req = EGPRS_GMSK).
  { destruct req; auto.
    - apply (rts_block_gprs e s fn c) in B; auto. discriminate.
    - exfalso. apply NE. now apply R3. }
  split; [exact RQ|]. unfold rts_block in B. destruct (r_sent c); [discriminate|].
  destruct (select_dl (e_conf e) (e_dl e) fn req (p_dl s)) as [[[[t' d] p']|] n] eqn:SD.
  - destruct (select_dl_some _ _ _ _ _ _ _ _ _ N SD) as ((_ & d' & D & _ & _ & _ & _ & GM) & D' & _).
    assert (d = d') by congruence. subst d'.
    destruct (e_block e t'); [|destruct (_ && _); discriminate].
    assert (t' = tfi /\ p' = p /\ d_egprs d = true) as (-> & -> & EG) by (splits; congruence).
    destruct (GM RQ EG) as [|[]]; [left; auto|right; eauto].
  - destruct (_ && _); discriminate.
Qed.
