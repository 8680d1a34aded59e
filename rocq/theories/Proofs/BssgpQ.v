(** Proofs about the messages of the SGSN: memory, refusals, the link. *)
From Coq Require Import ZArith Lia List Bool.
From Verif Require Import Model.Bssgp Spec.BssgpSpec Proofs.BssgpP.
Import ListNotations.
Local Open Scope Z_scope.

Ltac cases H := repeat match type of H with
  | context [match ?x with _ => _ end] => destruct x eqn:?; try discriminate H
  end.

(** ** Assertions and memory *)
Lemma has_status : forall ty l, has l ty = false -> In STATUS l -> ty =? STATUS = false.
Proof.
  intros ty l H I. destruct (Z.eqb_spec ty STATUS) as [->|]; [|reflexivity]. exfalso.
  unfold has in H. assert (X : existsb (Z.eqb STATUS) l = true) by (apply existsb_exists; exists STATUS; split; [exact I | apply Z.eqb_refl]).
  congruence.
Qed.
Lemma dl_ud_halt : forall c k m t, rx_dl_ud c k m t <> Halt.
Proof. intros c k m t H. unfold rx_dl_ud in H. cases H. Qed.
Lemma cs_halt : forall c k t, rx_paging_cs c k t <> Halt.
Proof. intros c k t H. unfold rx_paging_cs in H. cases H. Qed.
Lemma ps_halt : forall c k t, rx_paging_ps c k t <> Halt.
Proof. intros c k t H. unfold rx_paging_ps in H. cases H. Qed.
Lemma timeout_done : forall c k, exists k' a, then_timeout c k = Done k' a.
Proof. intros c k. unfold then_timeout. destruct (bvc_timeout c k) as [k' a]. eauto. Qed.

Lemma timeout_halt : forall c k, then_timeout c k <> Halt.
Proof. intros c k. unfold then_timeout. destruct (bvc_timeout c k). discriminate. Qed.
Lemma timeout_fault : forall c k, then_timeout c k <> Fault.
Proof. intros c k. unfold then_timeout. destruct (bvc_timeout c k). discriminate. Qed.

Lemma no_halt : forall c k b v n m, rcvmsg c k b v n m <> Halt.
Proof.
  intros c k b v n m H. unfold rcvmsg in H. destruct m as [|ty m]; [discriminate|].
  destruct (has _ ty) eqn:HS; [discriminate|]. pose proof (has_status ty _ HS (or_introl eq_refl)) as NS. clear HS. cbv zeta in H.
  destruct (parse _) as [t|]; [|discriminate]. destruct (ty =? BVC_RESET); [cases H|].
  destruct (v =? 0).
  - unfold rx_sign in H. rewrite NS in H. destruct (has _ ty); [discriminate|]. destruct (ty =? BVC_RESET_ACK).
    { exact (timeout_halt _ _ H). }
    destruct (ty =? PAGING_CS); [exact (cs_halt _ _ _ H)|]. destruct (ty =? PAGING_PS); [exact (ps_halt _ _ _ H)|].
    destruct (ty =? BVC_UNBLOCK_ACK).
    { exact (timeout_halt _ _ H). }
    cases H.
  - destruct (negb _); [discriminate|]. destruct (v =? 1); [discriminate|].
    unfold rx_ptp in H. rewrite NS in H. destruct (b && _); [discriminate|]. destruct (ty =? DL_UNITDATA); [exact (dl_ud_halt _ _ _ _ H)|].
    destruct (has _ ty); [discriminate|]. destruct (ty =? PAGING_CS); [exact (cs_halt _ _ _ H)|]. destruct (ty =? PAGING_PS); [exact (ps_halt _ _ _ H)|].
    cases H.
Qed.

Lemma load_none : forall n l, load n l = None -> (length l < n)%nat.
Proof. intros n l H. unfold load in H. destruct (Nat.leb_spec n (length l)); [discriminate | lia]. Qed.

Lemma one_ie_room : forall l e r, one_ie l = Some (e, r) -> i_len e <= Z.of_nat (length (i_at e)).
Proof.
  intros l e r H. unfold one_ie in H. destruct l as [|tag [|n l]]; try discriminate. destruct (128 <=? n).
  - cbv zeta in H. destruct (Z.leb_spec (n - 128) (Z.of_nat (length l))); [|discriminate]. injection H as <- <-. cbn. assumption.
  - destruct l as [|m l]; [discriminate|]. cbv zeta in H. destruct (Z.leb_spec (256 * n + m) (Z.of_nat (length l))); [|discriminate].
    injection H as <- <-. cbn. assumption.
Qed.
Lemma parse_n_room : forall n l t e, parse_n n l = Some t -> In e t -> i_len e <= Z.of_nat (length (i_at e)).
Proof.
  induction n as [|n IH]; intros l t e H I; destruct l as [|x l]; cbn [parse_n] in H; try discriminate; try (injection H as <-; destruct I).
  destruct (one_ie (x :: l)) as [[a r]|] eqn:O; [|discriminate]. destruct (parse_n n r) as [t'|] eqn:P; [|discriminate].
  cbn in H. injection H as <-. destruct I as [<-|I]; [exact (one_ie_room _ _ _ O) | exact (IH _ _ _ P I)].
Qed.
Lemma look_room : forall l t tag e, parse l = Some t -> look tag t = Some e -> i_len e <= Z.of_nat (length (i_at e)).
Proof. intros l t tag e P L. apply find_some in L. destruct L as (L & _). exact (parse_n_room _ _ _ _ P L). Qed.

Lemma Forall_skipn : forall (A : Type) (P : A -> Prop) n l, Forall P l -> Forall P (skipn n l).
Proof. intros A P n. induction n as [|n IH]; intros [|x l] F; cbn [skipn]; auto. inversion F; subst; auto. Qed.

Lemma no_fault_msg : forall c k b v n m, Forall oct m -> ~ cut_short m -> rcvmsg c k b v n m <> Fault.
Proof.
  intros c k b v n m OM NC H. unfold rcvmsg in H. destruct m as [|ty m]; [apply NC; left; reflexivity|].
  destruct (has _ ty); [discriminate|]. cbv zeta in H.
  destruct (parse _) as [t|] eqn:P; [|discriminate].
  assert (CS : ty = PAGING_CS -> rx_paging_cs c k t <> Fault).
  { intros T F. subst ty. cbn in P. apply NC. right. right. right. left. split; [reflexivity|]. unfold rx_paging_cs in F.
    destruct (look IE_IMSI t) as [e|]; [|discriminate]. destruct (c_mi c (value e)) as [[i|i|]|]; try discriminate.
    destruct (match look IE_TMSI t with None => _ | Some _ => _ end); [|discriminate].
    destruct (look IE_TLLI t) as [x|] eqn:L; [|discriminate]. destruct (load 4 (i_at x)) eqn:LO; [discriminate|].
    exists (i_len x), (Z.of_nat (length (i_at x))). split; [exists t, x; auto|]. apply load_none in LO. lia. }
  assert (PS : rx_paging_ps c k t <> Fault) by (intros F; unfold rx_paging_ps in F; cases F).
  assert (DU : ty = DL_UNITDATA -> rx_dl_ud c k (ty :: m) t <> Fault).
  { intros T F. subst ty. change (skipn 8 (DL_UNITDATA :: m)) with (skipn 7 m) in P. unfold rx_dl_ud in F.
    destruct (load 4 (skipn 1 (DL_UNITDATA :: m))) as [tlli|] eqn:LT.
    2:{ apply NC. right. left. split; [reflexivity|]. apply load_none in LT. cbn [skipn length] in *. lia. }
    destruct (look IE_LLC t) as [llc|]; [|discriminate]. destruct (LLC_MAX <? i_len llc); [discriminate|].
    destruct (match look IE_IMSI t with None => _ | Some _ => _ end); [|discriminate]. cbv zeta in F.
    destruct (look IE_LIFETIME t) as [e|] eqn:LL.
    - destruct (i_len e mod 256 =? 2) eqn:E2; [|destruct (look IE_TLLI t); discriminate].
      destruct (load 2 (i_at e)) eqn:L2.
      + destruct (look IE_TLLI t) as [x|] eqn:LX; [|discriminate]. destruct (load 2 (i_at x)) eqn:L3; [discriminate|].
        apply NC. right. right. left. split; [reflexivity|]. exists (i_len x), (Z.of_nat (length (i_at x))).
        split; [exists t, x; auto|]. apply load_none in L3. lia.
      + apply load_none in L2. pose proof (look_room _ _ _ _ P LL). apply Z.eqb_eq in E2.
        assert (0 <= i_len e). { destruct (Z.le_gt_cases 0 (i_len e)); [assumption|]. exfalso.
          (* a length is never negative *)
          apply find_some in LL. destruct LL as (LL & _). unfold parse in P.
          assert (NN : forall n l t e, Forall oct l -> parse_n n l = Some t -> In e t -> 0 <= i_len e).
          { clear. induction n as [|n IH]; intros l t e O H I; destruct l as [|x l]; cbn [parse_n] in H; try discriminate; try (injection H as <-; destruct I).
            destruct (one_ie (x :: l)) as [[a r]|] eqn:OI; [|discriminate]. destruct (parse_n n r) as [t'|] eqn:P; [|discriminate].
            cbn in H. injection H as <-. unfold one_ie in OI. destruct l as [|nn l]; [discriminate|]. inversion O as [|? ? O1 O2]; subst. inversion O2 as [|? ? O3 O4]; subst.
            unfold oct in *. destruct (Z.leb_spec 128 nn).
            - cbv zeta in OI. destruct (nn - 128 <=? Z.of_nat (length l)); [|discriminate]. injection OI as <- <-.
              destruct I as [<-|I]; [cbn [i_len]; lia|]. apply (IH _ _ _ (Forall_skipn _ _ _ _ O4) P I).
            - destruct l as [|mm l]; [discriminate|]. inversion O4 as [|? ? O5 O6]; subst. cbv zeta in OI. destruct (256 * nn + mm <=? Z.of_nat (length l)); [|discriminate].
              assert (EA : a = Ie x (256 * nn + mm) l) by congruence. assert (ER : r = skipn (Z.to_nat (256 * nn + mm)) l) by congruence. clear OI. subst a r.
              destruct I as [<-|I]; [cbn [i_len]; lia|]. apply (IH _ _ _ (Forall_skipn _ _ _ _ O6) P I). }
          assert (O7 : Forall oct (skipn 7 m)) by (inversion OM; subst; apply Forall_skipn; assumption).
          specialize (NN _ _ _ _ O7 P LL). lia. }
        pose proof (Z.mod_le (i_len e) 256 ltac:(lia) ltac:(lia)). lia.
    - destruct (look IE_TLLI t); discriminate. }
  destruct (Z.eqb_spec ty BVC_RESET) as [->|].
  - destruct (negb (v =? 0)); [discriminate|]. destruct (look IE_BVCI t) as [e|] eqn:L; [|discriminate].
    destruct (load 2 (i_at e)) eqn:LO; [cases H|]. apply NC. right. right. right. right. split; [reflexivity|].
    cbn in P. exists (i_len e), (Z.of_nat (length (i_at e))). split; [exists t, e; auto|]. apply load_none in LO. lia.
  - destruct (v =? 0).
    + unfold rx_sign in H. destruct (ty =? STATUS); [discriminate|]. destruct (has _ ty); [discriminate|]. destruct (ty =? BVC_RESET_ACK).
      { exact (timeout_fault _ _ H). }
      destruct (Z.eqb_spec ty PAGING_CS) as [T|]; [exact (CS T H)|]. destruct (ty =? PAGING_PS); [exact (PS H)|].
      destruct (ty =? BVC_UNBLOCK_ACK).
      { exact (timeout_fault _ _ H). }
      cases H.
    + destruct (negb _); [discriminate|]. destruct (v =? 1); [discriminate|].
      unfold rx_ptp in H. destruct (b && _); [discriminate|]. destruct (ty =? STATUS); [discriminate|].
      destruct (Z.eqb_spec ty DL_UNITDATA) as [T|]; [exact (DU T H)|].
      destruct (has _ ty); [discriminate|]. destruct (Z.eqb_spec ty PAGING_CS) as [T|]; [exact (CS T H)|]. destruct (ty =? PAGING_PS); [exact (PS H)|].
      cases H.
Qed.

(** ** What is handed on *)
Lemma skip_part : forall (A : Type) n (l : list A), exists p, l = p ++ skipn n l.
Proof. intros A n l. exists (firstn n l). symmetry. apply firstn_skipn. Qed.
Lemma parse_part : forall n l t e, parse_n n l = Some t -> In e t -> exists p, l = p ++ i_at e.
Proof.
  induction n as [|n IH]; intros l t e H I; destruct l as [|x l]; cbn [parse_n] in H; try discriminate; try (injection H as <-; destruct I).
  destruct (one_ie (x :: l)) as [[a r]|] eqn:O; [|discriminate]. destruct (parse_n n r) as [t'|] eqn:P; [|discriminate].
  cbn in H. injection H as <-.
  assert (X : (exists p, x :: l = p ++ i_at a) /\ exists p, x :: l = p ++ r).
  { unfold one_ie in O. destruct l as [|m l]; [discriminate|]. destruct (128 <=? m).
    - cbv zeta in O. destruct (_ <=? _); [|discriminate]. injection O as <- <-. cbn [i_at]. split; [exists [x; m]; reflexivity|].
      destruct (skip_part Z (Z.to_nat (m - 128)) l) as (p & E). exists ([x; m] ++ p). rewrite <- app_assoc, <- E. reflexivity.
    - destruct l as [|y l]; [discriminate|]. cbv zeta in O. destruct (_ <=? _); [|discriminate].
      assert (EA : a = Ie x (256 * m + y) l) by congruence. assert (ER : r = skipn (Z.to_nat (256 * m + y)) l) by congruence. clear O P. subst a r. cbn [i_at].
      split; [exists [x; m; y]; reflexivity|].
      destruct (skip_part Z (Z.to_nat (256 * m + y)) l) as (p & E). exists ([x; m; y] ++ p). rewrite <- app_assoc, <- E. reflexivity. }
  destruct X as (XA & (p & XR)). destruct I as [<-|I]; [exact XA|]. destruct (IH _ _ _ P I) as (q & E).
  exists (p ++ q). rewrite <- app_assoc, <- E. exact XR.
Qed.

Lemma timeout_acts : forall c k k' a x, then_timeout c k = Done k' a -> In x a -> (forall t o i cl lf d, x <> ADown t o i cl lf d) /\ (forall b i t, x <> APagePs b i t) /\
  forall b ch i t l, x <> APageCs b ch i t l.
Proof.
  intros c k k' a x H I. unfold then_timeout, bvc_timeout in H.
  destruct (negb (k_sig k)); [|destruct (negb (k_rst k)); [|destruct (negb (k_unb k))]]; injection H as <- <-; destruct I as [<-|[]]; repeat split; discriminate.
Qed.

Lemma handed : forall c k b v n m k' a tlli old imsi cls life llc,
  rcvmsg c k b v n m = Done k' a -> In (ADown tlli old imsi cls life llc) a ->
  hd 0 m = DL_UNITDATA /\ v = c_bvci c /\ n = c_nsei c /\ v <> 0 /\ b = false /\ k' = k /\ a = [ADown tlli old imsi cls life llc] /\
  (length llc <= 1543)%nat /\ exists p q, m = p ++ llc ++ q.
Proof.
  intros c k b v n m k' a tlli old imsi cls life llc H I. unfold rcvmsg in H. destruct m as [|ty m]; [discriminate|].
  destruct (has _ ty); [injection H as <- <-; destruct I as [I|[]]; discriminate|]. cbv zeta in H.
  destruct (parse _) as [t|] eqn:P; [|injection H as <- <-; destruct I as [I|[]]; discriminate].
  assert (CS : rx_paging_cs c k t = Done k' a -> False).
  { intros F. unfold rx_paging_cs in F. cases F; injection F as <- <-; try (destruct I as [I|[]]; discriminate);
      apply in_map_iff in I; destruct I as (? & ? & _); discriminate. }
  assert (PS : rx_paging_ps c k t = Done k' a -> False).
  { intros F. unfold rx_paging_ps in F. cases F; injection F as <- <-; try (destruct I as [I|[]]; discriminate);
      apply in_map_iff in I; destruct I as (? & ? & _); discriminate. }
  destruct (Z.eqb_spec ty BVC_RESET).
  { exfalso. cases H; injection H as <- <-; destruct I as [I|[]]; discriminate. }
  destruct (Z.eqb_spec v 0).
  { exfalso. unfold rx_sign in H. destruct (ty =? STATUS); [discriminate|]. destruct (has _ ty); [injection H as <- <-; destruct I|]. destruct (ty =? BVC_RESET_ACK).
    { destruct (timeout_acts _ _ _ _ _ H I) as (X & _). exact (X _ _ _ _ _ _ eq_refl). }
    destruct (ty =? PAGING_CS); [exact (CS H)|]. destruct (ty =? PAGING_PS); [exact (PS H)|].
    destruct (ty =? BVC_UNBLOCK_ACK).
    { destruct (timeout_acts _ _ _ _ _ H I) as (X & _). exact (X _ _ _ _ _ _ eq_refl). }
    cases H; injection H as <- <-; try (destruct I as [I|[]]; discriminate); destruct I. }
  destruct (negb _) eqn:NB; [injection H as <- <-; destruct I as [I|[]]; discriminate|]. apply negb_false_iff, andb_prop in NB. destruct NB as (B & N).
  apply Z.eqb_eq in B. apply Z.eqb_eq in N.
  destruct (v =? 1); [injection H as <- <-; destruct I as [I|[]]; discriminate|]. unfold rx_ptp in H.
  destruct (b && negb (ty =? STATUS)) eqn:BL; [injection H as <- <-; destruct I as [I|[]]; discriminate|]. destruct (ty =? STATUS) eqn:TS; [discriminate|].
  cbn [negb] in BL. rewrite andb_true_r in BL.
  destruct (Z.eqb_spec ty DL_UNITDATA) as [->|].
  2:{ exfalso. destruct (has _ ty); [injection H as <- <-; destruct I|]. destruct (ty =? PAGING_CS); [exact (CS H)|]. destruct (ty =? PAGING_PS); [exact (PS H)|].
      destruct (has _ ty); injection H as <- <-; [destruct I | destruct I as [I|[]]; discriminate]. }
  unfold rx_dl_ud in H. destruct (load 4 _) as [tl|]; [|discriminate].
  destruct (look IE_LLC t) as [e|] eqn:LL; [|injection H as <- <-; destruct I as [I|[]]; discriminate].
  destruct (Z.ltb_spec LLC_MAX (i_len e)) as [|LM]; [injection H as <- <-; destruct I as [I|[]]; discriminate|].
  destruct (match look IE_IMSI t with None => _ | Some _ => _ end) as [im|]; [|injection H as <- <-; destruct I as [I|[]]; discriminate].
  cbv zeta in H.
  destruct (match look IE_LIFETIME t with Some _ => _ | None => Some 65535 end) as [lf|]; [|discriminate].
  destruct (match look IE_TLLI t with Some _ => _ | None => _ end) as [od|]; [|discriminate].
  injection H as <- <-. destruct I as [I|[]]. injection I as -> -> -> -> -> <-.
  assert (LN : (length (value e) <= 1543)%nat) by (unfold value; rewrite firstn_length; unfold LLC_MAX in *; lia).
  split; [reflexivity|]. do 3 (split; [first [assumption | congruence]|]). split; [exact BL|]. split; [reflexivity|]. split; [reflexivity|].
  split; [exact LN|].
  pose proof LL as LI. apply find_some in LI. destruct LI as (LI & _). destruct (parse_part _ _ _ _ P LI) as (p & E).
  change ((DL_UNITDATA =? UL_UNITDATA) || (DL_UNITDATA =? DL_UNITDATA)) with true in E. cbv iota in E.
  destruct (skip_part Z 8 (DL_UNITDATA :: m)) as (p0 & E0). exists (p0 ++ p), (skipn (Z.to_nat (i_len e)) (i_at e)).
  unfold value. rewrite firstn_skipn, <- app_assoc, <- E. exact E0.
Qed.

(** ** The link *)
Definition runs (k : link) : Prop := k_ns k = true -> k_tm k <> None.
Lemma timeout_runs : forall c k k' a, then_timeout c k = Done k' a -> runs k'.
Proof.
  intros c k k' a H. unfold then_timeout, bvc_timeout in H.
  destruct (negb (k_sig k)); [|destruct (negb (k_rst k)); [|destruct (negb (k_unb k))]]; injection H as <- <-; intros _; discriminate.
Qed.
Lemma rx_same : forall c k m t k' a, rx_dl_ud c k m t = Done k' a -> k' = k.
Proof. intros c k m t k' a F. unfold rx_dl_ud in F. cases F; injection F; congruence. Qed.
Lemma cs_same : forall c k t k' a, rx_paging_cs c k t = Done k' a -> k' = k.
Proof. intros c k t k' a F. unfold rx_paging_cs in F. cases F; injection F; congruence. Qed.
Lemma ps_same : forall c k t k' a, rx_paging_ps c k t = Done k' a -> k' = k.
Proof. intros c k t k' a F. unfold rx_paging_ps in F. cases F; injection F; congruence. Qed.

Lemma msg_link : forall c k b v n m k' a, rcvmsg c k b v n m = Done k' a -> k' = k \/ exists j, then_timeout c j = Done k' a /\ k_ns j = k_ns k.
Proof.
  intros c k b v n m k' a H. unfold rcvmsg in H. destruct m as [|ty m]; [discriminate|].
  destruct (has _ ty); [injection H; auto|]. cbv zeta in H.
  destruct (parse _) as [t|] eqn:P; [|injection H; auto].
  destruct (ty =? BVC_RESET); [left; cases H; injection H; congruence|]. destruct (v =? 0).
  - unfold rx_sign in H. destruct (ty =? STATUS); [discriminate|]. destruct (has _ ty); [injection H; auto|]. destruct (ty =? BVC_RESET_ACK).
    { right. eexists. split; [exact H|]. destruct (k_sig k); reflexivity. }
    destruct (ty =? PAGING_CS); [left; exact (cs_same _ _ _ _ _ H)|]. destruct (ty =? PAGING_PS); [left; exact (ps_same _ _ _ _ _ H)|].
    destruct (ty =? BVC_UNBLOCK_ACK); [right; eexists; split; [exact H | reflexivity]|].
    left. cases H; injection H; congruence.
  - left. destruct (negb _); [injection H; auto|]. destruct (v =? 1); [injection H; auto|]. unfold rx_ptp in H.
    destruct (b && _); [injection H; auto|]. destruct (ty =? STATUS); [discriminate|].
    destruct (ty =? DL_UNITDATA); [exact (rx_same _ _ _ _ _ _ H)|]. destruct (has _ ty); [injection H; auto|].
    destruct (ty =? PAGING_CS); [exact (cs_same _ _ _ _ _ H)|]. destruct (ty =? PAGING_PS); [exact (ps_same _ _ _ _ _ H)|].
    cases H; injection H; congruence.
Qed.

Lemma step_runs : forall c k o k' a, runs k -> bstep c k o = Done k' a -> runs k'.
Proof.
  intros c k o k' a R H. destruct o as [b v n m|p]; cbn [bstep] in H.
  - destruct (msg_link _ _ _ _ _ _ _ _ H) as [->|(j & T & _)]; [exact R | exact (timeout_runs _ _ _ _ T)].
  - unfold rx_prim in H. cases H; try exact (timeout_runs _ _ _ _ H); injection H as <- <-; try exact R; intros X; discriminate.
Qed.
Lemma run_runs : forall c ops k k' a, runs k -> brun c k ops = Done k' a -> runs k'.
Proof.
  intros c ops. induction ops as [|o ops IH]; intros k k' a R H; cbn [brun] in H; [injection H as <- <-; exact R|].
  destruct (bstep c k o) as [k1 b| |] eqn:S; try discriminate. destruct (brun c k1 ops) as [k2 d| |] eqn:E; try discriminate.
  injection H as <- <-. exact (IH _ _ _ (step_runs _ _ _ _ _ R S) E).
Qed.

Lemma timer_runs : forall c ops k a, brun c link0 ops = Done k a -> k_ns k = true -> k_tm k <> None.
Proof. intros c ops k a H. apply (run_runs c ops link0 k a); [intros X; discriminate | exact H]. Qed.

(** Resets, unblocking and flow control are only sent by bvc_timeout. *)
Definition linked (x : act) : bool := match x with AReset _ | AUnblock _ | AFlow _ => true | _ => false end.
Ltac none I := first [solve [destruct I] | solve [destruct I as [I|[]]; subst; reflexivity] | apply in_map_iff in I; destruct I as (? & <- & _); reflexivity].
Lemma msg_quiet : forall c k b v n m k' a, rcvmsg c k b v n m = Done k' a ->
  (forall x, In x a -> linked x = false) \/ exists j, then_timeout c j = Done k' a.
Proof.
  intros c k b v n m k' a H.
  assert (CS : forall t, rx_paging_cs c k t = Done k' a -> forall x, In x a -> linked x = false).
  { intros t F x I. unfold rx_paging_cs in F. cases F; injection F as <- <-; none I. }
  assert (PS : forall t, rx_paging_ps c k t = Done k' a -> forall x, In x a -> linked x = false).
  { intros t F x I. unfold rx_paging_ps in F. cases F; injection F as <- <-; none I. }
  assert (DU : forall t l, rx_dl_ud c k l t = Done k' a -> forall x, In x a -> linked x = false).
  { intros t l F x I. unfold rx_dl_ud in F. cases F; injection F as <- <-; none I. }
  unfold rcvmsg in H. destruct m as [|ty m]; [discriminate|].
  destruct (has _ ty); [injection H as <- <-; left; intros x I; none I|]. cbv zeta in H.
  destruct (parse _) as [t|] eqn:P; [|injection H as <- <-; left; intros x I; none I].
  destruct (ty =? BVC_RESET); [left; intros x I; cases H; injection H as <- <-; none I|]. destruct (v =? 0).
  - unfold rx_sign in H. destruct (ty =? STATUS); [discriminate|]. destruct (has _ ty); [injection H as <- <-; left; intros x I; none I|].
    destruct (ty =? BVC_RESET_ACK); [right; eexists; exact H|].
    destruct (ty =? PAGING_CS); [left; exact (CS _ H)|]. destruct (ty =? PAGING_PS); [left; exact (PS _ H)|].
    destruct (ty =? BVC_UNBLOCK_ACK); [right; eexists; exact H|].
    left. intros x I. cases H; injection H as <- <-; none I.
  - left. destruct (negb _); [injection H as <- <-; intros x I; none I|]. destruct (v =? 1); [injection H as <- <-; intros x I; none I|]. unfold rx_ptp in H.
    destruct (b && _); [injection H as <- <-; intros x I; none I|]. destruct (ty =? STATUS); [discriminate|].
    destruct (ty =? DL_UNITDATA); [exact (DU _ _ H)|]. destruct (has _ ty); [injection H as <- <-; intros x I; none I|].
    destruct (ty =? PAGING_CS); [exact (CS _ H)|]. destruct (ty =? PAGING_PS); [exact (PS _ H)|].
    intros x I. cases H; injection H as <- <-; none I.
Qed.
Lemma step_quiet : forall c k o k' a, bstep c k o = Done k' a ->
  (forall x, In x a -> linked x = false) \/ exists j, then_timeout c j = Done k' a.
Proof.
  intros c k o k' a H. destruct o as [b v n m|p]; cbn [bstep] in H; [exact (msg_quiet _ _ _ _ _ _ _ _ H)|].
  unfold rx_prim in H. cases H; try (right; eexists; exact H); left; intros x I; injection H as <- <-; none I.
Qed.

(** What is sent in its turn. *)
Lemma in_turn : forall c k o k' a x, bstep c k o = Done k' a -> In x a ->
  match x with
  | AReset v => (v = 0 /\ k_sig k' = false) \/ (v = c_bvci c /\ k_sig k' = true /\ k_rst k' = false)
  | AUnblock v => v = c_bvci c /\ k_sig k' = true /\ k_rst k' = true /\ k_unb k' = false
  | AFlow v => v = c_bvci c /\ k_sig k' = true /\ k_rst k' = true /\ k_unb k' = true
  | _ => True
  end.
Proof.
  intros c k o k' a x H I. destruct (step_quiet _ _ _ _ _ H) as [Q|(j & E)].
  - specialize (Q x I). destruct x; try exact Logic.I; discriminate.
  - unfold then_timeout, bvc_timeout in E.
    destruct (k_sig j) eqn:S; cbn [negb] in E; [destruct (k_rst j) eqn:R; cbn [negb] in E; [destruct (k_unb j) eqn:U; cbn [negb] in E|]|];
      injection E as <- <-; destruct I as [<-|[]]; cbn; auto.
Qed.

(** The link comes into service. *)
Lemma ack_sig : forall c k b, 0 <= b < 65536 -> bstep c k (reset_ack c b) =
  then_timeout c (if k_sig k then Lk (k_ns k) true true (k_unb k) (k_tm k) else Lk (k_ns k) true (k_rst k) (k_unb k) (k_tm k)).
Proof. intros c k b B. reflexivity. Qed.
Lemma ack_unb : forall c k, bstep c k (unblock_ack c) = then_timeout c (Lk (k_ns k) (k_sig k) (k_rst k) true (k_tm k)).
Proof. intros c k. reflexivity. Qed.
Lemma status_at : forall c k x, bstep c k (status c x) =
  if (x =? 9) && k_unb k then then_timeout c (Lk (k_ns k) (k_sig k) (k_rst k) false (k_tm k))
  else if (x =? 5) && k_rst k then then_timeout c (Lk (k_ns k) (k_sig k) false (k_unb k) (k_tm k))
  else Done k [].
Proof.
  intros c k x. unfold status. cbn [bstep rx_prim]. 
  assert (E : parse (enc [CAUSE_ELEM x; BVCI_ELEM (c_bvci c)]) =
    Some [Ie IE_CAUSE 1 (x :: IE_BVCI :: 130 :: oct2 (c_bvci c)); Ie IE_BVCI 2 (oct2 (c_bvci c))]) by reflexivity.
  rewrite E. cbn [look find i_tag]. cbn [i_at]. change (IE_CAUSE =? IE_CAUSE) with true. change (IE_CAUSE =? IE_BVCI) with false. change (IE_BVCI =? IE_BVCI) with true.
  cbv iota. cbn [i_at]. rewrite Z.eqb_refl. cbn [negb]. reflexivity.
Qed.
Lemma talk_on : forall c u n k g x g1 o l k1 b, answers c u g x = (g1, o :: l) -> bstep c k o = Done k1 b ->
  talk c u (S n) k g [x] = talk c u n k1 g1 b.
Proof. intros c u n k g x g1 o l k1 b A E. cbn [talk]. rewrite A, E. reflexivity. Qed.
Lemma talk_end : forall c u n k g x g1, answers c u g x = (g1, []) -> talk c u (S (S n)) k g [x] = Some (k, g1).
Proof. intros c u n k g x g1 A. cbn [talk]. rewrite A. reflexivity. Qed.

Section Service.
Variable c : cfg.
Variable u : bool.
Hypothesis B : 0 < c_bvci c < 65536.
Definition fine (n : nat) (k : link) (g : sgsn) (a : list act) : Prop := exists k' g', talk c u n k g a = Some (k', g') /\ in_service k' g'.
Let NZ : c_bvci c =? 0 = false.
Proof. apply Z.eqb_neq. lia. Qed.

Lemma fine_open : forall n t, fine (2 + n) (Lk true true true true t) (Sg true true) [AFlow (c_bvci c)].
Proof. intros n t. eexists; eexists. split; [apply talk_end; reflexivity | repeat split]. Qed.
Lemma fine_unblock : forall n t o, fine (3 + n) (Lk true true true false t) (Sg true o) [AUnblock (c_bvci c)].
Proof.
  intros n t o. unfold fine. cbn [Nat.add]. erewrite talk_on; [|reflexivity | rewrite ack_unb; reflexivity]. apply fine_open.
Qed.
Lemma fine_known : forall n t t' un o, fine (5 + n) (Lk true true true un t) (Sg true o) (snd (bvc_timeout c (Lk true true true un t'))).
Proof.
  intros n t t' un o. destruct un; [|apply (fine_unblock (2 + n))]. destruct o; [apply (fine_open (3 + n))|]. unfold fine. cbn [Nat.add bvc_timeout k_sig k_rst k_unb negb snd].
  erewrite talk_on; [|reflexivity | rewrite status_at; reflexivity]. apply (fine_unblock (1 + n)).
Qed.
Lemma fine_reset : forall n t un g, fine (6 + n) (Lk true true false un t) g [AReset (c_bvci c)].
Proof.
  intros n t un g. unfold fine. cbn [Nat.add]. 
  erewrite talk_on; [|cbn [answers]; rewrite NZ; reflexivity | rewrite ack_sig by lia; unfold then_timeout; cbn [k_sig k_ns k_unb k_tm]; rewrite (surjective_pairing (bvc_timeout c _)); reflexivity].
  destruct un; apply (fine_known n _ t).
Qed.
Lemma fine_all : forall t g sg rs un, fine 20 (fst (bvc_timeout c (Lk true sg rs un t))) g (snd (bvc_timeout c (Lk true sg rs un t))).
Proof.
  intros t g sg rs un. assert (S1 : forall n t rs un g, fine (8 + n) (fst (bvc_timeout c (Lk true true rs un t))) g (snd (bvc_timeout c (Lk true true rs un t)))).
  { clear t g sg rs un. intros n t rs un g. destruct rs; [|apply (fine_reset (2 + n))]. destruct g as [[] o].
    - destruct un; apply (fine_known (3 + n) _ t).
    - destruct un; unfold fine; cbn [Nat.add bvc_timeout k_sig k_rst k_unb negb fst snd];
        (erewrite talk_on; [|reflexivity | rewrite status_at; reflexivity]); apply (fine_reset (1 + n)). }
  destruct sg; [apply (S1 12%nat)|]. unfold fine. cbn [bvc_timeout k_sig k_rst k_unb negb fst snd k_ns].
  erewrite talk_on; [|reflexivity | rewrite ack_sig by lia; unfold then_timeout; cbn [k_sig k_ns k_unb k_tm k_rst]; rewrite (surjective_pairing (bvc_timeout c _)); reflexivity].
  apply (S1 11%nat).
Qed.
End Service.

Lemma converge : forall c u k g, 0 < c_bvci c < 65536 -> k_ns k = true -> k_tm k <> None ->
  exists k' g', after_timer c u k g = Some (k', g') /\ in_service k' g'.
Proof.
  intros c u k g B NS TM. destruct k as [ns sg rs un [t|]]; [|elim TM; reflexivity]. cbn in NS. subst ns. clear TM.
  unfold after_timer. cbn [bstep rx_prim k_tm]. unfold then_timeout. rewrite (surjective_pairing (bvc_timeout c _)).
  apply (fine_all c u B).
Qed.
