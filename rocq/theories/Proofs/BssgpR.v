(** Proofs about the messages of the SGSN: messages cut off, resets, and examples. *)
From Coq Require Import ZArith Lia List Bool.
From Verif Require Import Model.Bssgp Spec.BssgpSpec Proofs.BssgpP Proofs.BssgpQ.
Import ListNotations.
Local Open Scope Z_scope.

(** ** Cut off inside an element *)
Lemma one_cut : forall e n, elem_ok e -> (0 < n < length (enc_elem e))%nat -> one_ie (firstn n (enc_elem e)) = None.
Proof.
  intros e n (_ & _ & L) N. unfold enc_elem in *. set (len := Z.of_nat (length (e_val e))) in *. assert (LN : 0 <= len) by (subst len; lia).
  destruct (e_long e); cbn [length] in N.
  - destruct n as [|[|[|n]]]; cbn [firstn]; [lia | reflexivity | |].
    + unfold one_ie. destruct (128 <=? len / 256) eqn:E; [|reflexivity]. apply Z.leb_le in E. Z.div_mod_to_equations. lia.
    + unfold one_ie. destruct (Z.leb_spec 128 (len / 256)); [Z.div_mod_to_equations; lia|]. cbv zeta.
      destruct (Z.leb_spec (256 * (len / 256) + len mod 256) (Z.of_nat (length (firstn n (e_val e))))) as [X|]; [|reflexivity].
      rewrite firstn_length in X. exfalso. pose proof (Z.div_mod len 256). lia.
  - destruct n as [|[|n]]; cbn [firstn]; [lia | reflexivity |].
    unfold one_ie. destruct (Z.leb_spec 128 (128 + len)); [|lia]. cbv zeta.
    destruct (Z.leb_spec (128 + len - 128) (Z.of_nat (length (firstn n (e_val e))))) as [X|]; [|reflexivity].
    rewrite firstn_length in X. lia.
Qed.
Lemma parse_cut : forall l p k, Forall elem_ok l -> p <> [] -> one_ie p = None -> parse_n k (enc l ++ p) = None.
Proof.
  induction l as [|e l IH]; intros p k F P O.
  - cbn [enc flat_map app]. destruct p as [|x p]; [elim P; reflexivity|]. destruct k; [reflexivity|]. cbn [parse_n]. rewrite O. reflexivity.
  - inversion F as [|? ? OK F']; subst. cbn [enc flat_map]. fold (enc l). rewrite <- app_assoc. destruct k as [|k]; cbn [parse_n].
    + destruct (enc_elem e ++ enc l ++ p) eqn:E; [destruct (enc_nil _ _ E) | reflexivity].
    + destruct (enc_elem e ++ enc l ++ p) eqn:E; [destruct (enc_nil _ _ E)|]. rewrite <- E, (one_enc _ _ OK), (IH _ _ F' P O). reflexivity.
Qed.
Lemma cut_off : forall c k b v n ty hd l e i, ~ In ty [STATUS; 112; 113; 114; 115; 116] ->
  length hd = (if (ty =? UL_UNITDATA) || (ty =? DL_UNITDATA) then 7%nat else 0%nat) ->
  Forall elem_ok l -> elem_ok e -> (0 < i < length (enc_elem e))%nat ->
  rcvmsg c k b v n (ty :: hd ++ enc l ++ firstn i (enc_elem e)) = Done k [AStatus InvMandInf].
Proof.
  intros c k b v n ty hd l e i NT LH F OK I. unfold rcvmsg.
  assert (H : has [STATUS; 112; 113; 114; 115; 116] ty = false).
  { unfold has. apply not_true_is_false. intros X. apply existsb_exists in X. destruct X as (y & Y & E). apply Z.eqb_eq in E. subst y. exact (NT Y). }
  rewrite H. cbv zeta.
  assert (E : (if (ty =? UL_UNITDATA) || (ty =? DL_UNITDATA) then skipn 8 (ty :: hd ++ enc l ++ firstn i (enc_elem e)) else skipn 1 (ty :: hd ++ enc l ++ firstn i (enc_elem e)))
              = enc l ++ firstn i (enc_elem e)).
  { destruct ((ty =? UL_UNITDATA) || (ty =? DL_UNITDATA)).
    - change (skipn 8 (ty :: hd ++ enc l ++ firstn i (enc_elem e))) with (skipn 7 (hd ++ enc l ++ firstn i (enc_elem e))). rewrite <- LH. apply skip_app.
    - destruct hd; [reflexivity | discriminate]. }
  rewrite E. unfold parse. rewrite parse_cut; [reflexivity | exact F | | exact (one_cut _ _ OK I)].
  destruct (enc_elem e) as [|x r]; [cbn in I; lia|]. destruct i; [lia|]. discriminate.
Qed.

(** ** A reset by the SGSN *)
Lemma reset_msg : forall c k b n l x, Forall elem_ok l -> 0 <= x < 65536 -> first IE_BVCI l = Some (oct2 x) ->
  rcvmsg c k b 0 n (message BVC_RESET l) = Done k [if (x =? 0) || (x =? c_bvci c) then ALib else AStatus UnknownBvci].
Proof.
  intros c k b n l x F X FI. unfold rcvmsg, message. replace (has _ BVC_RESET) with false by reflexivity. cbv zeta.
  replace ((BVC_RESET =? UL_UNITDATA) || (BVC_RESET =? DL_UNITDATA)) with false by reflexivity. cbv iota.
  change (skipn 1 (BVC_RESET :: enc l)) with (enc l). rewrite (parse_enc l F). change (BVC_RESET =? BVC_RESET) with true. change (0 =? 0) with true. cbn [negb]. cbv iota.
  pose proof (look_first IE_BVCI l) as Y. rewrite FI in Y. destruct Y as (r & Y & _). rewrite Y. cbn [i_at].
  rewrite (load_app 2 (oct2 x) r eq_refl), (oct2_number x X). destruct (x =? 0), (x =? c_bvci c); reflexivity.
Qed.

(** ** Examples *)
Definition mi_ex (v : list Z) : option mid := match v with 41 :: _ => Some (MImsi 262011234567890) | _ => None end.
Definition cfg_ex : cfg := Cfg 1234 7 [0; 1] mi_ex (fun v => (hd 0 v, 12)).
Definition up_ex : link := Lk true true true true (Some TFlow).
Definition els_ex (old : bool) : list elem :=
  [El IE_LIFETIME false [3; 232]; El IE_IMSI false [41; 98; 16]; El IE_RAC false [10]] ++
  (if old then [El IE_TLLI false (oct4 3221225473)] else []) ++ [El IE_LLC true [65; 3; 1; 2; 3]].
Definition page_ex : list elem := [El IE_IMSI false [41; 98; 16]; El IE_CHAN false [2]; El IE_TMSI false (oct4 305419896); El IE_TLLI false (oct4 3221225473)].
Ltac oct_all := repeat (apply Forall_cons; [split; [discriminate | reflexivity]|]); apply Forall_nil.
Ltac elem_all := repeat (apply Forall_cons; [split; [split; [discriminate | reflexivity] | split; [cbn; oct_all | reflexivity]]|]); apply Forall_nil.
Lemma els_ok : forall b, Forall elem_ok (els_ex b).
Proof. intros []; unfold els_ex; cbn [app]; elem_all. Qed.
Lemma page_ok : Forall elem_ok page_ex.
Proof. unfold page_ex. elem_all. Qed.

Lemma dl_ex : rcvmsg cfg_ex up_ex false 1234 7 (dl_unitdata 3221225472 [0; 80; 32] (els_ex false)) =
  Done up_ex [ADown 3221225472 RESERVED (Some 262011234567890) (10, 12) 1000 [65; 3; 1; 2; 3]].
Proof. vm_compute. reflexivity. Qed.
Lemma old_ex : rcvmsg cfg_ex up_ex false 1234 7 (dl_unitdata 3221225472 [0; 80; 32] (els_ex true)) =
  Done up_ex [ADown 3221225472 49152 (Some 262011234567890) (10, 12) 1000 [65; 3; 1; 2; 3]].
Proof. vm_compute. reflexivity. Qed.

(** Octets that were not received are read. *)
Definition short_ex : list (list Z) :=
  [ []; [DL_UNITDATA; 192; 0]; dl_unitdata 3221225472 [0; 80; 32] [El IE_LIFETIME false [3; 232]; El IE_LLC false [1]; El IE_TLLI false [192]];
    message PAGING_CS [El IE_IMSI false [41]; El IE_TLLI false [192; 0]]; message BVC_RESET [El IE_CAUSE false [8]; El IE_BVCI false [4]] ].
Lemma short_fault : map (fun m => rcvmsg cfg_ex up_ex false (if hd 0 m =? DL_UNITDATA then 1234 else 0) 7 m) short_ex = [Fault; Fault; Fault; Fault; Fault].
Proof. vm_compute. reflexivity. Qed.
(** A TLLI of two octets is filled up from the element after it. *)
Lemma mixed_ex : rcvmsg cfg_ex up_ex false 0 7 (message PAGING_CS [El IE_IMSI false [41]; El IE_TLLI false [192; 0]; El IE_CHAN false [2]]) =
  Done up_ex [APageCs 0 2 262011234567890 None 3221227905; APageCs 1 2 262011234567890 None 3221227905].
Proof. vm_compute. reflexivity. Qed.

(** Two acknowledgements of the reset of the signalling BVC: the second is taken for one of the
    cell's. *)
Definition twice_ex : list bop := [BPrim PNsUp; BPrim PTimer; reset_ack cfg_ex 0; reset_ack cfg_ex 0].
Lemma twice : brun cfg_ex link0 twice_ex = Done (Lk true true true false (Some TUnblock)) [AReset 0; AReset 0; AReset 1234; AUnblock 1234].
Proof. vm_compute. reflexivity. Qed.

Lemma old_wrong : rcvmsg cfg_ex up_ex false (c_bvci cfg_ex) (c_nsei cfg_ex) (dl_unitdata 3221225472 [0; 80; 32] (els_ex true)) <> Done up_ex [down cfg_ex 3221225472 3221225473 (els_ex true)].
Proof. vm_compute. discriminate. Qed.
Lemma old_half : rcvmsg cfg_ex up_ex false (c_bvci cfg_ex) (c_nsei cfg_ex) (dl_unitdata 3221225472 [0; 80; 32] (els_ex true)) = Done up_ex [down cfg_ex 3221225472 (3221225473 / 65536) (els_ex true)].
Proof. vm_compute. reflexivity. Qed.
Lemma old_refuted : exists c k tlli old qos l,
  0 <= tlli < 4294967296 /\ length qos = 3%nat /\ Forall elem_ok l /\ first IE_TLLI l = Some (oct4 old) /\
  rcvmsg c k false (c_bvci c) (c_nsei c) (dl_unitdata tlli qos l) <> Done k [down c tlli old l] /\
  rcvmsg c k false (c_bvci c) (c_nsei c) (dl_unitdata tlli qos l) = Done k [down c tlli (old / 65536) l].
Proof.
  exists cfg_ex, up_ex, 3221225472, 3221225473, [0; 80; 32], (els_ex true). split; [lia|]. split; [reflexivity|].
  split; [exact (els_ok true)|]. split; [reflexivity|]. split; [exact old_wrong | exact old_half].
Qed.
Lemma mixed : exists l, Forall elem_ok l /\ first IE_TLLI l = Some [192; 0] /\
  rcvmsg cfg_ex up_ex false 0 7 (message PAGING_CS l) =
    Done up_ex [APageCs 0 2 262011234567890 None 3221227905; APageCs 1 2 262011234567890 None 3221227905].
Proof.
  exists [El IE_IMSI false [41]; El IE_TLLI false [192; 0]; El IE_CHAN false [2]]. split; [elem_all|]. split; [reflexivity | exact mixed_ex].
Qed.
Lemma page_long : ~ cut_short (message PAGING_CS page_ex).
Proof.
  intros [H | [(H & _) | [(H & _) | [(_ & len & rest & (t & e & P & L & _ & R) & X) | (H & _)]]]]; try discriminate.
  vm_compute in P. injection P as <-. vm_compute in L. injection L as <-. vm_compute in R. subst rest. lia.
Qed.

(** ** When the cell counts as reset *)
Lemma rst_timeout : forall c j k' a, then_timeout c j = Done k' a -> k_rst k' = k_rst j.
Proof.
  intros c j k' a H. unfold then_timeout, bvc_timeout in H.
  destruct (negb (k_sig j)); [|destruct (negb (k_rst j)); [|destruct (negb (k_unb j))]]; injection H as <- <-; reflexivity.
Qed.
Lemma step_rst : forall c k o k' a, bstep c k o = Done k' a -> k_rst k' = true ->
  k_rst k = true \/ (k_sig k = true /\ is_reset_ack o) \/ exists t, o = BPrim (PReset (c_bvci c) t).
Proof.
  intros c k o k' a H R. destruct o as [b v n m|p]; cbn [bstep] in H.
  - unfold rcvmsg in H. destruct m as [|ty m]; [discriminate|].
    destruct (has _ ty); [injection H as <- <-; auto|]. cbv zeta in H.
    destruct (parse _) as [t|] eqn:P; [|injection H as <- <-; auto].
    destruct (ty =? BVC_RESET); [left; cases H; injection H as <- <-; exact R|]. destruct (Z.eqb_spec v 0) as [->|].
    + unfold rx_sign in H. destruct (ty =? STATUS); [discriminate|]. destruct (has _ ty); [injection H as <- <-; auto|].
      destruct (Z.eqb_spec ty BVC_RESET_ACK) as [->|].
      { rewrite (rst_timeout _ _ _ _ H) in R. destruct (k_sig k); [|left; exact R]. right. left. split; [reflexivity|]. exists b, n, m. reflexivity. }
      left. destruct (ty =? PAGING_CS); [rewrite <- (cs_same _ _ _ _ _ H); exact R|]. destruct (ty =? PAGING_PS); [rewrite <- (ps_same _ _ _ _ _ H); exact R|].
      destruct (ty =? BVC_UNBLOCK_ACK); [rewrite (rst_timeout _ _ _ _ H) in R; exact R|].
      cases H; injection H as <- <-; exact R.
    + left. destruct (negb _); [injection H as <- <-; auto|]. destruct (v =? 1); [injection H as <- <-; auto|]. unfold rx_ptp in H.
      destruct (b && _); [injection H as <- <-; auto|]. destruct (ty =? STATUS); [discriminate|].
      destruct (ty =? DL_UNITDATA); [rewrite <- (rx_same _ _ _ _ _ _ H); exact R|]. destruct (has _ ty); [injection H as <- <-; auto|].
      destruct (ty =? PAGING_CS); [rewrite <- (cs_same _ _ _ _ _ H); exact R|]. destruct (ty =? PAGING_PS); [rewrite <- (ps_same _ _ _ _ _ H); exact R|].
      cases H; injection H as <- <-; exact R.
  - destruct p as [v t|v t| | |]; unfold rx_prim in H.
    + left. cases H; try (rewrite (rst_timeout _ _ _ _ H) in R; cbn in R; first [exact R | discriminate R]); injection H as <- <-; exact R.
    + destruct (v =? 0).
      * left. cases H; injection H as <- <-; first [exact R | discriminate R].
      * destruct (Z.eqb_spec v (c_bvci c)) as [->|]; [right; right; exists t; reflexivity|]. injection H as <- <-. auto.
    + left. destruct (k_ns k); [injection H as <- <-; exact R|]. rewrite (rst_timeout _ _ _ _ H) in R. discriminate.
    + left. destruct (k_ns k); injection H as <- <-; [discriminate | exact R].
    + left. destruct (k_tm k); [rewrite (rst_timeout _ _ _ _ H) in R; exact R|]. injection H as <- <-. exact R.
Qed.

Lemma brun_app : forall c p q k, brun c k (p ++ q) =
  match brun c k p with Done k1 a => match brun c k1 q with Done k2 b => Done k2 (a ++ b) | r => r end | r => r end.
Proof.
  intros c p q. induction p as [|o p IH]; intros k; cbn [app brun].
  - destruct (brun c k q); reflexivity.
  - destruct (bstep c k o) as [k1 a| |]; try reflexivity. rewrite IH. destruct (brun c k1 p) as [k2 b| |]; try reflexivity.
    destruct (brun c k2 q); try reflexivity. rewrite app_assoc. reflexivity.
Qed.
Lemma reset_told : forall c ops k a, brun c link0 ops = Done k a -> k_rst k = true ->
  exists p o q kp ap, ops = p ++ o :: q /\ brun c link0 p = Done kp ap /\
    (k_sig kp = true /\ is_reset_ack o \/ exists t, o = BPrim (PReset (c_bvci c) t)) /\
    forall q1 q2, q = q1 ++ q2 -> exists k1 a1, brun c link0 (p ++ o :: q1) = Done k1 a1 /\ k_rst k1 = true.
Proof.
  intros c ops. induction ops as [|x ops IH] using rev_ind; intros k a H R; [injection H as <- <-; discriminate|].
  pose proof H as H0. rewrite brun_app in H. destruct (brun c link0 ops) as [k1 a1| |] eqn:E; try discriminate.
  cbn [brun] in H. destruct (bstep c k1 x) as [k2 b| |] eqn:S; try discriminate. assert (k2 = k) by congruence. subst k2.
  destruct (step_rst _ _ _ _ _ S R) as [R1|D].
  - destruct (IH _ _ eq_refl R1) as (p & o & q & kp & ap & -> & Ep & D & Q). exists p, o, (q ++ [x]), kp, ap.
    split; [rewrite <- app_assoc; reflexivity|]. split; [exact Ep|]. split; [exact D|]. intros q1 q2 EQ.
    destruct q2 as [|y q2] using rev_ind.
    + rewrite app_nil_r in EQ. subst q1. rewrite app_comm_cons, app_assoc. exists k, a. split; [exact H0 | exact R].
    + rewrite app_assoc in EQ. apply app_inj_tail in EQ. destruct EQ as (EQ & _). exact (Q _ _ EQ).
  - exists ops, x, [], k1, a1. split; [reflexivity|]. split; [exact E|]. split; [exact D|]. intros q1 q2 EQ.
    symmetry in EQ. apply app_eq_nil in EQ. destruct EQ as (-> & _). exists k, a. split; [exact H0 | exact R].
Qed.
Lemma twice_wrong : exists c ops k a, brun c link0 ops = Done k a /\ In (AUnblock (c_bvci c)) a /\
  ~ In (reset_ack c (c_bvci c)) ops /\ (forall o, In o ops -> o = BPrim PNsUp \/ o = BPrim PTimer \/ o = reset_ack c 0).
Proof.
  exists cfg_ex, twice_ex. eexists. eexists. split; [exact twice|]. split; [cbn; auto 6|]. split.
  - intros [H|[H|[H|[H|[]]]]]; try discriminate; vm_compute in H; discriminate.
  - intros o [H|[H|[H|[H|[]]]]]; subst o; auto.
Qed.
Lemma service : forall c ops k a u g, 0 < c_bvci c < 65536 -> brun c link0 ops = Done k a -> k_ns k = true ->
  k_tm k <> None /\ exists k' g', after_timer c u k g = Some (k', g') /\ in_service k' g'.
Proof.
  intros c ops k a u g B H N. assert (T : k_tm k <> None) by exact (timer_runs _ _ _ _ H N). split; [exact T | exact (converge _ _ _ _ B N T)].
Qed.
