(** Proofs about Model/PcuTx.v: the socket. *)
From Coq Require Import ZArith List Bool Lia.
From Verif Require Import Model.PcuTx Spec.PcuTxSpec Proofs.PcuTxP Proofs.PcuTxQ.
Import ListNotations.
Local Open Scope Z_scope.

Definition full (m : list Z) : Prop := m <> [].
Definition filled (q : list (list Z)) : bool := match q with [] => false | _ => true end.

(** Accepted so far: [acc]. *)
Definition SInv (acc : list (list Z)) (k : sock) : Prop :=
  Forall full acc /\
  if k_exit k then prefix (k_wire k) acc
  else acc = k_wire k ++ k_queue k /\
       (k_fd k = false -> k_queue k = [] /\ k_wire k = []) /\ (k_fd k = true -> k_timer k = false) /\ k_want k = filled (k_queue k).

Lemma txt_full v : full (txt_ind v).
Proof. unfold full, txt_ind. unfold put at 1. destruct (put 4 _ _) eqn:E; [discriminate E|]. discriminate. Qed.

Lemma filled_app q m : filled (q ++ [m]) = true.
Proof. destruct q; reflexivity. Qed.

Lemma sinv_send acc k m : SInv acc k -> k_exit k = false -> full m ->
  SInv (acc ++ if snd (sock_send m k) =? 0 then [m] else []) (fst (sock_send m k)) /\
  k_exit (fst (sock_send m k)) = false /\ k_fd (fst (sock_send m k)) = k_fd k.
Proof.
  intros [I0 I] X F. rewrite X in I. destruct I as (I1 & I2 & I3 & I4). unfold sock_send.
  destruct (k_fd k) eqn:FD; cbn [fst snd Z.eqb]; (split; [|split; [exact X | reflexivity]]).
  - split; [apply Forall_app; split; [exact I0 | repeat constructor; exact F]|].
    cbn [k_exit k_wire k_queue k_fd k_timer k_want]. rewrite X.
    split; [rewrite I1, app_assoc; reflexivity|]. split; [discriminate|]. split; [exact I3|]. symmetry. apply filled_app.
  - rewrite app_nil_r. split; [exact I0|]. cbn [k_exit k_wire k_queue k_fd k_timer k_want]. rewrite X.
    split; [exact I1|]. split; [exact I2|]. split; [discriminate | exact I4].
Qed.

Lemma sinv_send_all ms : forall acc k, SInv acc k -> k_exit k = false -> k_fd k = true -> Forall full ms ->
  SInv (acc ++ ms) (send_all ms k) /\ k_exit (send_all ms k) = false /\ k_fd (send_all ms k) = true /\
  k_queue (send_all ms k) = k_queue k ++ ms /\ k_wire (send_all ms k) = k_wire k.
Proof.
  induction ms as [|m ms IH]; intros acc k HI X FD F; cbn [send_all fold_left].
  - rewrite !app_nil_r. auto.
  - inversion F as [|? ? F1 F2]; subst. destruct (sinv_send acc k m HI X F1) as (A & B & C).
    assert (E : snd (sock_send m k) = 0) by (unfold sock_send; rewrite FD; reflexivity).
    rewrite E in A. cbn [Z.eqb] in A. rewrite FD in C.
    destruct (IH (acc ++ [m]) _ A B C F2) as (P1 & P2 & P3 & P4 & P5). rewrite <- app_assoc in P1. cbn [app] in P1.
    unfold send_all in *. split; [exact P1|]. split; [exact P2|]. split; [exact P3|]. rewrite P4, P5.
    unfold sock_send. rewrite FD. cbn [fst k_queue k_wire]. rewrite <- app_assoc. auto.
Qed.

Lemma sinv_close acc k : SInv acc k -> k_exit k = false -> SInv acc (sock_close k).
Proof.
  intros [I0 I] X. rewrite X in I. destruct I as (I1 & _). split; [exact I0|]. cbn. exists (k_queue k). exact I1.
Qed.

Lemma sinv_write acc : forall ws q k, SInv acc k -> k_exit k = false -> k_fd k = true -> k_queue k = q -> SInv acc (sock_write ws q k).
Proof.
  intros ws q; revert ws. induction q as [|m q IH]; intros ws k HI X FD Q; cbn [sock_write].
  - destruct HI as [I0 I]. rewrite X in I. split; [exact I0|]. cbn [k_exit k_wire k_queue k_fd k_timer k_want]. rewrite X.
    rewrite Q in I. exact I.
  - pose proof HI as [I0 I]. rewrite X in I. destruct I as (I1 & I2 & I3 & I4).
    assert (FM : full m).
    { rewrite I1, Q in I0. apply Forall_app in I0. destruct I0 as [_ I0]. inversion I0; assumption. }
    destruct m as [|o m]; [exfalso; apply FM; reflexivity|].
    assert (AG : SInv acc (mk_sock (k_fd k) true ((o :: m) :: q) (k_timer k) (k_wire k) (k_kept k) (k_exit k))).
    { split; [exact I0|]. cbn [k_exit k_wire k_queue k_fd k_timer k_want]. rewrite X.
      split; [rewrite I1, Q; reflexivity|]. split; [rewrite FD; discriminate|]. split; [exact I3 | reflexivity]. }
    destruct ws as [|[| |] ws]; [exact AG | | exact AG | apply sinv_close; assumption].
    destruct q as [|m2 q].
    + cbn [sock_write]. split; [exact I0|]. cbn [k_exit k_wire k_queue k_fd k_timer k_want]. rewrite X.
      split; [rewrite I1, Q, app_nil_r; reflexivity|]. split; [rewrite FD; discriminate|]. split; [exact I3 | reflexivity].
    + set (k1 := mk_sock (k_fd k) true (m2 :: q) (k_timer k) (k_wire k ++ [o :: m]) (k_kept k) (k_exit k)).
      assert (HI1 : SInv acc k1).
      { split; [exact I0|]. cbn [k1 k_exit k_wire k_queue k_fd k_timer k_want]. rewrite X.
        split; [rewrite I1, Q, <- app_assoc; reflexivity|]. split; [rewrite FD; discriminate|]. split; [exact I3 | reflexivity]. }
      specialize (IH ws k1 HI1 X FD eq_refl).
      assert (E : forall a b, sock_write ws (m2 :: q) (mk_sock (k_fd k) a (m2 :: q) (k_timer k) (k_wire k ++ [o :: m]) (k_kept k) (k_exit k)) =
                              sock_write ws (m2 :: q) (mk_sock (k_fd k) b (m2 :: q) (k_timer k) (k_wire k ++ [o :: m]) (k_kept k) (k_exit k))).
      { intros a b. cbn [sock_write]. destruct m2; [reflexivity|]. destruct ws as [|[| |] ws']; reflexivity. }
      rewrite (E false true). exact IH.
Qed.

Lemma sinv_step v acc k e : SInv acc k -> event_ok e -> SInv (acc ++ taken v k e) (sock_step v k e).
Proof.
  intros HI HE. unfold taken, sock_step. destruct (k_exit k) eqn:X; [rewrite app_nil_r; exact HI|].
  destruct e as [m|rd wr ws|ok|].
  - apply sinv_send; assumption.
  - destruct (k_fd k) eqn:FD.
    2:{ assert ((match rd with Some (RGot _ _) => @nil (list Z) | _ => [] end) = []) as -> by (destruct rd as [[]|]; reflexivity).
        rewrite app_nil_r. exact HI. }
    destruct rd as [[ms rc|]|]; cbn [sock_cb].
    + destruct (sinv_send_all ms acc k HI X FD HE) as (P1 & P2 & P3 & _).
      destruct (rc <? 0); [exact P1|]. destruct (wr && k_want k); [|exact P1]. apply sinv_write; auto.
    + rewrite app_nil_r. apply sinv_close; assumption.
    + rewrite app_nil_r. destruct (wr && k_want k); [|exact HI]. apply sinv_write; auto.
  - destruct (k_timer k) eqn:T.
    2:{ assert ((if ok then @nil (list Z) else []) = []) as -> by (destruct ok; reflexivity). rewrite app_nil_r. exact HI. }
    destruct HI as [I0 I]. rewrite X in I. destruct I as (I1 & I2 & I3 & I4).
    assert (FD : k_fd k = false) by (destruct (k_fd k); [specialize (I3 eq_refl); congruence | reflexivity]).
    destruct (I2 FD) as [Q W]. rewrite Q, W in I1. cbn [app] in I1. subst acc. unfold l1if_open. destruct ok; cbn [app sock_send fst k_fd].
    + split; [repeat constructor; apply txt_full|]. cbn [k_exit k_wire k_queue k_fd k_timer k_want app]. rewrite X, W.
      split; [reflexivity|]. split; [discriminate|]. split; reflexivity.
    + split; [constructor|]. cbn [k_exit k_wire k_queue k_fd k_timer k_want app]. rewrite X, W.
      split; [reflexivity|]. split; [auto|]. split; [discriminate | reflexivity].
  - rewrite app_nil_r. unfold l1if_close. cbn [k_fd].
    assert (HI' : SInv acc (mk_sock (k_fd k) (k_want k) (k_queue k) false (k_wire k) (k_kept k) (k_exit k))).
    { destruct HI as [I0 I]. rewrite X in I. split; [exact I0|]. cbn [k_exit k_wire k_queue k_fd k_timer k_want]. rewrite X.
      destruct I as (I1 & I2 & I3 & I4). auto. }
    destruct (k_fd k) eqn:FD; [apply sinv_close; [exact HI' | exact X] | exact HI'].
Qed.

Lemma sinv_run v es : forall acc k, SInv acc k -> Forall event_ok es -> SInv (acc ++ accepted v k es) (fold_left (sock_step v) es k).
Proof.
  induction es as [|e es IH]; intros acc k HI HE; cbn [fold_left accepted].
  - rewrite app_nil_r. exact HI.
  - inversion HE; subst. rewrite app_assoc. apply IH; [apply sinv_step|]; assumption.
Qed.

Lemma sinv_open v (ok : bool) : SInv (if ok then [txt_ind v] else []) (l1if_open ok v sock0).
Proof.
  unfold l1if_open. destruct ok; cbn [sock_send fst k_fd].
  - split; [repeat constructor; apply txt_full|]. cbn. split; [reflexivity|]. split; [discriminate|]. split; reflexivity.
  - split; [constructor|]. cbn. split; [reflexivity|]. split; [auto|]. split; [discriminate | reflexivity].
Qed.

Lemma sinv_all v ok es : Forall event_ok es -> SInv (accepted_all v ok es) (sock_run v ok es).
Proof. intros H. apply sinv_run; [apply sinv_open | exact H]. Qed.

Lemma in_order v ok es : Forall event_ok es ->
  prefix (k_wire (sock_run v ok es)) (accepted_all v ok es) /\
  (k_exit (sock_run v ok es) = false -> accepted_all v ok es = k_wire (sock_run v ok es) ++ k_queue (sock_run v ok es)).
Proof.
  intros H. destruct (sinv_all v ok es H) as [_ I]. destruct (k_exit (sock_run v ok es)).
  - split; [exact I | discriminate].
  - destruct I as (I1 & _). split; [exists (k_queue (sock_run v ok es)); exact I1 | intros _; exact I1].
Qed.

Lemma asks v ok es : Forall event_ok es -> k_exit (sock_run v ok es) = false ->
  (k_want (sock_run v ok es) = true <-> k_queue (sock_run v ok es) <> []).
Proof.
  intros H X. destruct (sinv_all v ok es H) as [_ I]. rewrite X in I. destruct I as (_ & _ & _ & E). rewrite E.
  destruct (k_queue (sock_run v ok es)); cbn [filled]; split; congruence.
Qed.

(** The first message. *)
Lemma accepted_none v es : forall k, k_exit k = true -> accepted v k es = [].
Proof.
  induction es as [|e es IH]; intros k H; cbn [accepted]; [reflexivity|].
  unfold taken, sock_step. rewrite !H. cbn [app]. apply IH, H.
Qed.
Lemma accepted_first v es : forall k, k_exit k = false -> k_fd k = false ->
  accepted v k es = [] \/ exists r, accepted v k es = txt_ind v :: r.
Proof.
  induction es as [|e es IH]; intros k X FD; cbn [accepted]; [left; reflexivity|].
  unfold taken, sock_step. rewrite !X. destruct e as [m|rd wr ws|ok|].
  - assert (snd (sock_send m k) = -5) as -> by (unfold sock_send; rewrite FD; reflexivity). cbn [Z.eqb app].
    apply IH; unfold sock_send; rewrite FD; [exact X | reflexivity].
  - rewrite FD. assert ((match rd with Some (RGot _ _) => @nil (list Z) | _ => [] end) = []) as -> by (destruct rd as [[]|]; reflexivity).
    cbn [app]. apply IH; assumption.
  - destruct (k_timer k).
    + destruct ok; cbn [app].
      * right. eexists. reflexivity.
      * apply IH; [exact X | reflexivity].
    + assert ((if ok then @nil (list Z) else []) = []) as -> by (destruct ok; reflexivity). cbn [app]. apply IH; assumption.
  - cbn [app]. apply IH; unfold l1if_close; cbn [k_fd]; rewrite FD; [exact X | reflexivity].
Qed.
Lemma first_all v ok es : accepted_all v ok es = [] \/ exists r, accepted_all v ok es = txt_ind v :: r.
Proof.
  unfold accepted_all. destruct ok; [right; eexists; reflexivity|]. apply accepted_first; reflexivity.
Qed.
Lemma first_wire v ok es : Forall event_ok es ->
  k_wire (sock_run v ok es) = [] \/ exists r, k_wire (sock_run v ok es) = txt_ind v :: r.
Proof.
  intros H. destruct (in_order v ok es H) as [[r P] _].
  destruct (k_wire (sock_run v ok es)) as [|w ws]; [left; reflexivity|]. right.
  destruct (first_all v ok es) as [E|[r' E]]; rewrite E in P; [discriminate|]. exists ws. cbn [app] in P. injection P as P1 P2. rewrite P1. reflexivity.
Qed.

(** Emptying the queue. *)
Lemma write_all ws : forall q k, Forall full q -> k_queue k = q -> (length q <= length ws)%nat -> Forall (fun w => w = WAll) ws ->
  k_queue (sock_write ws q k) = [] /\ k_wire (sock_write ws q k) = k_wire k ++ q /\ k_exit (sock_write ws q k) = k_exit k.
Proof.
  induction ws as [|w ws IH]; intros q k F Q L W.
  - destruct q; [|cbn in L; lia]. cbn [sock_write k_queue k_wire k_exit]. rewrite app_nil_r. auto.
  - destruct q as [|m q]; [cbn [sock_write k_queue k_wire k_exit]; rewrite app_nil_r; auto|].
    inversion F; subst. inversion W; subst. destruct m as [|o m]; [exfalso; auto|]. cbn [sock_write].
    match goal with |- context [sock_write ws q ?k1] => destruct (IH q k1 ltac:(assumption) eq_refl ltac:(cbn [length] in L; lia) ltac:(assumption)) as (A & B & C) end.
    rewrite A, B, C. cbn [k_wire k_exit]. rewrite <- app_assoc. auto.
Qed.

Lemma write_turn v ok es rd ws : Forall event_ok es -> event_ok (Ready rd true ws) -> read_fine rd ->
  let k := sock_run v ok es in
  k_exit k = false -> k_queue k <> [] ->
  Forall (fun w => w = WAll) ws ->
  (length (k_queue k ++ taken v k (Ready rd true ws)) <= length ws)%nat ->
  let k' := sock_step v k (Ready rd true ws) in
  k_queue k' = [] /\ k_wire k' = k_wire k ++ k_queue k ++ taken v k (Ready rd true ws) /\ k_exit k' = false.
Proof.
  intros H HE HR k X Q W L k'. pose proof (sinv_all v ok es H) as HI. fold k in HI.
  assert (FA : Forall full (k_queue k)).
  { destruct HI as [I0 I]. rewrite X in I. destruct I as (I1 & _). rewrite I1 in I0. apply Forall_app in I0. apply I0. }
  assert (WT : k_want k = true) by (apply (asks v ok es H X); exact Q).
  assert (FD : k_fd k = true).
  { destruct HI as [_ I]. rewrite X in I. destruct I as (_ & I2 & _). destruct (k_fd k); [reflexivity|]. destruct (I2 eq_refl). contradiction. }
  unfold k', sock_step, taken in *. rewrite X, FD, WT in *. destruct rd as [[ms rc|]|]; cbn [sock_cb andb read_fine] in *.
  - destruct (sinv_send_all ms _ k HI X FD HE) as (P1 & P2 & P3 & P4 & P5).
    destruct (Z.ltb_spec rc 0); [lia|]. rewrite P4.
    destruct (write_all ws (k_queue k ++ ms) (send_all ms k)) as (A & B & C); auto.
    { apply Forall_app. split; [exact FA | exact HE]. }
    rewrite A, B, C, P5, P2. auto.
  - contradiction.
  - rewrite app_nil_r in *. destruct (write_all ws (k_queue k) k) as (A & B & C); auto. rewrite A, B, C. auto.
Qed.
