(** Concrete transfers of frames: witnesses for C71. *)
From Coq Require Import ZArith List Bool Lia.
From Verif Require Import Base.Arith Model.RlcWindow Model.RlcWindowUl Model.UlParse Model.TbfUlWindow Model.UlFrames
  Spec.UlWindowSpec Spec.UlFramesSpec.
Import ListNotations.
Local Open Scope Z_scope.

(** Three frames of 30, 8 and 10 octets in three CS-1 blocks of 20 octets; the first has the TLLI. *)
Definition fA : list Z := repeat 10 30. Definition fB : list Z := repeat 11 8. Definition fC : list Z := repeat 12 10.
Definition gblk (i : Z) : mblock :=
  if i =? 0 then mk_mb 2 (Some [1; 2; 3; 4]) (Whole (repeat 10 16))
  else if i =? 1 then mk_mb 1 None (Parts [repeat 10 14] (Open (repeat 11 5)))
  else mk_mb 0 None (Parts [repeat 11 3; fC] (Fill (repeat 0x2b 5))).
(** A frame of 22 octets that fills its MCS-1 block, one of 6 octets, and one of 30 octets. *)
Definition eblk (i : Z) : mblock :=
  if i =? 0 then mk_mb 2 None (Whole (repeat 20 22))
  else if i =? 1 then mk_mb 1 None (Parts [[]; repeat 21 6] (Open (repeat 22 14)))
  else mk_mb 0 None (Parts [repeat 22 16] (Fill (repeat 0x2b 4))).

Ltac three i := let K := fresh in assert (K : i = 0 \/ i = 1 \/ i = 2) by lia; destruct K as [-> | [-> | ->]].
Lemma octs (l : list Z) : forallb (fun x => (0 <=? x) && (x <? 256)) l = true -> Forall (fun x => 0 <= x < 256) l.
Proof. intros E. apply Forall_forall. intros x I. rewrite forallb_forall in E. specialize (E x I). lia. Qed.
Ltac body_tac := repeat (first [exact I | apply Forall_nil | apply Forall_cons | split]); try discriminate; vm_compute; try discriminate; reflexivity.
Lemma gmobile : mobile false 3 gblk [fA; fB; fC].
Proof.
  constructor; [lia| | |vm_compute; reflexivity|repeat constructor; vm_compute; discriminate].
  - intros i R. three i; (split; [cbn; body_tac|]);
    (split; [cbn; reflexivity || exact I|]); (split; [vm_compute; split; discriminate|]); apply octs; vm_compute; reflexivity.
  - intros i R. three i; vm_compute; split; intros; try discriminate; reflexivity.
Qed.
Lemma emobile : mobile true 3 eblk [repeat 20 22; repeat 21 6; repeat 22 30].
Proof.
  constructor; [lia| | |vm_compute; reflexivity|repeat constructor; vm_compute; discriminate].
  - intros i R. three i; (split; [cbn; body_tac|]);
    (split; [cbn; reflexivity || exact I|]); (split; [vm_compute; split; discriminate|]); apply octs; vm_compute; reflexivity.
  - intros i R. three i; vm_compute; split; intros; try discriminate; reflexivity.
Qed.

(** Block [i] as received. *)
Definition rx_blk (edge : bool) (sns : Z) (blk : Z -> mblock) (i : Z) : ul_blk := mk_ulb (i mod sns) (content edge (blk i)) false true.
Definition step1 (edge : bool) (sns : Z) (blk : Z -> mblock) (x : uobs * ullc * list (list Z)) (l : list Z) : uobs * ullc * list (list Z) :=
  let '(o, m, out) := x in
  let bs := map (rx_blk edge sns blk) l in
  match ul_rcv_llc false true (u_t o) m bs, uobs_step (URcv false true bs) o with
  | Some (_, m', new, _), Some o' => (o', m', out ++ new)
  | _, _ => x
  end.
Definition start (sns ws : Z) : uobs * ullc * list (list Z) := (uobs_init sns ws, ullc_reset, []).
(** Blocks 1, 0, 0 again, 2. *)
Definition g1 := step1 false 128 gblk (start 128 64) [1].
Definition g2 := step1 false 128 gblk g1 [0].
Definition g3 := step1 false 128 gblk g2 [0].
Definition g4 := step1 false 128 gblk g3 [2].
(** Blocks 2 and 1 in one radio block, then 0. *)
Definition e1 := step1 true 2048 eblk (start 2048 64) [2; 1].
Definition e2 := step1 true 2048 eblk e1 [0].

Lemma do_step edge sns ws n blk x l : let '(o, m, out) := x in
  transfer edge sns ws n blk o m out -> Forall (fun i => 0 <= i < n /\ u_Q o - uws o <= i < u_Q o + uws o) l ->
  match ul_rcv_llc false true (u_t o) m (map (rx_blk edge sns blk) l), uobs_step (URcv false true (map (rx_blk edge sns blk) l)) o with
  | Some _, Some _ => true | _, _ => false end = true ->
  let '(o', m', out') := step1 edge sns blk x l in transfer edge sns ws n blk o' m' out'.
Proof.
  destruct x as [[o m] out]. intros T F E. unfold step1.
  destruct (ul_rcv_llc false true (u_t o) m (map (rx_blk edge sns blk) l)) as [[[[t' m'] new] fin]|] eqn:E1; [|discriminate].
  destruct (uobs_step (URcv false true (map (rx_blk edge sns blk) l)) o) as [o'|] eqn:E2; [|discriminate].
  eapply T_rcv; [exact T| |exact E1|exact E2]. apply Forall_forall. intros b I. apply in_map_iff in I. destruct I as (i & <- & I).
  rewrite Forall_forall in F. destruct (F i I) as [F1 F2]. exists i. split; [exact F1|]. split; [exact F2|]. split; reflexivity.
Qed.
Lemma window_ok n o l : forallb (fun i => (0 <=? i) && (i <? n) && (u_Q o - uws o <=? i) && (i <? u_Q o + uws o)) l = true ->
  Forall (fun i => 0 <= i < n /\ u_Q o - uws o <= i < u_Q o + uws o) l.
Proof. intros E. apply Forall_forall. intros x I. rewrite forallb_forall in E. specialize (E x I). cbv beta in E. lia. Qed.

Lemma gstart : transfer false 128 64 3 gblk (uobs_init 128 64) ullc_reset [].
Proof. constructor. unfold ul_params, sns_ok. lia. Qed.
Lemma estart : transfer true 2048 64 3 eblk (uobs_init 2048 64) ullc_reset [].
Proof. constructor. unfold ul_params, sns_ok. lia. Qed.
Definition ob (x : uobs * ullc * list (list Z)) : uobs := fst (fst x).
Definition sg (x : uobs * ullc * list (list Z)) : list (list Z) := snd x.
Definition is_transfer edge sns ws n blk (x : uobs * ullc * list (list Z)) : Prop := transfer edge sns ws n blk (ob x) (snd (fst x)) (sg x).
Lemma more_step edge sns ws n blk x l : is_transfer edge sns ws n blk x ->
  forallb (fun i => (0 <=? i) && (i <? n) && (u_Q (ob x) - uws (ob x) <=? i) && (i <? u_Q (ob x) + uws (ob x))) l = true ->
  match ul_rcv_llc false true (u_t (ob x)) (snd (fst x)) (map (rx_blk edge sns blk) l), uobs_step (URcv false true (map (rx_blk edge sns blk) l)) (ob x) with
  | Some _, Some _ => true | _, _ => false end = true ->
  is_transfer edge sns ws n blk (step1 edge sns blk x l).
Proof.
  destruct x as [[o m] out]. unfold is_transfer, ob, sg. cbn [fst snd]. intros T W E.
  pose proof (do_step edge sns ws n blk (o, m, out) l T (window_ok n o l W) E) as D.
  destruct (step1 edge sns blk (o, m, out) l) as [[o' m'] out']. exact D.
Qed.
Lemma g4_transfer : is_transfer false 128 64 3 gblk g4.
Proof. repeat (apply more_step; [|vm_compute; reflexivity|vm_compute; reflexivity]). exact gstart. Qed.
Lemma g2_transfer : is_transfer false 128 64 3 gblk g2.
Proof. repeat (apply more_step; [|vm_compute; reflexivity|vm_compute; reflexivity]). exact gstart. Qed.
Lemma e2_transfer : is_transfer true 2048 64 3 eblk e2.
Proof. repeat (apply more_step; [|vm_compute; reflexivity|vm_compute; reflexivity]). exact estart. Qed.
