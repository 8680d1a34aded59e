(** Concrete runs of the uplink window: witnesses for C05-C07. *)
From Coq Require Import ZArith List Bool Lia ZifyBool.
From Verif Require Import Model.UlParse.
From Verif Require Import Base.Arith Model.RlcWindow Model.RlcWindowUl Model.TbfUlWindow
  Spec.UlWindowSpec.
Import ListNotations.
Local Open Scope Z_scope.

(** A GPRS block without length indicators. *)
Definition plain (len cv : Z) (d : list Z) : ul_content := mk_ulc len false (mk_rdbi len false true cv false) d.
(** A complete block with sequence number [bsn] whose content is its (true) number. *)
Definition ublk (sns i : Z) : ul_blk :=
  mk_ulb (i mod sns) (plain 20 (if i =? 300 then 0 else 15) [i]) false true.
Definition urcv (sns : Z) (l : list Z) : ul_op := URcv false true (map (ublk sns) l).

Definition urun (sns ws : Z) (ops : list ul_op) : option uobs := uobs_run ops (uobs_init sns ws).
Definition uget (x : option uobs) : uobs := match x with Some o => o | None => uobs_init 128 64 end.

Definition zseq (a : Z) (n : nat) : list Z := map (fun k => a + Z.of_nat k) (seq 0 n).

Definition rcv_ok (sns : Z) (op : ul_op) : bool :=
  match op with
  | URcv _ _ l => forallb (fun b => (0 <=? ub_bsn b) && (ub_bsn b <? sns)) l
  | USetWs _ => false
  end.

Lemma ureach_run : forall sns ws ops o o', forallb (rcv_ok sns) ops = true ->
  ul_reach sns ws o -> uobs_run ops o = Some o' -> ul_reach sns ws o'.
Proof.
  intros sns ws ops. induction ops as [|x ops IH]; intros o o' Hn Hr He.
  - cbn in He. injection He as <-. exact Hr.
  - cbn [forallb] in Hn. apply andb_true_iff in Hn. destruct Hn as [Hx Hn].
    cbn [uobs_run] in He. destruct (uobs_step x o) as [o1|] eqn:E; [|discriminate].
    apply (IH o1); auto. apply (ureach_step sns ws o x o1); auto.
    destruct x as [rel flow l|ws']; [|discriminate]. cbn in *.
    apply Forall_forall. intros b Hb. rewrite forallb_forall in Hx. specialize (Hx b Hb). lia.
Qed.

Lemma uget_reach : forall sns ws ops, ul_params sns ws -> forallb (rcv_ok sns) ops = true ->
  (exists o, urun sns ws ops = Some o) -> ul_reach sns ws (uget (urun sns ws ops)).
Proof.
  intros sns ws ops Hp Hn [o He]. rewrite He. cbn [uget].
  eapply ureach_run; eauto. now constructor.
Qed.

Lemma uparams_128 : ul_params 128 64.
Proof. split; [left; reflexivity|lia]. Qed.
Lemma uparams_2048 : forall ws, 64 <= ws <= 1024 -> ul_params 2048 ws.
Proof. intros ws H. split; [right; right; right; right; reflexivity|lia]. Qed.

Ltac urun_ok := unfold urun; eexists; vm_compute; reflexivity.

(** 250 blocks, two at a time and swapped, then block 250 lost, 251..259 and a
    duplicate of 249 and 255 received: past the wrap-around of 7-bit numbers. *)
Definition swapped (n : nat) : list ul_op :=
  map (fun k => urcv 128 [2 * Z.of_nat k + 1; 2 * Z.of_nat k]) (seq 0 n).
Definition uops1 : list ul_op :=
  swapped 125 ++ map (fun i => urcv 128 [i]) (zseq 251 9) ++ [urcv 128 [249; 255]].
Definition uo1 : uobs := uget (urun 128 64 uops1).

Lemma uo1_reach : ul_reach 128 64 uo1.
Proof. apply uget_reach. exact uparams_128. vm_compute; reflexivity. urun_ok. Qed.

Lemma uo1_facts : u_Q uo1 = 250 /\ u_R uo1 = 260 /\
  u_out uo1 = map (fun i => plain 20 15 [i]) (zseq 0 250) /\
  fst (ul_report_gprs (ut_w (u_t uo1))) = 4 /\
  snd (ul_report_gprs (ut_w (u_t uo1))) = repeat true 54 ++ [false] ++ repeat true 9.
Proof. vm_compute. splits; reflexivity. Qed.

Lemma no_far_dec : forall log,
  forallb (fun e => match e with Arr _ _ far => negb far end) log = true -> no_far log.
Proof.
  intros log H i c far Hin. rewrite forallb_forall in H. specialize (H _ Hin). cbn in H.
  now destruct far.
Qed.

Lemma uo1_no_far : no_far (u_log uo1).
Proof. apply no_far_dec. vm_compute. reflexivity. Qed.

Lemma uo1_arrived : arrived uo1 255.
Proof. exists (plain 20 15 [255]), false. vm_compute. left. reflexivity. Qed.

(** The same run seen as a sender with contents [fun i => [i]]. *)
Definition fcont (i : Z) : ul_content := ub_content (ublk 128 i).

Definition sent_ok (sns : Z) (o : uobs) (l : list Z) : bool :=
  forallb (fun i => (u_Q o - uws o <=? i) && (i <? u_Q o + uws o)) l.

Fixpoint sent_run (sns : Z) (ls : list (list Z)) (o : uobs) : option uobs :=
  match ls with
  | [] => Some o
  | l :: r => if sent_ok sns o l
              then match uobs_step (urcv sns l) o with Some o' => sent_run sns r o' | None => None end
              else None
  end.

Lemma sent_run_from : forall ls o o', ul_reach_from 128 64 fcont o ->
  sent_run 128 ls o = Some o' -> ul_reach_from 128 64 fcont o'.
Proof.
  induction ls as [|l ls IH]; intros o o' Hr He; cbn [sent_run] in He.
  - injection He as <-. exact Hr.
  - destruct (sent_ok 128 o l) eqn:Es; [|discriminate].
    destruct (uobs_step (urcv 128 l) o) as [o1|] eqn:E; [|discriminate].
    apply (IH o1); auto. apply (ufrom_rcv 128 64 fcont o false true (map (ublk 128) l)); auto.
    apply Forall_forall. intros b Hb. apply in_map_iff in Hb. destruct Hb as (i & <- & Hi).
    unfold sent_ok in Es. rewrite forallb_forall in Es. specialize (Es i Hi).
    exists i. splits; try lia; reflexivity.
Qed.

Definition sent1 : list (list Z) :=
  map (fun k => [2 * Z.of_nat k + 1; 2 * Z.of_nat k]) (seq 0 125)
  ++ map (fun i => [i]) (zseq 251 9) ++ [[249; 255]].

Lemma uo1_from : ul_reach_from 128 64 fcont uo1.
Proof.
  apply (sent_run_from sent1 (uobs_init 128 64)).
  - constructor. exact uparams_128.
  - unfold uo1. destruct (urun 128 64 uops1) as [o|] eqn:E.
    + cbn [uget]. rewrite <- E. vm_compute. reflexivity.
    + exfalso. revert E. vm_compute. discriminate.
Qed.

(** All data received: blocks 0..300, the last with countdown value 0. *)
Definition uo_end : uobs := uget (urun 128 64 (map (fun i => urcv 128 [i]) (zseq 0 301))).
Lemma uo_end_reach : ul_reach 128 64 uo_end.
Proof. apply uget_reach. exact uparams_128. vm_compute; reflexivity. urun_ok. Qed.
Lemma uo_end_fin : u_fin uo_end = true /\ uws uo_end < 1024.
Proof. vm_compute. split; reflexivity. Qed.

(** An EGPRS window past the wrap-around with gaps: 0..2045 delivered, 2046 lost,
    2047, 2048 and 2050..2060 received. *)
Definition uo2 : uobs :=
  uget (urun 2048 192 (map (fun i => urcv 2048 [i]) (zseq 0 2046 ++ [2047; 2048] ++ zseq 2050 11))).
Lemma uo2_reach : ul_reach 2048 192 uo2.
Proof. apply uget_reach. apply uparams_2048; lia. vm_compute; reflexivity. urun_ok. Qed.
Lemma uo2_facts : u_Q uo2 = 2046 /\ u_R uo2 = 2061 /\ uws uo2 <= 512 /\
  ul_report_egprs_unc (ut_w (u_t uo2)) 100
    = (2047, true, repeat true 11 ++ [false; true; true]).
Proof. vm_compute. splits; try reflexivity. discriminate. Qed.

(** C06 fails in GPRS when the window is empty and its very last number arrives. *)
Definition uo_far : uobs :=
  uget (urun 128 64 (urcv 128 [63] :: map (fun i => urcv 128 [i]) (zseq 0 63))).
Lemma uo_far_reach : ul_reach 128 64 uo_far.
Proof. apply uget_reach. exact uparams_128. vm_compute; reflexivity. urun_ok. Qed.

Lemma far_witness :
  exists o i, ul_reach 128 64 o /\ arrived o i /\ u_Q o = i /\ u_R o = i /\
    (forall flow, ul_rcv false flow (u_t o) [ublk 128 i] = Some (u_t o, [], false)) /\
    fst (ul_report_gprs (ut_w (u_t o))) = i mod 128.
Proof.
  exists uo_far, 63. splits.
  - exact uo_far_reach.
  - exists (plain 20 15 [63]), true.
    assert (E : u_log uo_far = u_log (uget (urun 128 64 (urcv 128 [63] :: map (fun i => urcv 128 [i]) (zseq 0 63))))) by reflexivity.
    rewrite E. vm_compute. do 63 right. left. reflexivity.
  - vm_compute. reflexivity.
  - vm_compute. reflexivity.
  - intro flow.
    assert (H1 : ul_rcv_loop (u_t uo_far) [ublk 128 63] = (u_t uo_far, false)).
    { cbn [ul_rcv_loop]. unfold ul_rcv_one.
      replace (ul_in_window (ut_w (u_t uo_far)) (ub_bsn (ublk 128 63))) with true by (vm_compute; reflexivity).
      replace (vn_is_received (ut_w (u_t uo_far)) (ub_bsn (ublk 128 63))) with true by (vm_compute; reflexivity).
      reflexivity. }
    unfold ul_rcv. rewrite H1.
    assert (H2 : ul_raise_v_q (ut_w (u_t uo_far)) = Some (ut_w (u_t uo_far), 0)).
    { unfold ul_raise_v_q.
      replace (Z.to_nat (uw_sns (ut_w (u_t uo_far)))) with (S 127) by (vm_compute; reflexivity).
      cbn [ul_raise_v_q_loop].
      replace (uw_vq (ut_w (u_t uo_far)) =? uw_vr (ut_w (u_t uo_far))) with true by (vm_compute; reflexivity).
      reflexivity. }
    rewrite H2. cbn [seq map Z.to_nat with_w].
    replace (uc_cv _ =? 0) with false by (vm_compute; reflexivity).
    rewrite andb_false_r. destruct (u_t uo_far); reflexivity.
  - vm_compute. reflexivity.
Qed.

(** With a window of 1024 blocks a block that arrives in order is not delivered. *)
Lemma ws1024_witness :
  exists o, ul_reach 2048 1024 o /\ arrived o 0 /\ u_Q o = 0 /\ u_R o = 1 /\ u_out o = [].
Proof.
  exists (uget (urun 2048 1024 [urcv 2048 [0]])). splits; try (vm_compute; reflexivity).
  - apply uget_reach. apply uparams_2048; lia. vm_compute; reflexivity. urun_ok.
  - exists (plain 20 15 [0]), false. vm_compute. left. reflexivity.
Qed.

(** With a window of more than 512 blocks a new block is taken for a duplicate. *)
Definition uo_alias : uobs :=
  uget (urun 2048 640 (map (fun i => urcv 2048 [i]) (zseq 0 1024 ++ [1500]))).
Lemma alias_witness :
  ul_reach 2048 640 uo_alias /\ arrived uo_alias 1500 /\ u_Q uo_alias = 1024 /\ u_R uo_alias = 1024.
Proof.
  splits; try (vm_compute; reflexivity).
  - apply uget_reach. apply uparams_2048; lia. vm_compute; reflexivity. urun_ok.
  - exists (plain 20 15 [1500]), false. vm_compute. left. reflexivity.
Qed.
