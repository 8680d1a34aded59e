(** Concrete runs of the downlink window: witnesses for C01-C04. *)
From Coq Require Import ZArith List Bool Lia ZifyBool.
From Verif Require Import Base.Arith Model.RlcWindow Model.RlcWindowDl Model.TbfDlWindow
  Spec.DlWindowSpec.
Import ListNotations.
Local Open Scope Z_scope.

Definition no_setws (op : dl_op) : bool := match op with DSetWs _ => false | _ => true end.

Lemma reach_run : forall sns ws ops o o', forallb no_setws ops = true ->
  dl_reach sns ws o -> obs_run ops o = Some o' -> dl_reach sns ws o'.
Proof.
  intros sns ws ops. induction ops as [|x ops IH]; intros o o' Hn Hr He; simpl in *.
  - inversion He; now subst.
  - apply andb_true_iff in Hn. destruct Hn as [Hx Hn].
    destruct (obs_step x o) as [o1|] eqn:E; [|discriminate].
    apply (IH o1); auto. eapply reach_step; eauto.
    destruct x; simpl in *; auto. discriminate.
Qed.

(** Data is always waiting; no retransmission policy. *)
Definition env_data : take_env := mk_take_env false true false false (fun _ => 20).
Definition send1 : dl_op := DBlock env_data None false false.
Definition run_from (sns ws : Z) (ops : list dl_op) : option obs := obs_run ops (obs_init sns ws).
Definition get (x : option obs) : obs := match x with Some o => o | None => obs_init 128 64 end.

Lemma params_128 : dl_params 128 64.
Proof. split; [left; reflexivity|lia]. Qed.
Lemma params_2048 : forall ws, 64 <= ws <= 1024 -> dl_params 2048 ws.
Proof. intros ws H. split; [right; right; right; right; reflexivity|lia]. Qed.

Lemma get_reach : forall sns ws ops, dl_params sns ws -> forallb no_setws ops = true ->
  (exists o, run_from sns ws ops = Some o) -> dl_reach sns ws (get (run_from sns ws ops)).
Proof.
  intros sns ws ops Hp Hn [o He]. rewrite He. simpl.
  eapply reach_run; eauto. now constructor.
Qed.

Ltac run_ok := unfold run_from; eexists; vm_compute; reflexivity.

(** A GPRS window driven past the wrap-around of the 7-bit numbers, then filled,
    with block 140 lost. *)
Definition ops_wrap : list dl_op :=
  repeat send1 64 ++ [DReport false (repeat true 64)] ++
  repeat send1 64 ++ [DReport false (repeat true 64)] ++
  repeat send1 30 ++ [DReport false (repeat true 12 ++ [false] ++ repeat true 5)] ++
  repeat send1 48.
Definition o_wrap : obs := get (run_from 128 64 ops_wrap).

Lemma wrap_reach : dl_reach 128 64 o_wrap.
Proof. apply get_reach. exact params_128. vm_compute; reflexivity. run_ok. Qed.

(** Of the last 48 requests the first one retransmitted block 140, then 46 new blocks
    filled the window, and the last one found it stalled and sent block 140 again. *)
Lemma wrap_facts : o_A o_wrap = 140 /\ o_S o_wrap = 204 /\ dl_stalled (o_w o_wrap) = true /\
  dw_va (o_w o_wrap) = 12 /\ dw_vs (o_w o_wrap) = 76 /\
  last_about 139 (o_log o_wrap) = Some (AckRep 139) /\
  last_about 141 (o_log o_wrap) = Some (AckRep 141) /\
  last_about 140 (o_log o_wrap) = Some (Sent 140).
Proof. vm_compute. repeat split; reflexivity. Qed.

(** The window size reduced below what is outstanding. *)
Definition ops_shrink : list dl_op := repeat send1 100 ++ [DSetWs 64] ++ repeat send1 5.

Lemma shrink_witness :
  match run_from 2048 192 ops_shrink with
  | Some o => dw_ws (o_w o) < o_S o - o_A o /\ dl_stalled (o_w o) = false
  | None => False
  end.
Proof. vm_compute. split; reflexivity. Qed.

(** Ten blocks outstanding in an EGPRS window. *)
Definition o_ten : obs := get (run_from 2048 128 (repeat send1 10)).
Lemma ten_reach : dl_reach 2048 128 o_ten.
Proof. apply get_reach. apply params_2048; lia. vm_compute; reflexivity. run_ok. Qed.

(** A report without "beginning of window": SSN = 6, bitmap 11 (blocks 6 and 7
    received). The code takes it as a report about blocks 0, 1, 2. *)
Lemma no_bow_witness :
  exists sns ws o ssn urbb bits first o' i,
    dl_reach sns ws o /\
    (ssn - 1 - o_A o) mod sns <= o_S o - o_A o /\
    decode_egprs_acknack false false ssn None urbb (o_w o) = (bits, first) /\
    obs_step (DReport false bits) o = Some o' /\
    outstanding o i /\
    status_after o' i = DlAcked /\
    egprs_report_says false (o_A o + (ssn - 1 - o_A o) mod sns) (bitmap_of None urbb) (blk o) i
      = DlUnacked.
Proof.
  exists 2048, 128, o_ten, 6, [true; true], [false; true; true], 0,
    (get (obs_step (DReport false [false; true; true]) o_ten)), 1.
  split; [exact ten_reach|].
  split; [vm_compute; discriminate|].
  split; [vm_compute; reflexivity|].
  split.
  { destruct (obs_step (DReport false [false; true; true]) o_ten) eqn:E; [reflexivity|].
    exfalso. revert E. vm_compute. discriminate. }
  split; [split; vm_compute; [discriminate|reflexivity]|].
  split; vm_compute; reflexivity.
Qed.

(** A report with SSN = V(A), beginning of window, no bitmap: it acknowledges the
    blocks before V(A) - 1 and says nothing about the outstanding ones. The code
    takes all of them as acknowledged. *)
Lemma old_ssn_witness :
  exists sns ws o ssn bits first o',
    dl_reach sns ws o /\ ssn = dw_va (o_w o) /\ o_A o < o_S o /\
    (forall i, outstanding o i -> blk o i = DlUnacked) /\
    decode_egprs_acknack false true ssn None [] (o_w o) = (bits, first) /\
    obs_step (DReport false bits) o = Some o' /\
    o_A o' = o_S o.
Proof.
  exists 2048, 128, o_ten, 0, (repeat true 1024), 0,
    (get (obs_step (DReport false (repeat true 1024)) o_ten)).
  split; [exact ten_reach|].
  split; [vm_compute; reflexivity|].
  split; [vm_compute; reflexivity|].
  split.
  { intros i Hi. assert (H : 0 <= i < 10). { revert Hi. unfold outstanding.
      change (o_A o_ten) with (o_A (get (run_from 2048 128 (repeat send1 10)))).
      replace (o_A o_ten) with 0 by (vm_compute; reflexivity).
      replace (o_S o_ten) with 10 by (vm_compute; reflexivity). auto. }
    assert (Hc : i = 0 \/ i = 1 \/ i = 2 \/ i = 3 \/ i = 4 \/ i = 5 \/ i = 6 \/ i = 7 \/ i = 8 \/ i = 9) by lia.
    destruct Hc as [E|[E|[E|[E|[E|[E|[E|[E|[E|E]]]]]]]]]; subst i; vm_compute; reflexivity. }
  split; [vm_compute; reflexivity|].
  split.
  { destruct (obs_step (DReport false (repeat true 1024)) o_ten) eqn:E; [reflexivity|].
    exfalso. revert E. vm_compute. discriminate. }
  vm_compute. reflexivity.
Qed.

Lemma wrap_outstanding : outstanding o_wrap (o_A o_wrap).
Proof. split; vm_compute; [discriminate|reflexivity]. Qed.

Lemma ten_ssn : (6 - 1 - o_A o_ten) mod 2048 <= o_S o_ten - o_A o_ten.
Proof. vm_compute. discriminate. Qed.
