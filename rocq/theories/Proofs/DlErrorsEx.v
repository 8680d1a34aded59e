(** Concrete runs for the error counts. *)
From Coq Require Import ZArith List Bool Lia.
From Verif Require Import Base.Arith Model.CodingScheme Model.RlcWindow Model.RlcWindowDl Model.TbfDlWindow Model.DlErrors
  Spec.DlWindowSpec Spec.DlErrorsSpec Proofs.DlWindowEx.
Import ListNotations.
Local Open Scope Z_scope.

(** Every block was sent with MCS-3 and has 37 octets. *)
Definition all_mcs3 : dl_store := mk_store (fun _ => MCS3) (fun _ => 37).
Definition hundred : list dl_op := repeat send1 100 ++ [DReport false (repeat true 100)].
(** 300 blocks arrive; of the next ten the first is lost, and with one more block it is sent again. *)
Definition resent_ops : list dl_op :=
  hundred ++ hundred ++ hundred ++ repeat send1 10 ++ [DReport false (false :: repeat true 9); send1; send1].
Definition o_resent : obs := get (run_from 2048 192 resent_ops).
Lemma resent_reach : dl_reach 2048 192 o_resent.
Proof. apply get_reach; [apply params_2048; lia|vm_compute; reflexivity|run_ok]. Qed.
(** Both are lost. *)
Definition both_lost : list bool := false :: repeat true 9 ++ [false].
Lemma resent_witness :
  o_A o_resent = 300 /\ o_S o_resent = 311 /\
  ana_rate (counted 2048 o_resent all_mcs3 MCS3 both_lost) = 100 /\
  ana_rate (report_errors (o_w o_resent) all_mcs3 MCS3 both_lost (dw_va (o_w o_resent))) = 18.
Proof. vm_compute. repeat split; reflexivity. Qed.

(** The scheme has changed from MCS-1 to MCS-3 after block 299: nothing is counted. *)
Definition new_scheme : dl_store := mk_store (fun i => if i <? 300 then MCS1 else MCS3) (fun _ => 37).
Definition o_new : obs := get (run_from 2048 192 (hundred ++ hundred ++ hundred ++ repeat send1 10)).
Lemma new_reach : dl_reach 2048 192 o_new.
Proof. apply get_reach; [apply params_2048; lia|vm_compute; reflexivity|run_ok]. Qed.
Lemma blind_witness :
  o_A o_new = 300 /\ o_S o_new = 310 /\
  ana_rate (counted 2048 o_new new_scheme MCS3 (repeat false 10)) = 100 /\
  ana_rate (report_errors (o_w o_new) new_scheme MCS3 (repeat false 10) (dw_va (o_w o_new))) = -1.
Proof. vm_compute. repeat split; reflexivity. Qed.

(** The same with GPRS: across the wrap-around at 128. *)
Definition o_gprs : obs := get (run_from 128 64 (repeat send1 60 ++ [DReport false (repeat true 60)] ++ repeat send1 60 ++ [DReport false (repeat true 60)] ++ repeat send1 20)).
Lemma gprs_reach : dl_reach 128 64 o_gprs.
Proof. apply get_reach; [exact params_128|vm_compute; reflexivity|run_ok]. Qed.
Lemma gprs_counts :
  o_A o_gprs = 120 /\ o_S o_gprs = 140 /\
  counted 128 o_gprs (mk_store (fun _ => CS2) (fun _ => 33)) CS2 (repeat true 15 ++ repeat false 5) = mk_ana 15 5 15 495 5 165.
Proof. vm_compute. repeat split; reflexivity. Qed.
