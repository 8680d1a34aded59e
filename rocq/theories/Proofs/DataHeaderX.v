(** Values of the coding and puncturing scheme, and examples of data headers. *)
From Coq Require Import ZArith List Bool Lia.
From Verif Require Import Base.Arith Model.CodingScheme Model.RlcCps Model.RlcWindow Model.RlcWindowDl Model.TbfDlWindow Model.DataHeader
  Spec.BitSpec Spec.CodingSpec Spec.DataHeaderSpec Spec.UlParseSpec Spec.DlWindowSpec
  Proofs.DataHeaderP Proofs.DataHeaderQ Proofs.DlWindowP Proofs.DlWindowI.
From Verif Require Proofs.DlWindowEx.
Import ListNotations.
Open Scope Z_scope.

Lemma cps_args : forall c p p2 pad v, valid_cps_args c p p2 pad -> mcs_cps c p p2 pad = Some v ->
  0 <= v < 2 ^ cps_width (mcs_header_type c) /\ padded c v = pad.
Proof.
  intros c p p2 pad v (I & P & P2 & PD) E.
  assert (CB : forall x n, 0 <= x < n -> exists k : nat, x = Z.of_nat k /\ Z.of_nat k < n) by (intros x n X; exists (Z.to_nat x); rewrite Z2Nat.id; lia).
  assert (C3 : 0 <= p < 3 /\ (0 <= p2 < 3 \/ p2 = PS_INVALID)) by (destruct c; cbn in P, P2; lia).
  assert (QP : p = 0 \/ p = 1 \/ p = 2) by lia. assert (QP2 : p2 = 0 \/ p2 = 1 \/ p2 = 2 \/ p2 = PS_INVALID) by lia.
  clear CB C3. destruct c; cbn in I; try (exfalso; intuition discriminate); clear I;
  destruct QP as [->|[->| ->]]; destruct QP2 as [->|[->|[->| ->]]]; destruct pad; vm_compute in E; try discriminate E; injection E as <-; cbn in P, P2;
    try lia; try (exfalso; destruct (PD eq_refl); discriminate); cbn; (split; [lia|reflexivity]).
Qed.

(** Two blocks in one radio block, across the wrap-around of the block numbers. *)
Definition d2 : dinfo := Di 5 2 1 19 2 16 false (Bi 2047 1 3 0) (Bi 510 0 0 0).
Definition m2 : list Z := match write_dl MCS8 d2 (repeat 0 155) with Some m => m | None => [] end.
Lemma d2_ok : info_ok MCS8 d2.
Proof. unfold info_ok, block_ok. cbn. repeat split; try reflexivity; cbn; lia. Qed.
Lemma m2_reads : write_dl MCS8 d2 (repeat 0 155) = Some m2 /\ firstn 6 m2 = [181; 233; 255; 255; 131; 1] /\
  read_dl MCS8 m2 = Dh 5 2 1 19 2 16 0 [(2047, 1, 0); (510, 0, 1)].
Proof. vm_compute. auto. Qed.

(** A distance of 1024 and more is cut off. *)
Lemma far_lost : exists d m', write_dl MCS7 d (repeat 0 119) = Some m' /\ i_bsn (i_b1 d) = 1024 /\
  h_blocks (read_dl MCS7 m') = [(0, 0, 0); (0, 0, 0)].
Proof. exists (Di 0 0 0 0 0 20 false (Bi 0 0 1 0) (Bi 1024 0 1 0)). eexists. split; [vm_compute; reflexivity|]. split; [reflexivity|]. vm_compute. reflexivity. Qed.

(** An MCS-3 block that says CPS 0. *)
Definition m3 : list Z := repeat 0 43.
Lemma cps_odd : octets m3 /\ mcs_size_ul MCS3 <= Z.of_nat (length m3) /\ field m3 22 4 = 0 /\
  exists u, parse_ul MCS3 m3 = Some u /\ map e_offs (a_blocks u) = [81] /\ map e_len (a_blocks u) = [31] /\
  ul_data MCS3 (padded MCS3 0) 0 = 33 /\ data_octets MCS3 (padded MCS3 0) = 37.
Proof.
  split; [unfold octets, m3; apply Forall_forall; intros x X; apply repeat_spec in X; subst x; lia|].
  split; [vm_compute; discriminate|]. split; [reflexivity|]. eexists. split; [vm_compute; reflexivity|]. repeat split; reflexivity.
Qed.

(** An MCS-9 block that a mobile sent. *)
Definition u9 : list Z := [0xc2; 0x2d; 0x3f; 0x01; 0x20; 0x80] ++ repeat 0xff 149.
Lemma u9_reads : octets u9 /\ mcs_size_ul MCS9 <= Z.of_nat (length u9) /\ ul_cps_ok MCS9 u9 /\
  parse_ul MCS9 u9 = Some (Ui 0 1 23 0 1 [Ub 1 2021 0 0 0 1 48 74; Ub 0 2025 0 0 1 1 642 74]).
Proof.
  split; [repeat (apply Forall_cons; [lia|]); apply Forall_nil|].
  split; [vm_compute; discriminate|]. split; [exact I|]. vm_compute. reflexivity.
Qed.

(** Two new blocks in one radio block, and a repeated one with a new one. *)
Import DlWindowEx.
Definition env_edge : take_env := mk_take_env false true false true (fun _ => 74).
Lemma ten_pair : exists w', tbf_create_dl_acked_block env_edge (Some env_edge) false false (o_w o_ten) = Some (w', [10; 11]).
Proof. eexists. vm_compute. reflexivity. Qed.
