(** C22: cutting LLC frames into downlink RLC data blocks, and putting them together. *)
From Coq Require Import ZArith List Bool Lia.
From Verif Require Import Base.Arith Model.CodingScheme Model.RlcCps Model.Segment Spec.SegSpec Proofs.SegP Proofs.SegQ.
Import ListNotations.
Local Open Scope Z_scope.

Definition ex_f (n : nat) (x : Z) : list Z := repeat x n.
Definition never (_ : nat) : bool := false.
Definition ex_steps : list seg_step :=
  [mk_ss 22 [ex_f 5 1; ex_f 3 2; ex_f 30 3] never; mk_ss 37 [] never; mk_ss 56 [ex_f 55 4; ex_f 90 5] never; mk_ss 74 [] never;
   mk_ss 22 [] (fun _ => true)].

(** EGPRS, for any frames at any time, any sequence of block lengths and any end decisions:
    the receiver gets exactly the frames that the sender counts as done, and holds the sent
    part of the one under way; and the frames handed in are, in order, those done (without
    the dummy frames), the one under way and those still queued. *)
Theorem C22_egprs : forall steps, Forall (step_ok true) steps ->
  exists blocks s, seg_run true steps fresh = Some (blocks, s) /\
    rx_run true blocks ([], []) = Some (map fst (s_done s), firstn (l_idx (s_llc s)) (l_frame (s_llc s))) /\
    concat (map ss_new steps) = real (s_done s) ++ under_way s ++ s_queue s.
Proof. exact seg_egprs. Qed.
Print Assumptions C22_egprs.
Example C22_ex_egprs : Forall (step_ok true) ex_steps /\ exists blocks s,
  seg_run true ex_steps fresh = Some (blocks, s) /\
  rx_run true blocks ([], []) = Some ([ex_f 5 1; ex_f 3 2; ex_f 30 3; ex_f 55 4; ex_f 90 5], []).
Proof.
  split.
  - repeat constructor; cbv; try lia; discriminate.
  - do 2 eexists. split; vm_compute; reflexivity.
Qed.

(** GPRS: the same for every TBF until its final block. *)
Theorem C22_gprs_open : forall steps, Forall (step_ok false) steps ->
  exists blocks s, seg_run false steps fresh = Some (blocks, s) /\
    (Forall (fun b => sb_fbi b = false) blocks ->
      rx_run false blocks ([], []) = Some (map fst (s_done s), firstn (l_idx (s_llc s)) (l_frame (s_llc s))) /\
      concat (map ss_new steps) = real (s_done s) ++ under_way s ++ s_queue s).
Proof. exact seg_gprs_open. Qed.
Print Assumptions C22_gprs_open.
Definition ex_gsteps : list seg_step :=
  [mk_ss 20 [ex_f 5 1; ex_f 3 2; ex_f 30 3] never; mk_ss 30 [ex_f 39 4] never; mk_ss 36 [] never; mk_ss 50 [ex_f 7 5] never].
Example C22_ex_gprs_open : Forall (step_ok false) ex_gsteps /\ exists blocks s,
  seg_run false ex_gsteps fresh = Some (blocks, s) /\ Forall (fun b => sb_fbi b = false) blocks /\
  rx_run false blocks ([], []) = Some ([ex_f 5 1; ex_f 3 2; ex_f 30 3; ex_f 39 4; ex_f 7 5], []).
Proof.
  split.
  - repeat constructor; cbv; try lia; discriminate.
  - do 2 eexists. split; [|split]; [vm_compute; reflexivity| |vm_compute; reflexivity]. repeat constructor.
Qed.

(** GPRS with the final block: at most the last frame is missing at the receiver, and only
    if the final block has length indicators (full property: none is missing, [lost = []]). *)
Theorem C22_gprs_partial : forall steps, Forall (step_ok false) steps ->
  exists blocks s, seg_run false steps fresh = Some (blocks, s) /\
    (ends_once blocks -> exists frames rest lost,
      rx_run false blocks ([], []) = Some (frames, rest) /\
      frames ++ lost = map fst (s_done s) /\
      (lost = [] /\ rest = firstn (l_idx (s_llc s)) (l_frame (s_llc s)) \/
       exists x l0 b, lost = [x] /\ rest = [] /\ blocks = l0 ++ [b] /\ sb_e b = false /\ sb_fbi b = true) /\
      concat (map ss_new steps) = real (s_done s) ++ under_way s ++ s_queue s).
Proof. exact seg_gprs. Qed.
Print Assumptions C22_gprs_partial.
Example C22_ex_gprs : exists blocks s,
  seg_run false [mk_ss 20 [ex_f 3 1; ex_f 14 2] (fun n => Nat.eqb n 1)] fresh = Some (blocks, s) /\ ends_once blocks /\
  map sb_fbi blocks = [true] /\ rx_run false blocks ([], []) = Some ([ex_f 3 1; ex_f 14 2], []).
Proof. do 2 eexists. split; [vm_compute; reflexivity|]. cbn. repeat split. Qed.

(** The full property fails for GPRS: a last frame that exactly fills the final block
    behind another frame is counted as sent, but the length indicator before it says that
    only filling follows. *)
Theorem C22_gprs_final_refuted : exists steps blocks s frames rest, Forall (step_ok false) steps /\
  seg_run false steps fresh = Some (blocks, s) /\ ends_once blocks /\
  rx_run false blocks ([], []) = Some (frames, rest) /\ frames <> map fst (s_done s) /\
  concat (map ss_new steps) = real (s_done s).
Proof.
  exists [mk_ss 20 [ex_f 3 1; ex_f 16 2] (fun n => Nat.eqb n 1)].
  do 4 eexists. split; [repeat constructor; cbv; try lia; discriminate|].
  split; [vm_compute; reflexivity|]. split; [cbn; repeat split|]. split; [vm_compute; reflexivity|].
  split; [discriminate|reflexivity].
Qed.
Print Assumptions C22_gprs_final_refuted.

(** The block length of every coding scheme is one the theorems above cover. *)
Theorem C22_lengths : forall c pad,
  (mcs_is_gprs c = true -> pad = false -> len_ok false (Z.to_nat (block_data_len c pad))) /\
  (mcs_is_edge c = true -> len_ok true (Z.to_nat (block_data_len c pad))).
Proof. exact lens_ok. Qed.
Print Assumptions C22_lengths.
Example C22_ex_lengths : Z.to_nat (block_data_len CS4 false) = 50%nat /\ Z.to_nat (block_data_len MCS9 false) = 74%nat.
Proof. split; reflexivity. Qed.

(** The frame sent when there is nothing else to send: an LLC UI dummy command of 6 to 79
    octets, just as long as asked for within these limits. *)
Theorem C22_dummy : forall n, dummy_frame n = [0x43; 0xc0; 0x01] ++ repeat 0x2b (length (dummy_frame n) - 3) /\
  (6 <= length (dummy_frame n) <= 79)%nat /\ ((6 <= n <= 79)%nat -> length (dummy_frame n) = n).
Proof. exact dummy_ok. Qed.
Print Assumptions C22_dummy.
Example C22_ex_dummy : length (dummy_frame 20) = 20%nat /\ length (dummy_frame 200) = 79%nat.
Proof. split; reflexivity. Qed.
