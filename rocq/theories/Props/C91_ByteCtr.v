(** C91: the counters of octets agree with the frames carried. *)
From Coq Require Import ZArith List Bool Lia.
From Verif Require Import Model.Segment Model.UlParse Model.ByteCtr Spec.SegSpec Spec.UlParseSpec Spec.ByteCtrSpec Proofs.ByteCtrP.
Import ListNotations.
Local Open Scope Z_scope.

Definition ex_fr (n : nat) (x : Z) : list Z := repeat x n.
Definition ex_open : list seg_step :=
  [mk_ss 20 [ex_fr 5 1; ex_fr 30 2] (fun _ => false); mk_ss 30 [ex_fr 50 3] (fun _ => false); mk_ss 20 [] (fun _ => false)].

(** Downlink, EGPRS: whatever the frames, the block lengths and the moments at which the TBF may
    end, llc:dl_bytes is the octets of the frames that a receiver of all the blocks completes, and
    rlc:dl_payload_bytes those and the octets it holds of the next frame. *)
Theorem C91_downlink_egprs : forall steps, Forall (step_ok true) steps ->
  exists blocks s k frames rest, seg_ctr true steps fresh (mk_octr 0 0) = Some (blocks, s, k) /\
    rx_run true blocks ([], []) = Some (frames, rest) /\
    o_llc k = octets_in frames /\ o_rlc k = octets_in frames + Z.of_nat (length rest).
Proof. exact dl_egprs. Qed.
Print Assumptions C91_downlink_egprs.
Example C91_ex_egprs : Forall (step_ok true) ex_open /\ exists blocks s,
  seg_ctr true ex_open fresh (mk_octr 0 0) = Some (blocks, s, mk_octr 68 35) /\
  rx_run true blocks ([], []) = Some ([ex_fr 5 1; ex_fr 30 2], ex_fr 33 3).
Proof.
  split.
  - repeat constructor; cbv; try lia; discriminate.
  - do 2 eexists. split; vm_compute; reflexivity.
Qed.

(** Downlink, GPRS: the same while no block is the last one of its TBF. Missing: the last block,
    see below. *)
Theorem C91_downlink_gprs_partial : forall steps, Forall (step_ok false) steps ->
  exists blocks s k, seg_ctr false steps fresh (mk_octr 0 0) = Some (blocks, s, k) /\
    (Forall (fun b => sb_fbi b = false) blocks -> exists frames rest,
      rx_run false blocks ([], []) = Some (frames, rest) /\
      o_llc k = octets_in frames /\ o_rlc k = octets_in frames + Z.of_nat (length rest)).
Proof. exact dl_gprs. Qed.
Print Assumptions C91_downlink_gprs_partial.
Example C91_ex_gprs : Forall (step_ok false) ex_open /\ exists blocks s,
  seg_ctr false ex_open fresh (mk_octr 0 0) = Some (blocks, s, mk_octr 68 35) /\
  Forall (fun b => sb_fbi b = false) blocks /\
  rx_run false blocks ([], []) = Some ([ex_fr 5 1; ex_fr 30 2], ex_fr 33 3).
Proof.
  split.
  - repeat constructor; cbv; try lia; discriminate.
  - do 2 eexists. split; [vm_compute; reflexivity|]. split; [repeat constructor|vm_compute; reflexivity].
Qed.

(** Downlink, every kind of TBF and every run: llc:dl_bytes is the octets of the frames of the
    network that are complete and of the dummy frames put in, and rlc:dl_payload_bytes those and the
    part already cut off the frame under way. *)
Theorem C91_downlink_partial : forall edge steps blocks s, seg_run edge steps fresh = Some (blocks, s) ->
  exists k, seg_ctr edge steps fresh (mk_octr 0 0) = Some (blocks, s, k) /\
    o_llc k = octets_in (real (s_done s)) + octets_in (map fst (filter snd (s_done s))) /\
    o_rlc k = o_llc k + Z.of_nat (length (firstn (l_idx (s_llc s)) (l_frame (s_llc s)))).
Proof. exact dl_run. Qed.
Print Assumptions C91_downlink_partial.
Example C91_ex_downlink : exists blocks s, seg_run true ex_open fresh = Some (blocks, s) /\
  octets_in (real (s_done s)) = 35 /\ l_idx (s_llc s) = 33%nat.
Proof. do 2 eexists. split; [vm_compute; reflexivity|]. split; reflexivity. Qed.

(** The full statement is that llc:dl_bytes counts the frames of the network only. It is false: with
    no frame at all from the network it grows by the dummy frames that keep the TBF going. *)
Theorem C91_dummy_refuted : exists steps blocks s k, Forall (step_ok true) steps /\ concat (map ss_new steps) = [] /\
  seg_ctr true steps fresh (mk_octr 0 0) = Some (blocks, s, k) /\ o_llc k > 0 /\ o_rlc k > 0.
Proof.
  exists [mk_ss 22 [] (fun _ => false)]. do 3 eexists. split; [repeat constructor; cbv; try lia; discriminate|].
  split; [reflexivity|]. split; [vm_compute; reflexivity|]. split; reflexivity.
Qed.
Print Assumptions C91_dummy_refuted.

(** And in GPRS the octets of a last frame that the receiver cannot tell from filling (C22) are
    counted as carried. *)
Theorem C91_downlink_gprs_refuted : exists steps blocks s k frames rest, Forall (step_ok false) steps /\
  seg_ctr false steps fresh (mk_octr 0 0) = Some (blocks, s, k) /\ ends_once blocks /\
  rx_run false blocks ([], []) = Some (frames, rest) /\
  o_llc k > octets_in frames /\ o_rlc k > octets_in frames + Z.of_nat (length rest).
Proof.
  exists [mk_ss 20 [ex_fr 3 1; ex_fr 16 2] (fun n => Nat.eqb n 1)].
  do 5 eexists. split; [repeat constructor; cbv; try lia; discriminate|].
  split; [vm_compute; reflexivity|]. split; [cbn; repeat split|]. split; [vm_compute; reflexivity|].
  split; reflexivity.
Qed.
Print Assumptions C91_downlink_gprs_refuted.

(** Uplink: whatever blocks arrive, llc:ul_bytes is the octets of the frames passed on to the network
    and rlc:ul_payload_bytes those and the octets held of the next frame, as long as no frame
    outgrows its buffer (C24). *)
Theorem C91_uplink : forall bs out st, Forall (fun b => block_ok (ub_rdbi b) (ub_mem b)) bs ->
  assemble_all bs ullc_reset = Some (out, st) ->
  exists k, assemble_all_ctr bs ullc_reset (mk_octr 0 0) = Some (out, st, k) /\
    o_llc k = octets_in out /\ o_rlc k = octets_in out + num (u_data st).
Proof. exact ul_run. Qed.
Print Assumptions C91_uplink.
(** Two EGPRS blocks: one wholly within a frame, one that ends it after six octets and starts
    another. *)
Definition ex_blocks : list ublk :=
  [mk_ub true (mk_rdbi 22 false true 4 false) (repeat 7 22);
   mk_ub true (mk_rdbi 22 false false 4 false) ([13] ++ repeat 8 21)].
Example C91_ex_uplink : Forall (fun b => block_ok (ub_rdbi b) (ub_mem b)) ex_blocks /\ exists st,
  assemble_all_ctr ex_blocks ullc_reset (mk_octr 0 0) = Some ([repeat 7 22 ++ repeat 8 6], st, mk_octr 43 28) /\
  u_data st = repeat 8 15.
Proof.
  split.
  - unfold ex_blocks, block_ok, octets. repeat constructor; cbn; lia.
  - eexists. split; [vm_compute; reflexivity|reflexivity].
Qed.
