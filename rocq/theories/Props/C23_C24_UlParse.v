(** C23-C24: length indicators of uplink data blocks, and assembling LLC frames. *)
From Coq Require Import ZArith List Bool Lia Sorted.
From Verif Require Import Base.Arith Model.Segment Model.UlParse Spec.SegSpec Spec.UlParseSpec Proofs.UlParseP.
Import ListNotations.
Local Open Scope Z_scope.

(** A GPRS block of 23 octets: lengths 5, 6 (M=1, E=1), TLLI 0x01020304, data. *)
Definition ex_gblock : list Z := [0x16; 0x1b; 1; 2; 3; 4] ++ [10; 11; 12; 13; 14] ++ [20; 21; 22; 23; 24; 25] ++ [30; 31; 32; 33; 34; 35].
Definition ex_grdbi : rdbi := mk_rdbi 23 true false 3 false.
(** An EGPRS block of 22 octets: lengths 0, 4, filling. *)
Definition ex_eblock : list Z := [0x00; 0x08; 0xff] ++ [1; 2; 3; 4] ++ repeat 0x2b 15.
Definition ex_erdbi : rdbi := mk_rdbi 22 false false 0 false.

(** *** C23: the chunks of a received block. *)

(** With the 16 chunks of the LLC assembly: the chunks lie inside the block, in order and
    disjoint, and there are at most 16. *)
Theorem C23_chunks : forall edge r mem l t, block_ok r mem ->
  from_ul_data edge r mem (Some 16) = POk l t -> well_placed (d_len r) l /\ num l <= 16.
Proof. exact placed. Qed.
Print Assumptions C23_chunks.
Example C23_ex_chunks : block_ok ex_grdbi (ex_gblock ++ [99]) /\
  from_ul_data false ex_grdbi (ex_gblock ++ [99]) (Some 16)
  = POk [mk_chunk 6 5 true; mk_chunk 11 6 true; mk_chunk 17 6 false] 0x01020304.
Proof.
  split; [|vm_compute; reflexivity]. unfold block_ok, octets. split; [cbn; lia|]. split; [vm_compute; discriminate|].
  repeat constructor; cbn; lia.
Qed.

(** Nothing behind the block is read: the result depends on its octets only. *)
Theorem C23_no_overread : forall edge r mem, block_ok r mem ->
  from_ul_data edge r mem (Some 16) = from_ul_data edge r (the_block r mem) (Some 16) /\
  forall i, from_ul_data edge r mem (Some 16) <> POob i.
Proof. exact block_only. Qed.
Print Assumptions C23_no_overread.

(** Looking for the TLLI only, the octet behind the block may be read (full property: no
    octet outside, refuted below), but no further one, and it has no effect: the block is
    refused then. *)
Theorem C23_tlli_partial : forall edge r mem, 0 <= d_len r < num mem -> d_ti r = true ->
  from_ul_data edge r mem None =
    match from_ul_data edge r (the_block r mem) None with POob i => PErr EINVAL | x => x end /\
  forall i, from_ul_data edge r (the_block r mem) None = POob i -> i = d_len r.
Proof. exact tlli_only. Qed.
Print Assumptions C23_tlli_partial.
Example C23_ex_tlli : from_ul_data false ex_grdbi (ex_gblock ++ [99]) None = POk [] 0x01020304.
Proof. reflexivity. Qed.
(** The overread: 20 octets (CS-1) that all announce a further length octet. *)
Theorem C23_tlli_overread_refuted : exists r block, num block = d_len r /\ octets block /\ d_ti r = true /\
  from_ul_data false r block None = POob (d_len r).
Proof.
  exists (mk_rdbi 20 true false 15 false), (repeat 0x06 20). split; [reflexivity|]. split; [|split; reflexivity].
  unfold octets. apply Forall_forall. intros x I. apply repeat_spec in I. subst. lia.
Qed.
Print Assumptions C23_tlli_overread_refuted.

(** The chunks mean what the standard says (SegSpec.v): a receiver that takes them gets the
    same frames as one that follows the length indicator rules on the block without its
    TLLI. For GPRS a zero length must come with E=1 and at least one octet of data. *)
Theorem C23_standard : forall edge r mem l t rx0 lis d, block_ok r mem -> d_len r <= 127 ->
  from_ul_data edge r mem (Some 16) = POk l t -> l <> [] ->
  d_e r = false -> split_ext (the_block r mem) = Some (lis, d) ->
  (edge = false -> Forall (fun x => gprs_li x = 0%nat -> ext_e x = true) lis /\ skipn (tlli_len r) d <> []) ->
  take_chunks (the_block r mem) l rx0
  = rx_end (d_cv r =? 0) ((if edge then rx_egprs else rx_gprs) lis (skipn (tlli_len r) d) rx0).
Proof. exact standard. Qed.
Print Assumptions C23_standard.
Example C23_ex_standard : exists l, from_ul_data true ex_erdbi ex_eblock (Some 16) = POk l 0 /\ l <> [] /\
  split_ext (the_block ex_erdbi ex_eblock) = Some ([0x00; 0x08; 0xff], [1; 2; 3; 4] ++ repeat 0x2b 15) /\
  take_chunks (the_block ex_erdbi ex_eblock) l ([], [7; 8]) = ([[7; 8]; [1; 2; 3; 4]], []).
Proof. eexists. split; [vm_compute; reflexivity|]. split; [discriminate|]. split; vm_compute; reflexivity. Qed.
(** A block without length indicators continues one frame. *)
Theorem C23_standard_whole : forall edge r mem l t rx0, block_ok r mem ->
  from_ul_data edge r mem (Some 16) = POk l t -> d_e r = true ->
  take_chunks (the_block r mem) l rx0 = rx_end (d_cv r =? 0) (more rx0 (skipn (tlli_len r) (the_block r mem))).
Proof. exact standard_e1. Qed.
Print Assumptions C23_standard_whole.
Example C23_ex_whole : exists l t, from_ul_data true (mk_rdbi 22 false true 4 false) ex_eblock (Some 16) = POk l t.
Proof. do 2 eexists. vm_compute. reflexivity. Qed.

(** *** C24: the LLC frame buffer. *)

(** The full property (no overflow whatever the mobile sends) is false: 21 blocks of MCS-9
    without length indicators overrun the buffer of 1543 octets. *)
Theorem C24_overflow_refuted : exists bs, Forall (fun b => block_ok (ub_rdbi b) (ub_mem b)) bs /\
  Forall (fun b => d_len (ub_rdbi b) <= 74) bs /\ assemble_all bs ullc_reset = None.
Proof.
  exists (repeat (mk_ub true (mk_rdbi 74 false true 15 false) (repeat 0x55 74)) 21). split; [|split; [|vm_compute; reflexivity]].
  - apply Forall_forall. intros b I. apply repeat_spec in I. subst. unfold block_ok, octets. cbn [ub_rdbi ub_mem d_len].
    split; [lia|]. split; [vm_compute; discriminate|]. apply Forall_forall. intros x J. apply repeat_spec in J. subst. lia.
  - apply Forall_forall. intros b I. apply repeat_spec in I. subst. cbn. lia.
Qed.
Print Assumptions C24_overflow_refuted.

(** What holds: as long as no frame on the way is longer than the buffer, nothing is written
    past it and each frame sent is the concatenation of its chunks; the rest stays in the
    buffer. *)
Theorem C24_no_overflow_partial : forall bs st, Forall (fun b => block_ok (ub_rdbi b) (ub_mem b)) bs ->
  num (u_data st) <= LLC_MAX_LEN -> fit_all bs ([], u_data st) ->
  exists out st', assemble_all bs st = Some (out, st') /\
    (out, u_data st') = take_blocks bs ([], u_data st) /\ num (u_data st') <= LLC_MAX_LEN.
Proof. intros bs st OK L F. exact (proj1 (assemble_all_ok bs OK st [] L) F). Qed.
Print Assumptions C24_no_overflow_partial.
(** And exactly then. *)
Theorem C24_overflow_iff : forall bs st, Forall (fun b => block_ok (ub_rdbi b) (ub_mem b)) bs ->
  num (u_data st) <= LLC_MAX_LEN -> ~ fit_all bs ([], u_data st) -> assemble_all bs st = None.
Proof. intros bs st OK L F. exact (proj2 (assemble_all_ok bs OK st [] L) F). Qed.
Print Assumptions C24_overflow_iff.
Example C24_ex : exists st', fit_all [mk_ub true (mk_rdbi 22 false true 4 false) ex_eblock; mk_ub true ex_erdbi ex_eblock] ([], []) /\
  assemble_all [mk_ub true (mk_rdbi 22 false true 4 false) ex_eblock; mk_ub true ex_erdbi ex_eblock] ullc_reset
  = Some ([ex_eblock; [1; 2; 3; 4]], st').
Proof. eexists. split; [vm_compute; repeat split; discriminate|vm_compute; reflexivity]. Qed.
