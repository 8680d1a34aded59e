(** C25-C26: moving EGPRS data blocks in and out of radio blocks, and blocks sent in halves. *)
From Coq Require Import ZArith List Bool Lia.
From Verif Require Import Base.Arith Model.CodingScheme Model.RlcCps Model.BitCopy Model.SplitBlock Model.UlParse
  Spec.UlParseSpec Spec.BitSpec Spec.SplitSpec Proofs.BitCopyP Proofs.SplitP.
Import ListNotations.
Local Open Scope Z_scope.

(** *** C25: copying at any bit offset. *)

(** Reading out a field gives exactly its bits, and the read stays inside the message. *)
Theorem C25_read : forall offs n src, octets src -> 0 <= offs -> needs offs n <= num src ->
  exists out, copy_to_aligned offs n src = Some out /\ length out = n /\ octets out /\
    forall k, 0 <= k < 8 * Z.of_nat n -> bit out k = bit src (offs + k).
Proof. exact copy_to_ok. Qed.
Print Assumptions C25_read.
Example C25_ex_read : copy_to_aligned 11 2 [0x11; 0x22; 0x33; 0x44] = Some [0x64; 0x86].
Proof. vm_compute. reflexivity. Qed.

(** Writing a field sets exactly its bits, and no bit outside it. *)
Theorem C25_write : forall offs buf dst, octets buf -> octets dst -> 0 <= offs -> needs offs (length buf) <= num dst ->
  exists d', copy_from_aligned offs buf dst = Some d' /\ length d' = length dst /\ octets d' /\
    forall i, 0 <= i -> bit d' i =
      if (offs <=? i) && (i <? offs + 8 * num buf) then bit buf (i - offs) else bit dst i.
Proof. exact copy_from_ok. Qed.
Print Assumptions C25_write.
Example C25_ex_write : copy_from_aligned 11 [0x64; 0x86] [0xff; 0xff; 0xff; 0xff; 0xff] = Some [0xff; 0x27; 0x33; 0xfc; 0xff].
Proof. vm_compute. reflexivity. Qed.

(** What is written can be read back. *)
Theorem C25_write_read : forall offs buf dst, octets buf -> octets dst -> 0 <= offs -> needs offs (length buf) <= num dst ->
  exists d', copy_from_aligned offs buf dst = Some d' /\ copy_to_aligned offs (length buf) d' = Some buf.
Proof. exact write_read. Qed.
Print Assumptions C25_write_read.
Example C25_ex_write_read : octets [1; 255; 3] /\ octets (repeat 0 5) /\ needs 14 3 <= num (repeat 0 5) /\
  copy_from_aligned 14 [1; 255; 3] (repeat 0 5) = Some [0; 64; 192; 255; 0] /\
  copy_to_aligned 14 3 [0; 64; 192; 255; 0] = Some [1; 255; 3].
Proof. repeat split; try (repeat constructor; lia); vm_compute; try reflexivity; discriminate. Qed.

(** Writing back what was read leaves the message as it was. *)
Theorem C25_read_write : forall offs n src, octets src -> 0 <= offs -> needs offs n <= num src ->
  exists out, copy_to_aligned offs n src = Some out /\ copy_from_aligned offs out src = Some src.
Proof. exact read_write. Qed.
Print Assumptions C25_read_write.
Example C25_ex_read_write : copy_from_aligned 11 [0x64; 0x86] [0x11; 0x22; 0x33; 0x44] = Some [0x11; 0x22; 0x33; 0x44].
Proof. vm_compute. reflexivity. Qed.

(** Two blocks written one behind the other into the same radio block are both read back. *)
Theorem C25_two_blocks : forall o1 o2 b1 b2 dst, octets b1 -> octets b2 -> octets dst -> 0 <= o1 -> o1 + 8 * num b1 <= o2 ->
  needs o2 (length b2) <= num dst ->
  exists d1 d2, copy_from_aligned o1 b1 dst = Some d1 /\ copy_from_aligned o2 b2 d1 = Some d2 /\
    copy_to_aligned o1 (length b1) d2 = Some b1 /\ copy_to_aligned o2 (length b2) d2 = Some b2.
Proof. exact two_fields. Qed.
Print Assumptions C25_two_blocks.
Example C25_ex_two_blocks : 3 + 8 * num [7; 8] <= 21 /\ needs 21 2 <= num (repeat 0 5) /\
  copy_from_aligned 3 [7; 8] (repeat 0 5) = Some [56; 64; 0; 0; 0] /\
  copy_from_aligned 21 [255; 1] [56; 64; 0; 0; 0] = Some [56; 64; 224; 63; 0].
Proof. repeat split; vm_compute; try reflexivity; discriminate. Qed.

(** The fields of every coding scheme, in both directions, with and without padding bits, are
    disjoint and inside the radio block; so the theorems above apply to them. *)
Theorem C25_layout : forall c pad l,
  (data_info_init_dl c pad = Some l -> fields_ok (mcs_size_dl c) 0 l) /\
  (data_info_init_ul c pad = Some l -> fields_ok (mcs_size_ul c) 0 l).
Proof. exact fields_all. Qed.
Print Assumptions C25_layout.
Example C25_ex_layout : data_info_init_dl MCS9 false = Some [(42, 74); (636, 74)] /\ mcs_size_dl MCS9 = 154.
Proof. split; vm_compute; reflexivity. Qed.

(** *** C26: a block sent in two halves. *)

Definition ex_slot : slot := mk_slot (repeat 0 74) 0 0 MCS6 ResegDefault.

(** Halves [a] and [b] of one length that fit the buffer together, arriving in any order and
    any number of times, also mixed with the whole block [c]: the block is handed on as
    [expect] says, that is as soon as it is complete, joined in order, and it then stays in
    the buffer. Nothing is written outside the buffer. *)
Theorem C26_joined_partial : forall a b c, length a = length b -> 2 * Z.of_nat (length a) <= RLC_MAX_LEN ->
  Z.of_nat (length c) <= RLC_MAX_LEN ->
  forall es k, Forall (rx_of a b c) es -> clean k ->
  exists p', pl_run (map Rx es) (mk_place k false) = Some (p', expect a b c false false es) /\
    (p_got p' = true -> k_dlen (p_slot p') = k_len (p_slot p') /\
       expect a b c false false es = [firstn (Z.to_nat (k_len (p_slot p'))) (k_mem (p_slot p'))]).
Proof. exact split_clean. Qed.
Print Assumptions C26_joined_partial.
Example C26_ex_joined :
  let a := repeat 1 37 in let b := repeat 2 37 in let c := repeat 3 74 in
  let es := [mk_rxb MCS3 3 b; mk_rxb MCS3 3 b; mk_rxb MCS3 2 a; mk_rxb MCS3 2 a; mk_rxb MCS3 3 b; mk_rxb MCS6 0 c] in
  clean ex_slot /\ Forall (rx_of a b c) es /\ expect a b c false false es = [a ++ b].
Proof. split; [split; [reflexivity|split; [reflexivity|discriminate]]|]. split; [repeat constructor|reflexivity]. Qed.

(** At most once. *)
Theorem C26_once : forall a b c es s1 s2, (length (expect a b c s1 s2 es) <= 1)%nat.
Proof. exact expect_once. Qed.
Print Assumptions C26_once.
Example C26_ex_once : expect [1] [2] [3] false false [mk_rxb MCS1 2 [1]; mk_rxb MCS1 2 [1]] = [].
Proof. reflexivity. Qed.

(** The joined block carries the scheme it was first sent with, and its length is that of the
    scheme. *)
Theorem C26_scheme : forall cs spb data k k', handle_spb cs spb data k = Some (k', ResegDefault) ->
  k_cs k' = match whole_of cs with Some w => w | None => k_cs k end.
Proof. exact upgrade_scheme. Qed.
Print Assumptions C26_scheme.
Example C26_ex_scheme : exists k', handle_spb MCS2 3 (repeat 2 28) (mk_slot (repeat 1 74) 28 28 MCS1 ResegFirst) = Some (k', ResegDefault) /\ k_cs k' = MCS5.
Proof. eexists. split; vm_compute; reflexivity. Qed.
Theorem C26_lengths : forall h w, whole_of h = Some w ->
  2 * block_data_len h false = block_data_len w false /\ block_data_len w false <= RLC_MAX_LEN.
Proof. exact halves_fit. Qed.
Print Assumptions C26_lengths.
Example C26_ex_lengths : whole_of MCS3 = Some MCS6 /\ block_data_len MCS6 false = 74.
Proof. split; reflexivity. Qed.

(** Without the condition on the lengths the buffer overflows: MCS-4 blocks may be marked as
    halves too, and two of them have 88 octets. *)
Theorem C26_overflow_refuted : exists es k, clean k /\
  Forall (fun r => Z.of_nat (length (r_data r)) = block_data_len (r_cs r) false) es /\
  pl_run (map Rx es) (mk_place k false) = None.
Proof. exact overflow_bad. Qed.
Print Assumptions C26_overflow_refuted.

(** A place whose block was completed by the whole block after one half is not clean: a half
    of a later block with this place is joined to the older block. *)
Theorem C26_stale_refuted : exists k a c b2 p,
  clean k /\ Z.of_nat (length a) = block_data_len MCS1 false /\ Z.of_nat (length c) = block_data_len MCS4 false /\
  Z.of_nat (length b2) = block_data_len MCS1 false /\
  pl_run [Rx (mk_rxb MCS1 2 a); Rx (mk_rxb MCS4 0 c); Wrap; Rx (mk_rxb MCS1 3 b2)] (mk_place k false)
  = Some (p, [c; c ++ b2]).
Proof. exact stale_bad. Qed.
Print Assumptions C26_stale_refuted.
(** The same with MCS-6: the buffer overflows. *)
Theorem C26_stale_overflow_refuted : exists k a c b2,
  clean k /\ Z.of_nat (length a) = block_data_len MCS3 false /\ Z.of_nat (length c) = block_data_len MCS6 false /\
  Z.of_nat (length b2) = block_data_len MCS3 false /\
  pl_run [Rx (mk_rxb MCS3 2 a); Rx (mk_rxb MCS6 0 c); Wrap; Rx (mk_rxb MCS3 3 b2)] (mk_place k false) = None.
Proof. exact stale_overflow. Qed.
Print Assumptions C26_stale_overflow_refuted.

(** A place used only for whole blocks, or only for halves that were completed, stays clean
    when it is taken over by the next block. *)
Theorem C26_reuse : forall a b c, length a = length b -> 2 * Z.of_nat (length a) <= RLC_MAX_LEN ->
  Z.of_nat (length c) <= RLC_MAX_LEN ->
  forall es k p' l, Forall (rx_of a b c) es -> clean k -> not_mixed es ->
  pl_run (map Rx es) (mk_place k false) = Some (p', l) -> p_got p' = true -> clean (p_slot p').
Proof. exact reuse_clean. Qed.
Print Assumptions C26_reuse.
Example C26_ex_reuse : not_mixed [mk_rxb MCS1 2 [1]; mk_rxb MCS1 3 [2]].
Proof. left. repeat constructor; discriminate. Qed.
