(** C27: the run length code of compressed bitmaps; C07: reports that use it. *)
From Coq Require Import ZArith List Bool Lia.
From Verif Require Import Base.Arith Model.RlcWindow Model.RlcWindowUl Model.TbfUlWindow Model.T4 Model.UlAckDesc
  Spec.UlWindowSpec Spec.T4Spec Spec.AckDescSpec Proofs.T4P Proofs.AckDescP Proofs.AckDescEx.
Import ListNotations.
Local Open Scope Z_scope.

(** *** C27: the code. *)

(** No code word is the beginning of another one of the same colour. *)
Theorem C27_prefix_free : forall s i j, (i < 79)%nat -> (j < 79)%nat -> i <> j -> ~ prefix (word s i) (word s j).
Proof. exact prefix_free. Qed.
Print Assumptions C27_prefix_free.
Example C27_ex_prefix_free : word true 2 = [false; true; true; true] /\ word true 64 = [true; true; false; true; true].
Proof. split; reflexivity. Qed.

(** For every run up to 1023 the compressor has words, and they are those the decompressor
    knows; the announced lengths are those of the words. *)
Theorem C27_complete : forall s r, (r <= 1023)%nat ->
  let z := Z.of_nat r in
  let mk := if 64 <=? z then t4_word s (z / 64 * 64) else (0, 0) in
  let tm := t4_word s (z mod 64) in
  word_bits mk = makeup s r /\ word_bits tm = word s (r mod 64) /\
  snd mk = Z.of_nat (length (makeup s r)) /\ snd tm = Z.of_nat (length (word s (r mod 64))).
Proof. exact enc_word. Qed.
Print Assumptions C27_complete.
Example C27_ex_complete : makeup false 1023 = [false; false; false; false; false; false; true; true; true; false; false; true; true].
Proof. reflexivity. Qed.

(** The decompressor reads every sequence of runs that fits the vector. *)
Theorem C27_decode : forall rs s cap l, runs_ok rs -> (length l + length (paint s rs) <= cap)%nat ->
  decompress_crbb cap s (code_runs s rs) l = (true, l ++ paint s rs).
Proof. exact decompress_ok. Qed.
Print Assumptions C27_decode.
Example C27_ex_decode : decompress_crbb 1024 false (code_runs false [5; 100; 0; 3]%nat) [true] = (true, true :: repeat false 5 ++ repeat true 103).
Proof. vm_compute. reflexivity. Qed.

(** Every bitmap is such a sequence. *)
Theorem C27_runs : forall l c, exists rs, Forall (fun r => (1 <= r)%nat) rs /\ l = paint (hd c l) rs.
Proof. exact runs_exist. Qed.
Print Assumptions C27_runs.
Example C27_ex_runs : [true; true; false] = paint true [2; 1]%nat.
Proof. reflexivity. Qed.

(** What the compressor writes is decompressed to the beginning of the bitmap, and to all of
    it if the whole code has room, provided that no run of 64 or more is cut. The number of
    bits covered is reported modulo 256. *)
Theorem C27_lossless_partial : forall m c rs cap, proper rs -> rs <> [] -> (length (paint c rs) <= cap)%nat ->
  Forall (fun r => (r < 64)%nat) rs \/ Z.of_nat (length (code_runs c rs)) <= m ->
  exists k out crbb ok, (Z.of_nat (length (code_runs c rs)) <= m -> k = length (paint c rs)) /\
    compress_rbb (paint c rs) m = (out, crbb, Z.of_nat k mod 256, ok) /\ (k <= length (paint c rs))%nat /\
    decompress_crbb cap c crbb [] = (true, firstn k (paint c rs)).
Proof. exact lossless. Qed.
Print Assumptions C27_lossless_partial.
Example C27_ex_lossless : proper [30; 3; 200; 7]%nat /\ length (code_runs true [30; 3; 200; 7]%nat) = 27%nat.
Proof. split; [repeat constructor; lia|reflexivity]. Qed.

(** A run of 64 or more that is cut leaves its make-up word in the result: more bits are
    decompressed than the compressor has counted. *)
Theorem C27_cut_refuted : exists bm m out crbb n l,
  compress_rbb bm m = (out, crbb, n, true) /\ decompress_crbb 1024 (hd false bm) crbb [] = (true, l) /\
  n < Z.of_nat (length l).
Proof. exact cut_bad. Qed.
Print Assumptions C27_cut_refuted.
(** The count is wrong if more than 255 bits are covered, even if all fits. *)
Theorem C27_count_refuted : exists bm m out crbb n,
  compress_rbb bm m = (out, crbb, n, true) /\ decompress_crbb 1024 (hd false bm) crbb [] = (true, bm) /\
  n <> Z.of_nat (length bm).
Proof. exact count_trunc. Qed.
Print Assumptions C27_count_refuted.

(** *** C07: the complete EGPRS report, compressed or not. *)

(** With at most 255 blocks behind V(Q) and no run cut: the report starts at V(Q) + 1, its
    length field is right, every bit the reader gets out of it is true, and "end of window" is
    set exactly if it covers everything. If it does not, it fits the message. *)
Theorem C07_egprs_report_partial : forall ws o rest0, ul_reach 2048 ws o -> uws o <= 512 -> 40 <= rest0 <= 160 ->
  pending o <= 255 -> no_cut o (rest0 - 40) ->
  exists d, ack_desc_egprs (ut_w (u_t o)) rest0 = Some d /\ a_ssn d = (u_Q o + 1) mod 2048 /\
    a_len d = (desc_bits d - 9) mod 256 /\
    (forall c b, a_crbb d = Some (c, b) -> Z.of_nat (length b) <= 127) /\
    (a_eow d = false -> desc_bits d <= rest0) /\
    exists l, told d = Some l /\ bitmap o l /\ Z.of_nat (length l) <= pending o /\
      (a_eow d = true <-> Z.of_nat (length l) = pending o).
Proof. exact report_ok. Qed.
Print Assumptions C07_egprs_report_partial.
Example C07_ex_egprs_report : ul_reach 2048 512 o_good /\ uws o_good <= 512 /\ pending o_good = 167 /\ no_cut o_good 62.
Proof. exact (conj (proj1 good_reach) (conj (proj1 (proj2 good_reach)) (conj (proj2 (proj2 good_reach)) good_no_cut))). Qed.

(** More than 255 blocks: a block that has not arrived is acknowledged. *)
Theorem C07_count_refuted : exists o d l k, ul_reach 2048 512 o /\ uws o <= 512 /\
  ack_desc_egprs (ut_w (u_t o)) 102 = Some d /\ desc_bits d <= 102 /\ told d = Some l /\
  (k < length l)%nat /\ nth k l false = true /\ u_Q o + 1 + Z.of_nat k < u_R o /\ ~ arrived o (u_Q o + 1 + Z.of_nat k).
Proof. exact count_bad. Qed.
Print Assumptions C07_count_refuted.
(** A run of 64 or more is cut: the same. *)
Theorem C07_makeup_refuted : exists o d l k, ul_reach 2048 512 o /\ uws o <= 512 /\ pending o <= 255 /\
  ack_desc_egprs (ut_w (u_t o)) 102 = Some d /\ desc_bits d <= 102 /\ told d = Some l /\
  (k < length l)%nat /\ nth k l false = true /\ u_Q o + 1 + Z.of_nat k < u_R o /\ ~ arrived o (u_Q o + 1 + Z.of_nat k).
Proof. exact makeup_bad. Qed.
Print Assumptions C07_makeup_refuted.
(** The report can be longer than the message has room for. *)
Theorem C07_spill_refuted : exists o d, ul_reach 2048 512 o /\ uws o <= 512 /\ pending o <= 255 /\
  ack_desc_egprs (ut_w (u_t o)) 102 = Some d /\ a_eow d = true /\ 102 + 30 < desc_bits d.
Proof. exact spill_bad. Qed.
Print Assumptions C07_spill_refuted.
