(** C52 and C62: headers of downlink and uplink data blocks. *)
From Coq Require Import ZArith List Bool.
From Verif Require Import Model.CodingScheme Model.RlcCps Model.TbfDlWindow Model.DataHeader
  Spec.BitSpec Spec.CodingSpec Spec.DataHeaderSpec Spec.UlParseSpec Spec.DlWindowSpec
  Proofs.DataHeaderP Proofs.DataHeaderQ Proofs.BsnDelta Proofs.DataHeaderX Proofs.DlWindowEx.
Import ListNotations.
Open Scope Z_scope.

(** C52. Whatever was in the message: after writing the header the mobile reads each field as it was
    given, and no bit outside the header has changed. *)
Theorem C52_header : forall c d m, data_scheme c -> octets m -> length m = Z.to_nat (mcs_size_dl c) -> info_ok c d ->
  exists m', write_dl c d m = Some m' /\ length m' = length m /\ octets m' /\ read_dl c m' = shall_read c d /\ type_ok c m' /\
  forall i, 0 <= i -> ~ header_bit c (i_pad d) i -> bit m' i = bit m i.
Proof. exact dl_header. Qed.
Print Assumptions C52_header.

(** A radio block carries the data blocks it is made of, unchanged, where the header says. *)
Theorem C52_block : forall c d blocks, data_scheme c -> info_ok c d -> length blocks = (if two_blocks c then 2 else 1)%nat ->
  Forall (fun b => octets b /\ data_octets c (i_pad d) <= Z.of_nat (length b)) blocks ->
  exists m, radio_block c d blocks = Some m /\ Z.of_nat (length m) = mcs_size_dl c /\ octets m /\ read_dl c m = shall_read c d /\
  forall i b k, nth_error blocks i = Some b -> 0 <= k < 8 * data_octets c (i_pad d) -> bit m (dl_data c (i_pad d) (Z.of_nat i) + k) = bit b k.
Proof. exact dl_block. Qed.
Print Assumptions C52_block.

(** Setting the USF later changes the USF alone. *)
Theorem C52_usf : forall c u m, data_scheme c -> octets m -> m <> [] -> 0 <= u < 8 ->
  exists m', set_usf u m = Some m' /\ length m' = length m /\ octets m' /\
  (forall i, 3 <= i -> bit m' i = bit m i) /\
  let h := read_dl c m in
  read_dl c m' = Dh u (h_poll h) (h_rrbp h) (h_tfi h) (h_pr h) (h_cps h) (h_spb h) (h_blocks h).
Proof. exact usf_ok. Qed.
Print Assumptions C52_usf.

(** The value that stands for the scheme, the puncturing and the padding fits its field and announces
    the padding that is there. *)
Theorem C52_cps : forall c p p2 pad v, valid_cps_args c p p2 pad -> mcs_cps c p p2 pad = Some v ->
  0 <= v < 2 ^ cps_width (mcs_header_type c) /\ padded c v = pad.
Proof. exact cps_args. Qed.
Print Assumptions C52_cps.

(** Whenever two blocks are sent in one radio block, in any history of the transfer, the distance between
    their numbers fits its field. *)
Theorem C52_distance : forall sns ws o e1 e2 s1 s2 w' b1 b2, sns = 2048 ->
  dl_reach sns ws o -> tbf_create_dl_acked_block e1 e2 s1 s2 (o_w o) = Some (w', [b1; b2]) ->
  0 <= b1 < sns /\ 0 <= b2 < sns /\ (b2 - b1) mod sns < 1024.
Proof. exact bsn_delta. Qed.
Print Assumptions C52_distance.

(** The condition is needed: a larger distance is not read back. *)
Example C52_far : exists d m', write_dl MCS7 d (repeat 0 119) = Some m' /\ i_bsn (i_b1 d) = 1024 /\
  h_blocks (read_dl MCS7 m') = [(0, 0, 0); (0, 0, 0)].
Proof. exact far_lost. Qed.

Example C52_nonvacuous : data_scheme MCS8 /\ info_ok MCS8 d2 /\
  write_dl MCS8 d2 (repeat 0 155) = Some m2 /\ firstn 6 m2 = [181; 233; 255; 255; 131; 1] /\
  read_dl MCS8 m2 = Dh 5 2 1 19 2 16 0 [(2047, 1, 0); (510, 0, 1)].
Proof. exact (conj (fun e : MCS8 = UNKNOWN => eq_ind MCS8 (fun c => match c with UNKNOWN => False | _ => True end) I UNKNOWN e) (conj d2_ok m2_reads)). Qed.
Example C52_pair : dl_reach 2048 128 o_ten /\
  exists w', tbf_create_dl_acked_block env_edge (Some env_edge) false false (o_w o_ten) = Some (w', [10; 11]).
Proof. exact (conj ten_reach ten_pair). Qed.

(** C62. Of every uplink data block that is as long as its scheme requires, the fields are read that the
    mobile wrote, no octet outside the message is read and no assertion fails. *)
Theorem C62_ul_header : forall c m, data_scheme c -> octets m -> mcs_size_ul c <= Z.of_nat (length m) -> ul_cps_ok c m ->
  parse_ul c m = Some (read_ul c m).
Proof. exact ul_header. Qed.
Print Assumptions C62_ul_header.

(** A coding and puncturing value that the scheme does not have is not refused: a block without padding is
    taken for one with padding, and the data is cut out of the wrong place. *)
Theorem C62_foreign_cps_refuted : octets m3 /\ mcs_size_ul MCS3 <= Z.of_nat (length m3) /\ field m3 22 4 = 0 /\
  exists u, parse_ul MCS3 m3 = Some u /\ map e_offs (a_blocks u) = [81] /\ map e_len (a_blocks u) = [31] /\
  ul_data MCS3 (padded MCS3 0) 0 = 33 /\ data_octets MCS3 (padded MCS3 0) = 37.
Proof. exact cps_odd. Qed.
Print Assumptions C62_foreign_cps_refuted.

Example C62_nonvacuous : octets u9 /\ mcs_size_ul MCS9 <= Z.of_nat (length u9) /\ ul_cps_ok MCS9 u9 /\
  parse_ul MCS9 u9 = Some (Ui 0 1 23 0 1 [Ub 1 2021 0 0 0 1 48 74; Ub 0 2025 0 0 1 1 642 74]).
Proof. exact u9_reads. Qed.
