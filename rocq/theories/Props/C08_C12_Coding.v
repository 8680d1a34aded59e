(** C08-C12: coding schemes, CPS field, puncturing, retransmission scheme. *)
From Coq Require Import ZArith List Bool.
From Verif Require Import Model.CodingScheme Model.RlcCps Model.DlBlockTx Spec.CodingSpec
  Proofs.CodingP Proofs.DlBlockTxP.
Import ListNotations.
Local Open Scope Z_scope.

(** C08. For every MCS and every valid choice of puncturing schemes and padding, the
    encoded indicator fits its header field and decodes to what was encoded; for MCS-9
    only when the first puncturing scheme is the first one. *)
Theorem C08_cps_round_trip : forall c p p2 pad, valid_cps_args c p p2 pad ->
  exists v, mcs_cps c p p2 pad = Some v /\ 0 <= v < 2 ^ cps_width (mcs_header_type c) /\
    (c <> MCS9 \/ p = PS_1 ->
     mcs_cps_decode v c = Some (p, if two_blocks c then p2 else -1, pad)).
Proof. exact c08_round_trip. Qed.
Print Assumptions C08_cps_round_trip.

(** For MCS-9 the decoder takes the second scheme modulo 3 where the code is a multiple
    of 4 plus the second scheme. *)
Theorem C08_mcs9_round_trip_refuted : exists p p2 v, valid_cps_args MCS9 p p2 false /\
  mcs_cps MCS9 p p2 false = Some v /\ mcs_cps_decode v MCS9 <> Some (p, p2, false).
Proof. exact c08_mcs9. Qed.
Print Assumptions C08_mcs9_round_trip_refuted.

(** Within a header type the indicator determines MCS, puncturing schemes and padding. *)
Theorem C08_cps_identifies : forall c p p2 pad c' p' p2' pad',
  valid_cps_args c p p2 pad -> valid_cps_args c' p' p2' pad' ->
  mcs_header_type c = mcs_header_type c' -> mcs_cps c p p2 pad = mcs_cps c' p' p2' pad' ->
  c = c' /\ p = p' /\ p2 = p2' /\ pad = pad'.
Proof. exact c08_identifies. Qed.
Print Assumptions C08_cps_identifies.

Example C08_nonvacuous : valid_cps_args MCS3 2 PS_INVALID true /\ valid_cps_args MCS8 1 2 false /\
  mcs_cps MCS3 2 PS_INVALID true = Some 8 /\ mcs_cps_decode 8 MCS3 = Some (2, -1, true) /\
  mcs_cps MCS8 1 2 false = Some 16 /\ mcs_cps_decode 16 MCS8 = Some (1, 2, false).
Proof. unfold valid_cps_args. cbn. repeat split; auto 20; try discriminate; tauto. Qed.

(** C09. No sequence of transmissions and retransmissions of a block, with any commanded
    schemes, alone or together with another block, trips an assertion ... *)
Theorem C09_no_failure : forall c es, mcs_is_edge c = true -> Forall bev_ok es ->
  exists us b, blk_history c es us b.
Proof. exact history_total. Qed.
Print Assumptions C09_no_failure.

(** ... every data unit is sent with a puncturing scheme its MCS has ... *)
Theorem C09_scheme_valid : forall c es us b, mcs_is_edge c = true -> Forall bev_ok es ->
  blk_history c es us b -> forall u, In u us -> 0 <= u_ps u < ps_count (u_cs u).
Proof. exact c09_valid. Qed.
Print Assumptions C09_scheme_valid.

(** ... consecutive units with the same MCS use consecutive schemes, and the second half
    of a split block uses the scheme of the first half ... *)
Theorem C09_next_scheme : forall c es us b, mcs_is_edge c = true -> Forall bev_ok es ->
  blk_history c es us b ->
  forall i u v, nth_error us i = Some u -> nth_error us (S i) = Some v ->
  (u_cs v = u_cs u -> u_spb u <> FirstSeg -> u_ps v = (u_ps u + 1) mod ps_count (u_cs v)) /\
  (u_spb v = SecSeg -> u_ps v = u_ps u).
Proof. exact c09_next. Qed.
Print Assumptions C09_next_scheme.

(** ... so that any run of as many unsplit units as the MCS has schemes uses all of them. *)
Theorem C09_all_schemes_used : forall c es us b m, mcs_is_edge c = true -> Forall bev_ok es ->
  blk_history c es us b ->
  forall i, (forall k, (k < Z.to_nat (ps_count m))%nat -> exists u, nth_error us (i + k) = Some u /\
               u_cs u = m /\ u_spb u <> FirstSeg) ->
  forall p, 0 <= p < ps_count m -> exists k u, (k < Z.to_nat (ps_count m))%nat /\
     nth_error us (i + k) = Some u /\ u_ps u = p.
Proof. exact c09_all. Qed.
Print Assumptions C09_all_schemes_used.

(** MCS-9 block: together with another one, then split in two with MCS-3, then MCS-6. *)
Definition ex_es : list bev :=
  [BFirst true; BRetx MCS9 true; BSecond; BRetx MCS9 true; BFirst true;
   BRetx MCS4 true; BFirst false; BRetx MCS3 true; BFirst false;
   BRetx MCS7 true; BFirst false; BRetx MCS6 true; BFirst false].
Example C09_nonvacuous : Forall bev_ok ex_es /\ exists us b, blk_history MCS9 ex_es us b /\
  map (fun u => (u_cs u, u_ps u, u_spb u, u_off u, u_len u)) us =
  [(MCS9, 0, NoRetx, 0, 74); (MCS9, 1, NoRetx, 0, 74); (MCS9, 2, NoRetx, 0, 74);
   (MCS3, 0, FirstSeg, 0, 37); (MCS3, 0, SecSeg, 37, 37);
   (MCS6, 0, NoRetx, 0, 74); (MCS6, 1, NoRetx, 0, 74)].
Proof.
  split; [repeat constructor|].
  eexists; eexists; split; [eexists; split; [reflexivity|vm_compute; reflexivity]|reflexivity].
Qed.

(** C10. A block size belongs to at most one scheme, and the lookup finds it. *)
Theorem C10_size_identifies_scheme : forall size c, mcs_is_valid c = true ->
  (mcs_get_by_size_ul size = c <-> mcs_size_ul c = size).
Proof. exact c10_size. Qed.
Print Assumptions C10_size_identifies_scheme.
Theorem C10_size_unknown : forall size, mcs_get_by_size_ul size = UNKNOWN <->
  (forall c, mcs_is_valid c = true -> mcs_size_ul c <> size).
Proof. exact c10_size_none. Qed.
Print Assumptions C10_size_unknown.

(** In both directions, padded or not, the data blocks lie behind the headers, do not
    overlap, end inside the radio block and fit the RLC buffer. *)
Theorem C10_blocks_fit : forall c pad, mcs_is_valid c = true ->
  exists u d, data_info_init_ul c pad = Some u /\ data_info_init_dl c pad = Some d /\
    Z.of_nat (length u) = num_data_blocks (mcs_header_type c) /\
    Z.of_nat (length d) = num_data_blocks (mcs_header_type c) /\
    lay_ok (total_ul c) (num_data_header_bits_UL (mcs_header_type c))
           (num_data_block_header_bits (mcs_header_type c)) u /\
    lay_ok (total_dl c) (num_data_header_bits_DL (mcs_header_type c))
           (num_data_block_header_bits (mcs_header_type c)) d /\
    total_ul c <= 8 * mcs_used_size_ul c /\ total_dl c <= 8 * mcs_used_size_dl c /\
    mcs_used_size_ul c <= mcs_size_ul c /\ mcs_used_size_dl c <= mcs_size_dl c.
Proof. exact c10_layout. Qed.
Print Assumptions C10_blocks_fit.
Theorem C10_families : forall c o, mcs_is_edge c = true -> mcs_is_edge o = true ->
  (mcs_is_family_compat c o = true <-> same_family c o).
Proof. exact c10_families. Qed.
Print Assumptions C10_families.
Theorem C10_tables_consistent : forall c, mcs_is_valid c = true ->
  mcs_max_data_block_bytes c = payload c /\ mcs_opt_padding_bits c = 8 * padding c /\
  (mcs_is_gprs c = true <-> mcs_header_type c = HGprs) /\
  mcs_is_gprs c = negb (mcs_is_edge c) /\
  (mcs_is_edge c = true ->
     num_data_blocks (mcs_header_type c) = if two_blocks c then 2 else 1).
Proof. exact c10_consistent. Qed.
Print Assumptions C10_tables_consistent.
Example C10_nonvacuous : mcs_get_by_size_ul 155 = MCS9 /\ mcs_get_by_size_ul 50 = UNKNOWN /\
  data_info_init_ul MCS9 false = Some [(48, 74); (642, 74)] /\ total_ul MCS9 = 1234 /\ 642 + 8 * 74 = 1234.
Proof. repeat split. Qed.

(** C11. Within its mode a scheme moves to its neighbour, or stays at the end ... *)
Theorem C11_increase : forall c k, In c (ladder k) ->
  next_in (ladder k) c (mcs_inc_kind c k) \/ (last_of (ladder k) c /\ mcs_inc_kind c k = c).
Proof. exact c11_inc. Qed.
Print Assumptions C11_increase.
Theorem C11_decrease : forall c k, In c (ladder k) ->
  next_in (ladder k) (mcs_dec_kind c k) c \/ (first_of (ladder k) c /\ mcs_dec_kind c k = c).
Proof. exact c11_dec. Qed.
Print Assumptions C11_decrease.
(** ... a scheme of another mode is left alone ... *)
Theorem C11_other_mode : forall c k, ~ In c (ladder k) ->
  mcs_inc_kind c k = c /\ mcs_dec_kind c k = c.
Proof. exact c11_outside. Qed.
Print Assumptions C11_other_mode.
(** ... and the mode-less functions step inside GPRS or inside EGPRS. *)
Theorem C11_plain_step : forall c, mcs_is_valid c = true ->
  let k := if mcs_is_gprs c then GPRS else EGPRS in
  mcs_inc c = Some (mcs_inc_kind c k) /\ mcs_dec c = Some (mcs_dec_kind c k) /\ In c (ladder k).
Proof. exact c11_plain. Qed.
Print Assumptions C11_plain_step.
Example C11_nonvacuous : mcs_inc_kind MCS4 EGPRS_GMSK = MCS4 /\ mcs_inc_kind MCS4 EGPRS = MCS5 /\
  mcs_dec_kind MCS1 EGPRS = MCS1 /\ mcs_inc_kind CS4 GPRS = CS4 /\ mcs_inc_kind CS4 EGPRS = CS4.
Proof. repeat split. Qed.

(** C12. The table gives a scheme of the same family that carries the block whole or in
    two halves; it is the highest such scheme not above the commanded one, or the lowest
    one when all are above. *)
Theorem C12_retransmission_table : forall i c s, mcs_is_edge i = true -> mcs_is_edge c = true ->
  exists m, get_retx_mcs i c s = Some m /\ can_carry s i m /\
   ((snum m <= snum c /\ forall m', can_carry s i m' -> snum m' <= snum c -> snum m' <= snum m) \/
    ((forall m', can_carry s i m' -> snum c < snum m') /\
     (forall m', can_carry s i m' -> snum m <= snum m'))).
Proof. exact c12_table. Qed.
Print Assumptions C12_retransmission_table.
(** The downlink uses the table for all blocks but those first sent with MCS-8 ... *)
Theorem C12_table_is_used : forall i c s, i <> MCS8 -> retx_scheme i c s = get_retx_mcs i c s.
Proof. exact retx_scheme_table. Qed.
Print Assumptions C12_table_is_used.
(** ... which are always resent with MCS-8, even if a lower one is commanded and exists. *)
Theorem C12_mcs8_exceeds_command_refuted : exists cmd m, mcs_is_edge cmd = true /\
  retx_scheme MCS8 cmd true = Some m /\ snum cmd < snum m /\
  can_carry true MCS8 MCS6 /\ snum MCS6 <= snum cmd.
Proof. exact c12_mcs8. Qed.
Print Assumptions C12_mcs8_exceeds_command_refuted.
(** A second block put into the same radio block gets the scheme of the first. *)
Theorem C12_second_block_same_scheme : forall i1 i2 c s,
  mcs_is_edge i1 = true -> mcs_is_edge i2 = true -> mcs_is_edge c = true ->
  forall c1, (retx_scheme i1 c s = Some c1 \/ c1 = i1) -> two_blocks c1 = true ->
  payload i1 = payload i2 -> retx_scheme i2 c1 s = Some c1.
Proof. exact second_block_scheme. Qed.
Print Assumptions C12_second_block_same_scheme.
(** Whatever the history of a block, every transmission carries all of it, its first
    half, or its second half directly after its first half with the same scheme. Blocks
    first sent with MCS-4 are excluded. *)
Theorem C12_pieces_of_block : forall c es us b,
  mcs_is_edge c = true -> c <> MCS4 -> Forall bev_ok es -> blk_history c es us b ->
  forall i u, nth_error us i = Some u ->
  same_family c (u_cs u) /\
  match u_spb u with
  | NoRetx => u_off u = 0 /\ u_len u = payload c
  | FirstSeg => u_off u = 0 /\ 2 * u_len u = payload c
  | SecSeg => u_off u = u_len u /\ 2 * u_len u = payload c /\
      exists j p, i = S j /\ nth_error us j = Some p /\ u_spb p = FirstSeg /\
                  u_cs p = u_cs u /\ u_ps p = u_ps u
  end.
Proof. exact c12_pieces. Qed.
Print Assumptions C12_pieces_of_block.
(** For those: if MCS-4 is commanded again between the two halves, the code sends an
    MCS-4 unit that starts at octet 22 and runs 22 octets past the end of the block. *)
Theorem C12_mcs4_second_half_refuted : exists es us b u, Forall bev_ok es /\
  blk_history MCS4 es us b /\ In u us /\
  u_cs u = MCS4 /\ u_off u = 22 /\ u_off u + u_len u > payload MCS4.
Proof. exact c12_mcs4. Qed.
Print Assumptions C12_mcs4_second_half_refuted.
Example C12_nonvacuous : get_retx_mcs MCS7 MCS3 true = Some MCS2 /\ get_retx_mcs MCS7 MCS3 false = Some MCS5 /\
  get_retx_mcs MCS6 MCS9 true = Some MCS9 /\ retx_scheme MCS9 MCS9 true = Some MCS9.
Proof. repeat split. Qed.
