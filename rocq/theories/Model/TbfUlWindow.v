(** Model of the reception of uplink data blocks by an uplink TBF
    (src/tbf_ul.cpp 245-418) and of the received-block report it sends
    (src/encoding.cpp 842-1059). *)
From Coq Require Import ZArith List Bool.
From Verif Require Import Base.Arith Model.RlcWindow Model.RlcWindowUl Model.UlParse.
Import ListNotations.
Local Open Scope Z_scope.

(** What is kept of [struct gprs_rlc_data] (src/rlc.h 157-188): the length (0 = never
    written), whether cs_last is an EGPRS scheme, block_info (Model/UlParse.v), and the
    octets. *)
Record ul_content := mk_ulc { uc_len : Z; uc_edge : bool; uc_info : rdbi; uc_data : list Z }.
(** block_info.cv, the countdown value. *)
Definition uc_cv (c : ul_content) : Z := d_cv (uc_info c).

(** The parts of [gprs_rlcmac_ul_tbf] used here: [m_window] and the block store
    [m_rlc] (1024 entries, src/rlc.h 281-289). *)
Record ul_tbf := mk_ult { ut_w : ul_window; ut_blocks : Z -> ul_content }.

Definition ul_tbf_init (sns ws : Z) : ul_tbf :=
  mk_ult (ul_init sns ws) (fun _ => mk_ulc 0 false (mk_rdbi 0 false false 0 false) []).

(** One RLC data block of a received radio block, after decoding. [ub_content] is
    what is written into the block store for it, [ub_incomplete] that it is a segment
    whose other half is missing ([handle_egprs_ul_spb] did not return
    EGPRS_RESEG_DEFAULT; see Model/SplitBlock.v), and [ub_tlli_ok] that the TLLI
    checks of src/tbf_ul.cpp 338-377 let it pass. *)
Record ul_blk := mk_ulb {
  ub_bsn : Z; ub_content : ul_content; ub_incomplete : bool; ub_tlli_ok : bool }.

Definition block_get (t : ul_tbf) (bsn : Z) : ul_content :=
  ut_blocks t (Z.land bsn mod_sns_half).
Definition block_put (t : ul_tbf) (bsn : Z) (c : ul_content) : ul_tbf :=
  mk_ult (ut_w t) (upd (ut_blocks t) (Z.land bsn mod_sns_half) c).
Definition with_w (t : ul_tbf) (w : ul_window) : ul_tbf := mk_ult w (ut_blocks t).

(** Body of the loop over the data blocks (src/tbf_ul.cpp 287-380). The boolean is
    the early [return 0] of an incomplete segment. *)
Definition ul_rcv_one (t : ul_tbf) (b : ul_blk) : ul_tbf * bool :=
  if negb (ul_in_window (ut_w t) (ub_bsn b)) then (t, false)
  else if vn_is_received (ut_w t) (ub_bsn b) then (t, false)
  else
    let t1 := block_put t (ub_bsn b) (ub_content b) in
    if ub_incomplete b then (t1, true)
    else if ub_tlli_ok b
         then (with_w t1 (ul_receive_bsn (ut_w t1) (ub_bsn b)), false)
         else (with_w t1 (ul_invalidate_bsn (ut_w t1) (ub_bsn b)), false).

Fixpoint ul_rcv_loop (t : ul_tbf) (l : list ul_blk) : ul_tbf * bool :=
  match l with
  | [] => (t, false)
  | b :: r => let '(t1, ret) := ul_rcv_one t b in
              if ret then (t1, true) else ul_rcv_loop t1 r
  end.

(** [rcv_data_block_acknowledged] (src/tbf_ul.cpp 246-418): new state, the blocks
    handed to [assemble_forward_llc] in order, and whether "last uplink data
    received" was signalled. [releasing] and [flow] are the TBF state. Measurement
    handling, logging and counters are left out. *)
Definition ul_rcv (releasing flow : bool) (t : ul_tbf) (l : list ul_blk)
  : option (ul_tbf * list ul_content * bool) :=
  if releasing then Some (t, [], false)
  else
    let '(t1, ret) := ul_rcv_loop t l in
    if ret then Some (t1, [], false)
    else
      let v_q_beg := uw_vq (ut_w t1) in
      match ul_raise_v_q (ut_w t1) with
      | None => None
      | Some (w2, count) =>
          let t2 := with_w t1 w2 in
          let out := map (fun i => block_get t2 (umod w2 (v_q_beg + Z.of_nat i)))
                         (seq 0 (Z.to_nat count)) in
          let last := block_get t2 (umod w2 (uw_vr w2 - 1)) in
          let fin := flow && (uw_vq w2 =? uw_vr w2) && negb (uc_len last =? 0)
                     && (uc_cv last =? 0) in
          Some (t2, out, fin)
      end.

(** [set_window_size] after a change of the allocated slots (src/tbf_ul.cpp 664-671,
    716-717); [None] is the failed assertion in [set_ws]. *)
Definition ul_set_ws (t : ul_tbf) (ws : Z) : option ul_tbf :=
  if set_ws_check ws
  then let w := ut_w t in
       Some (with_w t (mk_ulw (uw_vn w) (uw_vr w) (uw_vq w) (uw_sns w) ws))
  else None.

Inductive ul_op :=
| URcv (releasing flow : bool) (l : list ul_blk)
| USetWs (ws : Z).

(** The received-block report of a GPRS TBF: STARTING_SEQUENCE_NUMBER and the 64
    bitmap bits in transmission order ([write_packet_ack_nack_desc_gprs],
    src/encoding.cpp 851-871). *)
Definition ul_report_gprs (w : ul_window) : Z * list bool :=
  (uw_vr w, map (fun k => nth k (ul_update_rbb w) false) (seq 0 64)).

(** The uncompressed report of an EGPRS TBF ([write_packet_ack_nack_desc_egprs],
    src/encoding.cpp 918-1059, for the case that no compressed bitmap is used):
    STARTING_SEQUENCE_NUMBER, end-of-window flag and the bitmap in transmission
    order. [rest_bits] is the argument after "rest_bits -= 24". The counter [i] is
    8 bits wide, so only the low 8 bits of the length are used for the loop. *)
Definition ul_report_egprs_unc (w : ul_window) (rest_bits : Z) : Z * bool * list bool :=
  let ssn := umod w (uw_vq w + 1) in
  let esn_crbb := umod w (ssn - 1) in
  let nb0 := umod w (uw_vr w - uw_vq w) in
  let nb1 := if nb0 >? 0 then nb0 - 1 else nb0 in
  let num_blocks := if nb1 >? uw_ws w then uw_ws w else nb1 in
  let eow := negb (num_blocks >? rest_bits) in
  let urbb_len := if num_blocks >? rest_bits then rest_bits else num_blocks in
  (ssn, eow,
   map (fun k => vn_is_received w (esn_crbb + Z.of_nat k))
       (rev (seq 1 (Z.to_nat (urbb_len mod 256))))).
