(** One downlink EGPRS RLC block over its lifetime: creation, choice of the scheme for
    each retransmission, copying into radio blocks; /repo/src/tbf_dl.cpp. *)
From Coq Require Import ZArith List Bool.
From Verif Require Import Model.CodingScheme Model.RlcCps.
Import ListNotations.
Local Open Scope Z_scope.

(** enum egprs_rlc_dl_reseg_bsn_state, rlc.h:83-88 (the INVALID value is never stored). *)
Inductive reseg : Set := RDefault | RFirstSent | RSecondSent.

(** The fields of struct gprs_rlc_data used here, rlc.h:196-221. *)
Record dlblk := mk_blk {
  b_init : scheme; b_last : scheme; b_cur : scheme;
  b_ps : Z; b_seg : reseg; b_len : Z }.

(** create_new_bsn, tbf_dl.cpp:574-588, with prepare, rlc.cpp:32-42. [None]: the
    assertion on the scheme fails. Filling the block with data is modelled elsewhere. *)
Definition blk_new (c : scheme) : option dlblk :=
  if negb (mcs_is_valid c) then None
  else Some (mk_blk c c c PS_1 RDefault (mcs_max_data_block_bytes c)).

(** take_next_bsn, tbf_dl.cpp:293-318: the scheme used to resend a block of an EGPRS
    TBF; [cmd] is tx_cs, [arq1] says whether the ARQ type is EGPRS_ARQ1. *)
Definition retx_scheme (init cmd : scheme) (arq1 : bool) : option scheme :=
  match get_retx_mcs init cmd arq1 with
  | Some c => Some (if seqb init MCS8 then MCS8 else c)
  | None => None
  end.
Definition blk_retx (cmd : scheme) (arq1 : bool) (b : dlblk) : option dlblk :=
  match retx_scheme (b_init b) cmd arq1 with
  | Some c => Some (mk_blk (b_init b) (b_last b) c (b_ps b) (b_seg b) (b_len b))
  | None => None
  end.

Definition heqb (a b : htype) : bool :=
  match a, b with
  | HInvalid, HInvalid => true | HControl, HControl => true | HGprs, HGprs => true
  | HType1, HType1 => true | HType2, HType2 => true | HType3, HType3 => true
  | _, _ => false
  end.
Definition is_first_sent (r : reseg) : bool := match r with RFirstSent => true | _ => false end.

(** egprs_dl_get_data, tbf_dl.cpp:1230-1288: offset of the data within the stored block
    and the new segment state. A scheme without a case leaves the offset at 0. *)
Definition dl_get_data (b : dlblk) : Z * reseg :=
  let hi := mcs_header_type (b_init b) in
  if heqb (mcs_header_type (b_cur b)) HType3 then
    if is_first_sent (b_seg b) then
      (match b_init b with
       | MCS6 | MCS9 => 37 | MCS7 | MCS5 => 28 | MCS8 => 31 | MCS4 => 22 | _ => 0
       end, RSecondSent)
    else if heqb hi HType1 || heqb hi HType2 then (0, RFirstSent)
    else if seqb (b_init b) MCS4 && seqb (b_cur b) MCS1 then (0, RFirstSent)
    else (0, RDefault)
  else (0, RDefault).

(** get_egprs_dl_spb, tbf_dl.cpp:1305-1338. *)
Definition dl_spb (b : dlblk) : dlspb :=
  let hi := mcs_header_type (b_init b) in
  if heqb (mcs_header_type (b_cur b)) HType3 then
    if is_first_sent (b_seg b) then SecSeg
    else if heqb hi HType1 || heqb hi HType2 then FirstSeg
    else if seqb (b_init b) MCS4 && seqb (b_cur b) MCS1 then FirstSeg
    else NoRetx
  else NoRetx.

Definition is_firstseg (s : dlspb) : bool := match s with FirstSeg => true | _ => false end.

(** What goes on air for one data unit: scheme, puncturing scheme, split indicator, and
    the piece of the stored block that is copied (offset and length in octets). *)
Record unit_tx := mk_unit { u_cs : scheme; u_ps : Z; u_spb : dlspb; u_off : Z; u_len : Z }.

(** One pass of the copy loop in create_dl_acked_block, tbf_dl.cpp:784-845, for the block
    being copied. [None]: an assertion on the puncturing scheme fails. The mark_nacked
    call on a first segment belongs to the window model. *)
Definition blk_copy (cs : scheme) (pad : bool) (spb : dlspb) (b : dlblk) : option (unit_tx * dlblk) :=
  let ps := get_punct_scheme (b_ps b) (b_last b) cs spb in
  if mcs_is_edge cs && negb ((PS_1 <=? ps) && (ps <=? PS_3)) then None
  else
    let '(off, st) := dl_get_data b in
    let ps' := if is_firstseg spb then ps else update_punct_scheme ps cs in
    Some (mk_unit cs ps spb off (block_data_len cs pad),
          mk_blk (b_init b) cs (b_cur b) ps' st (b_len b)).

Fixpoint blk_copies (n : nat) (cs : scheme) (pad : bool) (spb : dlspb) (b : dlblk)
  : option (list unit_tx * dlblk) :=
  match n with
  | O => Some ([], b)
  | S k =>
    match blk_copy cs pad spb b with
    | None => None
    | Some (u, b1) =>
      match blk_copies k cs pad spb b1 with
      | None => None
      | Some (us, b2) => Some (u :: us, b2)
      end
    end
  end.

(** create_dl_acked_block, tbf_dl.cpp:723-758: scheme and padding of the radio block
    whose first (or only) RLC block is [b]; [two] says that a second RLC block comes
    along. *)
Definition radio_scheme (two : bool) (b : dlblk) : scheme * bool :=
  let cs := b_cur b in
  if seqb (b_init b) MCS8 && (seqb cs MCS6 || seqb cs MCS3) then
    (cs, negb (is_first_sent (b_seg b)))
  else if negb two then
    if negb (seqb cs MCS8) then mcs_dec_to_single_block cs else (cs, false)
  else (cs, false).

(** create_dl_acked_block for the first block, tbf_dl.cpp:723-845: alone it fills every
    data unit of the radio block, otherwise the first one only. Also fails when
    num_data_blocks is 0 (assertion at 779). *)
Definition blk_send_first (two : bool) (b : dlblk) : option (list unit_tx * dlblk) :=
  let '(cs, pad) := radio_scheme two b in
  let spb := dl_spb b in
  let n := Z.to_nat (num_data_blocks (mcs_header_type cs)) in
  match n with
  | O => None
  | S _ => blk_copies (if two then 1%nat else n) cs pad spb b
  end.

(** The same for the second block of a radio block with two data units. Its scheme is
    the one of the radio block (see [second_block_scheme] in the proofs), the split
    indicator was computed for the first block: none, as the header is of type 1. *)
Definition blk_send_second (b : dlblk) : option (list unit_tx * dlblk) :=
  if num_data_blocks (mcs_header_type (b_cur b)) =? 2
  then blk_copies 1 (b_cur b) false NoRetx b
  else Some ([], b).

(** Events in the life of a block after its creation. *)
Inductive bev : Set :=
| BRetx (cmd : scheme) (arq1 : bool)   (* chosen for retransmission *)
| BFirst (two : bool)                  (* sent as first block of a radio block *)
| BSecond.                             (* sent as second block of a radio block *)

Definition blk_step (e : bev) (b : dlblk) : option (list unit_tx * dlblk) :=
  match e with
  | BRetx cmd a => match blk_retx cmd a b with Some b' => Some ([], b') | None => None end
  | BFirst two => blk_send_first two b
  | BSecond => blk_send_second b
  end.

Fixpoint blk_run (es : list bev) (b : dlblk) : option (list unit_tx * dlblk) :=
  match es with
  | [] => Some ([], b)
  | e :: r =>
    match blk_step e b with
    | None => None
    | Some (us, b1) =>
      match blk_run r b1 with
      | None => None
      | Some (us', b2) => Some (us ++ us', b2)
      end
    end
  end.
