(** The counters of data blocks by coding scheme: /repo/src/bts.h, bts.cpp, tbf.h, tbf_ul.h,
    tbf_dl.cpp, tbf_ul.cpp. *)
From Coq Require Import ZArith Ascii String List Bool.
From Verif Require Import Model.CodingScheme Model.RlcCps Model.DlBlockTx.
Import ListNotations.
Local Open Scope Z_scope.

(** The counters of a cell: the enumeration, bts.h:79-182, and the names by position,
    bts_ctr_description, bts.cpp:108-211. *)
Definition cell_enum : list string := [
  "CTR_PDCH_ALL_ALLOCATED"; "CTR_TBF_DL_ALLOCATED"; "CTR_TBF_DL_FREED"; "CTR_TBF_DL_ABORTED";
  "CTR_TBF_UL_ALLOCATED"; "CTR_TBF_UL_FREED"; "CTR_TBF_UL_ABORTED"; "CTR_TBF_REUSED"; "CTR_TBF_ALLOC_ALGO_A";
  "CTR_TBF_ALLOC_ALGO_B"; "CTR_TBF_ALLOC_FAIL"; "CTR_TBF_ALLOC_FAIL_NO_TFI"; "CTR_TBF_ALLOC_FAIL_NO_USF";
  "CTR_TBF_ALLOC_FAIL_NO_SLOT_COMBI"; "CTR_TBF_ALLOC_FAIL_NO_SLOT_AVAIL"; "CTR_RLC_SENT"; "CTR_RLC_RESENT";
  "CTR_RLC_RESTARTED"; "CTR_RLC_STALLED"; "CTR_RLC_NACKED"; "CTR_RLC_FINAL_BLOCK_RESENT";
  "CTR_RLC_ASS_TIMEDOUT"; "CTR_RLC_ASS_FAILED"; "CTR_RLC_ACK_TIMEDOUT"; "CTR_RLC_ACK_FAILED";
  "CTR_RLC_REL_TIMEDOUT"; "CTR_RLC_LATE_BLOCK"; "CTR_RLC_SENT_DUMMY"; "CTR_RLC_SENT_CONTROL";
  "CTR_RLC_DL_BYTES"; "CTR_RLC_DL_PAYLOAD_BYTES"; "CTR_RLC_UL_BYTES"; "CTR_RLC_UL_PAYLOAD_BYTES";
  "CTR_DECODE_ERRORS"; "CTR_SBA_ALLOCATED"; "CTR_SBA_FREED"; "CTR_SBA_TIMEDOUT"; "CTR_LLC_FRAME_TIMEDOUT";
  "CTR_LLC_FRAME_DROPPED"; "CTR_LLC_FRAME_SCHED"; "CTR_LLC_DL_BYTES"; "CTR_LLC_UL_BYTES"; "CTR_PCH_REQUESTS";
  "CTR_PCH_REQUESTS_ALREADY"; "CTR_PCH_REQUESTS_TIMEDOUT"; "CTR_RACH_REQUESTS"; "CTR_RACH_REQUESTS_11BIT";
  "CTR_RACH_REQUESTS_ONE_PHASE"; "CTR_RACH_REQUESTS_TWO_PHASE"; "CTR_RACH_REQUESTS_UNEXPECTED";
  "CTR_SPB_UL_FIRST_SEGMENT"; "CTR_SPB_UL_SECOND_SEGMENT"; "CTR_SPB_DL_FIRST_SEGMENT";
  "CTR_SPB_DL_SECOND_SEGMENT"; "CTR_IMMEDIATE_ASSIGN_UL_TBF"; "CTR_IMMEDIATE_ASSIGN_UL_TBF_ONE_PHASE";
  "CTR_IMMEDIATE_ASSIGN_UL_TBF_TWO_PHASE"; "CTR_IMMEDIATE_ASSIGN_UL_TBF_CONTENTION_RESOLUTION_SUCCESS";
  "CTR_IMMEDIATE_ASSIGN_REJ"; "CTR_IMMEDIATE_ASSIGN_DL_TBF"; "CTR_CHANNEL_REQUEST_DESCRIPTION";
  "CTR_PKT_UL_ASSIGNMENT"; "CTR_PKT_ACCESS_REJ"; "CTR_PKT_DL_ASSIGNMENT"; "CTR_PKT_CELL_CHG_NOTIFICATION";
  "CTR_PKT_CELL_CHG_CONTINUE"; "CTR_PKT_NEIGH_CELL_DATA"; "CTR_RLC_RECV_CONTROL"; "CTR_PUA_POLL_TIMEDOUT";
  "CTR_PUA_POLL_FAILED"; "CTR_PDA_POLL_TIMEDOUT"; "CTR_PDA_POLL_FAILED"; "CTR_PUAN_POLL_TIMEDOUT";
  "CTR_PUAN_POLL_FAILED"; "CTR_PDAN_POLL_TIMEDOUT"; "CTR_PDAN_POLL_FAILED"; "CTR_GPRS_DL_CS1";
  "CTR_GPRS_DL_CS2"; "CTR_GPRS_DL_CS3"; "CTR_GPRS_DL_CS4"; "CTR_EGPRS_DL_MCS1"; "CTR_EGPRS_DL_MCS2";
  "CTR_EGPRS_DL_MCS3"; "CTR_EGPRS_DL_MCS4"; "CTR_EGPRS_DL_MCS5"; "CTR_EGPRS_DL_MCS6"; "CTR_EGPRS_DL_MCS7";
  "CTR_EGPRS_DL_MCS8"; "CTR_EGPRS_DL_MCS9"; "CTR_GPRS_UL_CS1"; "CTR_GPRS_UL_CS2"; "CTR_GPRS_UL_CS3";
  "CTR_GPRS_UL_CS4"; "CTR_EGPRS_UL_MCS1"; "CTR_EGPRS_UL_MCS2"; "CTR_EGPRS_UL_MCS3"; "CTR_EGPRS_UL_MCS4";
  "CTR_EGPRS_UL_MCS5"; "CTR_EGPRS_UL_MCS6"; "CTR_EGPRS_UL_MCS7"; "CTR_EGPRS_UL_MCS8"; "CTR_EGPRS_UL_MCS9"]%string.
Definition cell_names : list string := [
  "pdch:all_allocated"; "tbf:dl:alloc"; "tbf:dl:freed"; "tbf:dl:aborted"; "tbf:ul:alloc"; "tbf:ul:freed";
  "tbf:ul:aborted"; "tbf:reused"; "tbf:alloc:algo-a"; "tbf:alloc:algo-b"; "tbf:alloc:failed";
  "tbf:alloc:failed:no_tfi"; "tbf:alloc:failed:no_usf"; "tbf:alloc:failed:no_slot_combi";
  "tbf:alloc:failed:no_slot_avail"; "rlc:sent"; "rlc:resent"; "rlc:restarted"; "rlc:stalled"; "rlc:nacked";
  "rlc:final_block_resent"; "rlc:ass:timedout"; "rlc:ass:failed"; "rlc:ack:timedout"; "rlc:ack:failed";
  "rlc:rel:timedout"; "rlc:late-block"; "rlc:sent-dummy"; "rlc:sent-control"; "rlc:dl_bytes";
  "rlc:dl_payload_bytes"; "rlc:ul_bytes"; "rlc:ul_payload_bytes"; "decode:errors"; "sba:allocated";
  "sba:freed"; "sba:timedout"; "llc:timeout"; "llc:dropped"; "llc:scheduled"; "llc:dl_bytes"; "llc:ul_bytes";
  "pch:requests"; "pch:requests:already"; "pch:requests:timeout"; "rach:requests"; "rach:requests:11bit";
  "rach:requests:one_phase"; "rach:requests:two_phase"; "rach:requests:unexpected";
  "spb:uplink_first_segment"; "spb:uplink_second_segment"; "spb:downlink_first_segment";
  "spb:downlink_second_segment"; "immediate:assignment_UL"; "immediate:assignment_ul:one_phase";
  "immediate:assignment_ul:two_phase"; "immediate:assignment_ul:contention_resolution_success";
  "immediate:assignment_rej"; "immediate:assignment_DL"; "channel:request_description"; "pkt:ul_assignment";
  "pkt:access_reject"; "pkt:dl_assignment"; "pkt:cell_chg_notification"; "pkt:cell_chg_continue";
  "pkt:neigh_cell_data"; "ul:control"; "ul:assignment_poll_timeout"; "ul:assignment_failed";
  "dl:assignment_timeout"; "dl:assignment_failed"; "pkt:ul_ack_nack_timeout"; "pkt:ul_ack_nack_failed";
  "pkt:dl_ack_nack_timeout"; "pkt:dl_ack_nack_failed"; "gprs:downlink_cs1"; "gprs:downlink_cs2";
  "gprs:downlink_cs3"; "gprs:downlink_cs4"; "egprs:downlink_mcs1"; "egprs:downlink_mcs2";
  "egprs:downlink_mcs3"; "egprs:downlink_mcs4"; "egprs:downlink_mcs5"; "egprs:downlink_mcs6";
  "egprs:downlink_mcs7"; "egprs:downlink_mcs8"; "egprs:downlink_mcs9"; "gprs:uplink_cs1"; "gprs:uplink_cs2";
  "gprs:uplink_cs3"; "gprs:uplink_cs4"; "egprs:uplink_mcs1"; "egprs:uplink_mcs2"; "egprs:uplink_mcs3";
  "egprs:uplink_mcs4"; "egprs:uplink_mcs5"; "egprs:uplink_mcs6"; "egprs:uplink_mcs7"; "egprs:uplink_mcs8";
  "egprs:uplink_mcs9"]%string.

(** The counters of a TBF: tbf.h:68-73, tbf_dl.cpp:58-63. *)
Definition dl_gprs_enum : list string := [
  "TBF_CTR_GPRS_DL_CS1"; "TBF_CTR_GPRS_DL_CS2"; "TBF_CTR_GPRS_DL_CS3"; "TBF_CTR_GPRS_DL_CS4"]%string.
Definition dl_gprs_names : list string := [
  "gprs:downlink:cs1"; "gprs:downlink:cs2"; "gprs:downlink:cs3"; "gprs:downlink:cs4"]%string.

(** The counters of a TBF: tbf.h:75-85, tbf_dl.cpp:65-75. *)
Definition dl_egprs_enum : list string := [
  "TBF_CTR_EGPRS_DL_MCS1"; "TBF_CTR_EGPRS_DL_MCS2"; "TBF_CTR_EGPRS_DL_MCS3"; "TBF_CTR_EGPRS_DL_MCS4";
  "TBF_CTR_EGPRS_DL_MCS5"; "TBF_CTR_EGPRS_DL_MCS6"; "TBF_CTR_EGPRS_DL_MCS7"; "TBF_CTR_EGPRS_DL_MCS8";
  "TBF_CTR_EGPRS_DL_MCS9"]%string.
Definition dl_egprs_names : list string := [
  "egprs:downlink:mcs1"; "egprs:downlink:mcs2"; "egprs:downlink:mcs3"; "egprs:downlink:mcs4";
  "egprs:downlink:mcs5"; "egprs:downlink:mcs6"; "egprs:downlink:mcs7"; "egprs:downlink:mcs8";
  "egprs:downlink:mcs9"]%string.

(** The counters of a TBF: tbf_ul.h:38-43, tbf_ul.cpp:56-61. *)
Definition ul_gprs_enum : list string := [
  "TBF_CTR_GPRS_UL_CS1"; "TBF_CTR_GPRS_UL_CS2"; "TBF_CTR_GPRS_UL_CS3"; "TBF_CTR_GPRS_UL_CS4"]%string.
Definition ul_gprs_names : list string := [
  "gprs:uplink:cs1"; "gprs:uplink:cs2"; "gprs:uplink:cs3"; "gprs:uplink:cs4"]%string.

(** The counters of a TBF: tbf_ul.h:45-55, tbf_ul.cpp:63-73. *)
Definition ul_egprs_enum : list string := [
  "TBF_CTR_EGPRS_UL_MCS1"; "TBF_CTR_EGPRS_UL_MCS2"; "TBF_CTR_EGPRS_UL_MCS3"; "TBF_CTR_EGPRS_UL_MCS4";
  "TBF_CTR_EGPRS_UL_MCS5"; "TBF_CTR_EGPRS_UL_MCS6"; "TBF_CTR_EGPRS_UL_MCS7"; "TBF_CTR_EGPRS_UL_MCS8";
  "TBF_CTR_EGPRS_UL_MCS9"]%string.
Definition ul_egprs_names : list string := [
  "egprs:uplink:mcs1"; "egprs:uplink:mcs2"; "egprs:uplink:mcs3"; "egprs:uplink:mcs4"; "egprs:uplink:mcs5";
  "egprs:uplink:mcs6"; "egprs:uplink:mcs7"; "egprs:uplink:mcs8"; "egprs:uplink:mcs9"]%string.

(** The position of an enumerator, from [i] on. *)
Fixpoint place_of (x : string) (l : list string) (i : nat) : nat :=
  match l with [] => i | y :: r => if String.eqb x y then i else place_of x r (S i) end.

Inductive way : Set := Down | Up.

(** The switches of update_coding_scheme_counter_dl, tbf_dl.cpp:1346-1405, and _ul,
    tbf_ul.cpp:603-662: the counter of the cell, whether the EGPRS group of the TBF is used, and
    the counter there. None: only a log line. *)
Definition ctr_of (w : way) (c : scheme) : option (string * bool * string) :=
  (match w, c with
  | Down, CS1 => Some ("CTR_GPRS_DL_CS1", false, "TBF_CTR_GPRS_DL_CS1")
  | Down, CS2 => Some ("CTR_GPRS_DL_CS2", false, "TBF_CTR_GPRS_DL_CS2")
  | Down, CS3 => Some ("CTR_GPRS_DL_CS3", false, "TBF_CTR_GPRS_DL_CS3")
  | Down, CS4 => Some ("CTR_GPRS_DL_CS4", false, "TBF_CTR_GPRS_DL_CS4")
  | Down, MCS1 => Some ("CTR_EGPRS_DL_MCS1", true, "TBF_CTR_EGPRS_DL_MCS1")
  | Down, MCS2 => Some ("CTR_EGPRS_DL_MCS2", true, "TBF_CTR_EGPRS_DL_MCS2")
  | Down, MCS3 => Some ("CTR_EGPRS_DL_MCS3", true, "TBF_CTR_EGPRS_DL_MCS3")
  | Down, MCS4 => Some ("CTR_EGPRS_DL_MCS4", true, "TBF_CTR_EGPRS_DL_MCS4")
  | Down, MCS5 => Some ("CTR_EGPRS_DL_MCS5", true, "TBF_CTR_EGPRS_DL_MCS5")
  | Down, MCS6 => Some ("CTR_EGPRS_DL_MCS6", true, "TBF_CTR_EGPRS_DL_MCS6")
  | Down, MCS7 => Some ("CTR_EGPRS_DL_MCS7", true, "TBF_CTR_EGPRS_DL_MCS7")
  | Down, MCS8 => Some ("CTR_EGPRS_DL_MCS8", true, "TBF_CTR_EGPRS_DL_MCS8")
  | Down, MCS9 => Some ("CTR_EGPRS_DL_MCS9", true, "TBF_CTR_EGPRS_DL_MCS9")
  | Up, CS1 => Some ("CTR_GPRS_UL_CS1", false, "TBF_CTR_GPRS_UL_CS1")
  | Up, CS2 => Some ("CTR_GPRS_UL_CS2", false, "TBF_CTR_GPRS_UL_CS2")
  | Up, CS3 => Some ("CTR_GPRS_UL_CS3", false, "TBF_CTR_GPRS_UL_CS3")
  | Up, CS4 => Some ("CTR_GPRS_UL_CS4", false, "TBF_CTR_GPRS_UL_CS4")
  | Up, MCS1 => Some ("CTR_EGPRS_UL_MCS1", true, "TBF_CTR_EGPRS_UL_MCS1")
  | Up, MCS2 => Some ("CTR_EGPRS_UL_MCS2", true, "TBF_CTR_EGPRS_UL_MCS2")
  | Up, MCS3 => Some ("CTR_EGPRS_UL_MCS3", true, "TBF_CTR_EGPRS_UL_MCS3")
  | Up, MCS4 => Some ("CTR_EGPRS_UL_MCS4", true, "TBF_CTR_EGPRS_UL_MCS4")
  | Up, MCS5 => Some ("CTR_EGPRS_UL_MCS5", true, "TBF_CTR_EGPRS_UL_MCS5")
  | Up, MCS6 => Some ("CTR_EGPRS_UL_MCS6", true, "TBF_CTR_EGPRS_UL_MCS6")
  | Up, MCS7 => Some ("CTR_EGPRS_UL_MCS7", true, "TBF_CTR_EGPRS_UL_MCS7")
  | Up, MCS8 => Some ("CTR_EGPRS_UL_MCS8", true, "TBF_CTR_EGPRS_UL_MCS8")
  | Up, MCS9 => Some ("CTR_EGPRS_UL_MCS9", true, "TBF_CTR_EGPRS_UL_MCS9")
  | _, UNKNOWN => None
  end)%string.

(** The values of a group of counters by position; the two groups of a TBF, None: not
    allocated. *)
Definition values := nat -> Z.
Definition bump (i : nat) (v : values) : values := fun j => if Nat.eqb j i then v j + 1 else v j.
Record groups := mk_groups { g_gprs : option values; g_egprs : option values }.
Definition zeros : values := fun _ => 0.
(** dl_tbf_alloc, tbf_dl.cpp:126-144: only the group of the TBF's mode is allocated; the
    constructor of an uplink TBF, tbf_ul.cpp:146-149, allocates both. Running out of memory is
    left out. *)
Definition tbf_groups (w : way) (egprs : bool) : groups :=
  match w with
  | Up => mk_groups (Some zeros) (Some zeros)
  | Down => if egprs then mk_groups None (Some zeros) else mk_groups (Some zeros) None
  end.
(** The enumeration that the switches use for a group. *)
Definition enum_of (w : way) (e : bool) : list string :=
  match w, e with
  | Down, false => dl_gprs_enum | Down, true => dl_egprs_enum
  | Up, false => ul_gprs_enum | Up, true => ul_egprs_enum
  end.
(** The same functions on the values. None: a counter of a group that is not there is
    incremented (a null pointer). *)
Definition count_block (w : way) (c : scheme) (cell : values) (g : groups) : option (values * groups) :=
  match ctr_of w c with
  | None => Some (cell, g)
  | Some (x, e, y) =>
    let cell' := bump (place_of x cell_enum 0) cell in
    let i := place_of y (enum_of w e) 0 in
    if e then match g_egprs g with Some v => Some (cell', mk_groups (g_gprs g) (Some (bump i v))) | None => None end
    else match g_gprs g with Some v => Some (cell', mk_groups (Some (bump i v)) (g_egprs g)) | None => None end
  end.

(** ** A downlink TBF *)
(** Its mode, its blocks, its counters, and (not in the code) the schemes of the radio blocks
    sent, the last first. *)
Record dltbf := mk_dltbf { d_egprs : bool; d_blocks : list dlblk; d_groups : groups; d_air : list scheme }.
Inductive dlop :=
| NewBlock (c : scheme)                          (* create_new_bsn *)
| Again (i : nat) (cmd : scheme) (arq1 : bool)   (* take_next_bsn chooses a block to resend *)
| Radio (i : nat) (second : option nat).         (* create_dl_acked_block *)
Fixpoint put_at {A} (i : nat) (x : A) (l : list A) : list A :=
  match l, i with [], _ => [] | _ :: r, O => x :: r | y :: r, S k => y :: put_at k x r end.
(** take_next_bsn, tbf_dl.cpp:293-324: by the tables in EGPRS, else as sent last. *)
Definition again (egprs : bool) (cmd : scheme) (arq1 : bool) (b : dlblk) : option dlblk :=
  if egprs then blk_retx cmd arq1 b
  else Some (mk_blk (b_init b) (b_last b) (b_last b) (b_ps b) (b_seg b) (b_len b)).
(** create_dl_acked_block, tbf_dl.cpp:723-845: counted at 741, before the scheme of the
    radio block is settled. The block may be sent with a second one. *)
Definition send_radio (i : nat) (second : option nat) (cell : values) (t : dltbf) : option (values * dltbf) :=
  match nth_error (d_blocks t) i with
  | None => Some (cell, t)
  | Some b =>
    let two := match second with Some _ => true | None => false end in
    match count_block Down (b_cur b) cell (d_groups t), blk_send_first two b with
    | Some (cell', g), Some (_, b') =>
      let bs := put_at i b' (d_blocks t) in
      let air := fst (radio_scheme two b) :: d_air t in
      match match second with None => None | Some j => nth_error bs j end, second with
      | Some b2, Some j =>
        match blk_send_second b2 with
        | Some (_, b2') => Some (cell', mk_dltbf (d_egprs t) (put_at j b2' bs) g air)
        | None => None
        end
      | _, _ => Some (cell', mk_dltbf (d_egprs t) bs g air)
      end
    | _, _ => None
    end
  end.
Definition dl_step (o : dlop) (cell : values) (t : dltbf) : option (values * dltbf) :=
  match o with
  | NewBlock c =>
    match blk_new c with
    | Some b => Some (cell, mk_dltbf (d_egprs t) (d_blocks t ++ [b]) (d_groups t) (d_air t))
    | None => None
    end
  | Again i cmd arq1 =>
    match nth_error (d_blocks t) i with
    | None => Some (cell, t)
    | Some b =>
      match again (d_egprs t) cmd arq1 b with
      | Some b' => Some (cell, mk_dltbf (d_egprs t) (put_at i b' (d_blocks t)) (d_groups t) (d_air t))
      | None => None
      end
    end
  | Radio i second => send_radio i second cell t
  end.

(** ** An uplink TBF *)
(** Its counters and (not in the code) the schemes of the radio blocks received. *)
Record ultbf := mk_ultbf { u_groups : groups; u_air : list scheme }.
(** rcv_data_block_acknowledged, tbf_ul.cpp:246-285: every radio block that comes while the TBF
    is not being released, by the scheme it came with. *)
Definition ul_step (c : scheme) (cell : values) (t : ultbf) : option (values * ultbf) :=
  match count_block Up c cell (u_groups t) with
  | Some (cell', g) => Some (cell', mk_ultbf g (c :: u_air t))
  | None => None
  end.

(** ** A cell with its TBFs *)
(** The counters of the cell, the TBFs, and (not in the code) the schemes of all radio blocks
    sent and received. *)
Record cellw := mk_cellw {
  w_cell : values; w_dl : list dltbf; w_ul : list ultbf; w_down : list scheme; w_up : list scheme }.
Inductive cellop :=
| StartDl (egprs : bool) | StartUl | EndDl (i : nat) | EndUl (i : nat)
| OnDl (i : nat) (o : dlop) | OnUl (i : nat) (c : scheme).
Fixpoint drop_at {A} (i : nat) (l : list A) : list A :=
  match l, i with [], _ => [] | _ :: r, O => r | y :: r, S k => y :: drop_at k r end.
(** What a step of the TBF has put on the air. *)
Definition new_air (before now : list scheme) : list scheme := firstn (length now - length before) now.
Definition cell_step (o : cellop) (w : cellw) : option cellw :=
  match o with
  | StartDl e =>
    Some (mk_cellw (w_cell w) (w_dl w ++ [mk_dltbf e [] (tbf_groups Down e) []]) (w_ul w) (w_down w) (w_up w))
  | StartUl =>
    Some (mk_cellw (w_cell w) (w_dl w) (w_ul w ++ [mk_ultbf (tbf_groups Up true) []]) (w_down w) (w_up w))
  | EndDl i => Some (mk_cellw (w_cell w) (drop_at i (w_dl w)) (w_ul w) (w_down w) (w_up w))
  | EndUl i => Some (mk_cellw (w_cell w) (w_dl w) (drop_at i (w_ul w)) (w_down w) (w_up w))
  | OnDl i d =>
    match nth_error (w_dl w) i with
    | None => Some w
    | Some t =>
      match dl_step d (w_cell w) t with
      | Some (c, t') =>
        Some (mk_cellw c (put_at i t' (w_dl w)) (w_ul w) (new_air (d_air t) (d_air t') ++ w_down w) (w_up w))
      | None => None
      end
    end
  | OnUl i s =>
    match nth_error (w_ul w) i with
    | None => Some w
    | Some t =>
      match ul_step s (w_cell w) t with
      | Some (c, t') => Some (mk_cellw c (w_dl w) (put_at i t' (w_ul w)) (w_down w) (s :: w_up w))
      | None => None
      end
    end
  end.
Fixpoint cell_run (os : list cellop) (w : cellw) : option cellw :=
  match os with [] => Some w | o :: r => match cell_step o w with Some w' => cell_run r w' | None => None end end.
Definition quiet_cell (cell : values) : cellw := mk_cellw cell [] [] [] [].
