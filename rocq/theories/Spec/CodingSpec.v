(** What the standard says about the EGPRS schemes, for C08-C12. *)
From Coq Require Import ZArith List Bool.
From Verif Require Import Model.CodingScheme Model.RlcCps Model.DlBlockTx.
Import ListNotations.
Local Open Scope Z_scope.

Definition all_schemes : list scheme :=
  [UNKNOWN; CS1; CS2; CS3; CS4; MCS1; MCS2; MCS3; MCS4; MCS5; MCS6; MCS7; MCS8; MCS9].
Definition all_mcs : list scheme := [MCS1; MCS2; MCS3; MCS4; MCS5; MCS6; MCS7; MCS8; MCS9].

(** The families of TS 43.064 6.5.5.1.2: C = {1, 4}, B = {2, 5, 7}, A = {3, 6, 8, 9}. *)
Definition same_family (a b : scheme) : Prop :=
  (In a [MCS1; MCS4] /\ In b [MCS1; MCS4]) \/
  (In a [MCS2; MCS5; MCS7] /\ In b [MCS2; MCS5; MCS7]) \/
  (In a [MCS3; MCS6; MCS8; MCS9] /\ In b [MCS3; MCS6; MCS8; MCS9]).

(** Octets of one data block (TS 44.060 table 10.2.1, 10.3a) and octets of padding a
    scheme can insert. *)
Definition payload (c : scheme) : Z :=
  match c with
  | MCS1 => 22 | MCS2 => 28 | MCS3 => 37 | MCS4 => 44 | MCS5 => 56
  | MCS6 => 74 | MCS7 => 56 | MCS8 => 68 | MCS9 => 74
  | CS1 => 20 | CS2 => 30 | CS3 => 36 | CS4 => 50 | UNKNOWN => 0
  end.
Definition padding (c : scheme) : Z := match c with MCS3 | MCS6 => 6 | _ => 0 end.

(** [m] can carry a block first sent with [init]: in one piece, or in two when splitting
    is allowed, possibly with padding. *)
Definition can_carry (split : bool) (init m : scheme) : Prop :=
  same_family init m /\
  (payload m = payload init \/ payload m - padding m = payload init \/
   (split = true /\ (2 * payload m = payload init \/ 2 * payload m - padding m = payload init))).

(** Puncturing schemes an MCS has (TS 44.060 10.4.8a). *)
Definition ps_count (c : scheme) : Z :=
  match c with MCS1 | MCS2 | MCS5 | MCS6 => 2 | _ => 3 end.

(** Width of the CPS field in the three header types. *)
Definition cps_width (h : htype) : Z :=
  match h with HType1 => 5 | HType2 => 3 | HType3 => 4 | _ => 0 end.

(** Valid parameters of a transmission: one puncturing scheme, or two for the schemes
    with two data blocks; padding only where the scheme has it. *)
Definition two_blocks (c : scheme) : bool :=
  match c with MCS7 | MCS8 | MCS9 => true | _ => false end.
Definition valid_cps_args (c : scheme) (p p2 : Z) (pad : bool) : Prop :=
  In c all_mcs /\ 0 <= p < ps_count c /\
  (if two_blocks c then 0 <= p2 < ps_count c else p2 = PS_INVALID) /\
  (pad = true -> c = MCS3 \/ c = MCS6).

(** The mode ladder of C11. *)
Definition ladder (k : mkind) : list scheme :=
  match k with
  | GPRS => [CS1; CS2; CS3; CS4]
  | EGPRS_GMSK => [MCS1; MCS2; MCS3; MCS4]
  | EGPRS => all_mcs
  end.
Definition next_in (l : list scheme) (a b : scheme) : Prop :=
  exists pre post, l = pre ++ a :: b :: post.
Definition last_of (l : list scheme) (a : scheme) : Prop := exists pre, l = pre ++ [a].
Definition first_of (l : list scheme) (a : scheme) : Prop := exists post, l = a :: post.

(** Histories of one block, for C09 and C12. *)
Definition blk_history (c : scheme) (es : list bev) (us : list unit_tx) (b : dlblk) : Prop :=
  exists b0, blk_new c = Some b0 /\ blk_run es b0 = Some (us, b).
(** Commanded schemes in retransmissions are EGPRS schemes. *)
Definition bev_ok (e : bev) : Prop :=
  match e with BRetx cmd _ => mcs_is_edge cmd = true | _ => True end.

(** Layout of a radio block of [total] bits for C10: behind the header of [hdr] bits come
    the data blocks, each given by bit offset and octets, each behind [bh] bits of block
    header; they lie inside the radio block, do not overlap, and fit the RLC buffer. *)
Definition lay_ok (total : Z) (hdr bh : Z) (l : list (Z * Z)) : Prop :=
  (forall i o n, nth_error l i = Some (o, n) ->
     hdr + bh <= o /\ 0 < n <= RLC_MAX_LEN /\ o + 8 * n <= total) /\
  (forall i o n o' n', nth_error l i = Some (o, n) -> nth_error l (S i) = Some (o', n') ->
     o + 8 * n + bh <= o').

(** Usable bits of a radio block; the GPRS schemes leave the spare bits unused. *)
Definition total_ul (c : scheme) : Z :=
  8 * mcs_max_bytes_ul c + (if mcs_is_edge c then mcs_spare_bits_ul c else 0).
Definition total_dl (c : scheme) : Z :=
  8 * mcs_max_bytes_dl c + (if mcs_is_edge c then mcs_spare_bits_dl c else 0).
