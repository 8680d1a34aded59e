(** Data block layout, coding and puncturing scheme field, puncturing schemes;
    /repo/src/rlc.cpp and rlc.h. *)
From Coq Require Import ZArith List Bool.
From Verif Require Import Model.CodingScheme.
Import ListNotations.
Local Open Scope Z_scope.

(** RLC_MAX_LEN, rlc.h:31. *)
Definition RLC_MAX_LEN : Z := 74.

(** enum egprs_puncturing_values, rlc.h:101-106: PS_1 = 0, PS_2 = 1, PS_3 = 2,
    INVALID = 3. *)
Definition PS_1 : Z := 0.
Definition PS_2 : Z := 1.
Definition PS_3 : Z := 2.
Definition PS_INVALID : Z := 3.

(** enum egprs_rlcmac_dl_spb, rlc.h:91-95. *)
Inductive dlspb : Set := NoRetx | FirstSeg | SecSeg.

(** gprs_rlc_data_block_info_init, rlc.cpp:97-111: the length of the data part. *)
Definition block_data_len (c : scheme) (pad : bool) : Z :=
  mcs_max_data_block_bytes c - (if pad then mcs_opt_padding_bits c / 8 else 0).

(** gprs_rlc_data_header_init, rlc.cpp:44-75: data_offs_bits[i] for i below
    num_data_blocks, given the header bits. The other fields are set to constants. *)
Definition data_offs_bits (c : scheme) (pad : bool) (header_bits : Z) (i : Z) : Z :=
  header_bits + (if pad then mcs_opt_padding_bits c else 0)
  + (i + 1) * num_data_block_header_bits (mcs_header_type c)
  + i * 8 * block_data_len c pad.

(** gprs_rlc_data_info_init_dl / _ul, rlc.cpp:77-95. [None]: the assertion fails. The
    result lists, per data block, its bit offset and length in octets. *)
Definition data_info_init (hdr : htype -> Z) (c : scheme) (pad : bool) : option (list (Z * Z)) :=
  if negb (mcs_is_valid c) then None
  else Some (map (fun i => (data_offs_bits c pad (hdr (mcs_header_type c)) (Z.of_nat i), block_data_len c pad))
                 (seq 0 (Z.to_nat (num_data_blocks (mcs_header_type c))))).
Definition data_info_init_dl := data_info_init num_data_header_bits_DL.
Definition data_info_init_ul := data_info_init num_data_header_bits_UL.

(** gprs_rlc_mcs_cps, rlc.cpp:113-173. [None] is the returned (unsigned)-1. *)
Definition mcs_cps (c : scheme) (p p2 : Z) (pad : bool) : option Z :=
  let ok2 := negb (p2 =? PS_INVALID) in
  let ok1 := negb (p =? PS_INVALID) in
  match c with
  | MCS9 => if ok2 && ok1 then Some (0 + 4 * (p mod 3) + p2 mod 3) else None
  | MCS8 => if ok2 && ok1 then Some (11 + 3 * (p mod 3) + p2 mod 3) else None
  | MCS7 => if ok2 && ok1 then Some (20 + 3 * (p mod 3) + p2 mod 3) else None
  | MCS6 => if ok1 then Some ((if pad then 2 else 0) + p mod 2) else None
  | MCS5 => if ok1 then Some (4 + p mod 2) else None
  | MCS4 => if ok1 then Some (0 + p mod 3) else None
  | MCS3 => if ok1 then Some ((if pad then 6 else 3) + p mod 3) else None
  | MCS2 => if ok1 then Some (9 + p mod 2) else None
  | MCS1 => if ok1 then Some (11 + p mod 2) else None
  | _ => None
  end.

(** gprs_rlc_mcs_cps_decode, rlc.cpp:175-203: punct, punct2, with_padding. The
    subtraction is on a 32-bit unsigned. [None] for schemes without a case: *punct is
    then left unset. *)
Definition mcs_cps_decode (cps : Z) (c : scheme) : option (Z * Z * bool) :=
  let sub k := (cps - k) mod 2 ^ 32 in
  match c with
  | MCS1 => Some (sub 11 mod 2, -1, false)
  | MCS2 => Some (sub 9 mod 2, -1, false)
  | MCS3 => Some (sub 3 mod 3, -1, 3 <=? sub 3)
  | MCS4 => Some (sub 0 mod 3, -1, false)
  | MCS5 => Some (sub 4 mod 2, -1, false)
  | MCS6 => Some (sub 0 mod 2, -1, 2 <=? sub 0)
  | MCS7 => Some (sub 20 / 3, sub 20 mod 3, false)
  | MCS8 => Some (sub 11 / 3, sub 11 mod 3, false)
  | MCS9 => Some (sub 0 / 4, sub 0 mod 3, false)
  | _ => None
  end.

Definition is_secseg (s : dlspb) : bool := match s with SecSeg => true | _ => false end.

(** gprs_get_punct_scheme, rlc.cpp:212-256: [cs] is the scheme of the previous
    transmission, [cur] the one of this transmission. *)
Definition get_punct_scheme (p : Z) (cs cur : scheme) (spb : dlspb) : Z :=
  if is_secseg spb then p
  else if seqb cs MCS9 && seqb cur MCS6 then
    if (p =? PS_1) || (p =? PS_3) then PS_1
    else if p =? PS_2 then PS_2 else PS_INVALID
  else if seqb cs MCS6 && seqb cur MCS9 then
    if p =? PS_1 then PS_3 else if p =? PS_2 then PS_2 else PS_INVALID
  else if seqb cs MCS7 && seqb cur MCS5 then PS_1
  else if seqb cs MCS5 && seqb cur MCS7 then PS_2
  else if negb (seqb cs cur) then PS_1
  else p.

(** gprs_update_punct_scheme, rlc.cpp:264-288. *)
Definition update_punct_scheme (p : Z) (c : scheme) : Z :=
  match c with
  | MCS1 | MCS2 | MCS5 | MCS6 => (p + 1) mod 2
  | MCS3 | MCS4 | MCS7 | MCS8 | MCS9 => (p + 1) mod 3
  | _ => p
  end.
