(** Coding schemes, /repo/src/coding_scheme.h and coding_scheme.c. *)
From Coq Require Import ZArith List Bool.
Import ListNotations.
Local Open Scope Z_scope.

(** enum CodingScheme, coding_scheme.h:22-29. NUM_SCHEMES (14) is only a bound. *)
Inductive scheme : Set :=
| UNKNOWN | CS1 | CS2 | CS3 | CS4
| MCS1 | MCS2 | MCS3 | MCS4 | MCS5 | MCS6 | MCS7 | MCS8 | MCS9.

(** The numeric value of the enumerators, coding_scheme.h:22-29. *)
Definition snum (c : scheme) : Z :=
  match c with
  | UNKNOWN => 0 | CS1 => 1 | CS2 => 2 | CS3 => 3 | CS4 => 4
  | MCS1 => 5 | MCS2 => 6 | MCS3 => 7 | MCS4 => 8 | MCS5 => 9
  | MCS6 => 10 | MCS7 => 11 | MCS8 => 12 | MCS9 => 13
  end.

(** Conversion of an integer to the enumeration (the casts in coding_scheme.c:150, 157,
    243, 257). [None]: not an enumerator. *)
Definition sof (n : Z) : option scheme :=
  match n with
  | 0 => Some UNKNOWN | 1 => Some CS1 | 2 => Some CS2 | 3 => Some CS3 | 4 => Some CS4
  | 5 => Some MCS1 | 6 => Some MCS2 | 7 => Some MCS3 | 8 => Some MCS4 | 9 => Some MCS5
  | 10 => Some MCS6 | 11 => Some MCS7 | 12 => Some MCS8 | 13 => Some MCS9
  | _ => None
  end.

(** Comparison of enumerators with ==. *)
Definition seqb (a b : scheme) : bool := snum a =? snum b.

(** enum mcs_kind, coding_scheme.h:31-35. *)
Inductive mkind : Set := GPRS | EGPRS_GMSK | EGPRS.

(** enum HeaderType, coding_scheme.h:78-86. *)
Inductive htype : Set := HInvalid | HControl | HGprs | HType1 | HType2 | HType3.

(** enum Family, coding_scheme.c:39-44. *)
Inductive family : Set := FInvalid | FA | FB | FC.

(** One row of mcs_info, coding_scheme.c:46-56. *)
Record minfo := mk_mi {
  mi_ul_bytes : Z; mi_ul_ext : Z; mi_dl_bytes : Z; mi_dl_ext : Z;
  mi_data : Z; mi_pad : Z; mi_hdr : htype; mi_fam : family }.

(** mcs_info, coding_scheme.c:56-89. *)
Definition mcs_info (c : scheme) : minfo :=
  match c with
  | UNKNOWN => mk_mi 0 0 0 0 0 0 HInvalid FInvalid
  | CS1 => mk_mi 23 0 23 0 20 0 HGprs FInvalid
  | CS2 => mk_mi 33 7 33 7 30 0 HGprs FInvalid
  | CS3 => mk_mi 39 3 39 3 36 0 HGprs FInvalid
  | CS4 => mk_mi 53 7 53 7 50 0 HGprs FInvalid
  | MCS1 => mk_mi 26 1 26 1 22 0 HType3 FC
  | MCS2 => mk_mi 32 1 32 1 28 0 HType3 FB
  | MCS3 => mk_mi 41 1 41 1 37 48 HType3 FA
  | MCS4 => mk_mi 48 1 48 1 44 0 HType3 FC
  | MCS5 => mk_mi 60 7 59 6 56 0 HType2 FB
  | MCS6 => mk_mi 78 7 77 6 74 48 HType2 FA
  | MCS7 => mk_mi 118 2 117 4 56 0 HType1 FB
  | MCS8 => mk_mi 142 2 141 4 68 0 HType1 FA
  | MCS9 => mk_mi 154 2 153 4 74 0 HType1 FA
  end.

(** mcs_is_gprs / mcs_is_edge / mcs_is_edge_gmsk, coding_scheme.c:95-111. *)
Definition mcs_is_gprs (c : scheme) : bool := (snum CS1 <=? snum c) && (snum c <=? snum CS4).
Definition mcs_is_edge (c : scheme) : bool := (snum MCS1 <=? snum c) && (snum c <=? snum MCS9).
Definition mcs_is_edge_gmsk (c : scheme) : bool :=
  if mcs_is_edge c then snum c <=? snum MCS4 else false.

(** mcs_chan_code, coding_scheme.c:114-124. *)
Definition mcs_chan_code (c : scheme) : Z :=
  if mcs_is_gprs c then snum c - snum CS1
  else if mcs_is_edge c then snum c - snum MCS1 else 0.

(** mcs_get_by_size_ul, coding_scheme.c:126-144. *)
Definition mcs_get_by_size_ul (size : Z) : scheme :=
  match size with
  | 23 => CS1 | 27 => MCS1 | 33 => MCS2 | 34 => CS2 | 40 => CS3 | 42 => MCS3
  | 49 => MCS4 | 54 => CS4 | 61 => MCS5 | 79 => MCS6 | 119 => MCS7 | 143 => MCS8
  | 155 => MCS9 | _ => UNKNOWN
  end.

(** mcs_get_gprs_by_num / mcs_get_egprs_by_num, coding_scheme.c:146-158. *)
Definition mcs_get_gprs_by_num (n : Z) : scheme :=
  if (n <? 1) || (4 <? n) then UNKNOWN
  else match sof (snum CS1 + (n - 1)) with Some c => c | None => UNKNOWN end.
Definition mcs_get_egprs_by_num (n : Z) : scheme :=
  if (n <? 1) || (9 <? n) then UNKNOWN
  else match sof (snum MCS1 + (n - 1)) with Some c => c | None => UNKNOWN end.

(** mcs_is_valid, coding_scheme.c:160-163. *)
Definition mcs_is_valid (c : scheme) : bool := (snum UNKNOWN <? snum c) && (snum c <=? snum MCS9).

(** mcs_is_compat_kind, coding_scheme.c:165-174. *)
Definition mcs_is_compat_kind (c : scheme) (k : mkind) : bool :=
  match k with
  | GPRS => mcs_is_gprs c | EGPRS_GMSK => mcs_is_edge_gmsk c | EGPRS => mcs_is_edge c
  end.

(** mcs_is_compat, coding_scheme.c:176-179. *)
Definition mcs_is_compat (c o : scheme) : bool :=
  (mcs_is_gprs c && mcs_is_gprs o) || (mcs_is_edge c && mcs_is_edge o).

(** Size accessors, coding_scheme.c:181-235. *)
Definition mcs_spare_bits_ul (c : scheme) : Z := mi_ul_ext (mcs_info c).
Definition mcs_spare_bits_dl (c : scheme) : Z := mi_dl_ext (mcs_info c).
Definition mcs_size_ul (c : scheme) : Z :=
  mi_ul_bytes (mcs_info c) + (if mcs_spare_bits_ul c =? 0 then 0 else 1).
Definition mcs_size_dl (c : scheme) : Z :=
  mi_dl_bytes (mcs_info c) + (if mcs_spare_bits_dl c =? 0 then 0 else 1).
Definition is_hgprs (h : htype) : bool := match h with HGprs => true | _ => false end.
Definition mcs_used_size_ul (c : scheme) : Z :=
  if is_hgprs (mi_hdr (mcs_info c)) then mi_ul_bytes (mcs_info c) else mcs_size_ul c.
Definition mcs_used_size_dl (c : scheme) : Z :=
  if is_hgprs (mi_hdr (mcs_info c)) then mi_dl_bytes (mcs_info c) else mcs_size_dl c.
Definition mcs_max_bytes_ul (c : scheme) : Z := mi_ul_bytes (mcs_info c).
Definition mcs_max_bytes_dl (c : scheme) : Z := mi_dl_bytes (mcs_info c).
Definition mcs_max_data_block_bytes (c : scheme) : Z := mi_data (mcs_info c).
Definition mcs_opt_padding_bits (c : scheme) : Z := mi_pad (mcs_info c).

(** mcs_inc_kind / mcs_dec_kind, coding_scheme.c:237-263. A value that is no
    enumerator (14, one past MCS9) is of no kind, like the range tests say. *)
Definition mcs_step_kind (d : Z) (c : scheme) (k : mkind) : scheme :=
  if negb (mcs_is_compat_kind c k) then c
  else match sof (snum c + d) with
       | Some c' => if negb (mcs_is_compat_kind c' k) then c else c'
       | None => c
       end.
Definition mcs_inc_kind (c : scheme) (k : mkind) : scheme := mcs_step_kind 1 c k.
Definition mcs_dec_kind (c : scheme) (k : mkind) : scheme := mcs_step_kind (-1) c k.

(** mcs_inc / mcs_dec, coding_scheme.c:265-291. [None] would be a value outside the
    enumeration. *)
Definition mcs_inc (c : scheme) : option scheme :=
  if mcs_is_gprs c && seqb c CS4 then Some c
  else if mcs_is_edge c && seqb c MCS9 then Some c
  else if negb (mcs_is_valid c) then Some c
  else sof (snum c + 1).
Definition mcs_dec (c : scheme) : option scheme :=
  if mcs_is_gprs c && seqb c CS1 then Some c
  else if mcs_is_edge c && seqb c MCS1 then Some c
  else if negb (mcs_is_valid c) then Some c
  else sof (snum c - 1).

Definition feqb (a b : family) : bool :=
  match a, b with
  | FInvalid, FInvalid => true | FA, FA => true | FB, FB => true | FC, FC => true
  | _, _ => false
  end.

(** mcs_is_family_compat, coding_scheme.c:293-302. *)
Definition mcs_is_family_compat (c o : scheme) : bool :=
  if seqb c o then true
  else if feqb (mi_fam (mcs_info c)) FInvalid then false
  else feqb (mi_fam (mcs_info c)) (mi_fam (mcs_info o)).

(** mcs_dec_to_single_block, coding_scheme.c:304-312: scheme and need_stuffing. *)
Definition mcs_dec_to_single_block (c : scheme) : scheme * bool :=
  match c with
  | MCS7 => (MCS5, false) | MCS8 => (MCS6, true) | MCS9 => (MCS6, false)
  | _ => (c, false)
  end.

(** hdr_type_info and its accessors, coding_scheme.c:314-357. *)
Definition num_data_blocks (h : htype) : Z :=
  match h with HInvalid => 0 | HControl => 0 | HGprs => 1 | HType1 => 2 | HType2 => 1 | HType3 => 1 end.
Definition num_data_header_bits_UL (h : htype) : Z :=
  match h with HInvalid => 0 | HControl => 8 | HGprs => 24 | HType1 => 46 | HType2 => 37 | HType3 => 31 end.
Definition num_data_header_bits_DL (h : htype) : Z :=
  match h with HInvalid => 0 | HControl => 8 | HGprs => 24 | HType1 => 40 | HType2 => 28 | HType3 => 31 end.
Definition num_data_block_header_bits (h : htype) : Z :=
  match h with HInvalid => 0 | HControl => 0 | HGprs => 0 | HType1 => 2 | HType2 => 2 | HType3 => 2 end.

(** mcs_header_type, coding_scheme.c:330-333. *)
Definition mcs_header_type (c : scheme) : htype := mi_hdr (mcs_info c).

(** The two tables in get_retx_mcs, coding_scheme.c:378-388 and 391-401. *)
Definition egprs_reseg : list (list scheme) :=
  [ [ MCS1; MCS1; MCS1; MCS1; MCS1; MCS1; MCS1; MCS1; MCS1 ];
    [ MCS2; MCS2; MCS2; MCS2; MCS2; MCS2; MCS2; MCS2; MCS2 ];
    [ MCS3; MCS3; MCS3; MCS3; MCS3; MCS3; MCS3; MCS3; MCS3 ];
    [ MCS1; MCS1; MCS1; MCS4; MCS4; MCS4; MCS4; MCS4; MCS4 ];
    [ MCS2; MCS2; MCS2; MCS2; MCS5; MCS5; MCS7; MCS7; MCS7 ];
    [ MCS3; MCS3; MCS3; MCS3; MCS3; MCS6; MCS6; MCS6; MCS9 ];
    [ MCS2; MCS2; MCS2; MCS2; MCS5; MCS5; MCS7; MCS7; MCS7 ];
    [ MCS3; MCS3; MCS3; MCS3; MCS3; MCS6; MCS6; MCS8; MCS8 ];
    [ MCS3; MCS3; MCS3; MCS3; MCS3; MCS6; MCS6; MCS6; MCS9 ] ].
Definition egprs_no_reseg : list (list scheme) :=
  [ [ MCS1; MCS1; MCS1; MCS1; MCS1; MCS1; MCS1; MCS1; MCS1 ];
    [ MCS2; MCS2; MCS2; MCS2; MCS2; MCS2; MCS2; MCS2; MCS2 ];
    [ MCS3; MCS3; MCS3; MCS3; MCS3; MCS3; MCS3; MCS3; MCS3 ];
    [ MCS4; MCS4; MCS4; MCS4; MCS4; MCS4; MCS4; MCS4; MCS4 ];
    [ MCS5; MCS5; MCS5; MCS5; MCS5; MCS5; MCS7; MCS7; MCS7 ];
    [ MCS6; MCS6; MCS6; MCS6; MCS6; MCS6; MCS6; MCS6; MCS9 ];
    [ MCS5; MCS5; MCS5; MCS5; MCS5; MCS5; MCS7; MCS7; MCS7 ];
    [ MCS6; MCS6; MCS6; MCS6; MCS6; MCS6; MCS6; MCS8; MCS8 ];
    [ MCS6; MCS6; MCS6; MCS6; MCS6; MCS6; MCS6; MCS6; MCS9 ] ].

(** get_retx_mcs, coding_scheme.c:371-405. [None]: a failed assertion, or an index
    outside the table. *)
Definition get_retx_mcs (init cmd : scheme) (reseg : bool) : option scheme :=
  if negb (mcs_is_edge init) then None
  else if negb (mcs_is_edge cmd) then None
  else match nth_error (if reseg then egprs_reseg else egprs_no_reseg)
                       (Z.to_nat (mcs_chan_code init)) with
       | Some row => nth_error row (Z.to_nat (mcs_chan_code cmd))
       | None => None
       end.
