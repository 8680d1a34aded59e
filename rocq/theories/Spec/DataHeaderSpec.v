(** Where TS 44.060 10.2 and 10.3a place the header fields of data blocks.  A message is a string of bits,
    the least significant bit of each octet first; the least significant bit of a field comes first. *)
From Coq Require Import ZArith List Bool.
From Verif Require Import Model.CodingScheme Model.DataHeader Spec.BitSpec Spec.CodingSpec.
Import ListNotations.
Open Scope Z_scope.

(** The number in the [w] bits from bit [o] on. *)
Fixpoint field (m : list Z) (o : Z) (w : nat) : Z :=
  match w with
  | O => 0
  | S w => (if bit m o then 1 else 0) + 2 * field m (o + 1) w
  end.

(** Coding and puncturing scheme values that announce padding (tables 10.4.8a.2.1 and 10.4.8a.3.1). *)
Definition padded (c : scheme) (cps : Z) : bool :=
  match c with MCS3 => (6 <=? cps) && (cps <=? 8) | MCS6 => (2 <=? cps) && (cps <=? 3) | _ => false end.

(** The schemes there are. *)
Definition data_scheme (c : scheme) : Prop := c <> UNKNOWN.

(** *** Downlink *)

(** Bits of the header, and the bit where a data block begins, after its FBI and E bits. *)
Definition dl_bits (c : scheme) : Z :=
  match c with MCS7 | MCS8 | MCS9 => 40 | MCS5 | MCS6 => 28 | MCS1 | MCS2 | MCS3 | MCS4 => 31 | _ => 24 end.
Definition is_cs (c : scheme) : bool := match c with CS1 | CS2 | CS3 | CS4 => true | _ => false end.
Definition dl_data (c : scheme) (pad : bool) (i : Z) : Z :=
  if is_cs c then 24
  else dl_bits c + 2 + (if pad then 8 * padding c else 0) + i * (2 + 8 * payload c).
Definition data_octets (c : scheme) (pad : bool) : Z := payload c - (if pad then padding c else 0).

(** What a mobile reads. *)
Record dlhdr := Dh { h_usf : Z; h_poll : Z; h_rrbp : Z; h_tfi : Z; h_pr : Z; h_cps : Z; h_spb : Z; h_blocks : list (Z * Z * Z) }.
Definition ebits (m : list Z) (o : Z) : Z * Z := (field m (o - 2) 1, field m (o - 1) 1).
Definition read_dl (c : scheme) (m : list Z) : dlhdr :=
  match c with
  | CS1 | CS2 | CS3 | CS4 =>
      Dh (field m 0 3) (field m 3 1) (field m 4 2) (field m 9 5) (field m 14 2) 0 0 [(field m 17 7, field m 16 1, field m 8 1)]
  | _ =>
      let cps := match c with MCS7 | MCS8 | MCS9 => field m 35 5 | MCS5 | MCS6 => field m 25 3 | _ => field m 25 4 end in
      let block i := ebits m (dl_data c (padded c cps) i) in
      let bsn := field m 14 11 in
      Dh (field m 0 3) (field m 3 2) (field m 5 2) (field m 7 5) (field m 12 2) cps
         (match c with MCS1 | MCS2 | MCS3 | MCS4 => field m 29 2 | _ => 0 end)
         ((bsn, fst (block 0), snd (block 0)) ::
          match c with
          | MCS7 | MCS8 | MCS9 => [((bsn + field m 25 10) mod 2048, fst (block 1), snd (block 1))]
          | _ => []
          end)
  end.
(** Payload type of a GPRS block: data. *)
Definition type_ok (c : scheme) (m : list Z) : Prop := is_cs c = true -> field m 6 2 = 0.

(** The fields handed to the writer, each within its width, as the mobile shall see them. *)
Definition block_ok (c : scheme) (b : binfo) : Prop :=
  0 <= i_bsn b < (if is_cs c then 128 else 2048) /\ 0 <= i_e b <= 1 /\ 0 <= i_spb b < 4.
Definition info_ok (c : scheme) (d : dinfo) : Prop :=
  0 <= i_usf d < 8 /\ 0 <= i_esp d < (if is_cs c then 2 else 4) /\ 0 <= i_rrbp d < 4 /\ 0 <= i_tfi d < 32 /\ 0 <= i_pr d < 4 /\
  0 <= i_cps d < 2 ^ cps_width (mcs_header_type c) /\ i_pad d = padded c (i_cps d) /\
  block_ok c (i_b0 d) /\ block_ok c (i_b1 d) /\
  (** at most 1023 after the first one *)
  (two_blocks c = true -> (i_bsn (i_b1 d) - i_bsn (i_b0 d)) mod 2048 < 1024).
Definition final (b : binfo) : Z := if i_cv b =? 0 then 1 else 0.
Definition shall_read (c : scheme) (d : dinfo) : dlhdr :=
  Dh (i_usf d) (i_esp d) (i_rrbp d) (i_tfi d) (i_pr d) (if is_cs c then 0 else i_cps d)
     (match c with MCS1 | MCS2 | MCS3 | MCS4 => i_spb (i_b0 d) | _ => 0 end)
     ((i_bsn (i_b0 d), i_e (i_b0 d), final (i_b0 d)) ::
      if two_blocks c then [(i_bsn (i_b1 d), i_e (i_b1 d), final (i_b1 d))] else []).

(** The bits that belong to the header. *)
Definition header_bit (c : scheme) (pad : bool) (i : Z) : Prop :=
  0 <= i < dl_bits c \/
  (is_cs c = false /\ (dl_data c pad 0 - 2 <= i < dl_data c pad 0 \/ (two_blocks c = true /\ dl_data c pad 1 - 2 <= i < dl_data c pad 1))).

(** *** Uplink *)

Definition ul_bits (c : scheme) : Z :=
  match c with MCS7 | MCS8 | MCS9 => 46 | MCS5 | MCS6 => 37 | MCS1 | MCS2 | MCS3 | MCS4 => 31 | _ => 24 end.
Definition ul_data (c : scheme) (pad : bool) (i : Z) : Z :=
  if is_cs c then 24
  else ul_bits c + 2 + (if pad then 8 * padding c else 0) + i * (2 + 8 * payload c).
(** What the mobile wrote.  Of two blocks with different numbers, only the second can be the last one. *)
Definition read_ul (c : scheme) (m : list Z) : uinfo :=
  match c with
  | CS1 | CS2 | CS3 | CS4 =>
      Ui (field m 0 1) (field m 1 1) (field m 9 5) 0 0
         [Ub (field m 2 4) (field m 17 7) (field m 14 1) 0 (field m 16 1) (field m 8 1) 24 (payload c)]
  | _ =>
      let cps := match c with MCS7 | MCS8 | MCS9 => field m 32 5 | MCS5 | MCS6 => field m 22 3 | _ => field m 22 4 end in
      let rsb := match c with MCS7 | MCS8 | MCS9 => field m 37 1 | MCS5 | MCS6 => field m 25 1 | _ => field m 28 1 end in
      let pi := match c with MCS7 | MCS8 | MCS9 => field m 38 1 | MCS5 | MCS6 => field m 26 1 | _ => field m 29 1 end in
      let spb := match c with MCS1 | MCS2 | MCS3 | MCS4 => field m 26 2 | _ => 0 end in
      let pad := padded c cps in
      let block cv bsn i :=
        Ub cv bsn pi spb (fst (ebits m (ul_data c pad i))) (snd (ebits m (ul_data c pad i))) (ul_data c pad i) (data_octets c pad) in
      let cv := field m 2 4 in
      let bsn := field m 11 11 in
      let bsn2 := (bsn + field m 22 10) mod 2048 in
      Ui (field m 0 1) (field m 1 1) (field m 6 5) cps rsb
         (if two_blocks c then [block (if (bsn2 =? bsn) then cv else if cv =? 0 then 1 else cv) bsn 0; block cv bsn2 1]
          else [block cv bsn 0])
  end.
(** The coding and puncturing scheme is one of those of the scheme. *)
Definition ul_cps_ok (c : scheme) (m : list Z) : Prop :=
  match c with MCS3 => 3 <= field m 22 4 <= 8 | MCS6 => 0 <= field m 22 3 <= 3 | _ => True end.
