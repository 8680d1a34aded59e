(** Model of the CSN.1 encoder, csnStreamEncoder of src/csn1_enc.c, and of encode_gsm_rlcmac_downlink of
    src/gsm_rlcmac.c.

    The tables are those of Csn1Tables.v, used by both directions.  Only the kinds of entries that occur in
    the tables of the messages the PCU writes through this encoder are modelled; any other kind is
    [EWild].  The structure that is read is a map from byte offsets to bytes.  The bit vector written
    (libosmocore) is the list of its bits in the order of transmission: bitvec_write_field appends the
    lowest bits of the value, the most significant first.  The vector has 184 bits; the encoder may write
    beyond it only after [remaining_bits_len] has become negative, and it then fails, so the writes that
    libosmocore refuses are never part of a message. *)
From Coq Require Import ZArith List Bool.
From Verif.Model Require Import Csn1.
Import ListNotations.
Open Scope Z_scope.

(** bitvec_write_field(vector, writeIndex, v, k) (libosmocore bitvec.c). *)
Fixpoint field_bits (k : nat) (v : Z) : list bool :=
  match k with O => [] | S j => Z.testbit v (Z.of_nat j) :: field_bits j v end.

(** What the encoder changes: the vector and remaining_bits_len (csn1_enc.c:47). *)
Record estate := mk_estate { e_out : list bool; e_rem : Z }.
(** As for the decoder: goes on or ends well, returns an error, leaves its table. *)
Inductive eresult := EGo (s : estate) | EStop (code : Z) | EWild.

(** A field is written and counted. *)
Definition emit (k v : Z) (s : estate) : estate :=
  mk_estate (e_out s ++ field_bits (Z.to_nat k) v) (e_rem s - k).

Section Encoder.
(** The structure that is encoded. *)
Variable m : Z -> Z.
(** A byte, and a little endian object of n bytes (csn1.h:601-605). *)
Definition byte_at (o : Z) : Z := m o mod 256.
Fixpoint object (n : nat) (o : Z) : Z :=
  match n with O => 0 | S k => byte_at o + 256 * object k (o + 1) end.

(** CSN_UINT, csn1_enc.c:97-140; without room and not required, nothing is written. *)
Definition enc_uint (null : bool) (bits off base : Z) (s : estate) : eresult :=
  if bits <=? e_rem s then
    if bits <=? 32 then EGo (emit bits (object (uint_bytes bits) (base + off)) s) else EStop ERROR_GENERAL
  else if null then EGo s else EStop ERROR_NEED_MORE_BITS.

(** CSN_UINT_OFFSET, csn1_enc.c:142-180 *)
Definition enc_uint_off (bits add off base : Z) (s : estate) : eresult :=
  if bits <=? e_rem s then
    if bits <=? 32 then EGo (emit bits (object (uint_bytes bits) (base + off) - add) s) else EStop ERROR_GENERAL
  else EStop ERROR_NEED_MORE_BITS.

(** Octet after octet (csn1_enc.c:233-239, 947-953). *)
Fixpoint octets_out (n : nat) (bits o : Z) (s : estate) : estate :=
  match n with O => s | S k => octets_out k bits (o + 1) (emit bits (byte_at o) s) end.

(** CSN_UINT_ARRAY, csn1_enc.c:216-259; the count is a constant and positive. *)
Definition enc_uint_arr (bits num off base : Z) (s : estate) : eresult :=
  if bits * num <=? e_rem s then
    if bits <=? 8 then EGo (octets_out (Z.to_nat num) bits (base + off) s)
    else if bits <=? 32 then EStop 999 else EStop ERROR_GENERAL
  else EStop ERROR_NEED_MORE_BITS.

(** CSN_VARIABLE_BITMAP, csn1_enc.c:915-960: the room is not looked at beforehand. *)
Definition enc_var_bitmap (cnt add off base : Z) (s : estate) : eresult :=
  let n := byte_at (base + cnt) + add in
  if 0 <? n then
    if e_rem s <? 0 then EStop ERROR_NEED_MORE_BITS
    else let odd := n mod 8 in
         if 0 <? odd
         then EGo (octets_out (Z.to_nat (n / 8)) 8 (base + off + 1) (emit odd (byte_at (base + off)) s))
         else EGo (octets_out (Z.to_nat (n / 8)) 8 (base + off) s)
  else EGo s.

(** The loop of CSN_RECURSIVE_ARRAY, csn1_enc.c:1109-1128: a tag, an element. *)
Fixpoint rec_out (n : nat) (bits o : Z) (s : estate) : eresult :=
  match n with
  | O => EGo s
  | S k => let s1 := emit 1 1 s in
           if e_rem s1 <? 0 then EStop ERROR_NEED_MORE_BITS
           else rec_out k bits (o + 1) (emit bits (byte_at o) s1)
  end.
(** CSN_RECURSIVE_ARRAY, csn1_enc.c:1095-1137 *)
Definition enc_rec_arr (cnt bits off base : Z) (s : estate) : eresult :=
  match rec_out (Z.to_nat (byte_at (base + cnt))) bits (base + off) s with
  | EGo s1 => EGo (emit 1 0 s1)
  | x => x
  end.

(** CSN_FIXED, csn1_enc.c:1256-1265 *)
Definition enc_fixed (bits value : Z) (s : estate) : eresult := EGo (emit bits value s).

(** CSN_PADDING_BITS, csn1_enc.c:1019-1058: first what is beyond whole octets, a zero in front, then 0x2b. *)
Fixpoint pad_octets (n : nat) (s : estate) : estate :=
  match n with O => s | S k => pad_octets k (emit 8 43 s) end.
Definition enc_padding (s : estate) : eresult :=
  let odd := e_rem s mod 8 in
  if 0 <? e_rem s then
    EGo (pad_octets (Z.to_nat (e_rem s / 8))
          (if 0 <? odd then emit odd (Z.land 43 (255 / 2 ^ (8 - odd + 1))) s else s))
  else if e_rem s <? 0 then EStop ERROR_NEED_MORE_BITS else EGo s.

(** CSN_NEXT_EXIST, csn1_enc.c:837-867: how many of the following entries are skipped.  One bit is
    written, the whole octet is looked at. *)
Definition enc_next_exist (null : bool) (n : nat) (off base : Z) (s : estate) : nat * estate :=
  if null && (e_rem s =? 0) then (n, s)
  else (if byte_at (base + off) =? 0 then n else O, emit 1 (byte_at (base + off)) s).

(** The loop over an array of types with n elements (csn1_enc.c:284-303). *)
Fixpoint each_element (tab : Z -> estate -> eresult) (n : nat) (size o : Z) (s : estate) : eresult :=
  match n with
  | O => EGo s
  | S k => match tab o s with EGo s1 => each_element tab k size (o + size) s1 | x => x end
  end.

(** csnStreamEncoder, csn1_enc.c:45-1300: one table; [sk] is the number of entries still to be skipped.
    The status returned is remaining_bits_len, which is not negative here (1284-1289). *)
Definition erun (enc : entry -> Z -> estate -> eresult) :=
  fix erun (sk : nat) (l : list entry) (base : Z) (s : estate) {struct l} : eresult :=
    match l with
    | [] => match sk with O => EGo s | S _ => EWild end
    | e :: r =>
      match sk with
      | S k => erun k r base s
      | O =>
        match e with
        | NextExist null n off _ =>
          let (k, s1) := enc_next_exist null n off base s in
          if e_rem s1 <? 0 then EStop ERROR_NEED_MORE_BITS else erun k r base s1
        | _ =>
          match enc e base s with
          | EGo s1 => if e_rem s1 <? 0 then EStop ERROR_NEED_MORE_BITS else erun O r base s1  (* 1298 *)
          | x => x
          end
        end
      end
    end.

(** Entry of csnStreamEncoder, csn1_enc.c:57-60. *)
Definition etable (enc : entry -> Z -> estate -> eresult) (l : list entry) (base : Z) (s : estate) : eresult :=
  if e_rem s <? 0 then EStop ERROR_NEED_MORE_BITS else erun enc O l base s.

(** The alternatives of a union, csn1_enc.c:508-800. *)
Definition enc_alt (enc : entry -> Z -> estate -> eresult) (e : entry) (base : Z) (s : estate) : eresult :=
  match e with
  | Uint _ bits off _ =>
    if bits <=? e_rem s then enc_uint false bits off base s else EStop ERROR_GENERAL
  | Typ _ _ _ _ | TArr _ _ _ _ _ => enc e base s
  | _ => EStop ERROR_IN_SCRIPT
  end.
(** The alternative taken: entry min(index + 1, count), csn1_enc.c:505. *)
Definition epick (enc : entry -> Z -> estate -> eresult) (base : Z) (s : estate) :=
  fix epick (i : nat) (l : list entry) {struct l} : eresult :=
    match l with
    | [] => EWild
    | e :: r => match i, r with
                | O, _ | _, [] => enc_alt enc e base s
                | S k, _ => epick k r
                end
    end.

(** CSN_CHOICE, csn1_enc.c:374-421: the alternative with this number; it is encoded as a table of its own. *)
Definition echoose (enc : entry -> Z -> estate -> eresult) (base : Z) (s : estate) :=
  fix echoose (i : nat) (l : list (Z * Z * entry)) {struct l} : eresult :=
    match l with
    | [] => EStop ERROR_INVALID_UNION_INDEX
    | (bits, value, e) :: r =>
      match i with
      | O => let s1 := emit bits value s in
             if e_rem s1 <? 0 then EStop ERROR_NEED_MORE_BITS
             else match enc e base s1 with
                  | EGo s2 => if e_rem s2 <? 0 then EStop ERROR_NEED_MORE_BITS else EGo s2
                  | x => x
                  end
      | S k => echoose k r
      end
    end.

(** One entry of a table, csn1_enc.c:62-1296. *)
Fixpoint enc (e : entry) (base : Z) (s : estate) {struct e} : eresult :=
  match e with
  | Uint null bits off _ => enc_uint null bits off base s
  | UintOff bits add off _ => enc_uint_off bits add off base s
  | UintArr bits num off _ => enc_uint_arr bits num off base s
  | Typ _ off _ sub => etable enc sub (base + off) s                              (* 350-372 *)
  | TArr num off size _ sub => each_element (etable enc sub) (Z.to_nat num) size (base + off) s  (* 261-305 *)
  | VarBitmap cnt add off _ => enc_var_bitmap cnt add off base s
  | RecArr cnt bits off _ => enc_rec_arr cnt bits off base s
  | NextExist null n off _ =>                                                     (* alone in its table *)
    let (k, s1) := enc_next_exist null n off base s in
    match k with O => EGo s1 | S _ => EWild end
  | Union off _ alts =>                                                           (* 458-802 *)
    let count := Z.of_nat (length alts) in
    if (count <=? 0) || (16 <? count) then EStop ERROR_INVALID_UNION_INDEX
    else let b := ix_bits count in
         epick enc base (emit b (byte_at (base + off)) s) (Z.to_nat (byte_at (base + off) mod 2 ^ b)) alts
  | Choice off _ alts => echoose enc base s (Z.to_nat (byte_at (base + off))) alts
  | Fixed bits value => enc_fixed bits value s
  | Padding => enc_padding s
  | Trap code => EStop code                                                       (* 1279-1282 *)
  | _ => EWild                                                                    (* not in these tables *)
  end.

(** encode_gsm_rlcmac_downlink, gsm_rlcmac.c:5811-6018, for a control block without the optional octets
    (PAYLOAD_TYPE 1, gsm_rlcmac.c:5827-5843): four members of the MAC header, then the table of the message
    type with the 176 bits left; what is left over is an error (6011-6015).  [m] is the union u. *)
Definition encode_dl (tab : list entry) (payload rrbp sp usf : Z) : option (list bool) :=
  let hdr := field_bits 2 payload ++ field_bits 2 rrbp ++ field_bits 1 sp ++ field_bits 3 usf in
  match etable enc tab 0 (mk_estate hdr 176) with
  | EGo s => if 0 <? e_rem s then None else Some (e_out s)
  | _ => None
  end.
End Encoder.
