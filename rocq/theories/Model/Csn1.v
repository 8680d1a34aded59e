(** CSN.1 descriptions and the decoder that interprets them.

    src/csn1.h (CSN_DESCR and the M_... macros), src/csn1_dec.c
    (csnStreamDecoder), src/csn1.c (csnStreamInit, ixBitsTab).

    A table of CSN_DESCR ending in CSN_END is a [list entry] here.  Simplifications:
    - A member is given by its byte offset in its structure and by its size in
      bytes ([cap]); the C tables hold only the offset.  [cap] is used for nothing
      but the log of accesses: it says where the member ends.
    - The alternatives of a union or of a choice, and the table of a nested type,
      are part of the entry instead of being reached by pointer arithmetic.
    - [bit_offset] is left out: only the L/H kinds look at it and no table here uses them.
    - [keep_bits] of a choice is left out: it is 0 in all tables.
    - The kinds CSN_NULL, CSN_EXIST, the L/H kinds, CSN_VARIABLE_BITMAP_1,
      CSN_RECURSIVE_TARRAY_2, CSN_CALLBACK and CSN_UINT_ARRAY with a count field are
      left out: the tables of Csn1Tables.v have none.
    - Logging is left out. *)
From Coq Require Import ZArith List Bool.
Import ListNotations.
Open Scope Z_scope.

(** csn1.h:72-107 (the kinds), csn1.h:173-195 (CSN_DESCR, CSN_ChoiceElement_t), csn1.h:235-594 (the macros).
    [cnt] is the offset of the member that holds an element count, [size] the size of one
    element and [num] the number of elements of the C array. *)
Inductive entry :=
| Bit (null : bool) (off cap : Z)                        (* M_BIT, M_BIT_OR_NULL *)
| Uint (null : bool) (bits off cap : Z)                  (* M_UINT, M_UINT_OR_NULL *)
| UintOff (bits add off cap : Z)                         (* M_UINT_OFFSET *)
| UintArr (bits num off cap : Z)                         (* M_UINT_ARRAY *)
| Typ (null : bool) (off cap : Z) (sub : list entry)     (* M_TYPE, M_TYPE_OR_NULL *)
| TArr (num off size cap : Z) (sub : list entry)         (* M_TYPE_ARRAY *)
| VarTArr (cnt off size cap : Z) (sub : list entry)      (* M_VAR_TARRAY, M_VAR_TARRAY_OFFSET *)
| Bitmap (bits off cap : Z)                              (* M_BITMAP *)
| VarBitmap (cnt add off cap : Z)                        (* M_VAR_BITMAP *)
| LeftBmp (rest : bool) (cnt add off cap : Z)            (* M_LEFT_VAR_BMP, M_LEFT_VAR_BMP_1 *)
| VarArr (cnt add off cap : Z)                           (* M_VAR_ARRAY *)
| RecArr (cnt bits off cap : Z)                          (* M_REC_ARRAY *)
| RecTArr (cnt off size num cap : Z) (sub : list entry)  (* M_REC_TARRAY *)
| RecTArr1 (cnt off size num cap : Z) (sub : list entry) (* M_REC_TARRAY_1 *)
| NextExist (null : bool) (n : nat) (off cap : Z)        (* M_NEXT_EXIST, M_NEXT_EXIST_OR_NULL *)
| Union (off cap : Z) (alts : list entry)                (* M_UNION and the entries it counts *)
| Choice (off cap : Z) (alts : list (Z * Z * entry))     (* M_CHOICE: width, value, entry *)
| Fixed (bits value : Z)                                 (* M_FIXED *)
| Serialize (lenbits off cap : Z) (sub : list entry)     (* M_SERIALIZE *)
| Padding                                                (* M_PADDING_BITS *)
| Trap (code : Z).                                       (* CSN_ERROR *)

(** The member may_be_null of CSN_DESCR, as set by the macros (csn1.h:235-594). *)
Definition may_be_null (e : entry) : bool :=
  match e with
  | Bit n _ _ | Uint n _ _ _ | Typ n _ _ _ | NextExist n _ _ _ => n
  | Padding => true
  | _ => false
  end.

(** csn1.h:31-41 *)
Definition ERROR_GENERAL : Z := -1.
Definition ERROR_IN_SCRIPT : Z := -3.
Definition ERROR_INVALID_UNION_INDEX : Z := -4.
Definition ERROR_NEED_MORE_BITS : Z := -5.
Definition ERROR_NOT_SUPPORTED : Z := -8.

(** An access of the decoder to the structure it fills: first byte, number of bytes, and the
    limits of the member (with all members and arrays around it) that is meant. *)
Record access := mk_access { a_off : Z; a_len : Z; a_lo : Z; a_hi : Z }.

(** What the decoder changes: the bytes of the structure, [*readIndex],
    [remaining_bits_len] (csn1_dec.c:63-64), and the log of its accesses. *)
Record state := mk_state { mem : Z -> Z; rd : Z; rem : Z; acc : list access }.

(** [Go]: the status returned is not negative, or the loop goes on.  [Stop]: csnStreamDecoder returns
    this error.  [Wild]: the interpreter leaves its table (csn1_dec.c:917 and 951, pDescr advanced past CSN_END). *)
Inductive result := Go (s : state) | Stop (code : Z) (s : state) | Wild (s : state).

(** The conversion of an int to gint16, the type of the status (csn1_dec.c:60). *)
Definition i16 (x : Z) : Z := (x + 32768) mod 65536 - 32768.

(** ixBitsTab, csn1.c:37 *)
Definition ix_bits (count : Z) : Z :=
  nth (Z.to_nat count) [0; 1; 1; 2; 2; 3; 3; 3; 4; 4; 4; 4; 4; 4; 4; 4; 5] 0.

(** Limits of a member inside limits. *)
Definition inter (w : Z * Z) (lo hi : Z) : Z * Z := (Z.max (fst w) lo, Z.min (snd w) hi).

(** ** Access to the structure (csn1.h:601-605) on a little endian host *)
Definition log (s : state) (w : Z * Z) (o n : Z) : state :=
  mk_state (mem s) (rd s) (rem s) (mk_access o n (fst w) (snd w) :: acc s).
Definition setm (s : state) (o x : Z) : state :=
  mk_state (fun a => if a =? o then x mod 256 else mem s a) (rd s) (rem s) (acc s).
(** A store of n bytes at o. *)
Fixpoint store (n : nat) (s : state) (o x : Z) : state :=
  match n with O => s | S k => store k (setm s o x) (o + 1) (x / 256) end.
Definition put (w : Z * Z) (n : nat) (s : state) (o x : Z) : state := store n (log s w o (Z.of_nat n)) o x.
Definition put8 (w : Z * Z) := put w 1.
(** The value of a byte. *)
Definition get8 (s : state) (o : Z) : Z := mem s o mod 256.
Definition less (s : state) (n : Z) : state := mk_state (mem s) (rd s) (rem s - n) (acc s).
Definition skip_bits (s : state) (n : Z) : state := mk_state (mem s) (rd s + n) (rem s) (acc s).
Definition set_rem (s : state) (n : Z) : state := mk_state (mem s) (rd s) n (acc s).

Section Decoder.
(** The bit vector: its bits and how many there are (libosmocore). *)
Variable v : Z -> bool.
Variable vlen : Z.

Definition rbit (i : Z) : Z := if (0 <=? i) && (i <? vlen) then Z.b2z (v i) else 0.
(** bitvec_read_field: most significant bit first, zeros beyond the end. *)
Fixpoint rfield (k : nat) (i : Z) : Z :=
  match k with O => 0 | S k' => 2 ^ Z.of_nat k' * rbit i + rfield k' (i + 1) end.
Definition take (s : state) (n : Z) : Z * state := (rfield (Z.to_nat n) (rd s), skip_bits s n).

(** existNextElement with STANDARD_TAG, csn1_dec.c:48-57 *)
Definition exist_next (s : state) : bool * state := (0 <? rbit (rd s), skip_bits s 1).

(** Width of the object written for an unsigned integer of this many bits (csn1_dec.c:120-142). *)
Definition uint_bytes (bits : Z) : nat := if bits <=? 8 then 1%nat else if bits <=? 16 then 2%nat else 4%nat.

(** CSN_BIT, csn1_dec.c:81-105 *)
Definition dec_bit (null : bool) (off cap base : Z) (w : Z * Z) (s : state) : result :=
  let m := inter w (base + off) (base + off + cap) in
  if 0 <? rem s then let (x, s1) := take s 1 in Go (less (put8 m s1 (base + off) x) 1)
  else if null then Go (less (put8 m s (base + off) 0) 1)
  else Stop ERROR_NEED_MORE_BITS s.

(** CSN_UINT, csn1_dec.c:114-174 *)
Definition dec_uint (null : bool) (bits off cap base : Z) (w : Z * Z) (s : state) : result :=
  let m := inter w (base + off) (base + off + cap) in
  if bits <=? rem s then
    if bits <=? 32 then let (x, s1) := take s bits in Go (less (put m (uint_bytes bits) s1 (base + off) x) bits)
    else Stop ERROR_GENERAL s
  else if null then
    if bits <=? 32 then Go (put m (uint_bytes bits) s (base + off) 0) else Go s
  else Stop ERROR_NEED_MORE_BITS s.

(** CSN_UINT_OFFSET, csn1_dec.c:176-217 *)
Definition dec_uint_off (bits add off cap base : Z) (w : Z * Z) (s : state) : result :=
  let m := inter w (base + off) (base + off + cap) in
  if bits <=? rem s then
    if bits <=? 32 then let (x, s1) := take s bits in Go (less (put m (uint_bytes bits) s1 (base + off) (x + add)) bits)
    else Stop ERROR_GENERAL s
  else Stop ERROR_NEED_MORE_BITS s.

(** Octet after octet: n fields of [bits] bits stored one byte each
    (csn1_dec.c:263-269, 352-369, 1049-1056, 1093-1099, 1172-1179). *)
Fixpoint octets_in (n : nat) (bits : Z) (m : Z * Z) (o : Z) (s : state) : state :=
  match n with
  | O => s
  | S k => let (x, s1) := take s bits in octets_in k bits m (o + 1) (put8 m s1 o x)
  end.

(** CSN_UINT_ARRAY, csn1_dec.c:248-291; the count is a constant and positive. *)
Definition dec_uint_arr (bits num off cap base : Z) (w : Z * Z) (s : state) : result :=
  let m := inter w (base + off) (base + off + cap) in
  if bits * num <=? rem s then
    if bits <=? 8 then Go (octets_in (Z.to_nat num) bits m (base + off) (less s (bits * num)))
    else if bits <=? 32 then Stop 999 (less s (bits * num)) else Stop ERROR_GENERAL (less s (bits * num))
  else Stop ERROR_NEED_MORE_BITS s.

(** CSN_BITMAP, csn1_dec.c:338-381: four or eight whole octets are read, [bits] are counted. *)
Definition dec_bitmap (bits off cap base : Z) (w : Z * Z) (s : state) : result :=
  let m := inter w (base + off) (base + off + cap) in
  if 0 <? bits then
    if rem s <? bits then Stop ERROR_NEED_MORE_BITS s
    else if bits <=? 32 then Go (less (octets_in 4 8 m (base + off) s) bits)
    else if bits <=? 64 then Go (less (octets_in 8 8 m (base + off) s) bits)
    else Stop 999 s
  else Go s.

(** CSN_VARIABLE_BITMAP, csn1_dec.c:1018-1062: the odd bits come first. *)
Definition dec_var_bitmap (cnt add off cap base : Z) (w : Z * Z) (s : state) : result :=
  let m := inter w (base + off) (base + off + cap) in
  let s := log s w (base + cnt) 1 in
  let n := get8 s (base + cnt) + add in
  if 0 <? n then
    let s := less s n in
    if rem s <? 0 then Stop ERROR_NEED_MORE_BITS s
    else let odd := n mod 8 in
         if 0 <? odd
         then let (x, s1) := take s odd in
              Go (octets_in (Z.to_nat (n / 8)) 8 m (base + off + 1) (put8 m s1 (base + off) x))
         else Go (octets_in (Z.to_nat (n / 8)) 8 m (base + off) s)
  else Go s.

(** CSN_LEFT_ALIGNED_VAR_BMP and CSN_LEFT_ALIGNED_VAR_BMP_1, csn1_dec.c:1064-1116:
    the latter first stores the number of bits left as the length. *)
Definition dec_left_bmp (rest : bool) (cnt add off cap base : Z) (w : Z * Z) (s : state) : result :=
  let m := inter w (base + off) (base + off + cap) in
  let s := if rest then put8 w s (base + cnt) (rem s) else log s w (base + cnt) 1 in
  let n := get8 s (base + cnt) + add in
  if 0 <? n then
    let s := less s n in
    if rem s <? 0 then Stop ERROR_NEED_MORE_BITS s
    else let s1 := octets_in (Z.to_nat (n / 8)) 8 m (base + off) s in
         if 0 <? n mod 8
         then let (x, s2) := take s1 (n mod 8) in Go (put8 m s2 (base + off + n / 8) x)
         else Go s1
  else Go s.

(** CSN_VARIABLE_ARRAY, csn1_dec.c:1150-1184 *)
Definition dec_var_arr (cnt add off cap base : Z) (w : Z * Z) (s : state) : result :=
  let m := inter w (base + off) (base + off + cap) in
  let s := log s w (base + cnt) 1 in
  let n := get8 s (base + cnt) + add in
  if 0 <? n then
    let s := less s (n * 8) in
    if rem s <? 0 then Stop ERROR_NEED_MORE_BITS s
    else Go (octets_in (Z.to_nat n) 8 m (base + off) s)
  else Go s.

(** The loop of CSN_RECURSIVE_ARRAY, csn1_dec.c:1200-1220.  Every turn takes at least one bit,
    so [rem s + 1] turns are enough ([fuel]); [k] counts the elements (guint8). *)
Fixpoint rec_arr_loop (fuel : nat) (bits k : Z) (m : Z * Z) (o : Z) (s : state) : result * Z :=
  let (ex, s1) := exist_next s in
  if ex then
    match fuel with
    | O => (Wild s1, k)
    | S f => let (x, s2) := take (less s1 1) bits in
             let s3 := less (put8 m s2 o x) bits in
             if rem s3 <? 0 then (Stop ERROR_NEED_MORE_BITS s3, k)
             else rec_arr_loop f bits ((k + 1) mod 256) m (o + 1) s3
    end
  else (Go (less s1 1), k).
(** CSN_RECURSIVE_ARRAY, csn1_dec.c:1186-1231 *)
Definition dec_rec_arr (cnt bits off cap base : Z) (w : Z * Z) (s : state) : result :=
  let m := inter w (base + off) (base + off + cap) in
  match rec_arr_loop (Z.to_nat (rem s + 1)) bits 0 m (base + off) s with
  | (Go s1, k) => Go (put8 w s1 (base + cnt) k)
  | (x, _) => x
  end.

(** CSN_FIXED, csn1_dec.c:1364-1387 *)
Definition dec_fixed (bits value : Z) (s : state) : result :=
  if bits <=? 32 then
    let (x, s1) := take s bits in
    if x =? value then Go (less s1 bits) else Stop (-1) s1
  else Stop (-1) s.

(** CSN_PADDING_BITS, csn1_dec.c:1118-1148: the rest is consumed; [*readIndex] stays. *)
Definition dec_padding (s : state) : result :=
  if 0 <? rem s then Go (set_rem s 0)
  else if rem s <? 0 then Stop ERROR_NEED_MORE_BITS s else Go s.

(** CSN_NEXT_EXIST, csn1_dec.c:905-957: how many of the following entries are skipped.
    [nulls]: all of the entries it covers may be null. *)
Definition dec_next_exist (null : bool) (n : nat) (off cap base : Z) (w : Z * Z) (nulls : bool) (s : state) : nat * state :=
  let m := inter w (base + off) (base + off + cap) in
  if null && (rem s =? 0) then (n, put8 m s (base + off) 0)
  else
    let (x, s1) := take s 1 in
    let isnull := if x =? 0 then true else if rem s =? 1 then nulls else false in
    (if isnull then n else O, less (put8 m s1 (base + off) (if isnull then 0 else 1)) 1).

(** The selector of a union, csn1_dec.c:530-553: the bits are read one by one whatever is left. *)
Definition union_index (count : Z) (s : state) : Z * state :=
  let b := ix_bits count in
  let (x, s1) := take s b in (x mod 256, less s1 b).

(** The loop over an array of types with n elements (csn1_dec.c:314-332). *)
Fixpoint repeat_table (tab : Z -> state -> result) (n : nat) (size o : Z) (s : state) : result :=
  match n with
  | O => Go s
  | S k => match tab o s with Go s1 => repeat_table tab k size (o + size) s1 | x => x end
  end.

(** The loop of CSN_RECURSIVE_TARRAY, csn1_dec.c:1244-1280; [room] elements of the array are left. *)
Fixpoint rec_loop (tab : Z -> state -> result) (room : nat) (size o k : Z) (s : state) : result * Z :=
  let (ex, s1) := exist_next s in
  let s1 := less s1 1 in
  if ex then
    match room with
    | O => (Stop ERROR_NOT_SUPPORTED s1, k)
    | S r => match tab o s1 with
             | Go s2 => if rem s2 <? 0 then (Stop ERROR_NEED_MORE_BITS s2, k)
                        else rec_loop tab r size (o + size) (k + 1) s2
             | x => (x, k)
             end
    end
  else (Go s1, k).

(** The loop of CSN_RECURSIVE_TARRAY_1, csn1_dec.c:1320-1356 *)
Fixpoint rec1_loop (tab : Z -> state -> result) (room : nat) (size o k : Z) (s : state) : result * Z :=
  match room with
  | O => (Stop ERROR_NOT_SUPPORTED s, k)
  | S r => match tab o s with
           | Go s1 => if rem s1 <? 0 then (Stop ERROR_NEED_MORE_BITS s1, k)
                      else let (ex, s2) := exist_next s1 in
                           if ex then rec1_loop tab r size (o + size) (k + 1) (less s2 1)
                           else (Go (less s2 1), k + 1)
           | x => (x, k)
           end
  end.

(** csnStreamDecoder, csn1_dec.c:60-1424: one table.  [dec] decodes one entry other than CSN_NEXT_EXIST.
    [sk] is the number of entries still to be skipped. *)
Definition run (dec : entry -> Z -> Z * Z -> state -> result) :=
  fix run (sk : nat) (l : list entry) (base : Z) (w : Z * Z) (s : state) {struct l} : result :=
    match l with
    | [] => match sk with
            | O => if i16 (rem s) <? 0 then Stop (i16 (rem s)) s else Go s   (* CSN_END, 1406-1411 *)
            | S _ => Wild s
            end
    | e :: r =>
      match sk with
      | S k => run k r base w s
      | O =>
        match e with
        | NextExist null n off cap =>
          let (k, s1) := dec_next_exist null n off cap base w (forallb may_be_null (firstn n r)) s in
          if rem s1 <? 0 then Stop ERROR_NEED_MORE_BITS s1 else run k r base w s1
        | _ =>
          match dec e base w s with
          | Go s1 => if rem s1 <? 0 then Stop ERROR_NEED_MORE_BITS s1 else run O r base w s1  (* 1421-1423 *)
          | x => x
          end
        end
      end
    end.

(** Entry of csnStreamDecoder, csn1_dec.c:72-75. *)
Definition table (dec : entry -> Z -> Z * Z -> state -> result) (l : list entry) (base : Z) (w : Z * Z) (s : state) : result :=
  if rem s <? 0 then Stop ERROR_NEED_MORE_BITS s else run dec O l base w s.

(** The alternatives of a union, csn1_dec.c:560-867: those that occur in the tables; the case of
    a CSN_UINT has no null form, a CSN_ERROR is an illegal alternative. *)
Definition dec_alt (dec : entry -> Z -> Z * Z -> state -> result) (e : entry) (base : Z) (w : Z * Z) (s : state) : result :=
  match e with
  | Uint _ bits off cap =>
    if bits <=? rem s then dec_uint false bits off cap base w s else Stop ERROR_GENERAL s
  | Typ _ _ _ _ | TArr _ _ _ _ _ => dec e base w s
  | _ => Stop ERROR_IN_SCRIPT s
  end.

(** The alternative taken: entry min(index + 1, count), csn1_dec.c:557. *)
Definition pick (dec : entry -> Z -> Z * Z -> state -> result) (base : Z) (w : Z * Z) (s : state) :=
  fix pick (i : nat) (l : list entry) {struct l} : result :=
    match l with
    | [] => Wild s
    | e :: r => match i, r with
                | O, _ | _, [] => dec_alt dec e base w s
                | S k, _ => pick k r
                end
    end.

(** The loop of CSN_CHOICE, csn1_dec.c:422-463: the first selector that matches; [i] is its number.
    The entry is decoded as a table of its own. *)
Definition choose (dec : entry -> Z -> Z * Z -> state -> result) (off cap base : Z) (w : Z * Z) (s : state) :=
  fix choose (i : Z) (l : list (Z * Z * entry)) {struct l} : result :=
    match l with
    | [] => Stop ERROR_NOT_SUPPORTED s
    | (bits, value, e) :: r =>
      let (x, s1) := take s bits in
      if x mod 256 =? value then
        let s2 := less (put8 (inter w (base + off) (base + off + cap)) s1 (base + off) i) bits in
        if rem s2 <? 0 then Stop ERROR_NEED_MORE_BITS s2
        else match dec e base w s2 with
             | Go s3 => if rem s3 <? 0 then Stop ERROR_NEED_MORE_BITS s3
                        else if i16 (rem s3) <? 0 then Stop (i16 (rem s3)) s3 else Go s3
             | x => x
             end
      else choose (i + 1) r
    end.

(** One entry of a table, csn1_dec.c:79-1419. *)
Fixpoint dec (e : entry) (base : Z) (w : Z * Z) (s : state) {struct e} : result :=
  match e with
  | Bit null off cap => dec_bit null off cap base w s
  | Uint null bits off cap => dec_uint null bits off cap base w s
  | UintOff bits add off cap => dec_uint_off bits add off cap base w s
  | UintArr bits num off cap => dec_uint_arr bits num off cap base w s
  | Typ null off cap sub =>                                                     (* 383-408 *)
    if null && (rem s =? 0) then Go s
    else table dec sub (base + off) (inter w (base + off) (base + off + cap)) s
  | TArr num off size cap sub =>                                                (* 293-336 *)
    repeat_table (fun o => table dec sub o (inter w (base + off) (base + off + cap))) (Z.to_nat num) size (base + off) s
  | VarTArr cnt off size cap sub =>                                             (* 293-336 *)
    let s := log s w (base + cnt) 1 in
    repeat_table (fun o => table dec sub o (inter w (base + off) (base + off + cap)))
                 (Z.to_nat (get8 s (base + cnt))) size (base + off) s
  | Bitmap bits off cap => dec_bitmap bits off cap base w s
  | VarBitmap cnt add off cap => dec_var_bitmap cnt add off cap base w s
  | LeftBmp rest cnt add off cap => dec_left_bmp rest cnt add off cap base w s
  | VarArr cnt add off cap => dec_var_arr cnt add off cap base w s
  | RecArr cnt bits off cap => dec_rec_arr cnt bits off cap base w s
  | RecTArr cnt off size num cap sub =>                                         (* 1233-1292 *)
    match rec_loop (fun o => table dec sub o (inter w (base + off) (base + off + cap))) (Z.to_nat num) size (base + off) 0 s with
    | (Go s1, k) => Go (put8 w s1 (base + cnt) k)
    | (x, _) => x
    end
  | RecTArr1 cnt off size num cap sub =>                                        (* 1304-1362 *)
    match rec1_loop (fun o => table dec sub o (inter w (base + off) (base + off + cap))) (Z.to_nat num) size (base + off) 0 s with
    | (Go s1, k) => Go (put8 w s1 (base + cnt) k)
    | (x, _) => x
    end
  | NextExist null n off cap =>                                                 (* alone in its table *)
    let (k, s1) := dec_next_exist null n off cap base w true s in
    match k with O => Go s1 | S _ => Wild s1 end
  | Union off cap alts =>                                                       (* 517-871 *)
    let count := Z.of_nat (length alts) in
    if (count <=? 0) || (16 <? count) then Stop ERROR_INVALID_UNION_INDEX s
    else let (i, s1) := union_index count s in
         pick dec base w (put8 (inter w (base + off) (base + off + cap)) s1 (base + off) i) (Z.to_nat i) alts
  | Choice off cap alts => choose dec off cap base w s 0 alts                   (* 410-470 *)
  | Fixed bits value => dec_fixed bits value s
  | Serialize lenbits off cap sub =>                                            (* 472-515 *)
    let (x, s1) := take s lenbits in
    let len := x mod 256 in
    let s1 := less s1 lenbits in
    match table dec sub (base + off) (inter w (base + off) (base + off + cap)) (if 0 <? len then set_rem s1 len else s1) with
    | Go s2 => let st := i16 (rem s2) in
               let s3 := if 0 <? len then set_rem s2 (rem s1 - len) else s2 in
               Go (if 0 <? st then skip_bits s3 st else s3)
    | x => x
    end
  | Padding => dec_padding s
  | Trap code => Stop (i16 code) s                                              (* 1401-1404 *)
  end.

(** csnStreamInit and csnStreamDecoder on a whole structure of [size] bytes, all zero
    (talloc_zero in pdch.cpp:911), of [bits] bits. *)
Definition start (bits : Z) : state := mk_state (fun _ => 0) 0 bits [].
Definition decode (l : list entry) (size bits : Z) : result := table dec l 0 (0, size) (start bits).

End Decoder.
