(** The T.4 run length code of compressed block bitmaps: /repo/src/egprs_rlc_compression.cpp. *)
From Coq Require Import ZArith Ascii String List Bool.
Import ListNotations.
Local Open Scope Z_scope.

(** ** Tables. The colour [false] is a run of zeros, [true] a run of ones. *)

(** t4_term, egprs_rlc_compression.cpp:91-225. *)
Definition t4_term (start : bool) : list Z :=
  if start then [
   53; 7; 7; 8; 11; 12; 14; 15; 19; 20; 7; 8; 8; 3; 52; 53; 42; 43; 39; 12; 8; 23; 3; 4;
   40; 43; 19; 36; 24; 2; 3; 26; 27; 18; 19; 20; 21; 22; 23; 40; 41; 42; 43; 44; 45; 4; 5;
   10; 11; 82; 83; 84; 85; 36; 37; 88; 89; 90; 91; 74; 75; 50; 51; 52]
  else [
   55; 2; 3; 2; 3; 3; 2; 3; 5; 4; 4; 5; 7; 4; 7; 24; 23; 24; 8; 103; 104; 108; 55; 40; 23;
   24; 202; 203; 204; 205; 104; 105; 106; 107; 210; 211; 212; 213; 214; 215; 108; 109; 218;
   219; 84; 85; 86; 87; 100; 101; 82; 83; 36; 55; 56; 39; 40; 88; 89; 43; 44; 90; 102; 103].
(** t4_term_length, egprs_rlc_compression.cpp:226-229. *)
Definition t4_term_length (start : bool) : list Z :=
  if start then [
   8; 6; 4; 4; 4; 4; 4; 4; 5; 5; 5; 5; 6; 6; 6; 6; 6; 6; 7; 7; 7; 7; 7; 7; 7; 7; 7; 7; 7;
   8; 8; 8; 8; 8; 8; 8; 8; 8; 8; 8; 8; 8; 8; 8; 8; 8; 8; 8; 8; 8; 8; 8; 8; 8; 8; 8; 8; 8;
   8; 8; 8; 8; 8; 8]
  else [
   10; 2; 2; 3; 3; 4; 4; 5; 6; 6; 7; 7; 7; 8; 8; 9; 10; 10; 10; 11; 11; 11; 11; 11; 11; 11;
   12; 12; 12; 12; 12; 12; 12; 12; 12; 12; 12; 12; 12; 12; 12; 12; 12; 12; 12; 12; 12; 12;
   12; 12; 12; 12; 12; 12; 12; 12; 12; 12; 12; 12; 12; 12; 12; 12].
(** t4_make_up_length, t4_make_up_ind and t4_make_up, egprs_rlc_compression.cpp:237-279. *)
Definition t4_make_up_length (start : bool) : list Z :=
  if start then [5; 5; 6; 7; 8; 8; 8; 8; 8; 8; 9; 9; 9; 9; 9]
  else [10; 12; 12; 12; 12; 12; 12; 13; 13; 13; 13; 13; 13; 13; 13].
Definition t4_make_up_ind : list Z := [64; 128; 192; 256; 320; 384; 448; 512; 576; 640; 704; 768; 832; 896; 960].
Definition t4_make_up (start : bool) : list Z :=
  if start then [27; 18; 23; 55; 54; 55; 100; 101; 104; 103; 204; 205; 210; 211; 212]
  else [15; 200; 201; 91; 51; 52; 53; 108; 109; 74; 75; 76; 77; 114; 115].
(** one_run_len_code_list and zero_run_len_code_list, egprs_rlc_compression.cpp:285-447. *)
Definition one_run_len_code_list : list string := [
   "00110101"; "000111"; "0111"; "1000"; "1011"; "1100"; "1110"; "1111"; "10011"; "10100";
   "00111"; "01000"; "001000"; "000011"; "110100"; "110101"; "101010"; "101011"; "0100111";
   "0001100"; "0001000"; "0010111"; "0000011"; "0000100"; "0101000"; "0101011"; "0010011";
   "0100100"; "0011000"; "00000010"; "00000011"; "00011010"; "00011011"; "00010010";
   "00010011"; "00010100"; "00010101"; "00010110"; "00010111"; "00101000"; "00101001";
   "00101010"; "00101011"; "00101100"; "00101101"; "00000100"; "00000101"; "00001010";
   "00001011"; "01010010"; "01010011"; "01010100"; "01010101"; "00100100"; "00100101";
   "01011000"; "01011001"; "01011010"; "01011011"; "01001010"; "01001011"; "00110010";
   "00110011"; "00110100"; "11011"; "10010"; "010111"; "0110111"; "00110110"; "00110111";
   "01100100"; "01100101"; "01101000"; "01100111"; "011001100"; "011001101"; "011010010";
   "011010011"; "011010100"]%string.
Definition zero_run_len_code_list : list string := [
   "0000110111"; "10"; "11"; "010"; "011"; "0011"; "0010"; "00011"; "000101"; "000100";
   "0000100"; "0000101"; "0000111"; "00000100"; "00000111"; "000011000"; "0000010111";
   "0000011000"; "0000001000"; "00001100111"; "00001101000"; "00001101100"; "00000110111";
   "00000101000"; "00000010111"; "00000011000"; "000011001010"; "000011001011";
   "000011001100"; "000011001101"; "000001101000"; "000001101001"; "000001101010";
   "000001101011"; "000011010010"; "000011010011"; "000011010100"; "000011010101";
   "000011010110"; "000011010111"; "000001101100"; "000001101101"; "000011011010";
   "000011011011"; "000001010100"; "000001010101"; "000001010110"; "000001010111";
   "000001100100"; "000001100101"; "000001010010"; "000001010011"; "000000100100";
   "000000110111"; "000000111000"; "000000100111"; "000000101000"; "000001011000";
   "000001011001"; "000000101011"; "000000101100"; "000001011010"; "000001100110";
   "000001100111"; "0000001111"; "000011001000"; "000011001001"; "000001011011";
   "000000110011"; "000000110100"; "000000110101"; "0000001101100"; "0000001101101";
   "0000001001010"; "0000001001011"; "0000001001100"; "0000001001101"; "0000001110010";
   "0000001110011"]%string.

(** The bits of a code word, most significant first, as bitvec_write_field writes them. *)
Definition bits_of (v len : Z) : list bool :=
  map (fun i => Z.testbit v (len - 1 - Z.of_nat i)) (seq 0 (Z.to_nat len)).
Fixpoint bits_of_string (s : string) : list bool :=
  match s with
  | EmptyString => []
  | String c r => negb (Ascii.eqb c "0") :: bits_of_string r
  end.

(** ** Compression *)

(** The word for [cnt] in compress_bitmap, egprs_rlc_compression.cpp:568-591: value and
    length. A count of 64 or more that is no multiple in the table gives no bits. *)
Definition t4_word (start : bool) (cnt : Z) : Z * Z :=
  if 64 <=? cnt then
    match find (fun p => fst p =? cnt) (combine t4_make_up_ind (combine (t4_make_up start) (t4_make_up_length start))) with
    | Some (_, w) => w
    | None => (0, 0)
    end
  else (nth (Z.to_nat cnt) (t4_term start) 0, nth (Z.to_nat cnt) (t4_term_length start) 0).
Definition word_bits (w : Z * Z) : list bool := bits_of (fst w) (snd w).

(** libosmocore's bitvec_rl_curbit: the number of bits equal to [b] from here on. It is not
    part of the repository; this is its documented result. *)
Fixpoint run_len (b : bool) (l : list bool) : nat :=
  match l with
  | [] => O
  | x :: r => if Bool.eqb x b then S (run_len b r) else O
  end.

(** The loop in compress_rbb, egprs_rlc_compression.cpp:640-686: [rem] are the bits from
    cur_bit on, [out] what has been written to crbb_vec. The result: everything written,
    clen and uclen. *)
Fixpoint compress_loop (fuel : nat) (max_bits : Z) (rem : list bool) (colour : bool) (out : list bool) (clen uclen : Z)
  : list bool * Z * Z :=
  match fuel, rem with
  | O, _ => (out, clen, uclen)
  | _, [] => (out, clen, uclen)
  | S k, _ =>
    let n := run_len colour rem in
    let rlen := Z.of_nat n in
    let mk := if 64 <=? rlen then t4_word colour (rlen / 64 * 64) else (0, 0) in
    let tm := t4_word colour (rlen mod 64) in
    let out' := out ++ word_bits mk ++ word_bits tm in
    let clen' := clen + snd mk + snd tm in
    let uclen' := uclen + rlen in
    if max_bits <? clen' then (out', clen' - snd tm, uclen' - rlen)
    else compress_loop k max_bits (skipn n rem) (negb colour) out' clen' uclen'
  end.
(** compress_rbb, egprs_rlc_compression.cpp:623-696: all bits written, the compressed bitmap
    (up to cur_bit), *uclen_crbb (8 bits wide) and the returned value. [rem] is
    urbb_vec; every turn of the loop takes at least one bit, so its length bounds them. *)
Definition compress_rbb (bm : list bool) (max_bits : Z) : list bool * list bool * Z * bool :=
  let '(out, clen, uclen) := compress_loop (length bm) max_bits bm (hd false bm) [] 0 0 in
  (out, firstn (Z.to_nat clen) out, uclen mod 256, negb (uclen <=? clen)).

(** ** Decompression *)

(** struct egprs_compress_node, egprs_rlc_compression.cpp:20-24; [Nil] is NULL. *)
Inductive tree := Nil | Node (l r : tree) (run : Z).
Definition new_node : tree := Node Nil Nil (-1).
(** One turn of build_codewords, egprs_rlc_compression.cpp:61-84. *)
Fixpoint insert (code : list bool) (run : Z) (t : tree) : tree :=
  match t with
  | Nil =>
    match code with
    | [] => Node Nil Nil run
    | false :: c => Node (insert c run Nil) Nil (-1)
    | true :: c => Node Nil (insert c run Nil) (-1)
    end
  | Node l r x =>
    match code with
    | [] => Node l r run
    | false :: c => Node (insert c run l) r x
    | true :: c => Node l (insert c run r) x
    end
  end.
(** The run length of code word [idx]. *)
Definition run_of_idx (idx : nat) : Z := if (idx <? 64)%nat then Z.of_nat idx else (Z.of_nat idx - 63) * 64.
Definition build_codewords (l : list string) : tree :=
  fold_left (fun t p => insert (bits_of_string (snd p)) (run_of_idx (fst p)) t) (combine (seq 0 (length l)) l) new_node.
(** decode_tree_init, egprs_rlc_compression.cpp:550-556. *)
Definition code_list (start : bool) : list string := if start then one_run_len_code_list else zero_run_len_code_list.
Definition code_tree (start : bool) : tree := build_codewords (code_list start).

(** search_runlen, egprs_rlc_compression.cpp:457-491: the run length and the code word's
    length, or an error. [bits] is the bitmap from bit_pos up to its length. *)
Fixpoint search_runlen (t : tree) (bits : list bool) : option (Z * nat) :=
  match t with
  | Nil => None
  | Node l r run =>
    if run =? -1 then
      match bits with
      | [] => None
      | b :: bs =>
        match (if b then search_runlen r bs else search_runlen l bs) with
        | None => None
        | Some (x, n) => Some (x, S n)
        end
      end
    else Some (run, O)
  end.

(** A bit vector of [cap] bits being written: what is up to cur_bit, and the write position. *)
Definition wvec : Type := list bool * nat.
(** libosmocore's bitvec_write_field with [n] bits equal to [b]: it starts at the write
    position, stops with an error at the end of the vector, and only advances the write
    position if all bits were written. *)
Definition write_field (cap : nat) (b : bool) (n : nat) (v : wvec) : wvec :=
  let '(l, wp) := v in
  if (wp + n <=? cap)%nat then (firstn wp l ++ repeat b n, (wp + n)%nat)
  else (firstn wp l ++ repeat b (cap - wp), wp).
(** The writing loop, egprs_rlc_compression.cpp:534-542. *)
Fixpoint write_run (fuel cap : nat) (b : bool) (run : nat) (v : wvec) : wvec :=
  match fuel with
  | O => v
  | S k =>
    if (run =? 0)%nat then v
    else if (8 <? run)%nat then write_run k cap b (run - 8) (write_field cap b 8 v)
    else write_field cap b run v
  end.
(** decompress_crbb, egprs_rlc_compression.cpp:500-548: the result code and the vector.
    [crbb] are the compress_bmap_len bits; this length is a 7 bit field and positive as
    int8_t. *)
Fixpoint decompress_loop (fuel cap : nat) (start : bool) (crbb : list bool) (v : wvec) : bool * wvec :=
  match fuel, crbb with
  | _, [] => (true, v)
  | O, _ => (false, v)
  | S k, _ =>
    match search_runlen (code_tree start) crbb with
    | None => (false, v)
    | Some (run, n) =>
      decompress_loop k cap (if run <? 64 then negb start else start) (skipn n crbb)
        (write_run (Z.to_nat run) cap start (Z.to_nat run) v)
    end
  end.
Definition decompress_crbb (cap : nat) (start : bool) (crbb dest : list bool) : bool * list bool :=
  let '(rc, v) := decompress_loop (length crbb) cap start crbb (dest, length dest) in (rc, fst v).
