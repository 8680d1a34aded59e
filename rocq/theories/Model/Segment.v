(** Cutting LLC frames into downlink RLC data blocks: /repo/src/encoding.cpp, tbf_dl.cpp,
    rlc.cpp, llc.c, llc.h. Octets are Z; offsets and lengths are nat. *)
From Coq Require Import ZArith List Bool Arith.
Import ListNotations.
Local Open Scope Z_scope.

(** struct gprs_llc, llc.h:67-75, as far as the encoder uses it: the frame (its length is
    the list's) and the position reached. An empty frame means none. *)
Record llc := mk_llc { l_frame : list Z; l_idx : nat }.
Definition no_llc : llc := mk_llc [] 0.
(** llc_chunk_size, llc.h:85-88. *)
Definition chunk_size (l : llc) : nat := length (l_frame l) - l_idx l.
(** llc_consume_data, llc.h:105-110: the octets copied and the frame afterwards. *)
Definition consume (l : llc) (n : nat) : list Z * llc :=
  (firstn n (skipn (l_idx l) (l_frame l)), mk_llc (l_frame l) (l_idx l + n)).
(** llc_put_dummy_frame, llc.c:50-69. *)
Definition dummy_frame (req : nat) : list Z :=
  let req := Nat.min req 79 in
  [0x43; 0xc0; 0x01; 0x2b; 0x2b; 0x2b] ++ repeat 0x2b (req - 6).

(** prepare, rlc.cpp:32-42: the part of the block that is sent. *)
Definition prepare (len : nat) : list Z := repeat 0x2b len.

(** memcpy into the block at an offset. *)
Definition put (blk : list Z) (off : nat) (bytes : list Z) : list Z :=
  firstn off blk ++ bytes ++ skipn (off + length bytes) blk.
(** Making room for a length octet at [k], the data ending at [off], and writing it:
    the memmove and the assignments to *li in encoding.cpp. *)
Definition insert_li (blk : list Z) (k off : nat) (v : Z) : list Z :=
  firstn k blk ++ [v] ++ firstn (off - k) (skipn k blk) ++ skipn (S off) blk.
Definition upd_octet (blk : list Z) (k : nat) (f : Z -> Z) : list Z :=
  match skipn k blk with
  | [] => blk
  | x :: r => firstn k blk ++ f x :: r
  end.

(** struct rlc_li_field and rlc_li_field_egprs, rlc.h:259-278 (little endian). *)
Definition li_octet (li m e : Z) : Z := (li mod 64) * 4 + m * 2 + e.
Definition li_octet_egprs (li e : Z) : Z := (li mod 128) * 2 + e.
Definition set_e1 (x : Z) : Z := Z.lor x 0x01.
Definition set_m1 (x : Z) : Z := Z.lor x 0x02.
Definition clear_e (x : Z) : Z := Z.land x 0xfe.

(** enum AppendResult, encoding.h. *)
Inductive ar : Set := AR_NEED_MORE_BLOCKS | AR_COMPLETED_SPACE_LEFT | AR_COMPLETED_BLOCK_FILLED.

(** A block under construction: octets, *offset, *num_chunks, rdbi->e (extension bit; true:
    no extension) and whether rdbi->cv was set to 0 (final block indicator). *)
Record blk := mk_blk { b_oct : list Z; b_off : nat; b_nch : nat; b_e : bool; b_fbi : bool }.

(** rlc_data_to_dl_append_gprs, encoding.cpp:1391-1523. [len] is rdbi->data_len. *)
Definition append_gprs (len : nat) (b : blk) (l : llc) (is_final : bool) : ar * blk * llc :=
  let chunk := chunk_size l in
  let space := (len - b_off b)%nat in
  let e_ptr (f : Z -> Z) (o : list Z) := match b_nch b with O => o | S k => upd_octet o k f end in
  if (space <? chunk)%nat then
    let o := e_ptr set_m1 (b_oct b) in
    let '(d, l') := consume l space in
    (AR_NEED_MORE_BLOCKS, mk_blk (put o (b_off b) d) len (S (b_nch b)) (b_e b) (b_fbi b), l')
  else if (chunk =? space)%nat && is_final then
    let o := e_ptr set_e1 (b_oct b) in
    let '(d, l') := consume l space in
    (AR_COMPLETED_BLOCK_FILLED, mk_blk (put o (b_off b) d) len (S (b_nch b)) (b_e b) true, l')
  else if (chunk =? space)%nat then
    let o := insert_li (e_ptr (fun x => set_m1 (clear_e x)) (b_oct b)) (b_nch b) (b_off b) (li_octet 0 0 1) in
    let '(d, l') := consume l (space - 1) in
    (AR_NEED_MORE_BLOCKS, mk_blk (put o (S (b_off b)) d) len (S (b_nch b)) false (b_fbi b), l')
  else
    let o := insert_li (e_ptr (fun x => set_m1 (clear_e x)) (b_oct b)) (b_nch b) (b_off b)
                       (li_octet (Z.of_nat chunk) 0 1) in
    let '(d, l') := consume l chunk in
    let off := (S (b_off b) + chunk)%nat in
    let left := (0 <? space - 1 - chunk)%nat in
    (if left && negb is_final then AR_COMPLETED_SPACE_LEFT else AR_COMPLETED_BLOCK_FILLED,
     mk_blk (put o (S (b_off b)) d) off (S (b_nch b)) false (is_final || b_fbi b), l').

(** rlc_data_to_dl_append_egprs_li_padding, encoding.cpp:1690-1721. *)
Definition li_padding (len : nat) (b : blk) : blk :=
  let o := insert_li (b_oct b) (b_nch b) (b_off b) (li_octet_egprs 127 1) in
  let o := match b_nch b with O => o | S k => upd_octet o k clear_e end in
  mk_blk o len (S (b_nch b)) (b_e b) (b_fbi b).

(** rlc_data_to_dl_append_egprs, encoding.cpp:1536-1654. *)
Definition append_egprs (len : nat) (b : blk) (l : llc) (is_final : bool) : ar * blk * llc :=
  let chunk := chunk_size l in
  let space := (len - b_off b)%nat in
  if (space <? chunk)%nat then
    let '(d, l') := consume l space in
    (AR_NEED_MORE_BLOCKS, mk_blk (put (b_oct b) (b_off b) d) len (S (b_nch b)) (b_e b) (b_fbi b), l')
  else if (chunk =? space)%nat && is_final then
    let '(d, l') := consume l space in
    (AR_COMPLETED_BLOCK_FILLED, mk_blk (put (b_oct b) (b_off b) d) len (S (b_nch b)) (b_e b) true, l')
  else if (chunk =? space)%nat then
    let '(d, l') := consume l space in
    (AR_NEED_MORE_BLOCKS, mk_blk (put (b_oct b) (b_off b) d) len (S (b_nch b)) (b_e b) (b_fbi b), l')
  else
    let o := insert_li (b_oct b) (b_nch b) (b_off b) (li_octet_egprs (Z.of_nat chunk) 1) in
    let o := match b_nch b with O => o | S k => upd_octet o k clear_e end in
    let '(d, l') := consume l chunk in
    let off := (S (b_off b) + chunk)%nat in
    let left := (0 <? space - 1 - chunk)%nat in
    let b' := mk_blk (put o (S (b_off b)) d) off (S (b_nch b)) false (is_final || b_fbi b) in
    if negb is_final then
      (if left then AR_COMPLETED_SPACE_LEFT else AR_COMPLETED_BLOCK_FILLED, b', l')
    else (AR_COMPLETED_BLOCK_FILLED, if left then li_padding len b' else b', l').

(** rlc_data_to_dl_append, encoding.cpp:1668-1688. *)
Definition append (edge : bool) := if edge then append_egprs else append_gprs.

(** The sender between blocks: the frame in m_llc with whether it is a dummy frame, the
    frames that the queue will still hand out, and (for the statements) the frames
    completed so far. *)
Record sender := mk_snd { s_llc : llc; s_dummy : bool; s_queue : list (list Z); s_done : list (list Z * bool) }.

(** schedule_next_frame, tbf_dl.cpp:539-557; the queue's own behaviour is in LlcQueue.v. *)
Definition next_frame (s : sender) : sender :=
  match l_frame (s_llc s) with
  | _ :: _ => s
  | [] => match s_queue s with
          | [] => s
          | f :: r => mk_snd (mk_llc f 0) false r (s_done s)
          end
  end.

(** The loop of create_new_bsn, tbf_dl.cpp:599-684. [fin] tells at each round whether the
    TBF may end (llc_queue_size() = 0 and not keep_open()); it is left open. *)
Fixpoint fill (fuel : nat) (edge : bool) (len : nat) (fin : nat -> bool) (b : blk) (s : sender)
  : option (blk * sender) :=
  match fuel with
  | O => None
  | S n =>
    let round (s : sender) :=
      let '(r, b', l') := append edge len b (s_llc s) (fin (b_nch b)) in
      match r with
      | AR_NEED_MORE_BLOCKS => Some (b', mk_snd l' (s_dummy s) (s_queue s) (s_done s))
      | _ =>
        let s' := next_frame (mk_snd no_llc false (s_queue s) (s_done s ++ [(l_frame l', s_dummy s)])) in
        match r with
        | AR_COMPLETED_SPACE_LEFT => fill n edge len fin b' s'
        | _ => Some (b', s')
        end
      end in
    match l_frame (s_llc s) with
    | [] =>
      match b_nch b with
      | O => round (mk_snd (mk_llc (dummy_frame (len - b_off b - 1)) 0) true (s_queue s) (s_done s))
      | S _ =>
        let b1 := if fin (b_nch b) then mk_blk (b_oct b) (b_off b) (b_nch b) (b_e b) true else b in
        Some (if edge then li_padding len b1 else b1, s)
      end
    | _ => round s
    end
  end.

(** A data block as sent: extension bit, final block indicator, octets. *)
Record sent_block := mk_sb { sb_e : bool; sb_fbi : bool; sb_oct : list Z }.

(** create_new_bsn, tbf_dl.cpp:559-694, without windows, counters and timers. *)
Definition create_block (edge : bool) (len : nat) (fin : nat -> bool) (s : sender) : option (sent_block * sender) :=
  match fill (S len) edge len fin (mk_blk (prepare len) 0 0 true false) (next_frame s) with
  | None => None
  | Some (b, s') => Some (mk_sb (b_e b) (b_fbi b) (b_oct b), s')
  end.

(** A downlink TBF: each step gives the block length (from the coding scheme), the frames
    queued before it and the end decisions. *)
Record seg_step := mk_ss { ss_len : nat; ss_new : list (list Z); ss_fin : nat -> bool }.
Fixpoint seg_run (edge : bool) (steps : list seg_step) (s : sender) : option (list sent_block * sender) :=
  match steps with
  | [] => Some ([], s)
  | x :: r =>
    match create_block edge (ss_len x) (ss_fin x) (mk_snd (s_llc s) (s_dummy s) (s_queue s ++ ss_new x) (s_done s)) with
    | None => None
    | Some (sb, s1) =>
      match seg_run edge r s1 with
      | None => None
      | Some (l, s2) => Some (sb :: l, s2)
      end
    end
  end.
