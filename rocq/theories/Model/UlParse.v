(** Reading the length indicators of an uplink RLC data block and assembling LLC frames:
    /repo/src/decoding.cpp, tbf_ul.cpp, llc.c. Octets, offsets and lengths are Z. *)
From Coq Require Import ZArith List Bool.
Import ListNotations.
Local Open Scope Z_scope.

(** struct Decoding::RlcData, decoding.h:40-44; offset and length are uint8_t. *)
Record chunk := mk_chunk { c_off : Z; c_len : Z; c_done : bool }.
(** LENGTH_TO_END, decoding.cpp:33. *)
Definition LENGTH_TO_END : Z := 255.

Inductive errn : Set := EINVAL | ENOSPC | ENOTSUP.

(** Outcome of reading the length indicators. [XOob i]: the octet at index [i] lies behind
    the memory given. *)
Inductive xres :=
| XOob (i : Z)
| XErr (e : errn)
| XOk (l : list chunk) (offs : Z).

Definition num {A} (l : list A) : Z := Z.of_nat (length l).

(** The loop of parse_extensions_egprs, decoding.cpp:38-112. [rest] is the memory from
    [offs] on; [size] is chunks_size, None for chunks = NULL. *)
Fixpoint ext_egprs (rest : list Z) (dlen offs : Z) (last : bool) (size : option Z) (acc : list chunk) : xres :=
  if offs >? dlen then XErr EINVAL
  else match rest with
  | [] => XOob offs
  | x :: rest' =>
    let li := (x / 2) mod 128 in
    let e := x mod 2 =? 1 in
    let offs' := offs + 1 in
    match size with
    | None => if e then XOk acc offs' else ext_egprs rest' dlen offs' last size acc
    | Some n =>
      let next (c : chunk) :=
        let acc' := acc ++ [c] in
        if e then (if num acc' =? n then XErr ENOSPC else XOk (acc' ++ [mk_chunk 0 LENGTH_TO_END last]) offs')
        else ext_egprs rest' dlen offs' last size acc' in
      if num acc =? n then XErr ENOSPC
      else if (li =? 0) && (num acc =? 0) then next (mk_chunk 0 0 true)
      else if (li =? 127) && e then XOk acc offs'
      else if 0 <? li then next (mk_chunk 0 li true)
      else XErr EINVAL
    end
  end.

(** The loop of parse_extensions_gprs, decoding.cpp:114-186. *)
Fixpoint ext_gprs (rest : list Z) (dlen offs : Z) (last : bool) (size : option Z) (acc : list chunk) : xres :=
  if offs >? dlen then XErr EINVAL
  else match rest with
  | [] => XOob offs
  | x :: rest' =>
    let li := (x / 4) mod 64 in
    let z := li =? 0 in
    let e := z || (x mod 2 =? 1) in
    let m := negb z && ((x / 2) mod 2 =? 1) in
    let offs' := offs + 1 in
    if negb m && negb e then XOk [] offs'
    else match size with
    | None => if e then XOk acc offs' else ext_gprs rest' dlen offs' last size acc
    | Some n =>
      if num acc =? n then XErr ENOSPC
      else
        let acc' := acc ++ [mk_chunk 0 (if z then LENGTH_TO_END else li) (negb z || last)] in
        if e && m then (if num acc' =? n then XErr ENOSPC else XOk (acc' ++ [mk_chunk 0 LENGTH_TO_END last]) offs')
        else if e then XOk acc' offs'
        else ext_gprs rest' dlen offs' last size acc'
    end
  end.

(** struct gprs_rlc_data_block_info, rlc.h:124-132, the fields used here. *)
Record rdbi := mk_rdbi { d_len : Z; d_ti : bool; d_e : bool; d_cv : Z; d_pi : bool }.

(** The loop over the chunks, decoding.cpp:265-286. *)
Fixpoint place (todo : list chunk) (offs dlen : Z) (acc : list chunk) : errn + list chunk :=
  match todo with
  | [] => inr acc
  | c :: r =>
    if (c_len c =? LENGTH_TO_END) && (offs =? dlen) then
      inr (firstn (length (acc ++ todo) - 1) (acc ++ mk_chunk (offs mod 256) (c_len c) (c_done c) :: r))
    else
      let len := (if c_len c =? LENGTH_TO_END then dlen - offs else c_len c) mod 256 in
      let offs' := offs + len in
      if offs' >? dlen then inl EINVAL
      else place r offs' dlen (acc ++ [mk_chunk (offs mod 256) len (c_done c)])
  end.

(** Result of rlc_data_from_ul_data: the chunks and the TLLI. *)
Inductive pres :=
| POob (i : Z)
| PErr (e : errn)
| POk (l : list chunk) (tlli : Z).

Definition octet (mem : list Z) (i : Z) : option Z := nth_error mem (Z.to_nat i).
(** The TLLI at [offs]: big endian for GPRS, little endian for EGPRS, decoding.cpp:237-255. *)
Definition read_tlli (edge : bool) (mem : list Z) (offs : Z) : option Z :=
  match octet mem offs, octet mem (offs + 1), octet mem (offs + 2), octet mem (offs + 3) with
  | Some a, Some b, Some c, Some d =>
    Some (if edge then a + 256 * (b + 256 * (c + 256 * d)) else d + 256 * (c + 256 * (b + 256 * a)))
  | _, _, _, _ => None
  end.

(** rlc_data_from_ul_data, decoding.cpp:188-289. [mem] is the memory that [data] points
    to; the received block is its first [d_len] octets. *)
Definition from_ul_data (edge : bool) (r : rdbi) (mem : list Z) (chunks : option Z) : pres :=
  let last := d_cv r =? 0 in
  let dlen := d_len r in
  let ext :=
    if d_e r then
      match chunks with
      | Some n => if 0 <? n then XOk [mk_chunk 0 LENGTH_TO_END last] 0 else XErr ENOSPC
      | None => XOk [] 0
      end
    else (if edge then ext_egprs else ext_gprs) mem dlen 0 last chunks [] in
  match ext with
  | XOob i => POob i
  | XErr e => PErr e
  | XOk l offs =>
    let after (offs tlli : Z) :=
      if d_pi r then PErr ENOTSUP
      else match chunks with
      | None => POk l tlli
      | Some n =>
        if n =? 0 then POk l tlli
        else match place l offs dlen [] with
             | inl e => PErr e
             | inr l' => POk l' tlli
             end
      end in
    if d_ti r then
      if offs + 4 >? dlen then PErr EINVAL
      else match read_tlli edge mem offs with
           | None => POob (offs + 3)
           | Some t => after (offs + 4) t
           end
    else after offs 0
  end.

(** ** Assembling LLC frames *)
(** LLC_MAX_LEN, llc.h:31. *)
Definition LLC_MAX_LEN : Z := 1543.
(** struct gprs_llc, llc.h:67-75, of an uplink TBF: the octets frame[0..length-1] and the
    index. *)
Record ullc := mk_ullc { u_data : list Z; u_idx : Z }.
(** llc_reset, llc.c:34-42. *)
Definition ullc_reset : ullc := mk_ullc [] 0.
(** llc_append_frame, llc.c:78-83. None: octets are written past the frame buffer. *)
Definition llc_append_frame (l : ullc) (data : list Z) : option ullc :=
  if LLC_MAX_LEN <? num (u_data l) + num data then None
  else Some (mk_ullc (u_data l ++ data) (u_idx l)).
(** llc_consume, llc.h:90-93. *)
Definition llc_consume (l : ullc) (n : Z) : ullc := mk_ullc (u_data l) ((u_idx l + n) mod 65536).

Definition slice (mem : list Z) (off len : Z) : list Z := firstn (Z.to_nat len) (skipn (Z.to_nat off) mem).

(** The loop of assemble_forward_llc, tbf_ul.cpp:180-202: the frames sent to the SGSN
    (snd_ul_ud, tbf_ul.cpp:460-484, sends frame[0..length-1]) and the buffer left. *)
Fixpoint forward (mem : list Z) (l : list chunk) (st : ullc) : option (list (list Z) * ullc) :=
  match l with
  | [] => Some ([], st)
  | c :: r =>
    match (if c_len c =? 0 then Some st
           else match llc_append_frame st (slice mem (c_off c) (c_len c)) with
                | None => None
                | Some st' => Some (llc_consume st' (c_len c))
                end) with
    | None => None
    | Some st1 =>
      let st2 := if c_done c then ullc_reset else st1 in
      match forward mem r st2 with
      | None => None
      | Some (out, st3) => Some ((if c_done c then [u_data st1] else []) ++ out, st3)
      end
    end
  end.

(** A stored block: header fields, memory, and whether it is EGPRS. *)
Record ublk := mk_ub { ub_edge : bool; ub_rdbi : rdbi; ub_mem : list Z }.
(** assemble_forward_llc, tbf_ul.cpp:161-205, with its 16 chunks. None:
    memory outside the block or the frame buffer is touched. *)
Definition assemble (b : ublk) (st : ullc) : option (list (list Z) * ullc) :=
  match from_ul_data (ub_edge b) (ub_rdbi b) (ub_mem b) (Some 16) with
  | POk l _ => forward (ub_mem b) l st
  | PErr _ => Some ([], st)
  | POob _ => None
  end.
Fixpoint assemble_all (bs : list ublk) (st : ullc) : option (list (list Z) * ullc) :=
  match bs with
  | [] => Some ([], st)
  | b :: r =>
    match assemble b st with
    | None => None
    | Some (o1, st1) =>
      match assemble_all r st1 with
      | None => None
      | Some (o2, st2) => Some (o1 ++ o2, st2)
      end
    end
  end.
