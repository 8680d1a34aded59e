(** The counters of octets, rlc:dl_payload_bytes, llc:dl_bytes, rlc:ul_payload_bytes and
    llc:ul_bytes: /repo/src/tbf_dl.cpp, encoding.cpp, tbf_ul.cpp, on top of Segment.v and
    UlParse.v. They are taken as unbounded numbers. *)
From Coq Require Import ZArith List Bool Arith.
From Verif Require Import Model.Segment Model.UlParse.
Import ListNotations.
Local Open Scope Z_scope.

(** The octets counted of RLC payload and of complete LLC frames. *)
Record octr := mk_octr { o_rlc : Z; o_llc : Z }.
Definition add_rlc (n : Z) (k : octr) : octr := mk_octr (o_rlc k + n) (o_llc k).
Definition add_llc (n : Z) (k : octr) : octr := mk_octr (o_rlc k) (o_llc k + n).

(** *count_payload of rlc_data_to_dl_append_gprs, encoding.cpp:1391-1523, and _egprs,
    encoding.cpp:1536-1654, in the cases of [append_gprs] and [append_egprs]. *)
Definition count_payload (edge : bool) (len : nat) (b : blk) (l : llc) (is_final : bool) : nat :=
  let chunk := chunk_size l in
  let space := (len - b_off b)%nat in
  if edge then
    if (space <? chunk)%nat then space
    else if (chunk =? space)%nat && is_final then space
    else if (chunk =? space)%nat then space
    else chunk
  else
    if (space <? chunk)%nat then space
    else if (chunk =? space)%nat && is_final then space
    else if (chunk =? space)%nat then (space - 1)%nat
    else chunk.

(** The loop of create_new_bsn, tbf_dl.cpp:599-684, as [fill], with the counters at 657-658 and
    665. *)
Fixpoint fill_ctr (fuel : nat) (edge : bool) (len : nat) (fin : nat -> bool) (b : blk) (s : sender) (k : octr)
  : option (blk * sender * octr) :=
  match fuel with
  | O => None
  | S n =>
    let round (s : sender) :=
      let '(r, b', l') := append edge len b (s_llc s) (fin (b_nch b)) in
      let k1 := add_rlc (Z.of_nat (count_payload edge len b (s_llc s) (fin (b_nch b)))) k in
      match r with
      | AR_NEED_MORE_BLOCKS => Some (b', mk_snd l' (s_dummy s) (s_queue s) (s_done s), k1)
      | _ =>
        let k2 := add_llc (Z.of_nat (length (l_frame l'))) k1 in
        let s' := next_frame (mk_snd no_llc false (s_queue s) (s_done s ++ [(l_frame l', s_dummy s)])) in
        match r with
        | AR_COMPLETED_SPACE_LEFT => fill_ctr n edge len fin b' s' k2
        | _ => Some (b', s', k2)
        end
      end in
    match l_frame (s_llc s) with
    | [] =>
      match b_nch b with
      | O => round (mk_snd (mk_llc (dummy_frame (len - b_off b - 1)) 0) true (s_queue s) (s_done s))
      | S _ =>
        let b1 := if fin (b_nch b) then mk_blk (b_oct b) (b_off b) (b_nch b) (b_e b) true else b in
        Some (if edge then li_padding len b1 else b1, s, k)
      end
    | _ => round s
    end
  end.
(** create_new_bsn, tbf_dl.cpp:559-694, as [create_block]. *)
Definition create_ctr (edge : bool) (len : nat) (fin : nat -> bool) (s : sender) (k : octr)
  : option (sent_block * sender * octr) :=
  match fill_ctr (S len) edge len fin (mk_blk (prepare len) 0 0 true false) (next_frame s) k with
  | None => None
  | Some (b, s', k') => Some (mk_sb (b_e b) (b_fbi b) (b_oct b), s', k')
  end.
Fixpoint seg_ctr (edge : bool) (steps : list seg_step) (s : sender) (k : octr) : option (list sent_block * sender * octr) :=
  match steps with
  | [] => Some ([], s, k)
  | x :: r =>
    match create_ctr edge (ss_len x) (ss_fin x) (mk_snd (s_llc s) (s_dummy s) (s_queue s ++ ss_new x) (s_done s)) k with
    | None => None
    | Some (sb, s1, k1) =>
      match seg_ctr edge r s1 k1 with
      | None => None
      | Some (l, s2, k2) => Some (sb :: l, s2, k2)
      end
    end
  end.

(** The loop of assemble_forward_llc, tbf_ul.cpp:180-202, as [forward], with the counters at 183
    and 199. *)
Fixpoint forward_ctr (mem : list Z) (l : list chunk) (st : ullc) (k : octr) : option (list (list Z) * ullc * octr) :=
  match l with
  | [] => Some ([], st, k)
  | c :: r =>
    let k1 := if c_len c =? 0 then k else add_rlc (c_len c) k in
    match (if c_len c =? 0 then Some st
           else match llc_append_frame st (slice mem (c_off c) (c_len c)) with
                | None => None
                | Some st' => Some (llc_consume st' (c_len c))
                end) with
    | None => None
    | Some st1 =>
      let k2 := if c_done c then add_llc (num (u_data st1)) k1 else k1 in
      let st2 := if c_done c then ullc_reset else st1 in
      match forward_ctr mem r st2 k2 with
      | None => None
      | Some (out, st3, k3) => Some ((if c_done c then [u_data st1] else []) ++ out, st3, k3)
      end
    end
  end.
(** assemble_forward_llc, tbf_ul.cpp:161-205, as [assemble], for block after block. *)
Definition assemble_ctr (b : ublk) (st : ullc) (k : octr) : option (list (list Z) * ullc * octr) :=
  match from_ul_data (ub_edge b) (ub_rdbi b) (ub_mem b) (Some 16) with
  | POk l _ => forward_ctr (ub_mem b) l st k
  | PErr _ => Some ([], st, k)
  | POob _ => None
  end.
Fixpoint assemble_all_ctr (bs : list ublk) (st : ullc) (k : octr) : option (list (list Z) * ullc * octr) :=
  match bs with
  | [] => Some ([], st, k)
  | b :: r =>
    match assemble_ctr b st k with
    | None => None
    | Some (o1, st1, k1) =>
      match assemble_all_ctr r st1 k1 with
      | None => None
      | Some (o2, st2, k2) => Some (o1 ++ o2, st2, k2)
      end
    end
  end.
