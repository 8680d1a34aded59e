(** Reassembling an EGPRS block that is retransmitted in two halves:
    /repo/src/tbf_ul.cpp and rlc.h. *)
From Coq Require Import ZArith List Bool.
From Verif Require Import Model.CodingScheme Model.RlcCps.
Import ListNotations.
Local Open Scope Z_scope.

(** enum egprs_rlc_ul_reseg_bsn_state, rlc.h:57-62. *)
Inductive reseg_ul : Set := ResegDefault | ResegFirst | ResegSecond | ResegInvalid.

(** struct gprs_rlc_data, rlc.h:157-188: block[], len, block_info.data_len, cs_last and
    spb_status.block_status_ul. The other header fields are kept with the rest of the
    block and not modelled. *)
Record slot := mk_slot { k_mem : list Z; k_len : Z; k_dlen : Z; k_cs : scheme; k_st : reseg_ul }.

(** Writing the octets of a segment into block[] at [off]; the octets come from
    rlc_copy_to_aligned_buffer (BitCopy.v). None: they pass the end of block[]. *)
Definition store (mem : list Z) (off : Z) (data : list Z) : option (list Z) :=
  let n := Z.of_nat (length data) in
  if RLC_MAX_LEN <? off + n then None
  else Some (firstn (Z.to_nat off) mem ++ data ++ skipn (Z.to_nat (off + n)) mem).

Definition is_first (s : reseg_ul) : bool := match s with ResegFirst => true | _ => false end.
Definition is_second (s : reseg_ul) : bool := match s with ResegSecond => true | _ => false end.
Definition is_default (s : reseg_ul) : bool := match s with ResegDefault => true | _ => false end.

(** handle_egprs_ul_second_seg, tbf_ul.cpp:486-517. The segment's rdbi->data_len is the
    number of its octets. *)
Definition second_seg (data : list Z) (k : slot) : option slot :=
  let n := Z.of_nat (length data) in
  if is_first (k_st k) then
    match store (k_mem k) (k_len k) data with
    | None => None
    | Some m => Some (mk_slot m ((k_len k + n) mod 256) (k_dlen k + n) (k_cs k) ResegDefault)
    end
  else if is_default (k_st k) then
    match store (k_mem k) n data with
    | None => None
    | Some m => Some (mk_slot m (n mod 256) n (k_cs k) ResegSecond)
    end
  else Some k.
(** handle_egprs_ul_first_seg, tbf_ul.cpp:519-548. *)
Definition first_seg (data : list Z) (k : slot) : option slot :=
  let n := Z.of_nat (length data) in
  if is_second (k_st k) then
    match store (k_mem k) 0 data with
    | None => None
    | Some m => let l := (k_len k + n) mod 256 in Some (mk_slot m l l (k_cs k) ResegDefault)
    end
  else if is_default (k_st k) then
    match store (k_mem k) 0 data with
    | None => None
    | Some m => Some (mk_slot m (n mod 256) n (k_cs k) ResegFirst)
    end
  else Some k.
(** The coding scheme after a complete reassembly, tbf_ul.cpp:581-600. *)
Definition upgrade (cs : scheme) (k : slot) : slot :=
  mk_slot (k_mem k) (k_len k) (k_dlen k)
    (match cs with MCS3 => MCS6 | MCS2 => MCS5 | MCS1 => MCS4 | _ => k_cs k end) (k_st k).
(** handle_egprs_ul_spb, tbf_ul.cpp:550-601: the slot and the returned status. *)
Definition handle_spb (cs : scheme) (spb : Z) (data : list Z) (k : slot) : option (slot * reseg_ul) :=
  if spb =? 2 then
    match first_seg data k with
    | None => None
    | Some k' => Some (if is_default (k_st k') then upgrade cs k' else k', k_st k')
    end
  else if spb =? 3 then
    match second_seg data k with
    | None => None
    | Some k' => Some (if is_default (k_st k') then upgrade cs k' else k', k_st k')
    end
  else Some (k, ResegInvalid).

(** A received data block for one place in the window: its scheme, its split block indicator
    and its octets. *)
Record rxb := mk_rxb { r_cs : scheme; r_spb : Z; r_data : list Z }.
(** The place: the slot, and whether the block number has been received. *)
Record place := mk_place { p_slot : slot; p_got : bool }.
Inductive pev := Rx (b : rxb) | Wrap.

(** The part of rcv_data_block_acknowledged for one block number, tbf_ul.cpp:300-375, when
    the TLLI in it is fine: the octets handed on when it becomes received. [Wrap]: the
    window has moved on and the place serves the next block with this number. *)
Definition pl_step (e : pev) (p : place) : option (place * option (list Z)) :=
  match e with
  | Wrap => Some (mk_place (p_slot p) false, None)
  | Rx b =>
    if p_got p then Some (p, None)
    else
      let out (k : slot) := Some (firstn (Z.to_nat (k_len k)) (k_mem k)) in
      if r_spb b =? 0 then
        let n := Z.of_nat (length (r_data b)) in
        match store (k_mem (p_slot p)) 0 (r_data b) with
        | None => None
        | Some m => let k := mk_slot m (n mod 256) n (r_cs b) (k_st (p_slot p)) in Some (mk_place k true, out k)
        end
      else
        match handle_spb (r_cs b) (r_spb b) (r_data b) (p_slot p) with
        | None => None
        | Some (k, st) => if is_default st then Some (mk_place k true, out k) else Some (mk_place k false, None)
        end
  end.
Fixpoint pl_run (es : list pev) (p : place) : option (place * list (list Z)) :=
  match es with
  | [] => Some (p, [])
  | e :: r =>
    match pl_step e p with
    | None => None
    | Some (p1, o) =>
      match pl_run r p1 with
      | None => None
      | Some (p2, l) => Some (p2, (match o with Some x => [x] | None => [] end) ++ l)
      end
    end
  end.
