(** Paging on the packet channels.

    Models src/pdch.cpp:208-333 (dequeue_paging, packet_paging_request, add_paging),
    src/encoding.cpp:1141-1195 (write_packet_paging_request, write_repeated_page_info) and
    src/bts.cpp:390-515 (bts_add_paging).

    A bit vector is the list of its bits; bitvec_write_field writes the low bits of the value,
    most significant first.  Not modelled: failing allocations, and the decoding of the finished
    message for the log (a message that its decoder refuses would be dropped). *)
From Coq Require Import ZArith List Bool.
Import ListNotations.
Open Scope Z_scope.

Fixpoint fldb (n : nat) (v : Z) : list bool :=
  match n with O => [] | S n => Z.testbit v (Z.of_nat n) :: fldb n v end.

(** struct gprs_rlcmac_paging, src/gprs_rlcmac.h:54-58: [pg_id] is identity_lv without its
    length octet. *)
Record page := Page { pg_chan : Z; pg_id : list Z }.

(** write_packet_paging_request, src/encoding.cpp:1141-1155. *)
Definition pag_head : list bool :=
  fldb 2 1 ++ fldb 3 0 ++ fldb 3 0 ++ fldb 6 0x22 ++ fldb 2 0 ++ fldb 1 0 ++ fldb 1 0.

(** (identity[0] & 0x07) == 4. *)
Definition is_tmsi (p : page) : bool := Z.land (nth 0 (pg_id p) 0) 7 =? 4.

(** write_repeated_page_info, src/encoding.cpp:1171-1195. *)
Definition pag_info (p : page) : list bool :=
  fldb 1 1 ++ fldb 1 1 ++
  (if is_tmsi p then fldb 1 0 ++ flat_map (fldb 8) (skipn 1 (pg_id p))
   else fldb 1 1 ++ fldb 4 (Z.of_nat (length (pg_id p))) ++ flat_map (fldb 8) (pg_id p)) ++
  fldb 2 (pg_chan p) ++ fldb 1 0.

(** The length computed for a record, src/pdch.cpp:261-277; [None]: not sent. *)
Definition pag_len (p : page) : option Z :=
  let l := Z.of_nat (length (pg_id p)) in
  if is_tmsi p then (if negb (l =? 5) then None else Some (1 + 1 + 1 + 32 + 2 + 1))
  else if l >? 8 then None else Some (1 + 1 + 1 + 4 + l * 8 + 2 + 1).

(** The loop of packet_paging_request, src/pdch.cpp:250-292: the bits so far, the queue. *)
Fixpoint pag_fill (v : list bool) (q : list page) : list bool * list page :=
  match q with
  | [] => (v, [])
  | p :: q' =>
      match pag_len p with
      | None => pag_fill v q'
      | Some len =>
          if Z.of_nat (length v) + len >? 184 then (v, p :: q')
          else pag_fill (v ++ pag_info p) q'
      end
  end.

(** packet_paging_request: the vector has 23 octets, zero where nothing is written. *)
Definition pag_request (q : list page) : option (list bool) * list page :=
  match q with
  | [] => (None, [])
  | _ => let '(v, q) := pag_fill pag_head q in
         (Some (v ++ repeat false (184 - length v)), q)
  end.

(** Mobile identities and their encoding into at most 8 octets by libosmocore
    (osmo_mobile_identity_encode_buf): TMSI as 0xf4 and four octets; an IMSI of [n] digits
    with the first digit, the parity and type 1 in the first octet. *)
Inductive ident := Tmsi (t : Z) | Imsi (digits : list Z).
Fixpoint imsi_octets (l : list Z) : list Z :=
  match l with
  | [] => []
  | [d] => [15 * 16 + d]
  | d :: e :: l => (e * 16 + d) :: imsi_octets l
  end.
Definition encode_id (i : ident) : option (list Z) :=
  match i with
  | Tmsi t => Some [0xf4; t / 16777216 mod 256; t / 65536 mod 256; t / 256 mod 256; t mod 256]
  | Imsi [] => None
  | Imsi (d :: l) =>
      let o := (d * 16 + (if Nat.odd (length l) then 0 else 8) + 1) :: imsi_octets l in
      if Nat.leb (length o) 8 then Some o else None
  end.

(** add_paging, src/pdch.cpp:314-333: llist_add puts the record in front. *)
Definition add_paging (chan : Z) (i : ident) (q : list page) : list page :=
  match encode_id i with
  | Some o => Page chan o :: q
  | None => q
  end.

(** ** Where to page: src/bts.cpp:390-515 *)

(** A TBF: its TRX and whether it has each of the timeslots 0..7; a mobile: ms->ul_tbf, ms->dl_tbf. *)
Record ptbf := Ptbf { pt_trx : Z; pt_has : Z -> bool }.
Record pms := Pms { pm_ul : option ptbf; pm_dl : option ptbf }.

Definition ts8 : list Z := [0; 1; 2; 3; 4; 5; 6; 7].

(** slot_mask, as the list of marked (TRX, timeslot). *)
Definition marks : Type := list (Z * Z).
Definition marked (m : marks) (trx ts : Z) : bool :=
  existsb (fun x => (fst x =? trx) && (snd x =? ts)) m.

(** The loop over the timeslots, lines 479-488: the first slot found, and whether it ended
    at a marked one (break). *)
Fixpoint scan (m : marks) (t : ptbf) (first : Z) (l : list Z) : Z * bool :=
  match l with
  | [] => (first, false)
  | ts :: l =>
      if pt_has t ts then
        let first := if first <? 0 then ts else first in
        if marked m (pt_trx t) ts then (first, true) else scan m t first l
      else scan m t first l
  end.
(** Lines 474-500. *)
Definition mark_tbf (m : marks) (o : option ptbf) : marks :=
  match o with
  | None => m
  | Some t =>
      let '(first, brk) := scan m t (-1) ts8 in
      if negb brk && (0 <=? first) then (pt_trx t, first) :: m else m
  end.
Definition mark_ms (m : marks) (x : pms) : marks := mark_tbf (mark_tbf m (pm_ul x)) (pm_dl x).

(** The slots to which the page is added, in this order, lines 505-520. *)
Definition page_unknown (l : list pms) : list (Z * Z) :=
  let m := fold_left mark_ms l [] in
  filter (fun x => marked m (fst x) (snd x)) (flat_map (fun trx => map (fun ts => (trx, ts)) ts8) ts8).

(** bts_add_paging_known_ms, lines 390-419 (adding succeeds). *)
Definition first_slot (o : option ptbf) : option (Z * Z) :=
  match o with
  | None => None
  | Some t => match find (pt_has t) ts8 with Some ts => Some (pt_trx t, ts) | None => None end
  end.
Definition page_known (x : pms) : option (Z * Z) :=
  match first_slot (pm_ul x) with
  | Some s => Some s
  | None => first_slot (pm_dl x)
  end.
