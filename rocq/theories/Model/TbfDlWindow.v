(** How a downlink TBF drives its window (src/tbf_dl.cpp) and how an
    acknowledgement report becomes a bit string (src/decoding.cpp). *)
From Coq Require Import ZArith List Bool.
From Verif Require Import Base.Arith Model.RlcWindow Model.RlcWindowDl.
Import ListNotations.
Local Open Scope Z_scope.

(** The window part of [create_new_bsn] (src/tbf_dl.cpp 559-694, the window is
    touched in 563 and 690-693): the new block gets number V(S). *)
Definition tbf_create_new_bsn (w : dl_window) : dl_window * Z :=
  let bsn := dw_vs w in
  (dl_increment_send (vb_mark w bsn DlUnacked), bsn).

(** [restart_bsn_cycle] (src/tbf_dl.cpp 239-264). *)
Definition tbf_restart_bsn_cycle (w : dl_window) : option (dl_window * bool) :=
  if dl_empty w then Some (w, false) else
  match dl_mark_for_resend w with
  | None => None
  | Some (w', n) => Some (w', negb (n =? 0))
  end.

(** What [take_next_bsn] reads from outside the window. *)
Record take_env := mk_take_env {
  te_finished : bool;          (* state_is(TBF_ST_FINISHED) *)
  te_have_data : bool;         (* have_data() *)
  te_preemptive : bool;        (* vty.dl_tbf_preemptive_retransmission *)
  te_prev_edge : bool;         (* mcs_is_edge(cs_current_trans of the previous block) *)
  te_len : Z -> Z }.           (* stored payload length of a block *)

(** [take_next_bsn] (src/tbf_dl.cpp 266-390). [prev] is [previous_bsn] (-1: none).
    The choice of the coding scheme and [may_combine] are not part of the window
    and are left out. The C function calls itself once after a successful
    [restart_bsn_cycle]; [fuel] bounds that recursion and [None] is "out of fuel". *)
Fixpoint tbf_take_next_bsn (fuel : nat) (e : take_env) (prev : Z) (w : dl_window)
  : option (dl_window * Z) :=
  match fuel with
  | O => None
  | S f =>
    let retry w' (go : bool) :=
      if go then tbf_take_next_bsn f e prev w'
      else Some (w', dmod w' (dw_vs w' - 1)) in
    match dl_resend_needed w with
    | None => None
    | Some bsn =>
      if (0 <=? prev) && negb (te_prev_edge e) then Some (w, -1)
      else if 0 <=? bsn then
        if prev =? bsn then Some (w, -1)
        else if (0 <=? prev) && (RLC_EGPRS_MAX_BSN_DELTA <? dmod w (bsn - prev))
        then Some (w, -1)
        else if (0 <=? prev) && (0 <? te_len e prev)
                && negb (te_len e prev =? te_len e bsn) then Some (w, -1)
        else Some (vb_mark w bsn DlUnacked, bsn)
      else if te_finished e then
        match tbf_restart_bsn_cycle w with
        | None => None | Some (w', go) => retry w' go end
      else if dl_stalled w then
        match tbf_restart_bsn_cycle w with
        | None => None | Some (w', go) => retry w' go end
      else if te_have_data e then Some (tbf_create_new_bsn w)
      else if te_preemptive e && negb (dl_empty w) then
        match tbf_restart_bsn_cycle w with
        | None => None | Some (w', go) => retry w' go end
      else Some (tbf_create_new_bsn w)
    end
  end.

(** The window part of [update_window]/[rcvd_dl_ack] (src/tbf_dl.cpp 1018-1062 and
    1081-1113): [update], then [raise(move_window())]; a final acknowledgement
    resets the window. Result: window, lost, received. *)
Definition tbf_rcvd_dl_ack (final : bool) (first_bsn : Z) (rbb : list bool) (w : dl_window)
  : option (dl_window * Z * Z) :=
  let '(w1, lost, received) := dl_update w first_bsn rbb in
  match dl_move_window w1 with
  | None => None
  | Some (w2, moved) =>
      let w3 := dl_raise w2 moved in
      Some ((if final then dl_reset w3 else w3), lost, received)
  end.

(** The mark made for the first half of a split block in [create_dl_acked_block]
    (src/tbf_dl.cpp 830-831). *)
Definition tbf_first_seg_sent (w : dl_window) (bsn : Z) : dl_window := vb_mark w bsn DlNacked.

(** [bitvec_set_bit] appends while the buffer of [cap] bits has room and fails
    without effect otherwise; the callers ignore the failure. (libosmocore) *)
Definition bv_push (cap : Z) (bits : list bool) (b : bool) : list bool :=
  if Z.of_nat (length bits) <? cap then bits ++ [b] else bits.
Definition bv_pushes (cap : Z) (bits l : list bool) : list bool :=
  fold_left (bv_push cap) l bits.

(** [handle_final_ack] (src/decoding.cpp 625-637). *)
Definition handle_final_ack (cap : Z) (w : dl_window) : list bool * Z :=
  (bv_pushes cap [] (repeat true (Z.to_nat (dmod w (dw_vs w - dw_va w)))), dw_va w).

(** [decode_gprs_acknack_bits] (src/decoding.cpp 739-784). [rbb] is the bitmap of the
    message as transmitted, position 0 first. The result is the bit string and
    [bsn_begin]; the -EINVAL case leaves the bit string empty, and the caller goes
    on with it (src/pdch.cpp 470-560). The buffer holds 64 bits. *)
Definition decode_gprs_acknack (final : bool) (ssn : Z) (rbb : Z -> bool) (w : dl_window)
  : list bool * Z :=
  if final then handle_final_ack 64 w else
  let n := dmod w (ssn - dw_va w) in
  if 64 <? n then ([], dw_va w)
  else (bv_pushes 64 [] (map (fun k => rbb (64 - n + Z.of_nat k)) (seq 0 (Z.to_nat n))), dw_va w).

(** [decode_egprs_acknack_bits] (src/decoding.cpp 639-737). [crbb] is the outcome of
    decompressing the compressed bitmap ([None]: absent; [Some (ok, l)]: [l] appended,
    [ok] false if decompression failed part-way); [urbb] is the uncompressed bitmap in
    the order of increasing block number. The buffer holds 1024 bits. *)
Definition decode_egprs_acknack (final bow : bool) (ssn : Z)
    (crbb : option (bool * list bool)) (urbb : list bool) (w : dl_window)
  : list bool * Z :=
  if final then handle_final_ack 1024 w else
  let implicit := if bow then dmod w (ssn - 1 - dw_va w) else 0 in
  let b0 := bv_pushes 1024 [] (repeat true (Z.to_nat implicit)) in
  let have_bitmap := match crbb with Some _ => true | None => negb (Nat.eqb (length urbb) 0) end in
  if negb have_bitmap then (b0, dw_va w) else
  let b1 := bv_push 1024 b0 false in
  match crbb with
  | None => (bv_pushes 1024 b1 urbb, dw_va w)
  | Some (true, l) => (bv_pushes 1024 (bv_pushes 1024 b1 l) urbb, dw_va w)
  | Some (false, l) => (bv_pushes 1024 b1 l, dw_va w)
  end.

(** The window part of [create_dl_acked_block] (src/tbf_dl.cpp 396-412 and 697-920):
    take a block; if its coding scheme carries two blocks ([second]), take another;
    then, for each block actually sent, [seg1]/[seg2] tell whether it went out as
    the first half of a split block (830-831). Result: the numbers sent. *)
Definition tbf_create_dl_acked_block (e1 : take_env) (second : option take_env)
    (seg1 seg2 : bool) (w : dl_window) : option (dl_window * list Z) :=
  match tbf_take_next_bsn 3 e1 (-1) w with
  | None => None
  | Some (w1, bsn) =>
    if bsn <? 0 then Some (w1, []) else
    let mark (b : bool) (n : Z) w := if b then tbf_first_seg_sent w n else w in
    match second with
    | None => Some (mark seg1 bsn w1, [bsn])
    | Some e2 =>
      match tbf_take_next_bsn 3 e2 bsn w1 with
      | None => None
      | Some (w2, bsn2) =>
        if bsn2 <? 0 then Some (mark seg1 bsn w2, [bsn])
        else Some (mark seg2 bsn2 (mark seg1 bsn w2), [bsn; bsn2])
      end
    end
  end.

(** Everything a TBF does to its window. *)
Inductive dl_op :=
| DBlock (e1 : take_env) (second : option take_env) (seg1 seg2 : bool)
                                            (* the scheduler asks for a radio block *)
| DReport (final : bool) (rbb : list bool)  (* an Ack/Nack report whose bits start at V(A) *)
| DSetWs (ws : Z).                          (* the window size follows the timeslots *)

(** [set_window_size] (src/tbf_dl.cpp 1336-1344). *)
Definition dl_set_ws (w : dl_window) (ws : Z) : option dl_window :=
  if set_ws_check ws
  then Some (mk_dlw (dw_vb w) (dw_vs w) (dw_va w) (dw_sns w) ws) else None.

Definition dl_step (o : dl_op) (w : dl_window) : option dl_window :=
  match o with
  | DBlock e1 e2 s1 s2 => option_map fst (tbf_create_dl_acked_block e1 e2 s1 s2 w)
  | DReport final rbb => option_map (fun r => fst (fst r)) (tbf_rcvd_dl_ack final (dw_va w) rbb w)
  | DSetWs ws => dl_set_ws w ws
  end.

Fixpoint dl_run (ops : list dl_op) (w : dl_window) : option dl_window :=
  match ops with
  | [] => Some w
  | o :: r => match dl_step o w with None => None | Some w' => dl_run r w' end
  end.
