(** C81: what the PCU tells the BTS is what the BTS understands, in the order it was said. *)
From Coq Require Import ZArith List Bool.
From Verif Require Import Model.PcuTx Spec.PcuTxSpec Proofs.PcuTxP Proofs.PcuTxQ Proofs.PcuTxR Proofs.PcuTxX.
Import ListNotations.
Local Open Scope Z_scope.

(** A block for a packet channel, or the absence of one, goes out for the timeslot, frame and block asked for. *)
Theorem C81_block : forall nr trx ts arfcn fn blk b,
  match b with Some d => (length d <= 162)%nat | None => True end -> 0 <= arfcn < 65536 -> 0 <= fn < 2 ^ 32 ->
  hear (tx_pdtch nr trx ts arfcn fn blk b) =
  Some (HData (mk_data nr trx ts 5 arfcn fn blk (match b with Some d => d | None => [] end))).
Proof. exact pdtch_hear. Qed.
Print Assumptions C81_block.
Example C81_ex_block : hear (tx_pdtch 1 2 7 871 2715647 11 (Some [71; 148; 43])) = Some (HData (mk_data 1 2 7 5 871 2715647 11 [71; 148; 43])).
Proof. vm_compute. reflexivity. Qed.

Theorem C81_ptcch : forall nr trx ts arfcn fn blk d,
  (length d <= 162)%nat -> 0 <= arfcn < 65536 -> 0 <= fn < 2 ^ 32 ->
  hear (tx_ptcch nr trx ts arfcn fn blk d) = Some (HData (mk_data nr trx ts 7 arfcn fn blk d)).
Proof. exact ptcch_hear. Qed.
Print Assumptions C81_ptcch.
Example C81_ex_ptcch : hear (tx_ptcch 0 1 6 100 12 0 (repeat 127 23)) = Some (HData (mk_data 0 1 6 7 100 12 0 (repeat 127 23))).
Proof. vm_compute. reflexivity. Qed.

(** Packet channels are switched on and off as meant; the version arrives, cut to 127 characters; a neighbour is
    asked for by its own parameters. *)
Theorem C81_act : forall nr trx ts activate, hear (act_req nr trx ts activate) = Some (HAct nr trx ts (negb (activate =? 0))).
Proof. exact act_req_hear. Qed.
Print Assumptions C81_act.
Example C81_ex_act : hear (act_req 3 1 6 1) = Some (HAct 3 1 6 true) /\ hear (act_req 3 1 6 0) = Some (HAct 3 1 6 false).
Proof. split; reflexivity. Qed.

Theorem C81_version : forall text, Forall (fun c => c <> 0) text -> hear (txt_ind text) = Some (HVersion (firstn 127 text)).
Proof. exact txt_hear. Qed.
Print Assumptions C81_version.
Example C81_ex_version : hear (txt_ind [49; 46; 53]) = Some (HVersion [49; 46; 53]).
Proof. vm_compute. reflexivity. Qed.

Theorem C81_neigh : forall nr lac ci arfcn bsic, 0 <= lac < 65536 -> 0 <= ci < 65536 -> 0 <= arfcn < 65536 ->
  hear (neigh_addr_req nr lac ci arfcn bsic) = Some (HNeigh nr lac ci arfcn bsic).
Proof. exact neigh_hear. Qed.
Print Assumptions C81_neigh.
Example C81_ex_neigh : hear (neigh_addr_req 0 0x1234 0xabcd 871 63) = Some (HNeigh 0 0x1234 0xabcd 871 63).
Proof. vm_compute. reflexivity. Qed.

(** A block for the access grant channel, and for the paging channel: the reference to confirm it by, the IMSI for
    the paging group, the pseudo length in front of the 22 octets. *)
Theorem C81_agch : forall nr block plen confirm id, length block = 22%nat -> 0 <= plen < 64 -> 0 <= id < 2 ^ 32 ->
  exists d, hear (tx_agch2 nr block plen confirm id) = Some (HData (mk_data nr 0 0 9 0 0 0 d)) /\
            hear_agch d = Some (mk_ccch id [] ((4 * plen + 1) :: block) confirm).
Proof. exact agch_says. Qed.
Print Assumptions C81_agch.
Theorem C81_pch : forall nr block plen confirm imsi id, length block = 22%nat -> 0 <= plen < 64 -> 0 <= id < 2 ^ 32 ->
  match imsi with Some s => (length s <= 15)%nat /\ Forall (fun c => c <> 0) s | None => True end ->
  exists d, hear (tx_pch2 nr block plen confirm imsi id) = Some (HData (mk_data nr 0 0 8 0 0 0 d)) /\
            hear_pch d = Some (mk_ccch id (match imsi with Some s => s | None => [] end) ((4 * plen + 1) :: block) confirm).
Proof. exact pch_says. Qed.
Print Assumptions C81_pch.
Example C81_ex_pch : (length (repeat 0x2b 22) = 22)%nat /\
  match hear (tx_pch2 2 (repeat 0x2b 22) 11 true (Some [50; 54; 50; 52; 50]) 0xc0ffee42) with
  | Some (HData d) => hear_pch (d_octets d) = Some (mk_ccch 0xc0ffee42 [50; 54; 50; 52; 50] (45 :: repeat 0x2b 22) true)
  | _ => False
  end.
Proof. split; [reflexivity | vm_compute; reflexivity]. Qed.

(** Paging for packet data: the BTS gets, for the paging group of the IMSI, a PAGING REQUEST TYPE 1 that names the
    identity and says that it is for packet data; no confirmation is asked for. *)
Theorem C81_paging : forall nr mi imsi, Forall (fun x => 0 <= x < 256) mi -> (0 < length mi <= 17)%nat ->
  match imsi with Some s => (length s <= 15)%nat /\ Forall (fun c => c <> 0) s | None => True end ->
  exists m d block, paging_request nr mi imsi = (Some m, true) /\
    hear m = Some (HData (mk_data nr 0 0 8 0 0 0 d)) /\
    hear_pch d = Some (mk_ccch 0xffffffff (match imsi with Some s => s | None => [] end) block false) /\
    page block = Some (mi, true).
Proof. exact paging_hear. Qed.
Print Assumptions C81_paging.
Example C81_ex_paging : page (49 :: [0x06; 0x21; 0; 8; 0x29; 0x26; 0x24; 0x11; 0x11; 0x11; 0x11; 0x11; 0x27] ++ repeat 0x2b 9) =
  Some ([0x29; 0x26; 0x24; 0x11; 0x11; 0x11; 0x11; 0x11], true) /\
  page (49 :: [0x06; 0x21; 0; 8; 0x29; 0x26; 0x24; 0x11; 0x11; 0x11; 0x11; 0x11; 0x2b] ++ repeat 0x2b 9) =
  Some ([0x29; 0x26; 0x24; 0x11; 0x11; 0x11; 0x11; 0x11], false).
Proof. split; vm_compute; reflexivity. Qed.

(** What was written to the socket is the first of what was accepted, in order, each message once and unchanged; while
    the PCU runs, the rest is in the queue. *)
Theorem C81_order : forall version ok es, Forall event_ok es ->
  prefix (k_wire (sock_run version ok es)) (accepted_all version ok es) /\
  (k_exit (sock_run version ok es) = false ->
   accepted_all version ok es = k_wire (sock_run version ok es) ++ k_queue (sock_run version ok es)).
Proof. exact in_order. Qed.
Print Assumptions C81_order.
Example C81_ex_order : Forall event_ok es1 /\ k_exit (sock_run v1 true es1) = false /\
  k_wire (sock_run v1 true es1) = [txt_ind v1; [1]] /\ k_queue (sock_run v1 true es1) = [[2]; [3]].
Proof. exact ex1. Qed.

(** The first message on a connection is the version. *)
Theorem C81_first : forall version ok es, Forall event_ok es ->
  k_wire (sock_run version ok es) = [] \/ exists r, k_wire (sock_run version ok es) = txt_ind version :: r.
Proof. exact first_wire. Qed.
Print Assumptions C81_first.

(** As long as something is queued, and only then, the PCU asks to be told when it can write. *)
Theorem C81_asks : forall version ok es, Forall event_ok es -> k_exit (sock_run version ok es) = false ->
  (k_want (sock_run version ok es) = true <-> k_queue (sock_run version ok es) <> []).
Proof. exact asks. Qed.
Print Assumptions C81_asks.
Example C81_ex_asks : k_want (sock_run v1 true es1) = true /\ k_want (sock_run v1 true (es1 ++ [Ready None true [WAll; WAll]])) = false.
Proof. exact ex2. Qed.

(** When the socket can be written to and takes everything, all that was queued goes out, with what is sent in answer
    to a message that came in at the same time; if that message was processed without an error.  (The full statement,
    without [read_fine], is false: [C81_turn_refuted].) *)
Theorem C81_turn_partial : forall version ok es rd ws, Forall event_ok es -> event_ok (Ready rd true ws) -> read_fine rd ->
  let k := sock_run version ok es in
  k_exit k = false -> k_queue k <> [] ->
  Forall (fun w => w = WAll) ws ->
  (length (k_queue k ++ taken version k (Ready rd true ws)) <= length ws)%nat ->
  let k' := sock_step version k (Ready rd true ws) in
  k_queue k' = [] /\ k_wire k' = k_wire k ++ k_queue k ++ taken version k (Ready rd true ws) /\ k_exit k' = false.
Proof. exact write_turn. Qed.
Print Assumptions C81_turn_partial.
Example C81_ex_turn : let k := sock_run v1 true es1 in k_queue k <> [] /\
  let k' := sock_step v1 k (Ready (Some (RGot [[4]] 0)) true [WAll; WAll; WAll]) in k_queue k' = [] /\ k_wire k' = [txt_ind v1; [1]; [2]; [3]; [4]].
Proof. exact ex3. Qed.

(** Each message that comes in and is refused holds back what is queued: as long as they come, nothing goes out. *)
Theorem C81_turn_refuted : exists version es, Forall event_ok es /\ k_exit (sock_run version true es) = false /\
  forall n, let k := sock_run version true (es ++ repeat (Ready (Some (RGot [] (-22))) true [WAll; WAll]) n) in
            k_exit k = false /\ k_queue k = [txt_ind version; [1]] /\ k_wire k = [].
Proof. exact turn_refuted. Qed.
Print Assumptions C81_turn_refuted.

(** Not every message is released in the end: those sent while there is no connection are kept, one by one, and so is
    the vector of a paging request whose identity cannot be encoded. *)
Theorem C81_released_refuted :
  (forall version n, k_kept (sock_run version false (repeat (Send [1]) n)) = repeat [1] n) /\
  (forall nr imsi, paging_request nr [] imsi = (None, false)).
Proof. exact released_refuted. Qed.
Print Assumptions C81_released_refuted.
