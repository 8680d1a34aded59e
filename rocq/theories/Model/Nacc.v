(** Network assisted cell change.

    Models src/nacc_fsm.c:40-793 and 897-926, src/gprs_ms.c:1046-1083, the dispatching in
    src/pdch.cpp:442-449 and 870-898, src/tbf.cpp:550-557, src/pcu_l1_if.cpp:1200-1205 and
    src/gprs_bssgp_rim.c:153-159, and the messages of src/encoding.cpp:1753-1805 with the layouts of
    src/gsm_rlcmac.c:4312-4365.  A bit vector is the list of its bits; a value is written with its low
    bits, most significant first.  Not modelled: the padding at the end of the Packet Cell Change
    Continue, the contents of the request to the SGSN, the CTRL reply of nacc_fsm.c:799-865 (not
    used any more), log output and counters. *)
From Coq Require Import ZArith List Bool.
From Verif Require Import Model.NeighCache Model.Paging.
Import ListNotations.
Open Scope Z_scope.

(** enum nacc_fsm_states, src/nacc_fsm.h:37-45. *)
Inductive nst := INITIAL | WAIT_RAC | WAIT_SI | TX_DATA | TX_CONT | WAIT_ACK | DONE.

(** out_state_mask, src/nacc_fsm.c:709-778. *)
Definition may (a b : nst) : bool :=
  match a, b with
  | INITIAL, WAIT_RAC | INITIAL, TX_CONT => true
  | WAIT_RAC, WAIT_RAC | WAIT_RAC, WAIT_SI | WAIT_RAC, TX_CONT => true
  | WAIT_SI, WAIT_RAC | WAIT_SI, TX_DATA | WAIT_SI, TX_CONT => true
  | TX_DATA, WAIT_RAC | TX_DATA, TX_CONT => true
  | TX_CONT, WAIT_RAC | TX_CONT, WAIT_ACK => true
  | WAIT_ACK, WAIT_RAC | WAIT_ACK, TX_CONT | WAIT_ACK, DONE => true
  | _, _ => false
  end.

(** A cell of this PCU: its number, CGI-PS and the system information set (without pseudo header),
    struct gprs_rlcmac_bts. *)
Record bts := Bts { b_nr : Z; b_cgi : cgi; b_si1 : option (list Z); b_si3 : option (list Z); b_si13 : option (list Z) }.

(** The target cell of a Packet Cell Change Notification as decoded. *)
Inductive target :=
| Gsm (arfcn bsic : Z)
| Utran
| Lte (gsm : option (Z * Z)) (utran eutran : bool)   (* Target_Cell_4G_Notif: which parts exist *)
| Csg.

(** struct nacc_fsm_ctx, src/nacc_fsm.h:47-58; [n_timer]: the timer of the state is running. *)
Record nacc := N { n_st : nst; n_key : nkey; n_present : bool; n_cgi : cgi; n_psi : bool; n_si : list Z;
  n_sent : Z; n_idx : Z; n_poll : Z * Z; n_timer : bool }.

(** What surrounds the machine when an event is handled: the cell of the mobile, all cells, the
    contents of the two caches, whether the two requests can be sent, whether the two timers are
    configured to a time other than zero. *)
Record world := W { w_bts : bts; w_cells : list bts; w_neigh : nkey -> option cgi; w_addr_ok : bool;
  w_si : cgi -> option (bool * list Z); w_rim_ok : bool; w_t_neigh : bool; w_t_si : bool }.

(** fill_neigh_key_from_bts_pkt_cell_chg_not, src/nacc_fsm.c:275-362; the outer [None]: rc < 0;
    the inner [None]: no key present. *)
Definition key_for (b : bts) (arfcn bsic : Z) : nkey := Nkey (g_lac (b_cgi b)) (g_ci (b_cgi b)) arfcn bsic.
Definition fill_key (b : bts) (t : target) : option (option nkey) :=
  match t with
  | Gsm a s => Some (Some (key_for b a s))
  | Utran => Some None
  | Lte (Some (a, s)) _ _ => Some (Some (key_for b a s))
  | Lte None utran eutran => if utran then Some None else if eutran then Some None else None
  | Csg => None
  end.
Definition key0 : nkey := Nkey 0 0 0 0.

(** bts_fill_si_cache_value, src/nacc_fsm.c:365-384. *)
Definition opt (o : option (list Z)) : list Z := match o with Some l => l | None => [] end.
Definition local_si (b : bts) : list Z := opt (b_si1 b) ++ opt (b_si3 b) ++ opt (b_si13 b).

Definition set_st (s : nst) (timer : bool) (n : nacc) : nacc :=
  N s (n_key n) (n_present n) (n_cgi n) (n_psi n) (n_si n) (n_sent n) (n_idx n) (n_poll n) timer.
Definition set_key (k : nkey) (p : bool) (n : nacc) : nacc :=
  N (n_st n) k p (n_cgi n) (n_psi n) (n_si n) (n_sent n) (n_idx n) (n_poll n) (n_timer n).
Definition set_cgi (g : cgi) (n : nacc) : nacc :=
  N (n_st n) (n_key n) (n_present n) g (n_psi n) (n_si n) (n_sent n) (n_idx n) (n_poll n) (n_timer n).
Definition set_si (psi : bool) (l : list Z) (n : nacc) : nacc :=
  N (n_st n) (n_key n) (n_present n) (n_cgi n) psi l (n_sent n) (n_idx n) (n_poll n) (n_timer n).
Definition set_prog (sent idx : Z) (n : nacc) : nacc :=
  N (n_st n) (n_key n) (n_present n) (n_cgi n) (n_psi n) (n_si n) sent idx (n_poll n) (n_timer n).
Definition set_poll (fn ts : Z) (n : nacc) : nacc :=
  N (n_st n) (n_key n) (n_present n) (n_cgi n) (n_psi n) (n_si n) (n_sent n) (n_idx n) (fn, ts) (n_timer n).

(** nacc_fsm_state_chg to each of the states: refused if not in the mask; the running timer is
    deleted, the one of the new state started if configured, and then onenter runs. *)
Definition chg_cont (n : nacc) : nacc := if may (n_st n) TX_CONT then set_st TX_CONT false n else n.
(** st_tx_neighbour_data_on_enter, src/nacc_fsm.c:593-598. *)
Definition chg_data (n : nacc) : nacc :=
  if may (n_st n) TX_DATA then set_prog 0 0 (set_st TX_DATA false n) else n.
(** st_wait_request_si_on_enter, src/nacc_fsm.c:507-562. *)
Definition chg_si (w : world) (n : nacc) : nacc :=
  if may (n_st n) WAIT_SI then
    let n := set_st WAIT_SI (w_t_si w) n in
    match find (fun b => negb (b_nr b =? b_nr (w_bts w)) && cgi_eq (n_cgi n) (b_cgi b)) (w_cells w) with
    | Some _ => chg_data (set_si false (local_si (w_bts w)) n)
    | None =>
        match w_si w (n_cgi n) with
        | Some (psi, l) => chg_data (set_si psi l n)
        | None => if w_rim_ok w then n else chg_cont n
        end
    end
  else n.
(** st_wait_resolve_rac_ci_on_enter, src/nacc_fsm.c:459-480. *)
Definition chg_rac (w : world) (n : nacc) : nacc :=
  if may (n_st n) WAIT_RAC then
    let n := set_st WAIT_RAC (w_t_neigh w) n in
    match w_neigh w (n_key n) with
    | Some g => chg_si w (set_cgi g n)
    | None => if w_addr_ok w then n else chg_cont n
    end
  else n.

(** handle_retrans_pkt_cell_chg_notif, src/nacc_fsm.c:390-419. *)
Definition is_cont (s : nst) : bool := match s with TX_CONT => true | _ => false end.
Definition retrans (w : world) (t : target) (n : nacc) : nacc :=
  match fill_key (w_bts w) t with
  | None => if negb (is_cont (n_st n)) then chg_cont n else n
  | Some None => chg_cont n
  | Some (Some k) => if negb (nkey_eq (n_key n) k) then chg_rac w (set_key k true n) else n
  end.

(** A request of the scheduler: the TBF has a TFI, is a downlink TBF, its TFI; the message can be
    allocated and encoded; the poll that can be registered (frame number, RRBP) and the timeslot. *)
Record create := Cr { cr_assigned : bool; cr_dl : bool; cr_tfi : Z; cr_enc : bool; cr_poll : option (Z * Z); cr_ts : Z }.

Definition b2z (b : bool) : Z := if b then 1 else 0.
(** Header, message type, page mode, Global TFI. *)
Definition ctrl_head (rrbp sp mt : Z) (c : create) : list bool :=
  fldb 2 1 ++ fldb 2 rrbp ++ fldb 1 sp ++ fldb 3 0 ++ fldb 6 mt ++ fldb 2 0 ++ fldb 1 0 ++
  fldb 1 (b2z (cr_dl c)) ++ fldb 5 (cr_tfi c).
Definition pad_to (n : nat) (l : list Z) : list Z := l ++ repeat 0 (n - length l).

(** size_t arithmetic. *)
Definition sz (x : Z) : Z := x mod 2 ^ 64.

(** create_packet_neighbour_cell_data, src/nacc_fsm.c:73-157, write_packet_neighbour_cell_data,
    src/encoding.cpp:1753-1776: the block, whether all was sent, and the progress. *)
Definition create_data (c : create) (n : nacc) : list bool * bool * nacc :=
  let with_id := n_idx n =? 0 in
  let size := if with_id then 17 else 19 in
  let max_len := size - 1 in
  let si_type := b2z (n_psi n) in
  let len := sz (Z.of_nat (length (n_si n)) - n_sent n) in
  let '(first, data, all) :=
    if len =? 0 then (Z.lor (Z.shiftl si_type 5) 0, [], true)
    else if len >=? max_len then
      (Z.lor (Z.shiftl si_type 5) 0x1f, firstn (Z.to_nat max_len) (skipn (Z.to_nat (n_sent n)) (n_si n)), false)
    else
      (Z.lor (Z.shiftl si_type 5) (Z.land len 0x1f), firstn (Z.to_nat len) (skipn (Z.to_nat (n_sent n)) (n_si n)), true) in
  let cont := pad_to (Z.to_nat size) (first :: data) in
  (ctrl_head 0 0 0x0c c ++ fldb 2 0 ++ fldb 1 0 ++ fldb 5 (n_idx n mod 256) ++
     (if with_id then fldb 1 1 ++ fldb 10 (k_arfcn (n_key n)) ++ fldb 6 (k_bsic (n_key n)) else fldb 1 0) ++
     flat_map (fldb 8) cont,
   all,
   set_prog (if len =? 0 then n_sent n else if len >=? max_len then n_sent n + max_len else n_sent n + len) (n_idx n + 1) n).

(** create_packet_cell_chg_continue, src/nacc_fsm.c:160-215, write_packet_cell_change_continue,
    src/encoding.cpp:1778-1805. *)
Definition create_continue (rrbp : Z) (c : create) (n : nacc) : list bool :=
  ctrl_head rrbp 1 0x0b c ++
  (if n_present n then fldb 1 1 ++ fldb 10 (k_arfcn (n_key n)) ++ fldb 6 (k_bsic (n_key n)) ++ fldb 2 0 else fldb 1 0).

Inductive msg := Data (l : list bool) | Continue (l : list bool).
(** The machine goes on (with the message it created, if any), it was terminated and its context
    freed, or an assertion failed. *)
Inductive res := Alive (n : nacc) (m : option msg) | Ended | Assert.

Inductive ev :=
| Notif (t : target)                                  (* NACC_EV_RX_CELL_CHG_NOTIFICATION *)
| RacCi (r : option cgi)                              (* NACC_EV_RX_RAC_CI *)
| RxSi (psi : bool) (l : list Z)                      (* NACC_EV_RX_SI *)
| Create (c : create)                                 (* NACC_EV_CREATE_RLCMAC_MSG *)
| Acked                                               (* NACC_EV_RX_CELL_CHG_CONTINUE_ACK *)
| PollLost.                                           (* NACC_EV_TIMEOUT_CELL_CHG_CONTINUE *)

(** in_event_mask, src/nacc_fsm.c:709-778. *)
Definition permits (s : nst) (e : ev) : bool :=
  match s, e with
  | DONE, _ => false
  | _, Notif _ => true
  | WAIT_RAC, RacCi _ => true
  | WAIT_SI, RxSi _ _ => true
  | TX_DATA, Create _ | TX_CONT, Create _ => true
  | WAIT_ACK, Acked | WAIT_ACK, PollLost => true
  | _, _ => false
  end.

(** The actions of the states, src/nacc_fsm.c:425-682. *)
Definition action (w : world) (n : nacc) (e : ev) : res :=
  match n_st n with
  | INITIAL =>
      match e with
      | Notif t => match fill_key (w_bts w) t with
                   | None => Ended
                   | Some None => Alive (chg_cont (set_key key0 false n)) None
                   | Some (Some k) => Alive (chg_rac w (set_key k true n)) None
                   end
      | _ => Assert
      end
  | WAIT_RAC =>
      match e with
      | Notif t => Alive (retrans w t n) None
      | RacCi (Some g) => Alive (chg_si w (set_cgi g n)) None
      | RacCi None => Alive (chg_cont n) None
      | _ => Assert
      end
  | WAIT_SI =>
      match e with
      | Notif t => Alive (retrans w t n) None
      | RxSi psi l => Alive (chg_data (set_si psi l n)) None
      | _ => Assert
      end
  | TX_DATA =>
      match e with
      | Notif t => Alive (retrans w t n) None
      | Create c =>
          if negb (cr_assigned c) then Assert
          else let '(m, all, n) := create_data c n in
               if negb (cr_enc c) then Ended
               else Alive (if all then chg_cont n else n) (Some (Data m))
      | _ => Assert
      end
  | TX_CONT =>
      match e with
      | Notif t => Alive (retrans w t n) None
      | Create c =>
          match cr_poll c with
          | None => Alive n None
          | Some (fn, rrbp) =>
              if negb (cr_assigned c) then Assert
              else let n := set_poll fn (snd (n_poll n)) n in
                   if negb (cr_enc c) then Alive n None
                   else let m := create_continue rrbp c n in
                        let n := set_poll fn (cr_ts c) n in
                        Alive (if may (n_st n) WAIT_ACK then set_st WAIT_ACK false n else n) (Some (Continue m))
          end
      | _ => Assert
      end
  | WAIT_ACK =>
      match e with
      | Notif t => Alive (retrans w t n) None
      | PollLost => Alive (chg_cont n) None
      | Acked => Ended
      | _ => Assert
      end
  | DONE => Assert
  end.

(** osmo_fsm_inst_dispatch: an event that the state does not permit is refused. *)
Definition dispatch (w : world) (n : nacc) (e : ev) : res :=
  if permits (n_st n) e then action w n e else Alive n None.

(** nacc_fsm_alloc, src/nacc_fsm.c:877-895. *)
Definition cgi0 : cgi := Cgi 0 0 false 0 0 0.
Definition nacc_new : nacc := N INITIAL key0 false cgi0 false [] 0 0 (0, 0) false.

(** What happens around a mobile: a notification from it; a confirmation of the resolution of an
    address; the answer of the SGSN with system information; a request of the scheduler for one of
    its TBFs on its control timeslot; a Packet Control Acknowledgement or the end of the wait for it
    at a frame number and timeslot; the timer of the state. *)
Inductive mev := MNotif (t : target) | MAddr (k : nkey) (r : option cgi) | MRan (g : cgi) (psi : bool) (l : list Z)
               | MRts (c : create) | MAck (fn ts : Z) | MLost (fn ts : Z) | MTimer.

(** ms_nacc_rts, src/gprs_ms.c:1055-1063, with tbf_nacc_rts, src/nacc_fsm.c:920-926. *)
Definition rts (n : nacc) (c : create) : bool :=
  cr_assigned c && match n_st n with TX_DATA | TX_CONT => true | _ => false end.
(** nacc_fsm_exp_ctrl_ack, src/nacc_fsm.c:913-918. *)
Definition exp_ack (n : nacc) (fn ts : Z) : bool :=
  match n_st n with WAIT_ACK => true | _ => false end && (fst (n_poll n) =? fn) && (snd (n_poll n) =? ts).
Definition st_eqb (a b : nst) : bool :=
  match a, b with
  | INITIAL, INITIAL | WAIT_RAC, WAIT_RAC | WAIT_SI, WAIT_SI | TX_DATA, TX_DATA | TX_CONT, TX_CONT | WAIT_ACK, WAIT_ACK | DONE, DONE => true
  | _, _ => false
  end.

(** The machine of a mobile, if it has one. *)
Definition n_step (w : world) (o : option nacc) (e : mev) : res :=
  match o, e with
  | None, MNotif t => dispatch w nacc_new (Notif t)
  | None, _ => Ended
  | Some n, MNotif t => dispatch w n (Notif t)
  | Some n, MAddr k r =>      (* pcu_rx_neigh_addr_cnf, nacc_fsm_is_waiting_addr_resolution *)
      if st_eqb (n_st n) WAIT_RAC && nkey_eq (n_key n) k then dispatch w n (RacCi r) else Alive n None
  | Some n, MRan g psi l =>   (* handle_ran_info_response_nacc, nacc_fsm_is_waiting_si_resolution *)
      if st_eqb (n_st n) WAIT_SI && cgi_eq (n_cgi n) g then dispatch w n (RxSi psi l) else Alive n None
  | Some n, MRts c => if rts n c then dispatch w n (Create c) else Alive n None
  | Some n, MAck fn ts => if exp_ack n fn ts then dispatch w n Acked else Alive n None
  | Some n, MLost fn ts => if exp_ack n fn ts then dispatch w n PollLost else Alive n None
  | Some n, MTimer =>         (* nacc_fsm_timer_cb, src/nacc_fsm.c:698-707 *)
      if n_timer n then
        let n := set_st (n_st n) false n in
        Alive (match n_st n with WAIT_RAC | WAIT_SI => chg_cont n | _ => n end) None
      else Alive n None
  end.

(** A history: the machine at its end and the messages sent. *)
Fixpoint n_run (o : option nacc) (out : list msg) (h : list (world * mev)) : option (option nacc * list msg) :=
  match h with
  | [] => Some (o, out)
  | (w, e) :: h =>
      match n_step w o e with
      | Alive n m => n_run (Some n) (out ++ match m with Some m => [m] | None => [] end) h
      | Ended => n_run None out h
      | Assert => None
      end
  end.
