(** RAN information management: the system information of a cell on request, and what comes back.

    Models src/gprs_bssgp_rim.c:35-285, fill_rim_ran_info_req of src/nacc_fsm.c:217-271,
    gprs_pcu_get_bts_by_cgi_ps of src/gprs_pcu.c:160-168, and the PCUs that exchange these messages
    through an SGSN, with the neighbour cell machines of their mobiles (Model/Nacc.v) and the system
    information cache (Model/NeighCache.v).  A PDU is the structure of libosmocore before it is
    encoded and after it is decoded; the octets in between are libosmocore's.  Not modelled: the
    return values of the handlers, the NSEI, log output. *)
From Coq Require Import ZArith List Bool.
From Verif Require Import Model.NeighCache Model.Nacc.
Import ListNotations.
Open Scope Z_scope.

(** A cell as its BTS has described it: the system information set, 23 octets with the pseudo header
    of two octets, src/bts.h:239-248. *)
Record cell := Cell { l_nr : Z; l_cgi : cgi; l_si1 : option (list Z); l_si3 : option (list Z); l_si13 : option (list Z) }.
(** The same without pseudo headers, SI_HDR_LEN of src/gprs_bssgp_rim.c:57. *)
Definition chop (o : option (list Z)) : option (list Z) := option_map (skipn 2) o.
Definition view (b : cell) : bts := Bts (l_nr b) (l_cgi b) (chop (l_si1 b)) (chop (l_si3 b)) (chop (l_si13 b)).

(** struct bssgp_rim_routing_info: a GERAN cell, or a cell of another kind of network. *)
Inductive place_of := Geran (g : cgi) | OtherNet (x : Z).

(** What libosmocore decoded, by rim_cont_iei.  [app]: application identity, 1 is NACC; what is in a
    container of another application does not matter. *)
Definition APP_NACC : Z := 1.
Inductive cont :=
| Req (app : Z) (g : cgi)                                      (* BSSGP_IE_RI_REQ_RIM_CONTAINER *)
| Info (app : Z) (err : bool) (g : cgi) (psi : bool) (si : list (list Z))   (* BSSGP_IE_RI_RIM_CONTAINER *)
| AppError                                                      (* BSSGP_IE_RI_APP_ERROR_RIM_CONT *)
| Acknowledge                                                   (* BSSGP_IE_RI_ACK_RIM_CONTAINER *)
| Error (app : Z) (pdu : list Z)                                (* BSSGP_IE_RI_ERROR_RIM_COINTAINER *)
| Unknown.                                                      (* another element *)
(** struct bssgp_ran_information_pdu; [r_cont]: [None] if not decoded_present; [r_raw]: rim_cont, as
    received. *)
Record pdu := Pdu { r_dst : place_of; r_src : place_of; r_cont : option cont; r_raw : list Z }.

(** The SI of a mobile's or cache's value: type_psi and the octets. *)
Definition si_val := (bool * list Z)%type.
(** A PCU: its cells, the identity in its BVC context (the_pcu->bssgp.bctx), its cache and its mobiles,
    each in a cell (by number), perhaps with a neighbour cell machine. *)
Record mob := Mob { mo_cell : Z; mo_nacc : option nacc }.
Record pcu := Pcu { p_cells : list cell; p_ident : cgi; p_cache : cache cgi si_val; p_mobs : list mob }.

Inductive cause := UnknownRimApplication | UnknownDestination.   (* BSSGP_CAUSE_UNKN_RIM_AI, _UNKN_DST *)
Inductive sent := Status (c : cause) | Tx (p : pdu).
(** What is sent and the PCU after it, an assertion that failed, or an access outside a buffer. *)
Inductive outcome := Done (out : list sent) (p : pcu) | Failed | Wild.

(** gprs_pcu_get_bts_by_cgi_ps, src/gprs_pcu.c:160-168. *)
Definition cell_by_cgi (g : cgi) (l : list cell) : option cell := find (fun b => cgi_eq (l_cgi b) g) l.

(** fill_app_cont_nacc, src/gprs_bssgp_rim.c:58-94. *)
Definition one (o : option (list Z)) : list (list Z) := match o with Some l => [l] | None => [] end.
Definition app_si (b : cell) : list (list Z) := one (chop (l_si1 b)) ++ one (chop (l_si3 b)) ++ one (chop (l_si13 b)).
(** format_response_pdu, src/gprs_bssgp_rim.c:97-117, with mirror_rim_routing_info, 49-54. *)
Definition response (p : pcu) (r : pdu) (b : cell) : pdu :=
  Pdu (r_src r) (r_dst r) (Some (Info APP_NACC false (p_ident p) false (app_si b))) [].
(** format_response_pdu_err, src/gprs_bssgp_rim.c:120-135. *)
Definition error_pdu (r : pdu) : pdu := Pdu (r_src r) (r_dst r) (Some (Error APP_NACC (r_raw r))) [].

(** handle_ran_info_request, src/gprs_bssgp_rim.c:163-198. *)
Definition on_request (p : pcu) (r : pdu) (b : cell) (app : Z) (g : cgi) : outcome :=
  if negb (app =? APP_NACC) then Done [Tx (error_pdu r)] p
  else if negb (cgi_eq (l_cgi b) g) then Done [Tx (error_pdu r)] p
  else Done [Tx (response p r b)] p.

(** The loop of handle_ran_info_response_nacc, src/gprs_bssgp_rim.c:148-152: BSSGP_RIM_PSI_LEN (22) or
    BSSGP_RIM_SI_LEN (21) octets are read from each element and written to si_buf, which has room for
    22 * 127 (src/neigh_cache.h:85).  [None]: octets that are not there, or no room. *)
Definition SI_BUF : nat := 22 * 127.
Fixpoint copy_si (n : nat) (si : list (list Z)) (buf : list Z) : option (list Z) :=
  match si with
  | [] => Some buf
  | x :: si =>
      if (length x <? n)%nat then None
      else if (SI_BUF <? length buf + n)%nat then None
      else copy_si n si (buf ++ firstn n x)
  end.

(** The loop over the mobiles of the cell, src/gprs_bssgp_rim.c:155-159. *)
Definition wake (w : world) (nr : Z) (g : cgi) (v : si_val) (m : mob) : mob :=
  if mo_cell m =? nr then
    match mo_nacc m with
    | Some n => match n_step w (Some n) (MRan g (fst v) (snd v)) with
                | Alive n' _ => Mob (mo_cell m) (Some n')
                | Ended | Assert => Mob (mo_cell m) None
                end
    | None => m
    end
  else m.
(** What the machines see; nothing of it matters for the event of the answer. *)
Record env := Env { v_neigh : nkey -> option cgi; v_addr : bool; v_rim : bool; v_t_neigh : bool; v_t_si : bool }.
Definition env0 : env := Env (fun _ => None) false false false false.
Definition world_of (p : pcu) (b : cell) (v : env) : world :=
  W (view b) (map view (p_cells p)) (v_neigh v) (v_addr v) (fun g => lookup cgi_eq g (p_cache p)) (v_rim v) (v_t_neigh v) (v_t_si v).

(** handle_ran_info_response_nacc, src/gprs_bssgp_rim.c:137-161, called by handle_ran_info_response,
    200-223. *)
Definition on_info (p : pcu) (b : cell) (app : Z) (err : bool) (g : cgi) (psi : bool) (si : list (list Z)) : outcome :=
  if negb (app =? APP_NACC) then Done [] p
  else if err then Done [] p
  else match copy_si (if psi then 22 else 21) si [] with
       | None => Wild
       | Some l =>
           let p := Pcu (p_cells p) (p_ident p) (add cgi_eq g (psi, l) (p_cache p)) (p_mobs p) in
           Done [] (Pcu (p_cells p) (p_ident p) (p_cache p) (map (wake (world_of p b env0) (l_nr b) g (psi, l)) (p_mobs p)))
       end.

(** handle_rim, src/gprs_bssgp_rim.c:225-285. *)
Definition handle_rim (p : pcu) (r : pdu) : outcome :=
  match r_dst r with
  | OtherNet _ => Done [Status UnknownRimApplication] p
  | Geran g =>
      match cell_by_cgi g (p_cells p) with
      | None => Done [Status UnknownDestination] p
      | Some b =>
          match r_cont r with
          | None => Done [] p             (* the PDU for the error is put together and not sent *)
          | Some (Req app g) => on_request p r b app g
          | Some (Info app err g psi si) => on_info p b app err g psi si
          | Some AppError | Some Acknowledge | Some (Error _ _) => Done [] p
          | Some Unknown => Failed
          end
      end
  end.

(** fill_rim_ran_info_req, src/nacc_fsm.c:217-271, for a mobile in a cell and its target. *)
Definition request (b : cell) (g : cgi) : pdu := Pdu (Geran g) (Geran (l_cgi b)) (Some (Req APP_NACC g)) [].

(** Whether st_wait_request_si_on_enter sends a request, src/nacc_fsm.c:507-562; then for the states
    from which it is reached (459-480, 390-419, 425-590). *)
Definition asks_si (w : world) (n : nacc) : option cgi :=
  if may (n_st n) WAIT_SI then
    match find (fun b => negb (b_nr b =? b_nr (w_bts w)) && cgi_eq (n_cgi n) (b_cgi b)) (w_cells w) with
    | Some _ => None
    | None => match w_si w (n_cgi n) with
              | Some _ => None
              | None => if w_rim_ok w then Some (n_cgi n) else None
              end
    end
  else None.
Definition asks_rac (w : world) (n : nacc) : option cgi :=
  if may (n_st n) WAIT_RAC then
    match w_neigh w (n_key n) with
    | Some g => asks_si w (set_cgi g (set_st WAIT_RAC (w_t_neigh w) n))
    | None => None
    end
  else None.
Definition asks (w : world) (o : option nacc) (e : mev) : option cgi :=
  match o, e with
  | None, MNotif t =>
      match fill_key (w_bts w) t with Some (Some k) => asks_rac w (set_key k true nacc_new) | _ => None end
  | Some n, MNotif t =>
      match n_st n, fill_key (w_bts w) t with
      | DONE, _ => None
      | INITIAL, Some (Some k) => asks_rac w (set_key k true n)
      | _, Some (Some k) => if negb (nkey_eq (n_key n) k) then asks_rac w (set_key k true n) else None
      | _, _ => None
      end
  | Some n, MAddr k (Some g) =>
      if st_eqb (n_st n) WAIT_RAC && nkey_eq (n_key n) k then asks_si w (set_cgi g n) else None
  | _, _ => None
  end.

(** * Several PCUs and the SGSN between them *)

(** [t_pcus]: the PCUs; [t_air]: the PDUs under way.  The identities of the cells do not change. *)
Record net := Net { t_pcus : list pcu; t_air : list pdu }.

(** A cell's BTS sets or revokes its system information (pcu_rx_data_ind_bcch, src/pcu_l1_if.cpp:371-459);
    a mobile comes to a cell; an event of a mobile's machine other than the answer of the SGSN; the
    SGSN hands a PDU to a PCU (which it keeps, so it may come again) or any request that is not from
    one of these PCUs; a PDU is lost; something happens to a cache (time, keep time, timer). *)
Inductive nop :=
| SysInfo (i nr : nat) (s1 s3 s13 : option (list Z))
| Arrives (i : nat) (c : Z)
| Mobile (i m : nat) (v : env) (e : mev)
| Deliver (k i : nat)
| Foreign (i : nat) (dst src : place_of) (app : Z) (g : cgi) (raw : list Z)
| Lose (k : nat)
| Keep (i : nat) (sec : Z) | Passes (i : nat) (d : Z) | Due (i : nat).

Fixpoint upd {A} (n : nat) (f : A -> A) (l : list A) : list A :=
  match l, n with
  | [], _ => []
  | x :: l, O => f x :: l
  | x :: l, S n => x :: upd n f l
  end.
Fixpoint drop_nth {A} (n : nat) (l : list A) : list A :=
  match l, n with
  | [], _ => []
  | _ :: l, O => l
  | x :: l, S n => x :: drop_nth n l
  end.

Definition pdus (l : list sent) : list pdu := flat_map (fun s => match s with Tx p => [p] | Status _ => [] end) l.

Definition set_cells l p := Pcu l (p_ident p) (p_cache p) (p_mobs p).
Definition set_mobs l p := Pcu (p_cells p) (p_ident p) (p_cache p) l.
Definition set_cache c p := Pcu (p_cells p) (p_ident p) c (p_mobs p).

(** A mobile's own event; the event of the answer only comes from [handle_rim]. *)
Definition is_answer (e : mev) : bool := match e with MRan _ _ _ => true | _ => false end.
Definition mob_event (p : pcu) (m : nat) (v : env) (e : mev) : pcu * list pdu :=
  match nth_error (p_mobs p) m with
  | None => (p, [])
  | Some x =>
      match find (fun b => l_nr b =? mo_cell x) (p_cells p) with
      | None => (p, [])
      | Some b =>
          if is_answer e then (p, [])
          else
            let w := world_of p b v in
            let out := match asks w (mo_nacc x) e with Some g => [request b g] | None => [] end in
            match n_step w (mo_nacc x) e with
            | Alive n _ => (set_mobs (upd m (fun _ => Mob (mo_cell x) (Some n)) (p_mobs p)) p, out)
            | Ended | Assert => (set_mobs (upd m (fun _ => Mob (mo_cell x) None) (p_mobs p)) p, out)
            end
      end
  end.

(** [None]: an assertion failed or an access was outside a buffer. *)
Definition receive (t : net) (i : nat) (r : pdu) : option net :=
  match nth_error (t_pcus t) i with
  | None => Some t
  | Some p => match handle_rim p r with
              | Done out p => Some (Net (upd i (fun _ => p) (t_pcus t)) (t_air t ++ pdus out))
              | Failed | Wild => None
              end
  end.
Definition in_pcu (t : net) (i : nat) (f : pcu -> pcu) : net := Net (upd i f (t_pcus t)) (t_air t).
Definition t_step (t : net) (o : nop) : option net :=
  match o with
  | SysInfo i nr s1 s3 s13 =>
      Some (in_pcu t i (fun p => set_cells (upd nr (fun b => Cell (l_nr b) (l_cgi b) s1 s3 s13) (p_cells p)) p))
  | Arrives i c => Some (in_pcu t i (fun p => set_mobs (p_mobs p ++ [Mob c None]) p))
  | Mobile i m v e =>
      match nth_error (t_pcus t) i with
      | None => Some t
      | Some p => let '(p, out) := mob_event p m v e in Some (Net (upd i (fun _ => p) (t_pcus t)) (t_air t ++ out))
      end
  | Deliver k i => match nth_error (t_air t) k with None => Some t | Some r => receive t i r end
  | Foreign i dst src app g raw => receive t i (Pdu dst src (Some (Req app g)) raw)
  | Lose k => Some (Net (t_pcus t) (drop_nth k (t_air t)))
  | Keep i sec => Some (in_pcu t i (fun p => set_cache (set_keep sec (p_cache p)) p))
  | Passes i d => Some (in_pcu t i (fun p => set_cache (c_step cgi_eq (p_cache p) (Wait d)) p))
  | Due i => Some (in_pcu t i (fun p => set_cache (c_step cgi_eq (p_cache p) Timers) p))
  end.
Fixpoint t_run (t : net) (l : list nop) : option net :=
  match l with
  | [] => Some t
  | o :: l => match t_step t o with Some t => t_run t l | None => None end
  end.
