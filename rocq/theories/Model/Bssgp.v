(** What the SGSN sends: the messages of the Gb interface and the state of the link.

    Models src/gprs_bssgp_pcu.c:71-576 (received messages), 577-706 (primitives of
    libosmogb and of the NS layer) and 1041-1074 (bvc_timeout).

    Simplifications.  Decoding a mobile identity and the classes of a mobile from its radio
    access capabilities, and what bssgp_rcvmsg of libosmogb does, are parameters or
    separate operations.  What a message starts in the rest of the PCU is returned as a list of
    actions.  Counters and log output are left out. *)
From Coq Require Import ZArith List Bool.
Import ListNotations.
Local Open Scope Z_scope.

(** ** Information elements

    bssgp_tlv_parse of libosmogb (tvlv_att_def): tag, then the length in one octet with the
    highest bit set, or in two octets without.  An element is kept as its length and
    everything in the message from its value on, as the program keeps a pointer.  Of two
    elements with one tag the first counts.  [None]: an element exceeds the message. *)
Record ie := Ie { i_tag : Z; i_len : Z; i_at : list Z }.

Definition one_ie (l : list Z) : option (ie * list Z) :=
  match l with
  | tag :: n :: r =>
      if 128 <=? n then
        let len := n - 128 in
        if len <=? Z.of_nat (length r) then Some (Ie tag len r, skipn (Z.to_nat len) r) else None
      else
        match r with
        | m :: r =>
            let len := 256 * n + m in
            if len <=? Z.of_nat (length r) then Some (Ie tag len r, skipn (Z.to_nat len) r) else None
        | [] => None
        end
  | _ => None
  end.

Fixpoint parse_n (fuel : nat) (l : list Z) : option (list ie) :=
  match l with
  | [] => Some []
  | _ =>
      match fuel with
      | O => None
      | S k =>
          match one_ie l with
          | None => None
          | Some (e, r) => option_map (cons e) (parse_n k r)
          end
      end
  end.
(** An element has two octets at least. *)
Definition parse (l : list Z) : option (list ie) := parse_n (length l) l.

(** TLVP_PRESENT, TLVP_VAL, TLVP_LEN. *)
Definition look (tag : Z) (t : list ie) : option ie := find (fun e => i_tag e =? tag) t.
Definition value (e : ie) : list Z := firstn (Z.to_nat (i_len e)) (i_at e).

(** osmo_load16be, osmo_load32be at the value of an element, whatever its length.  [None]:
    beyond the message. *)
Definition be (bs : list Z) : Z := fold_left (fun acc b => 256 * acc + b) bs 0.
Definition load (n : nat) (l : list Z) : option Z :=
  if Nat.leb n (length l) then Some (be (firstn n l)) else None.

(** Tags, enum bssgp_iei_type of libosmogb. *)
Definition IE_BVCI : Z := 4.
Definition IE_CAUSE : Z := 7.
Definition IE_CHAN : Z := 9.
Definition IE_IMSI : Z := 13.
Definition IE_LLC : Z := 14.
Definition IE_RAC : Z := 19.
Definition IE_LIFETIME : Z := 22.
Definition IE_TLLI : Z := 31.
Definition IE_TMSI : Z := 32.

(** enum gprs_bssgp_cause of libosmogb. *)
Inductive cause := UnknownBvci | BvciBlocked | InvMandInf | MissingMandIe | MissingCondIe | CondIeErr | ProtoErr | IncompFeat.

(** LLC_MAX_LEN, src/llc.h:33; GSM_RESERVED_TMSI. *)
Definition LLC_MAX : Z := 1543.
Definition RESERVED : Z := 4294967295.

(** ** The link *)

(** the_pcu->bssgp: nsvc_unblocked, bvc_sig_reset, bvc_reset, bvc_unblocked, and whether
    bvc_timer is running, for what. *)
Inductive tmr := TReset | TUnblock | TFlow.
Record link := Lk { k_ns : bool; k_sig : bool; k_rst : bool; k_unb : bool; k_tm : option tmr }.
Definition link0 : link := Lk false false false false None.

(** A mobile identity (osmo_mobile_identity_decode): an IMSI as a number, or something else. *)
Inductive mid := MImsi (n : Z) | MTmsi (n : Z) | MElse.

Inductive act :=
| ADown (tlli old : Z) (imsi : option Z) (cls : Z * Z) (life : Z) (llc : list Z)  (* dl_tbf_handle *)
| APageCs (bts chan : Z) (imsi : Z) (tmsi : option Z) (tlli : Z)                  (* bts_add_paging *)
| APagePs (bts : Z) (imsi : Z) (m : mid)                                          (* lines 311-320 *)
| AStatus (c : cause)                                                             (* bssgp_tx_status *)
| ALib                                                                            (* bssgp_rcvmsg *)
| AReset (bvci : Z) | AUnblock (bvci : Z) | AFlow (bvci : Z)                      (* bssgp_tx_bvc_reset, ... *)
| AResetAll.                                                                      (* bssgp_tx_bvc_ptp_reset *)

(** [Halt]: a failed assertion.  [Fault]: octets that were not received are read. *)
Inductive res := Done (k : link) (a : list act) | Halt | Fault.

(** What is configured, and the parameters: [c_mi]: osmo_mobile_identity_decode ([None]: it
    failed); [c_cls]: parse_ra_cap, get_ms_class_by_capability and
    get_egprs_ms_class_by_capability. *)
Record cfg := Cfg { c_bvci : Z; c_nsei : Z; c_bts : list Z; c_mi : list Z -> option mid; c_cls : list Z -> Z * Z }.

(** bvc_timeout, lines 1041-1074. *)
Definition bvc_timeout (c : cfg) (k : link) : link * list act :=
  let set t := Lk (k_ns k) (k_sig k) (k_rst k) (k_unb k) (Some t) in
  if negb (k_sig k) then (set TReset, [AReset 0])
  else if negb (k_rst k) then (set TReset, [AReset (c_bvci c)])
  else if negb (k_unb k) then (set TUnblock, [AUnblock (c_bvci c)])
  else (set TFlow, [AFlow (c_bvci c)]).
Definition then_timeout (c : cfg) (k : link) : res := let '(k, a) := bvc_timeout c k in Done k a.

(** ** Messages *)

(** gprs_bssgp_pcu_rx_dl_ud, lines 96-182.  [m]: the message.  cap_len, lt_len and tlli_len are
    uint8_t. *)
Definition rx_dl_ud (c : cfg) (k : link) (m : list Z) (t : list ie) : res :=
  match load 4 (skipn 1 m) with
  | None => Fault
  | Some tlli =>
      match look IE_LLC t with
      | None => Done k [AStatus MissingMandIe]
      | Some llc =>
          if LLC_MAX <? i_len llc then Done k [AStatus CondIeErr]
          else
            match (match look IE_IMSI t with
                   | None => Some None
                   | Some e => match c_mi c (value e) with Some (MImsi n) => Some (Some n) | _ => None end
                   end) with
            | None => Done k [AStatus CondIeErr]
            | Some imsi =>
                let cls := match look IE_RAC t with
                           | None => (0, 0)
                           | Some e => c_cls c (firstn (Z.to_nat (i_len e mod 256)) (i_at e))
                           end in
                let lt_len := match look IE_LIFETIME t with Some e => i_len e mod 256 | None => 0 end in
                match (match look IE_LIFETIME t with
                       | Some e => if lt_len =? 2 then load 2 (i_at e) else Some 65535
                       | None => Some 65535
                       end),
                      (match look IE_TLLI t with
                       | Some e => if lt_len =? 2 then load 2 (i_at e) else Some RESERVED
                       | None => Some RESERVED
                       end) with
                | Some life, Some old => Done k [ADown tlli old imsi cls life (value llc)]
                | _, _ => Fault
                end
            end
      end
  end.

(** get_paging_cs_mi, lines 185-228, and gprs_bssgp_pcu_rx_paging_cs, lines 230-257.  The mobile
    is looked up in each cell by TLLI, then by IMSI. *)
Definition rx_paging_cs (c : cfg) (k : link) (t : list ie) : res :=
  let chan := match look IE_CHAN t with Some e => if 1 <=? i_len e then hd 0 (i_at e) else 0 | None => 0 end in
  match look IE_IMSI t with
  | None => Done k [AStatus MissingMandIe]
  | Some e =>
      match c_mi c (value e) with
      | Some (MImsi imsi) =>
          match (match look IE_TMSI t with
                 | None => Some None
                 | Some e => if i_len e =? 4 then Some (Some (be (value e))) else None
                 end) with
          | None => Done k [AStatus CondIeErr]
          | Some tmsi =>
              match (match look IE_TLLI t with Some e => load 4 (i_at e) | None => Some RESERVED end) with
              | None => Fault
              | Some tlli => Done k (map (fun b => APageCs b chan imsi tmsi tlli) (c_bts c))
              end
          end
      | _ => Done k [AStatus InvMandInf]
      end
  end.

(** get_paging_ps_mi, lines 259-285, and gprs_bssgp_pcu_rx_paging_ps, lines 287-324. *)
Definition rx_paging_ps (c : cfg) (k : link) (t : list ie) : res :=
  match look IE_IMSI t with
  | None => Done k [AStatus MissingMandIe]
  | Some e =>
      match c_mi c (value e) with
      | Some (MImsi imsi) =>
          match look IE_TMSI t with
          | Some e =>
              if i_len e =? 4 then Done k (map (fun b => APagePs b imsi (MTmsi (be (value e)))) (c_bts c))
              else Done k [AStatus CondIeErr]
          | None => Done k (map (fun b => APagePs b imsi (MImsi imsi)) (c_bts c))
          end
      | _ => Done k [AStatus InvMandInf]
      end
  end.

(** The kinds of message, enum bssgp_pdu_type of libosmogb. *)
Definition DL_UNITDATA : Z := 0.
Definition UL_UNITDATA : Z := 1.
Definition PAGING_PS : Z := 6.
Definition PAGING_CS : Z := 7.
Definition BVC_RESET : Z := 34.
Definition BVC_RESET_ACK : Z := 35.
Definition BVC_UNBLOCK_ACK : Z := 37.
Definition STATUS : Z := 65.
Definition has (l : list Z) (x : Z) : bool := existsb (Z.eqb x) l.

(** gprs_bssgp_pcu_rx_ptp, lines 326-404.  [blocked]: bctx->state, which libosmogb sets. *)
Definition rx_ptp (c : cfg) (k : link) (blocked : bool) (m : list Z) (ty : Z) (t : list ie) : res :=
  if blocked && negb (ty =? STATUS) then Done k [AStatus BvciBlocked]
  else if ty =? STATUS then Halt
  else if ty =? DL_UNITDATA then rx_dl_ud c k m t
  else if has [39; 41] ty then Done k []
  else if ty =? PAGING_CS then rx_paging_cs c k t
  else if ty =? PAGING_PS then rx_paging_ps c k t
  else if has [2; 9] ty then Done k []
  else Done k [AStatus ProtoErr].

(** gprs_bssgp_pcu_rx_sign, lines 407-482. *)
Definition rx_sign (c : cfg) (k : link) (ty : Z) (t : list ie) : res :=
  if ty =? STATUS then Halt
  else if has [12; 15; 33] ty then Done k []
  else if ty =? BVC_RESET_ACK then
    then_timeout c (if k_sig k then Lk (k_ns k) true true (k_unb k) (k_tm k)
                    else Lk (k_ns k) true (k_rst k) (k_unb k) (k_tm k))
  else if ty =? PAGING_CS then rx_paging_cs c k t
  else if ty =? PAGING_PS then rx_paging_ps c k t
  else if ty =? BVC_UNBLOCK_ACK then then_timeout c (Lk (k_ns k) (k_sig k) (k_rst k) true (k_tm k))
  else if has [13; 16; 42; 64] ty then Done k []
  else if has [1; 0; 2; 3; 8; 9; 10; 38; 39; 40; 41; 80; 81; 82; 83; 84; 85; 86; 87] ty then Done k []
  else Done k [AStatus ProtoErr].

(** gprs_bssgp_pcu_rcvmsg, lines 484-575.  [bvci]: the BVCI of the NS layer; [nsei] likewise; there
    is a context for the configured pair.  The head of a UNITDATA message has eight
    octets, that of the others one. *)
Definition rcvmsg (c : cfg) (k : link) (blocked : bool) (bvci nsei : Z) (m : list Z) : res :=
  match m with
  | [] => Fault
  | ty :: _ =>
      if has [STATUS; 112; 113; 114; 115; 116] ty then Done k [ALib]
      else
        let body := if (ty =? UL_UNITDATA) || (ty =? DL_UNITDATA) then skipn 8 m else skipn 1 m in
        match parse body with
        | None => Done k [AStatus InvMandInf]
        | Some t =>
            if ty =? BVC_RESET then
              if negb (bvci =? 0) then Done k [AStatus InvMandInf]
              else match look IE_BVCI t with
              | None => Done k [AStatus InvMandInf]
              | Some e =>
                  match load 2 (i_at e) with
                  | None => Fault
                  | Some b =>
                      if negb (b =? 0) && negb (b =? c_bvci c) then Done k [AStatus UnknownBvci]
                      else Done k [ALib]
                  end
              end
            else if bvci =? 0 then rx_sign c k ty t
            else if negb ((bvci =? c_bvci c) && (nsei =? c_nsei c)) then Done k [AStatus UnknownBvci]
            else if bvci =? 1 then Done k [AStatus IncompFeat]
            else rx_ptp c k blocked m ty t
        end
  end.

(** ** What libosmogb and the NS layer report *)
Inductive prim :=
| PStatus (bvci : Z) (t : list ie)    (* handle_nm_status, lines 577-623 *)
| PReset (bvci : Z) (t : list ie)     (* bssgp_prim_cb, lines 638-665 *)
| PNsUp | PNsDown                     (* gprs_ns_prim_status_cb, lines 674-697 *)
| PTimer.                             (* bvc_timer expires *)

Definition rx_prim (c : cfg) (k : link) (p : prim) : res :=
  match p with
  | PStatus bvci t =>
      match look IE_CAUSE t with
      | None => Done k []
      | Some e =>
          match i_at e with
          | [] => Fault
          | x :: _ =>
              match look IE_BVCI t with
              | None => Done k []
              | Some _ =>
                  if negb (bvci =? c_bvci c) then Done k []
                  else if (x =? 9) && k_unb k then then_timeout c (Lk (k_ns k) (k_sig k) (k_rst k) false (k_tm k))
                  else if (x =? 5) && k_rst k then then_timeout c (Lk (k_ns k) (k_sig k) false (k_unb k) (k_tm k))
                  else Done k []
              end
          end
      end
  | PReset bvci t =>
      if bvci =? 0 then
        match look IE_CAUSE t with
        | Some e => if 1 <=? i_len e then Done (Lk (k_ns k) true false false (k_tm k)) [AResetAll] else Done k []
        | None => Done k []
        end
      else if bvci =? c_bvci c then then_timeout c (Lk (k_ns k) (k_sig k) true false (k_tm k))
      else Done k []
  | PNsUp =>
      if k_ns k then Done k [] else then_timeout c (Lk true false false (k_unb k) (k_tm k))
  | PNsDown => if k_ns k then Done (Lk false false false false None) [] else Done k []
  | PTimer => match k_tm k with None => Done k [] | Some _ => then_timeout c k end
  end.

(** A history: messages and primitives, each with the state that libosmogb keeps. *)
Inductive bop := BMsg (blocked : bool) (bvci nsei : Z) (m : list Z) | BPrim (p : prim).
Definition bstep (c : cfg) (k : link) (o : bop) : res :=
  match o with BMsg b v n m => rcvmsg c k b v n m | BPrim p => rx_prim c k p end.
Fixpoint brun (c : cfg) (k : link) (ops : list bop) : res :=
  match ops with
  | [] => Done k []
  | o :: ops =>
      match bstep c k o with
      | Done k1 a => match brun c k1 ops with Done k2 b => Done k2 (a ++ b) | r => r end
      | r => r
      end
  end.
