(** Model of the PACKET UPLINK ASSIGNMENT and PACKET DOWNLINK ASSIGNMENT messages:
    gen_freq_params, write_packet_uplink_assignment and write_packet_downlink_assignment of
    src/encoding.cpp, create_packet_ul_assign (src/tbf_ul_ass_fsm.c) and create_packet_dl_assign
    (src/tbf_dl_ass_fsm.c), and the hopping parameters of a timeslot (src/pcu_l1_if.cpp).

    The structures filled are RlcMacDownlink_t.u, at the offsets that the tables of Csn1Tables.v use. *)
From Coq Require Import ZArith List Bool.
From Verif.Model Require Import CodingScheme BtsConf Csn1 Csn1Tables Csn1Enc.
Import ListNotations.
Open Scope Z_scope.

(** A store of one byte under a condition; of the two bytes of a guint16 and the four of a guint32. *)
Definition st (c : bool) (o x : Z) (m : Z -> Z) : Z -> Z := fun a => if (a =? o) && c then x mod 256 else m a.
Definition st16 (c : bool) (o x : Z) (m : Z -> Z) : Z -> Z := st c (o + 1) (x / 256) (st c o x m).
Definition st32 (c : bool) (o x : Z) (m : Z -> Z) : Z -> Z := st16 c (o + 2) (x / 65536) (st16 c o x m).
(** gboolean members have four bytes. *)
Definition stb (c : bool) (o x : Z) (m : Z -> Z) : Z -> Z := st32 c o x m.
(** memcpy of a list of bytes. *)
Fixpoint copy (c : bool) (o : Z) (l : list Z) (m : Z -> Z) : Z -> Z :=
  match l with [] => m | x :: r => copy c (o + 1) r (st c o x m) end.

(** The hopping members of a timeslot, struct gprs_rlcmac_pdch (pdch.h:110-120): MAIO, HSN, the
    number of bits of the mobile allocation and its octets (ma_oct_len of them). *)
Record hop := mk_hop { h_maio : Z; h_hsn : Z; h_bits : Z; h_ma : list Z }.
(** A timeslot as these messages need it: training sequence, the carrier of its TRX, hopping if enabled. *)
Record slot := mk_slot { s_tsc : Z; s_arfcn : Z; s_hop : option hop }.

(** struct gsm_pcu_if_info_trx_ts, pcuif_proto.h:133-140 *)
Record info_ts := mk_info { i_tsc : Z; i_hopping : bool; i_hsn : Z; i_maio : Z; i_bits : Z; i_ma : list Z }.
(** pcu_l1_if.cpp:941-957, for a timeslot of the PDCH mask; [arfcn] is that of the TRX (pcu_l1_if.cpp:901).
    None: the assertion on the length fails.  Without the hopping flag nothing is reset. *)
Definition rx_info_ts (arfcn : Z) (i : info_ts) (p : slot) : option slot :=
  if i_hopping i then
    if i_bits i <=? 64 then
      let oct := (i_bits i + 7) / 8 in
      Some (mk_slot (i_tsc i) arfcn
        (Some (mk_hop (i_maio i) (i_hsn i) (i_bits i) (skipn (8 - Z.to_nat oct) (i_ma i)))))
    else None
  else Some (mk_slot (i_tsc i) arfcn (s_hop p)).

(** gen_freq_params, encoding.cpp:549-586, into the structure at [o], for the first timeslot.  The local
    Direct_encoding_1_t is copied with the bytes nobody has written: [junk]. *)
Definition gen_freq_params (junk : Z -> Z) (o : Z) (p : slot) (m : Z -> Z) : Z -> Z :=
  let m1 := st true o (s_tsc p) m in
  match s_hop p with
  | None => st16 true (o + 2) (s_arfcn p) (st true (o + 1) 0 m1)
  | Some h =>
    let d := o + 2 in
    let old := st true (o + 1) 2 m1 in
    let fresh := fun a => if (d <=? a) && (a <? d + 25) then junk a else old a in
    copy true (d + 9) (h_ma h) (st true (d + 17) (h_bits h) (st true (d + 8) (Z.of_nat (length (h_ma h)))
      (st true (d + 7) 0 (copy true (d + 3) [0; 0; 0; 0] (st true (d + 2) 0
        (st true (d + 1) (h_hsn h) (st true d (h_maio h) fresh)))))))
  end.

(** tbf_get_first_ts_const, tbf.cpp:854-865 *)
Fixpoint first_slot {A} (l : list (option A)) : option A :=
  match l with [] => None | Some p :: _ => Some p | None :: r => first_slot r end.

Definition given {A} (o : option A) : bool := match o with Some _ => true | None => false end.
Definition value {A} (d : A) (o : option A) : A := match o with Some x => x | None => d end.

(** The members of a TBF that an assignment tells: [t_slots] are pdch[0..7], [t_usf] is m_usf. *)
Record tbf := mk_tbf {
  t_tfi : Z; t_ta : Z; t_window : Z; t_cs : scheme; t_tlli : Z;
  t_slots : list (option slot); t_usf : list Z }.

(** The loop over the timeslots of an uplink assignment, encoding.cpp:688-704: members Exist, USF_TN and, with
    power control, GAMMA_TN of element tn. *)
Fixpoint ul_slots (power : bool) (gamma o : Z) (slots : list (option slot)) (usf : list Z) (m : Z -> Z) : Z -> Z :=
  match slots, usf with
  | p :: r, u :: v =>
    let c := given p in
    let m1 := st c (o + 1) u (st c o 1 m) in
    if power then ul_slots power gamma (o + 3) r v (st c (o + 2) gamma m1)
    else ul_slots power gamma (o + 2) r v m1
  | _, _ => m
  end.

(** write_packet_uplink_assignment, encoding.cpp:590-705, into a structure that is all zero: the members of u.
    None: no timeslot, the assertion of gen_freq_params fails.  gsm48_ta_is_valid: below 64. *)
Definition write_packet_uplink_assignment (junk : Z -> Z) (old_tfi : Z) (old_downlink : bool) (tlli : Z)
    (use_tlli : bool) (t : tbf) (alpha gamma ta_idx : Z) (egprs : bool) : option (Z -> Z) :=
  match first_slot (t_slots t) with
  | None => None
  | Some p =>
    let m := st true 1 0 (st true 0 10 (fun _ => 0)) in
    (* 611-619 *)
    let m := if use_tlli then st32 true 12 tlli (st true 8 1 m)
             else st true 13 old_tfi (st true 12 (Z.b2z old_downlink) (st true 8 0 m)) in
    let m := st true 16 (Z.b2z egprs) m in
    (* 621-658 *)
    let m := if egprs
             then stb true 104 1 (st true 136 1 (st true 66 (t_window t) (st true 65 1
                    (st true 81 1 (st true 64 (mcs_chan_code (t_cs t)) (st true 20 0 m))))))
             else st true 27 1 (st true 56 1 (st true 21 1 (st true 20 (mcs_chan_code (t_cs t)) m))) in
    let pta := if egprs then 89 else 22 in
    let fp := if egprs then 108 else 28 in
    let da := if egprs then 140 else 58 in
    (* 660-671 *)
    let c := t_ta t <? 64 in
    let m := st c (pta + 1) (t_ta t) (st c pta 1 m) in
    let c := (0 <=? ta_idx) && (ta_idx <? 16) in
    let m := st c (pta + 3) ta_idx (st c (pta + 4) 0 (st c (pta + 2) 1 m)) in
    let m := gen_freq_params junk fp p m in
    (* 676-686 *)
    let m := st true (da + 6) (t_tfi t) (st true (da + 5) 1 (st true (da + 4) 0 m)) in
    let power := negb ((alpha =? 0) && (gamma =? 0)) in
    let m := st true (da + 16) (Z.b2z power) m in
    let m := st power (da + 17) alpha m in
    Some (ul_slots power gamma (if power then da + 18 else da + 17) (t_slots t) (t_usf t) m)
  end.

(** TIMESLOT_ALLOCATION, encoding.cpp:741-745: 0x80 >> tn for each timeslot of the TBF. *)
Fixpoint slot_mask {A} (tn : Z) (l : list (option A)) : Z :=
  match l with [] => 0 | p :: r => Z.lor (if given p then 128 / 2 ^ tn else 0) (slot_mask (tn + 1) r) end.

(** The loop of encoding.cpp:773-784. *)
Fixpoint dl_slots (gamma o : Z) (slots : list (option slot)) (m : Z -> Z) : Z -> Z :=
  match slots with
  | p :: r => dl_slots gamma (o + 2) r (st (given p) (o + 1) gamma (st true o (Z.b2z (given p)) m))
  | [] => m
  end.

(** write_packet_downlink_assignment, encoding.cpp:709-801. *)
Definition write_packet_downlink_assignment (junk : Z -> Z) (old_tfi_valid : bool) (old_tfi : Z) (old_downlink : bool)
    (t : tbf) (alpha gamma ta_idx ta_ts : Z) (egprs : bool) (control_ack : bool) : option (Z -> Z) :=
  match first_slot (t_slots t) with
  | None => None
  | Some p =>
    let m := stb true 4 0 (st true 1 0 (st true 0 2 (fun _ => 0))) in
    (* 729-736 *)
    let m := if old_tfi_valid then st true 17 old_tfi (st true 16 (Z.b2z old_downlink) (st true 12 0 m))
             else st32 true 16 (t_tlli t) (st true 12 1 m) in
    (* 738-745 *)
    let m := st true 23 (slot_mask 0 (t_slots t)) (st true 22 (Z.b2z control_ack) (st true 21 0 (st true 20 0 m))) in
    (* 747-760 *)
    let c := t_ta t <=? 63 in
    let m := st c 25 (t_ta t) (st true 24 (Z.b2z c) m) in
    let c := 0 <=? ta_idx in
    let m := st c 28 ta_ts (st c 27 ta_idx (st true 26 (Z.b2z c) m)) in
    (* 762-784 *)
    let m := gen_freq_params junk 44 p (stb true 40 1 (stb true 32 0 m)) in
    let m := st true 84 alpha (stb true 80 1 (st true 76 (t_tfi t) (stb true 72 1 m))) in
    let m := dl_slots gamma 85 (t_slots t) m in
    (* 786-800 *)
    let m := st true 114 0 (stb true 104 0 m) in
    Some (if egprs
          then stb true 152 0 (stb true 144 0 (stb true 136 0 (st true 133 0
                 (st true 132 (enc_ws (t_window t)) (stb true 128 1 (stb true 124 1 m))))))
          else stb true 124 0 m)
  end.

(** What becomes of a request for a message. *)
Inductive outcome := Sent (bits : list bool) | NotSent | Aborted.
Definition encoded (m : option (Z -> Z)) (tab : list entry) (rrbp : Z) : outcome :=
  match m with
  | None => Aborted
  | Some m => match encode_dl m tab 1 rrbp 1 0 with Some b => Sent b | None => NotSent end
  end.

(** GSM_RESERVED_TMSI of libosmocore. *)
Definition RESERVED_TLLI : Z := 4294967295.

(** The TBF whose state machine sends the message (ctx->tbf): its TFI, direction, whether it
    uses EGPRS, whether the mobile knows its TFI, whether it is in WAIT_RELEASE. *)
Record sender := mk_sender { d_tfi : Z; d_down : bool; d_egprs : bool; d_known : bool; d_wait_release : bool }.

(** create_packet_ul_assign, tbf_ul_ass_fsm.c:83-149, from the point where polling is possible and the new TBF
    is there; [tlli] is that of the mobile, [alpha] and [gamma] those of the cell. *)
Definition create_packet_ul_assign (junk : Z -> Z) (d : sender) (tlli : Z) (t : tbf) (alpha gamma rrbp : Z) : outcome :=
  encoded (write_packet_uplink_assignment junk (d_tfi d) (d_down d) tlli (negb (tlli =? RESERVED_TLLI)) t
             alpha gamma (-1) (d_egprs d)) T_Packet_Uplink_Assignment_t rrbp.

(** create_packet_dl_assign, tbf_dl_ass_fsm.c:58-139, from the same point. *)
Definition create_packet_dl_assign (junk : Z -> Z) (d : sender) (t : tbf) (alpha gamma rrbp : Z) : outcome :=
  if d_known d && (t_tlli t =? RESERVED_TLLI) then NotSent                     (* 86-92 *)
  else encoded (write_packet_downlink_assignment junk (d_known d) (d_tfi d) (d_down d) t alpha gamma (-1) 0
                  (d_egprs d) (d_wait_release d)) T_Packet_Downlink_Assignment_t rrbp.
