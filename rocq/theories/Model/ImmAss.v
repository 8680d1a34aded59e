(** Immediate Assignment messages: /repo/src/encoding.cpp, bts.cpp and pcu_l1_if.cpp. *)
From Coq Require Import ZArith List Bool.
From Verif Require Import Model.CodingScheme Model.BtsConf.
Import ListNotations.
Local Open Scope Z_scope.

(** What the writers put into a bit vector. Libosmocore: bitvec_set_bit with ZERO and ONE
    writes that bit; with L the bit of the padding octet 0x2b at that place, with H its
    complement. *)
Inductive sym := B (b : bool) | L | H.
(** bitvec_set_u64 (use_lh false) and bitvec_write_field: the low [w] bits, the highest
    first. *)
Definition fld (w : nat) (v : Z) : list sym := map (fun i => B (Z.testbit v (Z.of_nat w - 1 - Z.of_nat i))) (seq 0 w).
Definition bit1 (b : bool) : list sym := [B b].

(** write_alpha_gamma, encoding.cpp:48-63. *)
Definition w_alpha_gamma (alpha gamma : Z) : list sym :=
  (if negb (alpha =? 0) then B true :: fld 4 alpha else [B false]) ++ fld 5 gamma.
(** write_tbf_start_time, encoding.cpp:66-85. The argument is 16 bits wide. *)
Definition w_start_time (rfn : Z) : list sym :=
  let rfn := rfn mod 65536 in fld 5 ((rfn / 1326) mod 32) ++ fld 6 (rfn mod 51) ++ fld 5 (rfn mod 26).
(** write_tfi_usf, encoding.cpp:95-112. *)
Definition w_tfi_usf (tfi usf : Z) : list sym := fld 5 tfi ++ [B false; B false] ++ fld 3 usf ++ [B false; B false].
(** write_ta_index, encoding.cpp:115-128. *)
Definition w_ta_index (tai : Z) : list sym := if tai <? 0 then [B false] else B true :: fld 4 tai.

(** The TBF an assignment is for: DL: TLLI, TFI, EGPRS, window size. UL: TFI, EGPRS, window
    size, current coding scheme. None: single block allocation. *)
Inductive ia_tbf :=
| DlTbf (tlli tfi : Z) (egprs : bool) (ws : Z)
| UlTbf (tlli tfi : Z) (egprs : bool) (ws : Z) (cs : scheme)
| NoTbf.

(** write_ia_rest_downlink, encoding.cpp:182-235. *)
Definition w_rest_dl (tlli tfi : Z) (egprs : bool) (ws : Z) (polling ta_valid : bool) (rfn alpha gamma tai : Z) : list sym :=
  [H; H; B false; B true] ++ fld 32 tlli ++ [B true] ++ fld 5 tfi ++ [B false] ++ w_alpha_gamma alpha gamma ++
  [B polling; B ta_valid] ++ w_ta_index tai ++
  (if polling then B true :: w_start_time rfn else [B false]) ++ [B false] ++
  (if egprs then H :: fld 5 (enc_ws ws) ++ [B false; B false; B true] else [L]).
(** write_ia_rest_uplink_sba, encoding.cpp:238-264. *)
Definition w_rest_ul_sba (rfn alpha gamma : Z) : list sym :=
  [B false] ++ w_alpha_gamma alpha gamma ++ [B false; B true] ++ w_start_time rfn ++ [L; L; L].
(** write_ia_rest_uplink_mba, encoding.cpp:266-293. *)
Definition w_rest_ul_mba (tfi : Z) (cs : scheme) (usf alpha gamma tai : Z) : list sym :=
  [B true] ++ w_tfi_usf tfi usf ++ fld 2 (mcs_chan_code cs) ++ [B true] ++ w_alpha_gamma alpha gamma ++
  w_ta_index tai ++ [B false].
(** write_ia_rest_egprs_uplink_mba, encoding.cpp:295-312. *)
Definition w_rest_egprs_mba (rfn alpha gamma : Z) : list sym :=
  [B false] ++ w_alpha_gamma alpha gamma ++ w_start_time rfn ++ [B false; B false; B false].
(** The cast of the TLLI to enum bit_value, encoding.cpp:331: any value but 1, 2 and 3 is
    written as 0 by libosmocore. *)
Definition tlli_bit (tlli : Z) : sym := if tlli =? 1 then B true else if tlli =? 2 then L else if tlli =? 3 then H else B false.
(** write_ia_rest_egprs_uplink_sba, encoding.cpp:314-354. *)
Definition w_rest_egprs_sba (tlli tfi ws : Z) (cs : scheme) (usf alpha gamma tai : Z) : list sym :=
  [B true] ++ w_tfi_usf tfi usf ++ fld 4 (mcs_chan_code cs) ++ [tlli_bit tlli] ++ [B false; B false] ++
  fld 5 (enc_ws ws) ++ w_alpha_gamma alpha gamma ++ w_ta_index tai ++ [B false; B false].

(** The timeslot: fields of struct gprs_rlcmac_pdch and of its TRX. *)
Record ia_pdch := mk_iap {
  ip_ts : Z; ip_tsc : Z; ip_arfcn : Z;
  ip_fh : option (Z * Z * list Z) }.      (* MAIO, HSN, mobile allocation *)
Record ia_par := mk_par {
  q_down : bool; q_ra : Z; q_rfn : Z; q_ta : Z; q_usf : Z; q_poll : bool; q_start : Z;
  q_alpha : Z; q_gamma : Z; q_tai : Z;
  q_ext : bool }.                         (* burst type ACCESS_1 or ACCESS_2 *)

(** The request reference, encoding.cpp:474-485; the reference frame number is 16 bits. *)
Definition w_reference (ext : bool) (ra rfn : Z) : list sym := fld 8 (if ext then 127 else ra) ++ w_start_time rfn.

(** write_immediate_assignment up to the rest octets, encoding.cpp:449-506. *)
Definition w_header (p : ia_pdch) (q : ia_par) : list sym :=
  fld 4 0 ++ fld 4 6 ++ fld 8 63 ++ [B false; B false; B (q_down q); B true] ++ fld 4 0 ++
  fld 5 1 ++ fld 3 (ip_ts p) ++ fld 3 (ip_tsc p) ++
  match ip_fh p with
  | Some (maio, hsn, _) => fld 1 1 ++ fld 6 maio ++ fld 6 hsn
  | None => fld 3 0 ++ fld 10 (ip_arfcn p)
  end ++
  w_reference (q_ext q) (q_ra q) (q_rfn q) ++
  fld 2 0 ++ fld 6 (q_ta q) ++
  match ip_fh p with
  | Some (_, _, ma) => fld 8 (Z.of_nat (length ma)) ++ flat_map (fld 8) ma
  | None => fld 8 0
  end.

(** The rest octets, encoding.cpp:508-535. None: a failed assertion. GSM48_TA is valid below
    64. *)
Definition w_rest (t : ia_tbf) (q : ia_par) : option (list sym) :=
  if q_down q then
    match t with
    | DlTbf tlli tfi e ws => Some (w_rest_dl tlli tfi e ws (q_poll q) (q_ta q <? 64) (q_start q) (q_alpha q) (q_gamma q) (q_tai q))
    | _ => None
    end
  else if q_ext q then
    Some ([L; H; B false; B false] ++ fld 5 (Z.land (q_ra q) 31) ++ [B false] ++
      match t with
      | UlTbf tlli tfi _ ws cs => w_rest_egprs_sba tlli tfi ws cs (q_usf q) (q_alpha q) (q_gamma q) (q_tai q)
      | _ => w_rest_egprs_mba (q_start q) (q_alpha q) (q_gamma q)
      end)
  else if (match t with DlTbf _ _ e _ | UlTbf _ _ e _ _ => e | NoTbf => false end) then None
  else
    Some ([H; H; B false; B false] ++
      match t with
      | UlTbf _ tfi _ _ cs => w_rest_ul_mba tfi cs (q_usf q) (q_alpha q) (q_gamma q) (q_tai q)
      | _ => w_rest_ul_sba (q_start q) (q_alpha q) (q_gamma q)
      end).

(** The vector of 22 octets, filled with 0x2b before (bts.cpp:940-941, 1116-1117). The bits
    from place [i] on. *)
Definition pad (i : Z) : bool := Z.testbit 0x2b (7 - i mod 8).
Definition put (i : Z) (s : sym) : bool := match s with B b => b | L => pad i | H => negb (pad i) end.
Fixpoint puts (i : Z) (l : list sym) : list bool := match l with [] => [] | s :: r => put i s :: puts (i + 1) r end.
Definition octet (l : list bool) : Z := fold_left (fun a (b : bool) => 2 * a + (if b then 1 else 0)) l 0.
Fixpoint octets (n : nat) (l : list bool) : list Z :=
  match n with O => [] | S n => octet (firstn 8 l) :: octets n (skipn 8 l) end.
Definition VEC_BITS : nat := 176.
Inductive ia_res := IaAbort | IaFail | IaSent (plen : Z) (vec : list Z).
(** A bit past the end makes the writers return a negative value, whichever field it is in;
    the vector is thrown away then. *)
Definition write_immediate_assignment (p : ia_pdch) (t : ia_tbf) (q : ia_par) : ia_res :=
  match w_rest t q with
  | None => IaAbort
  | Some rest =>
    let l := w_header p q ++ rest in
    if Nat.ltb VEC_BITS (length l) then IaFail
    else IaSent (Z.of_nat (length (w_header p q)) / 8) (octets 22 (puts 0 (l ++ repeat L (VEC_BITS - length l))))
  end.

(** write_immediate_assignment_reject, encoding.cpp:360-430. *)
Definition write_immediate_assignment_reject (ra rfn : Z) (ext : bool) (t3142 : Z) : ia_res :=
  let one := w_reference ext ra rfn ++ fld 8 t3142 in
  let l := fld 4 0 ++ fld 4 6 ++ fld 8 58 ++ [B false; B false; B false; B true] ++ fld 4 0 ++ one ++ one ++ one ++ one in
  let rest := (if ext then B true :: fld 5 (Z.land ra 31) else [B false]) ++ [B false; B false; B false] in
  IaSent (Z.of_nat (length l) / 8) (octets 22 (puts 0 (l ++ rest ++ repeat L (VEC_BITS - length (l ++ rest))))).

(** pcu_l1if_tx_agch2 and pcu_l1if_tx_pch2, pcu_l1_if.cpp:262-305: the block given to the
    BTS. *)
Definition l1_block (plen : Z) (vec : list Z) : list Z := Z.lor (Z.shiftl plen 2) 1 mod 256 :: vec.

(** bts_snd_dl_ass, bts.cpp:1106-1150. [last] is the last RTS frame number. *)
Definition dl_par (last ta alpha gamma : Z) : ia_par :=
  mk_par true 125 (((last + 21216) mod 2715648) mod 42432) ta 7 false 0 alpha gamma (-1) false.

(** tlli_from_imm_ass, bts.cpp:669-697. Past: octets beyond the block are read. *)
Inductive tlli_res := Past | Refused | Tlli (v : Z).
Definition tlli_from_imm_ass (data : list Z) : tlli_res :=
  let plen := Z.to_nat (Z.shiftr (nth 0 data 0) 2) in
  match skipn (1 + plen) data with
  | [] => Past
  | a :: r =>
    if negb (Z.land a 0xf0 =? 0xd0) then Refused else
    match r with
    | b :: c :: d :: e :: _ =>
      Tlli (Z.lor (Z.lor (Z.lor (Z.lor (Z.shiftl (Z.land a 0xf) 28) (Z.shiftl b 20)) (Z.shiftl c 12)) (Z.shiftl d 4)) (Z.shiftr e 4))
    | _ => Past
    end
  end.
(** bts_rcv_imm_ass_cnf, bts.cpp:699-720: the TLLI looked up. None: refused. *)
Definition imm_ass_cnf_tlli (data : option (list Z)) (tlli : Z) : option Z :=
  let t := match data with
           | Some d => if tlli =? 0xffffffff then match tlli_from_imm_ass d with Tlli v => Some v | _ => None end else Some tlli
           | None => Some tlli
           end in
  match t with Some v => if v =? 0xffffffff then None else Some v | None => None end.
