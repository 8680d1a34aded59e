(** Classification of access bursts: /repo/src/bts.cpp, gsm_rlcmac.c, csn1_dec.c. *)
From Coq Require Import ZArith List Bool.
Import ListNotations.
Local Open Scope Z_scope.

(** enum ph_burst_type of libosmocore's l1sap.h; [BOther] is any value without a case. *)
Inductive burst : Set := BNone | BAccess0 | BAccess1 | BAccess2 | BOther (n : Z).

(** The fields of the message by their C names; a field that is not in the message stays
    uninitialised, [None]. *)
Record content := mk_ct { c_mcg : option Z; c_mc : option Z; c_nob : option Z; c_prio : option Z; c_rand : option Z }.
Inductive field : Set := FMcg | FMc | FNob | FPrio | FRand.
Definition set_field (c : content) (f : field) (v : Z) : content :=
  match f with
  | FMcg => mk_ct (Some v) (c_mc c) (c_nob c) (c_prio c) (c_rand c)
  | FMc => mk_ct (c_mcg c) (Some v) (c_nob c) (c_prio c) (c_rand c)
  | FNob => mk_ct (c_mcg c) (c_mc c) (Some v) (c_prio c) (c_rand c)
  | FPrio => mk_ct (c_mcg c) (c_mc c) (c_nob c) (Some v) (c_rand c)
  | FRand => mk_ct (c_mcg c) (c_mc c) (c_nob c) (c_prio c) (Some v)
  end.

(** EGPRS_PacketChannelRequest_Choice, gsm_rlcmac.c:5281-5293, with the descriptions in
    5248-5279: selector width, selector value, fields with their widths. *)
Definition choices : list (Z * Z * list (field * Z)) :=
  let mc5p2rb3 := [(FMc, 5); (FPrio, 2); (FRand, 3)] in
  let nob3p2rb3 := [(FNob, 3); (FPrio, 2); (FRand, 3)] in
  let mcg3p2rb3 := [(FMcg, 3); (FPrio, 2); (FRand, 3)] in
  let p2rb3 := [(FPrio, 2); (FRand, 3)] in
  let rb5 := [(FRand, 5)] in
  [ (1, 0x00, mc5p2rb3); (3, 0x04, nob3p2rb3); (3, 0x05, mcg3p2rb3); (6, 0x30, p2rb3); (6, 0x33, rb5);
    (6, 0x35, rb5); (6, 0x36, rb5); (6, 0x37, rb5); (6, 0x38, p2rb3); (6, 0x39, rb5) ].

(** The two octets decode_egprs_pkt_ch_req makes, gsm_rlcmac.c:6235-6236, as one number, and
    libosmocore's bitvec_read_field on it. *)
Definition octets (ra : Z) : Z := (Z.shiftr ra 3 mod 256) * 256 + (Z.shiftl (Z.land ra 7) 5) mod 256.
Definition read_field (v pos n : Z) : Z := Z.shiftr v (16 - pos - n) mod 2 ^ n.

(** CSN_UINT in csnStreamDecoder, csn1_dec.c:112-176, for a list of fields; None if bits are
    missing. Result: the content and the bits left. *)
Fixpoint read_fields (v : Z) (fs : list (field * Z)) (pos remaining : Z) (c : content) : option (content * Z) :=
  match fs with
  | [] => Some (c, remaining)
  | (f, n) :: r =>
    if remaining <? n then None
    else read_fields v r (pos + n) (remaining - n) (set_field c f (read_field v pos n))
  end.
(** CSN_CHOICE, csn1_dec.c:410-466: type (index of the choice), content and the bits left;
    None for an error. *)
Fixpoint read_choice (v : Z) (cs : list (Z * Z * list (field * Z))) (i : Z) : option (Z * content * Z) :=
  match cs with
  | [] => None
  | (w, sel, fs) :: r =>
    if read_field v 0 w =? sel
    then match read_fields v fs w (11 - w) (mk_ct None None None None None) with
         | Some (c, rest) => Some (i, c, rest)
         | None => None
         end
    else read_choice v r (i + 1)
  end.

(** struct chan_req_params, bts.cpp (egprs_mslot_class, priority, single_block). *)
Record chan_req := mk_cr { r_class : Z; r_prio : Z; r_single : bool }.
Inductive outcome :=
| Parsed (c : chan_req)
| Rejected
| Uninit.                       (* an uninitialised field was used *)

Definition with_prio (c : content) (k : Z -> outcome) : outcome :=
  match c_prio c with Some p => k ((p + 1) mod 256) | None => Uninit end.
(** parse_egprs_pkt_ch_req, bts.cpp:797-852; types as in gsm_rlcmac.h:5355-5366. The decoder's
    result is the number of bits left; other than 0 is taken for an error. *)
Definition parse_egprs (ra : Z) : outcome :=
  match read_choice (octets ra) choices 0 with
  | None => Rejected
  | Some (ty, c, rest) =>
    if negb (rest =? 0) then Rejected
    else match ty with
    | 0 => match c_mc c with Some m => with_prio c (fun p => Parsed (mk_cr ((m + 1) mod 256) p false)) | None => Uninit end
    | 1 => with_prio c (fun p => match c_nob c with Some n => Parsed (mk_cr 0 p (n =? 0)) | None => Uninit end)
    | 2 => with_prio c (fun p => Parsed (mk_cr 0 p false))
    | 3 | 8 => with_prio c (fun p => Parsed (mk_cr 0 p true))
    | 4 | 9 => Parsed (mk_cr 0 0 true)
    | _ => Rejected
    end
  end.
(** parse_rach_ind, bts.cpp:854-894. *)
Definition parse_rach_ind (b : burst) (is11 : bool) (ra : Z) : outcome :=
  match b with
  | BNone | BAccess0 => if is11 then Rejected else Parsed (mk_cr 0 0 (Z.land ra 0xf8 =? 0x70))
  | BAccess1 | BAccess2 => if negb is11 then Rejected else parse_egprs ra
  | BOther _ => Rejected
  end.

(** bts_rcv_rach, bts.cpp:928-1055: what is answered. [sba_ok] and [tbf_ok]: a single block,
    or a TBF, could be allocated. *)
Inductive answer := ImmAssTbf (class : Z) | ImmAssSingle | ImmAssReject | Undefined.
Definition rcv_rach (force_two_phase sba_ok tbf_ok : bool) (b : burst) (is11 : bool) (ra : Z) : answer :=
  match parse_rach_ind b is11 ra with
  | Uninit => Undefined
  | Rejected => ImmAssReject
  | Parsed c =>
    if r_single c || force_two_phase then (if sba_ok then ImmAssSingle else ImmAssReject)
    else if tbf_ok then ImmAssTbf (r_class c) else ImmAssReject
  end.
