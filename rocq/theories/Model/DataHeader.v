(** Headers of RLC data blocks: writing those of downlink blocks, reading those of uplink blocks;
    src/encoding.cpp and src/decoding.cpp.

    The bit fields are those of the structures rlc_dl_header and rlc_ul_header in src/rlc.h:220-257 and
    gprs_rlc_dl_header_egprs_* and gprs_rlc_ul_header_egprs_* of libosmocore, on a little endian
    host.  A message is the list of its octets. *)
From Coq Require Import ZArith List Bool.
From Verif Require Import Model.CodingScheme Model.RlcCps Model.BitCopy.
Import ListNotations.
Open Scope Z_scope.

(** An octet of a message is replaced.  [None]: it is outside the message. *)
Fixpoint put (o : nat) (f : Z -> Z) (m : list Z) : option (list Z) :=
  match m, o with
  | [], _ => None
  | x :: m, O => Some (f x :: m)
  | x :: m, S o => match put o f m with Some m => Some (x :: m) | None => None end
  end.
(** Assignment to a bit field of [w] bits at bit [s] of an octet. *)
Definition bits_set (s w v x : Z) : Z := Z.lor (Z.ldiff x (Z.shiftl (Z.ones w) s)) (Z.shiftl (v mod 2 ^ w) s).
Record piece := Piece { c_oct : nat; c_bit : Z; c_width : Z; c_val : Z }.
Fixpoint puts (l : list piece) (m : list Z) : option (list Z) :=
  match l with
  | [] => Some m
  | Piece o s w v :: l => match put o (bits_set s w v) m with Some m => puts l m | None => None end
  end.

(** The members of struct gprs_rlc_data_block_info and struct gprs_rlc_data_info that are used,
    src/rlc.h:124-149. *)
Record binfo := Bi { i_bsn : Z; i_e : Z; i_cv : Z; i_spb : Z }.
Record dinfo := Di { i_usf : Z; i_esp : Z; i_rrbp : Z; i_tfi : Z; i_pr : Z; i_cps : Z; i_pad : bool; i_b0 : binfo; i_b1 : binfo }.

Definition offs_dl (c : scheme) (pad : bool) (i : Z) : Z := data_offs_bits c pad (num_data_header_bits_DL (mcs_header_type c)) i.
Definition offs_ul (c : scheme) (pad : bool) (i : Z) : Z := data_offs_bits c pad (num_data_header_bits_UL (mcs_header_type c)) i.

(** The extension and final block bits before a data block, src/encoding.cpp:1245-1246. *)
Definition e_fbi (b : binfo) : Z := Z.lor (if i_e b =? 0 then 0 else 1) (if i_cv b =? 0 then 2 else 0).
Definition ofb (b : bool) : Z := if b then 1 else 0.

(** The members that the three types of EGPRS headers share, src/encoding.cpp:1227-1237. *)
Definition common (d : dinfo) : list piece :=
  [ Piece 0 0 3 (i_usf d); Piece 0 3 2 (i_esp d); Piece 0 5 2 (i_rrbp d); Piece 0 7 1 (i_tfi d); Piece 1 0 4 (Z.shiftr (i_tfi d) 1);
    Piece 1 4 2 (i_pr d);
    Piece 1 6 2 (i_bsn (i_b0 d)); Piece 2 0 8 (Z.shiftr (i_bsn (i_b0 d)) 2); Piece 3 0 1 (Z.shiftr (i_bsn (i_b0 d)) 10) ].

(** rlc_write_dl_data_header, src/encoding.cpp:1197-1325.  [None]: a failed assertion, an access
    outside the message, or a scheme that is not supported. *)
Definition write_dl (c : scheme) (d : dinfo) (m : list Z) : option (list Z) :=
  let o0 := offs_dl c (i_pad d) 0 in
  let o1 := offs_dl c (i_pad d) 1 in
  match mcs_header_type c with
  | HGprs =>
      puts [ Piece 0 0 3 (i_usf d); Piece 0 3 1 (ofb (negb (i_esp d =? 0))); Piece 0 4 2 (i_rrbp d); Piece 0 6 2 0;
             Piece 1 1 5 (i_tfi d); Piece 1 6 2 (i_pr d);
             Piece 1 0 1 (ofb (i_cv (i_b0 d) =? 0)); Piece 2 0 1 (i_e (i_b0 d)); Piece 2 1 7 (i_bsn (i_b0 d)) ] m
  | HType1 =>
      let delta := Z.land (i_bsn (i_b1 d) - i_bsn (i_b0 d)) 2047 in
      match puts (common d ++ [ Piece 4 3 5 (i_cps d); Piece 3 1 7 delta; Piece 4 0 3 (Z.shiftr delta 7) ]) m with
      | None => None
      | Some m =>
          if negb (o0 mod 8 =? 2) then None else
          match put (Z.to_nat (o0 / 8)) (fun x => Z.lor (Z.land x 0xfc) (e_fbi (i_b0 d))) m with
          | None => None
          | Some m =>
              if negb (o1 mod 8 =? 4) then None else
              put (Z.to_nat (o1 / 8)) (fun x => Z.lor (Z.land x 0xf3) (Z.shiftl (e_fbi (i_b1 d)) 2)) m
          end
      end
  | HType2 =>
      match puts (common d ++ [ Piece 3 1 3 (i_cps d) ]) m with
      | None => None
      | Some m =>
          if negb (o0 mod 8 =? 6) then None else
          put (Z.to_nat (o0 / 8)) (fun x => Z.lor (Z.land x 0xcf) (Z.shiftl (e_fbi (i_b0 d)) 4)) m
      end
  | HType3 =>
      match puts (common d ++ [ Piece 3 1 4 (i_cps d); Piece 3 5 2 (i_spb (i_b0 d)) ]) m with
      | None => None
      | Some m =>
          if negb (o0 mod 8 =? 1) then None else
          let h := Z.shiftl (e_fbi (i_b0 d)) 7 in
          match put (Z.to_nat (o0 / 8 - 1)) (fun x => Z.lor (Z.land x 0x7f) h mod 256) m with
          | None => None
          | Some m => put (Z.to_nat (o0 / 8)) (fun x => Z.lor (Z.land x 0xfe) (Z.shiftr h 8)) m
          end
      end
  | _ => None
  end.

(** create_dl_acked_block, src/tbf_dl.cpp:774-795, 849-853 and 909: the message is cleared by
    msgb_alloc, the data blocks are copied to their places and the header is written. *)
Fixpoint copy_blocks (fields : list (Z * Z)) (blocks : list (list Z)) (m : list Z) : option (list Z) :=
  match fields, blocks with
  | (o, n) :: fields, b :: blocks =>
      match copy_from_aligned o (firstn (Z.to_nat n) b) m with Some m => copy_blocks fields blocks m | None => None end
  | _, _ => Some m
  end.
Definition radio_block (c : scheme) (d : dinfo) (blocks : list (list Z)) : option (list Z) :=
  match data_info_init_dl c (i_pad d) with
  | None => None
  | Some fields =>
      match copy_blocks fields blocks (repeat 0 (Z.to_nat (mcs_size_dl c))) with
      | None => None
      | Some m => write_dl c d m
      end
  end.

(** The scheduler sets the USF, src/gprs_rlcmac_sched.cpp:517-518. *)
Definition set_usf (usf : Z) (m : list Z) : option (list Z) := put 0 (fun x => Z.lor (Z.land x 0xf8) usf) m.

(** Reading a bit field.  [None]: outside the message. *)
Definition get (o : nat) (s w : Z) (m : list Z) : option Z :=
  match nth_error m o with Some x => Some (Z.shiftr x s mod 2 ^ w) | None => None end.
Fixpoint gets (l : list (nat * Z * Z)) (m : list Z) : option (list Z) :=
  match l with
  | [] => Some []
  | (o, s, w) :: l =>
      match get o s w m, gets l m with Some v, Some r => Some (v :: r) | _, _ => None end
  end.

(** What the parser finds: the common members, and those of each data block with its place. *)
Record ublock := Ub { e_cv : Z; e_bsn : Z; e_pi : Z; e_spb : Z; e_e : Z; e_ti : Z; e_offs : Z; e_len : Z }.
Record uinfo := Ui { a_r : Z; a_si : Z; a_tfi : Z; a_cps : Z; a_rsb : Z; a_blocks : list ublock }.

Definition bang (x : Z) : Z := if x =? 0 then 0 else 1.
(** rlc_parse_ul_data_header and its four cases, src/decoding.cpp:338-539.  [None]: a failed assertion, a
    read outside the message, or a scheme that is not supported. *)
Definition parse_ul (c : scheme) (m : list Z) : option uinfo :=
  match mcs_header_type c with
  | HGprs =>
      match gets [(0%nat, 0, 1); (0%nat, 1, 1); (0%nat, 2, 4); (1%nat, 0, 1); (1%nat, 1, 5); (1%nat, 6, 1); (2%nat, 0, 1); (2%nat, 1, 7)] m with
      | Some [r; si; cv; ti; tfi; pi; e; bsn] =>
          Some (Ui r si tfi 0 0 [Ub cv bsn pi 0 e ti (offs_ul c false 0) (block_data_len c false)])
      | _ => None
      end
  | HType3 =>
      match gets [(0%nat, 0, 1); (0%nat, 1, 1); (0%nat, 2, 4); (0%nat, 6, 2); (1%nat, 0, 3); (1%nat, 3, 5); (2%nat, 0, 6); (2%nat, 6, 2);
                  (3%nat, 0, 2); (3%nat, 2, 2); (3%nat, 4, 1); (3%nat, 5, 1)] m with
      | Some [r; si; cv; tfi_hi; tfi_lo; bsn_hi; bsn_lo; cps_hi; cps_lo; spb; rsb; pi] =>
          let cps := Z.lor cps_hi (Z.shiftl cps_lo 2) in
          match mcs_cps_decode cps c with
          | None => None
          | Some (_, _, pad) =>
              let o := offs_ul c pad 0 in
              if negb (o mod 8 =? 1) then None else
              match nth_error m (Z.to_nat (o / 8 - 1)), nth_error m (Z.to_nat (o / 8)) with
              | Some x, Some y =>
                  let h := Z.shiftr (x + Z.shiftl y 8) 7 in
                  Some (Ui r si (Z.lor tfi_hi (Z.shiftl tfi_lo 2)) cps rsb
                          [Ub cv (Z.lor bsn_hi (Z.shiftl bsn_lo 5)) pi spb (bang (Z.land h 1)) (bang (Z.land h 2)) o (block_data_len c pad)])
              | _, _ => None
              end
          end
      | _ => None
      end
  | HType2 =>
      match gets [(0%nat, 0, 1); (0%nat, 1, 1); (0%nat, 2, 4); (0%nat, 6, 2); (1%nat, 0, 3); (1%nat, 3, 5); (2%nat, 0, 6); (2%nat, 6, 2);
                  (3%nat, 0, 1); (3%nat, 1, 1); (3%nat, 2, 1)] m with
      | Some [r; si; cv; tfi_hi; tfi_lo; bsn_hi; bsn_lo; cps_hi; cps_lo; rsb; pi] =>
          let cps := Z.lor cps_hi (Z.shiftl cps_lo 2) in
          match mcs_cps_decode cps c with
          | None => None
          | Some (_, _, pad) =>
              let o := offs_ul c pad 0 in
              if negb (o mod 8 =? 7) then None else
              match nth_error m (Z.to_nat (o / 8)) with
              | Some y =>
                  let h := Z.shiftr (Z.land y 0x60) 5 in
                  Some (Ui r si (Z.lor tfi_hi (Z.shiftl tfi_lo 2)) cps rsb
                          [Ub cv (Z.lor bsn_hi (Z.shiftl bsn_lo 5)) pi 0 (bang (Z.land h 1)) (bang (Z.land h 2)) o (block_data_len c pad)])
              | None => None
              end
          end
      | _ => None
      end
  | HType1 =>
      match gets [(0%nat, 0, 1); (0%nat, 1, 1); (0%nat, 2, 4); (0%nat, 6, 2); (1%nat, 0, 3); (1%nat, 3, 5); (2%nat, 0, 6); (2%nat, 6, 2);
                  (3%nat, 0, 8); (4%nat, 0, 5); (4%nat, 5, 1); (4%nat, 6, 1)] m with
      | Some [r; si; cv; tfi_hi; tfi_lo; bsn_hi; bsn_lo; bsn2_hi; bsn2_lo; cps; rsb; pi] =>
          match mcs_cps_decode cps c with
          | None => None
          | Some (_, _, pad) =>
              let o0 := offs_ul c pad 0 in
              let o1 := offs_ul c pad 1 in
              if negb (o0 mod 8 =? 0) then None else
              if negb (o1 mod 8 =? 2) then None else
              match nth_error m (Z.to_nat (o0 / 8 - 1)), nth_error m (Z.to_nat (o1 / 8)) with
              | Some x, Some y =>
                  let h0 := Z.shiftr x 6 in
                  let h1 := Z.land y 3 in
                  let bsn := Z.lor bsn_hi (Z.shiftl bsn_lo 5) in
                  let bsn2 := Z.land (bsn + Z.lor bsn2_hi (Z.shiftl bsn2_lo 2)) 2047 in
                  Some (Ui r si (Z.lor tfi_hi (Z.shiftl tfi_lo 2)) cps rsb
                          [Ub (if negb (bsn2 =? bsn) && (cv =? 0) then 1 else cv) bsn pi 0 (Z.land h0 1) (bang (Z.land h0 2)) o0 (block_data_len c pad);
                           Ub cv bsn2 pi 0 (Z.land h1 1) (bang (Z.land h1 2)) o1 (block_data_len c pad)])
              | _, _ => None
              end
          end
      | _ => None
      end
  | _ => None
  end.
