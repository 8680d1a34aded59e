(** Model of how a downlink TBF counts errors from a report: analyse_errors and its call in update_window,
    src/tbf_dl.cpp. *)
From Coq Require Import ZArith List Bool.
From Verif Require Import Base.Arith Model.CodingScheme Model.RlcWindow Model.RlcWindowDl.
Import ListNotations.
Local Open Scope Z_scope.

(** What is read from the store of blocks (1024 of them, rlc.h:281-289): cs_last and len. *)
Record dl_store := mk_store { e_cs : Z -> scheme; e_len : Z -> Z }.
Definition stored (f : Z -> scheme) (bsn : Z) : scheme := f (Z.land bsn mod_sns_half).

(** ana_result with the counters lost and received, tbf_dl.cpp:930-934. *)
Record ana := mk_ana {
  n_received : Z; n_lost : Z;                (* of the current scheme *)
  n_rpackets : Z; n_rbytes : Z; n_lpackets : Z; n_lbytes : Z }.
Definition ana0 : ana := mk_ana 0 0 0 0 0 0.

(** The body of the loop, tbf_dl.cpp:949-994, behind the test for the end; m_rlc.block never gives NULL. *)
Definition ana_block (w : dl_window) (t : dl_store) (cur : scheme) (r : bool) (bsn : Z) (a : ana) : ana :=
  let l := e_len t (Z.land bsn mod_sns_half) in
  let a := if r && negb (vb_is w bsn DlAcked) then mk_ana (n_received a) (n_lost a) (n_rpackets a + 1) (n_rbytes a + l) (n_lpackets a) (n_lbytes a)
           else if negb r && negb (vb_is w bsn DlNacked) then mk_ana (n_received a) (n_lost a) (n_rpackets a) (n_rbytes a) (n_lpackets a + 1) (n_lbytes a + l)
           else a in
  if negb (snum (stored (e_cs t) bsn) =? snum cur) then a
  else if r then
    (if negb (vb_is w bsn DlAcked) then mk_ana (n_received a + 1) (n_lost a) (n_rpackets a) (n_rbytes a) (n_lpackets a) (n_lbytes a) else a)
  else mk_ana (n_received a) (n_lost a + 1) (n_rpackets a) (n_rbytes a) (n_lpackets a) (n_lbytes a).

(** The loop, tbf_dl.cpp:942-995: [k] blocks still to do of [num]; bitpos = num - k, index = k - 1.  bitnum_to_bsn
    (922-925) gives a uint16_t. *)
Fixpoint ana_loop (w : dl_window) (t : dl_store) (cur : scheme) (rbb : list bool) (ssn : Z) (num k : nat) (a : ana) : ana :=
  match k with
  | O => a
  | S j =>
    let bsn := dmod w ((ssn - 1 - Z.of_nat (num - k)) mod 65536) in
    if bsn =? dmod w (dw_va w - 1) then a
    else ana_loop w t cur rbb ssn num j (ana_block w t cur (nth j rbb false) bsn a)
  end.

(** The error rate in per cent, -1: unknown, tbf_dl.cpp:1006-1010. *)
Definition ana_rate (a : ana) : Z :=
  if n_lost a + n_received a <=? 1 then -1 else n_lost a * 100 / (n_lost a + n_received a).

(** analyse_errors, tbf_dl.cpp:927-1011; its parameter ssn is a uint8_t.  strlen(show_rbb) is the number of bits. *)
Definition analyse_errors (w : dl_window) (t : dl_store) (cur : scheme) (rbb : list bool) (ssn : Z) : ana :=
  let num := Z.to_nat (Z.min (Z.of_nat (length rbb)) (dl_distance w)) in
  ana_loop w t cur rbb (ssn mod 256) num num ana0.

(** The call in update_window, tbf_dl.cpp:1027-1038: ssn is the number behind the last block of the report. *)
Definition report_errors (w : dl_window) (t : dl_store) (cur : scheme) (rbb : list bool) (first_bsn : Z) : ana :=
  analyse_errors w t cur rbb (dmod w (first_bsn + Z.min (Z.of_nat (length rbb)) (dl_distance w))).
