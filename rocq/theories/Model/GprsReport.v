(** From a received PACKET DOWNLINK ACK/NACK to the bits the downlink window is told. *)
From Coq Require Import ZArith List Bool.
From Verif Require Import Model.Csn1 Model.Csn1Tables Model.RlcWindow Model.RlcWindowDl Model.TbfDlWindow Model.EgprsReport.
Open Scope Z_scope.

(** rcv_control_dl_ack_nack, pdch.cpp:502-510, with decode_gprs_acknack_bits, decoding.cpp:739-784
    ([decode_gprs_acknack]): the members of Ack_Nack_Description and the bitmap read from its octets. *)
Definition gprs_told (s : state) (w : dl_window) : list bool * Z :=
  decode_gprs_acknack (negb (pda_final s =? 0)) (pda_ssn s) (array_bit (pda_rbb s)) w.
