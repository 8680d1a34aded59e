(** The radio measurements kept for a mobile. *)
From Coq Require Import ZArith List Bool.
Import ListNotations.
From Verif Require Import Model.Csn1 Model.Csn1Tables.
Open Scope Z_scope.

(** struct pcu_l1_meas, pcu_l1_if.h:77-98: a member with its bit have_... is an option here (nothing reads a
    member whose bit is not set).  [ts i] is ts[i]; only 0 to 7 are used. *)
Record l1_meas := mk_l1 {
  rssi : option Z; ber : option Z; bto : option Z; link_qual : option Z;
  ms_rx_qual : option Z; ms_c_value : option Z; ms_sign_var : option Z;
  have_ms_i_level : bool; ts : nat -> option Z }.
(** A new mobile: ms_alloc, gprs_ms.c (talloc_zero); and pcu_rx_data_ind, pcu_l1_if.cpp:466. *)
Definition l1_none : l1_meas := mk_l1 None None None None None None None false (fun _ => None).

(** pcu_rx_data_ind, pcu_l1_if.cpp:479-483: the division of C rounds towards zero; the bit error rate is stored in a uint8_t. *)
Definition l1_of_ind (rssi ber10k ta_offs_qbits lqual_cb : Z) : l1_meas :=
  mk_l1 (Some rssi) (Some (Z.quot ber10k 100 mod 256)) (Some ta_offs_qbits) (Some (Z.quot lqual_cb 10)) None None None false (fun _ => None).

(** pcu_l1_meas_set_ms_i_level, pcu_l1_if.h:128-131 *)
Definition set_ms_i_level (i : nat) (x : Z) (m : l1_meas) : l1_meas :=
  mk_l1 (rssi m) (ber m) (bto m) (link_qual m) (ms_rx_qual m) (ms_c_value m) (ms_sign_var m) true
    (fun j => if Nat.eqb j i then Some x else ts m j).

(** get_rx_qual_meas, pdch.cpp:58-74 *)
Definition rx_qual_map : list Z := [0; 0; 1; 1; 2; 5; 9; 18].
Definition get_rx_qual_meas (rx_qual_enc : Z) : Z := nth (Z.to_nat (Z.min rx_qual_enc 7)) rx_qual_map 0.

(** The loops over the interference levels, pdch.cpp:85-93 and 105-113. *)
Definition get_levels (exist level : nat -> Z) (m : l1_meas) : l1_meas :=
  fold_left (fun m i => if negb (exist i =? 0) then set_ms_i_level i (-2 * level i) m else m) (seq 0 8) m.

(** Members of Packet_Downlink_Ack_Nack_t.Channel_Quality_Report (gsm_rlcmac.h): C_VALUE, RXQUAL, SIGN_VAR, Slot[i]. *)
Definition cqr_c_value (s : state) : Z := u8 s 22.
Definition cqr_rxqual (s : state) : Z := u8 s 23.
Definition cqr_sign_var (s : state) : Z := u8 s 24.
Definition cqr_exist (s : state) (i : nat) : Z := u8 s (25 + 2 * Z.of_nat i).
Definition cqr_level (s : state) (i : nat) : Z := u8 s (26 + 2 * Z.of_nat i).
(** get_meas of a Channel_Quality_Report_t, pdch.cpp:96-114 *)
Definition get_meas_ack (s : state) (m : l1_meas) : l1_meas :=
  get_levels (cqr_exist s) (cqr_level s)
    (mk_l1 (rssi m) (ber m) (bto m) (link_qual m) (Some (get_rx_qual_meas (cqr_rxqual s))) (Some (cqr_c_value s))
       (Some (Z.quot (cqr_sign_var s + 2) 4)) (have_ms_i_level m) (ts m)).

(** Members of Packet_Resource_Request_t (gsm_rlcmac.h): C_VALUE, Exist_SIGN_VAR, SIGN_VAR, I_LEVEL_TN[i] (Exist is an int). *)
Definition prr_exist_capability (s : state) : Z := u8 s 16.
Definition prr_c_value (s : state) : Z := u8 s 786.
Definition prr_exist_sign_var (s : state) : Z := u8 s 787.
Definition prr_sign_var (s : state) : Z := u8 s 788.
Definition prr_exist (s : state) (i : nat) : Z := u32 s (792 + 8 * Z.of_nat i).
Definition prr_level (s : state) (i : nat) : Z := u8 s (796 + 8 * Z.of_nat i).
(** get_meas of a Packet_Resource_Request_t, pdch.cpp:76-94 *)
Definition get_meas_request (s : state) (m : l1_meas) : l1_meas :=
  get_levels (prr_exist s) (prr_level s)
    (mk_l1 (rssi m) (ber m) (bto m) (link_qual m) (ms_rx_qual m) (Some (prr_c_value s))
       (if negb (prr_exist_sign_var s =? 0) then Some (Z.quot (prr_sign_var s + 2) 4) else ms_sign_var m) (have_ms_i_level m) (ts m)).

Definition set_if (x old : option Z) : option Z := match x with Some _ => x | None => old end.
(** ms_update_l1_meas, gprs_ms.c:827-857 (the choice of the coding scheme, 831, is [update_cs_ul] in LinkAdapt.v). *)
Definition ms_update_l1_meas (ms m : l1_meas) : l1_meas :=
  mk_l1 (set_if (rssi m) (rssi ms)) (set_if (ber m) (ber ms)) (set_if (bto m) (bto ms)) (set_if (link_qual m) (link_qual ms))
    (set_if (ms_rx_qual m) (ms_rx_qual ms)) (set_if (ms_c_value m) (ms_c_value ms)) (set_if (ms_sign_var m) (ms_sign_var ms))
    (if have_ms_i_level m then existsb (fun i => match ts m i with Some _ => true | None => false end) (seq 0 8) || have_ms_i_level ms else have_ms_i_level ms)
    (if have_ms_i_level m then ts m else ts ms).

(** A block of the mobile: data (rcv_data_block_acknowledged, tbf_ul.cpp:278), or a control block
    (rcv_control_block, pdch.cpp:901-963) that its procedure takes for this mobile, pdch.cpp:528-533, 618-626,
    803-805, 896.  The other procedures leave the measurements alone. *)
Inductive heard := HData | HControl (msg : list Z).
Definition ms_hear (ms : l1_meas) (m : l1_meas) (b : heard) : l1_meas :=
  match b with
  | HData => ms_update_l1_meas ms m
  | HControl msg =>
    match rcv_control_block msg with
    | None => ms
    | Some (OnDlAckNack, s) => ms_update_l1_meas ms (get_meas_ack s m)
    | Some (OnResourceRequest, s) => ms_update_l1_meas ms (get_meas_request s m)
    | Some (OnCellChangeNotification, _) => ms_update_l1_meas ms m
    | Some _ => ms
    end
  end.
