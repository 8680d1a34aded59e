(** C66, C67: the messages of a cell change as the encoder makes them; the reject of an uplink TBF. *)
From Coq Require Import ZArith List Bool Lia.
From Verif.Model Require Import NeighCache Paging Nacc Csn1Enc CtrlMsg.
From Verif.Spec Require Import PagingSpec NaccSpec AssignSpec RejectSpec.
From Verif.Proofs Require Import Csn1Close AssignRead NaccP NaccP2 CtrlMsgP CtrlMsgEx RejectP.
Import ListNotations.
Open Scope Z_scope.

(** C66.  Whenever, after any history, system information is to be sent, the structure filled for the next
    container can be encoded: the block has 184 bits, and the mobile reads in it the container that is due:
    the number of containers sent so far as index, the cell in the first one, and the octets that follow those
    sent already, as many as there is room for. *)
Theorem C66_data : forall h n out c, good_history h -> n_run None [] h = Some (Some n, out) -> n_st n = TX_DATA ->
  0 <= cr_tfi c < 32 ->
  let rest := skipn (Z.to_nat (n_sent n)) (n_si n) in
  let room := if n_idx n =? 0 then 16%nat else 18%nat in
  exists b, encode_data c n = Some b /\ length b = 184%nat /\
    r_container b = Some (Co (n_idx n mod 32)
      (if n_idx n =? 0 then Some (k_arfcn (n_key n), k_bsic (n_key n)) else None) (if n_psi n then 1 else 0)
      (if (room <=? length rest)%nat then 31 else Z.of_nat (length rest))
      (firstn room rest ++ repeat 0 (room - length rest))).
Proof. exact data_told. Qed.
Print Assumptions C66_data.

(** These are the blocks of which C46 and C60 speak. *)
Theorem C66_data_same : forall h n out c, good_history h -> n_run None [] h = Some (Some n, out) -> n_st n = TX_DATA ->
  encode_data c n = Some (fst (fst (create_data c n))).
Proof. exact data_same. Qed.
Print Assumptions C66_data_same.

(** The Packet Cell Change Continue can always be encoded, too, and is read as it should be. *)
Theorem C66_continue : forall rrbp c n, 0 <= rrbp < 4 -> 0 <= cr_tfi c < 32 -> (n_present n = true -> good_key (n_key n)) ->
  exists b, encode_continue rrbp c n = Some b /\ length b = 184%nat /\
    r_continue b = Some (Some rrbp, cr_dl c, cr_tfi c,
      if n_present n then Some (k_arfcn (n_key n), k_bsic (n_key n)) else None).
Proof. exact continue_told. Qed.
Print Assumptions C66_continue.
Theorem C66_continue_same : forall rrbp c n, exists t, encode_continue rrbp c n = Some (create_continue rrbp c n ++ t).
Proof. exact continue_same. Qed.
Print Assumptions C66_continue_same.

Example C66_ex :
  let n := N TX_DATA (Nkey 5 100 871 10) true (Cgi 262 1 false 6 1 200) false (map Z.of_nat (seq 1 40)) 16 1 (0, 0) false in
  let c := Cr true true 7 true None 4 in
  option_map r_container (encode_data c n) =
    Some (Some (Co 1 None 0 31 (map Z.of_nat (seq 17 18)))) /\
  option_map r_continue (encode_continue 2 c n) = Some (Some (Some 2, true, 7, Some (871, 10))).
Proof. split; vm_compute; reflexivity. Qed.

(** A history after which a container is due. *)
Definition far : cgi := Cgi 262 1 false 6 1 200.
Definition cell : bts := Bts 0 (Cgi 262 1 false 5 1 100) (Some [1; 1; 1]) (Some [3; 3; 3]) None.
Definition here : world := W cell [cell] (fun _ => None) true (fun _ => None) true true true.
Definition hist : list (world * mev) :=
  [(here, MNotif (Gsm 871 10)); (here, MAddr (Nkey 5 100 871 10) (Some far));
   (here, MRan far false (map Z.of_nat (seq 1 40))); (here, MRts (Cr true true 7 true (Some (1234, 2)) 4))].
Example C66_ex_good : good_history hist.
Proof. unfold good_history, hist. repeat constructor; cbn; try discriminate; lia. Qed.
Example C66_ex_due : match n_run None [] hist with
  | Some (Some n, _) => n_st n = TX_DATA /\ n_sent n = 16 /\ n_idx n = 1
  | _ => False
  end.
Proof. vm_compute. repeat split. Qed.

(** C67.  A mobile whose request is refused on the PACCH is told so under its TLLI, with the time to wait
    that is configured (T3172, at most 255 s), rounded down to a multiple of 20 ms, or of a second if it is 5.12
    s or more. *)
Theorem C67_reject : forall tlli t, 0 <= tlli < 2 ^ 32 -> 0 <= t <= 255000 ->
  exists w, reads r_reject (packet_access_reject tlli t) = Some (tlli, Some w) /\ length (packet_access_reject tlli t) = 184%nat /\
    w <= t /\ t < w + (if t <? 5120 then 20 else 1000).
Proof. exact reject_told. Qed.
Print Assumptions C67_reject.

Example C67_ex : reads r_reject (packet_access_reject 0xc1234567 5000) = Some (0xc1234567, Some 5000) /\
  reads r_reject (packet_access_reject 0xc1234567 5119) = Some (0xc1234567, Some 5100) /\
  reads r_reject (packet_access_reject 0xc1234567 5120) = Some (0xc1234567, Some 5000) /\
  reads r_reject (packet_access_reject 0xc1234567 255000) = Some (0xc1234567, Some 255000).
Proof. vm_compute. repeat split. Qed.
