(** C86: the radio measurements kept for a mobile are those last made of it and last reported by it. *)
From Coq Require Import ZArith List.
Import ListNotations.
From Verif Require Import Model.Csn1 Model.Csn1Tables Model.L1Meas Spec.UlControlSpec Spec.MsClassSpec Spec.MeasSpec Spec.MeasHistSpec Proofs.L1MeasR Proofs.L1MeasX.
Open Scope Z_scope.

(** For every history of blocks from a mobile: its level, bit error rate, timing and link quality are those of the last
    data block, resource request, cell change notification or GPRS downlink report; the C value, RXQUAL, SIGN_VAR and
    interference levels are those of the last message that carries them.  Missing: what EGPRS downlink reports tell (see
    below), and requests whose capability has a short form list (C84). *)
Theorem C86_kept_partial : forall h Q, Forall2 tells h Q -> Forall (fun x => 0 <= b_ber10k (fst x) <= 10000) h -> agree (kept h) Q.
Proof. exact kept_last. Qed.
Print Assumptions C86_kept_partial.
Example C86_kept_nonvacuous : Forall2 tells HIST TOLD /\ Forall (fun x => 0 <= b_ber10k (fst x) <= 10000) HIST /\
  rssi (kept HIST) = Some (-73) /\ ber (kept HIST) = Some 2 /\ link_qual (kept HIST) = Some 15 /\ ms_c_value (kept HIST) = Some 33 /\
  ms_rx_qual (kept HIST) = Some 9 /\ ms_sign_var (kept HIST) = Some 2 /\ map (ts (kept HIST)) (seq 0 8) = [Some (-6); None; None; None; None; None; None; None].
Proof. exact (conj hist_told (conj hist_ber hist_kept)). Qed.

(** Of an EGPRS downlink report nothing is kept, neither the channel quality in it (here, a C value of 40 at bit 23) nor
    what the BTS measured of its block. *)
Theorem C86_egprs_refuted : exists r msg s, octets msg /\ length msg = 23%nat /\ decode_ul msg = Go s /\ message_type msg = EGPRS_DOWNLINK_ACK_NACK /\
  field msg 20 1 = 1 /\ field msg 21 2 = 0 /\ field msg 23 6 = 40 /\ kept [(r, HControl msg)] = l1_none.
Proof. exact egprs_lost. Qed.
Print Assumptions C86_egprs_refuted.
