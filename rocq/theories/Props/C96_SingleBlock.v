(** C96: a mobile that asks for a single block transmits in the block reserved for it. *)
From Coq Require Import ZArith List Bool Lia.
From Verif Require Import Base.Arith Model.FrameNo Model.UlController Model.ImmAss Model.SingleBlock.
From Verif Require Import Spec.FrameSpec Spec.ImmAssSpec Spec.SingleBlockSpec Proofs.SingleBlockP Proofs.FrameP Props.C13_C17_Frames.
Import ListNotations.
Local Open Scope Z_scope.

(** The full property: the request is rejected if and only if no timeslot is enabled. Otherwise the
    mobile reads a message with the timeslot, training sequence and frequencies of an enabled timeslot, its own
    request and its timing advance; and the starting time, read in any frame until the block, means
    the frame of a block that was free and is now reserved for this request. Missing in the theorem
    (in [slot_ok]): timeslots with more than 6314 reservations, or with more than 32 hopping frequencies. *)
Theorem C96_block_partial : forall bal frees c id ext ra rfn qta alpha gamma, keeps_order bal -> cell_ok bal frees c -> burst_ok ext ra rfn alpha gamma ->
  (single_block bal c id ext ra rfn qta alpha gamma = SbReject <-> forall trx ts s, slot_at c trx ts = Some s -> sl_on s = false) /\
  single_block bal c id ext ra rfn qta alpha gamma <> SbBad /\
  forall trx ts fn t m, single_block bal c id ext ra rfn qta alpha gamma = SbAssign trx ts fn t m ->
    exists s plen vec up start, slot_at c trx ts = Some s /\ sl_on s = true /\
      get_node (sl_tree s) fn = None /\ get_sba t fn = Some id /\ block_start fn /\ 52 <= ahead (sl_last s) fn <= 31623 /\
      m = IaSent plen vec /\
      mobile_reads (l1_block plen vec) = Some (plen, mk_msg false (ip_ts (sl_ia s)) (ip_tsc (sl_ia s)) (freq_of (sl_ia s))
        (mk_request (if ext then 127 else ra) (time_of rfn)) (advance qta) (ma_of (sl_ia s)) (RUp up)) /\
      start_of up = Some start /\
      forall now x, in_hyper now -> ahead (sl_last s) now <= ahead (sl_last s) fn -> (means now start x <-> x = fn).
Proof. exact single_ok. Qed.
Print Assumptions C96_block_partial.

(** After a flood of access bursts that ask for single blocks ([bursts k]: k of them, before the BTS asks for
    another block), the mobile takes the next starting time, even if it reads it at once, for one that passed
    10790 frames ago. *)
Theorem C96_flood_refuted : exists k fn t m, burst_at (bursts k) 9999 = SbAssign 0 7 fn t m /\ get_sba t fn = Some 9999 /\
  exists x, means 0 (time_of (fn mod 42432)) x /\ x <> fn /\ ahead x 0 = 10790.
Proof. exact flood_refuted. Qed.
Print Assumptions C96_flood_refuted.

(** With 64 hopping frequencies no message is sent, not even a reject, and the block stays reserved. *)
Theorem C96_hopping_refuted : exists c trx ts s fn t, slot_at c trx ts = Some s /\ pdch_ok (sl_ia s) /\
  single_block (fun t => t) c 1 false 0x7d 1000 12 0 0 = SbAssign trx ts fn t IaFail /\ get_sba t fn = Some 1.
Proof. exact hopping_refuted. Qed.
Print Assumptions C96_hopping_refuted.

(** The controller of the examples of C57, on timeslot 6 of the second TRX, near the end of the hyperframe. *)
Definition ex_slot (on : bool) : slot := mk_slot on (mk_iap 6 7 871 None) ex_t 2715643.
Definition ex_cell : cell := [repeat (ex_slot false) 8; repeat (ex_slot false) 6 ++ [ex_slot true; ex_slot false]].
Example C96_example : cell_ok ex_bal ex_frees ex_cell /\
  match single_block ex_bal ex_cell 77 true 0x7a5 31000 13 3 17 with
  | SbAssign trx ts fn t (IaSent n v) => trx = 1%nat /\ ts = 6%nat /\ fn = 47 /\ get_sba t 47 = Some 77 /\
      mobile_reads (l1_block n v) = Some (11, mk_msg false 6 7 (Arfcn 871) (mk_request 127 (time_of 31000)) 3 []
        (RUp (UpMultiEgprs 5 (mk_power (Some 3) 17) (mk_time 0 47 21) 0 None)))
  | _ => False
  end.
Proof.
  split; [|vm_compute; repeat split; reflexivity]. split; [repeat constructor|].
  intros trx ts s A ON. assert (E : s = ex_slot true).
  { unfold slot_at in A. destruct (nth_error ex_cell trx) as [l|] eqn:L; [|discriminate A]. apply nth_error_In in L, A.
    destruct L as [<-|[<-|[]]]; cbn [repeat app In] in A; repeat (destruct A as [<-|A]; [first [discriminate ON|reflexivity]|]); destruct A. }
  subst s. unfold slot_ok. cbn [ex_slot sl_ia sl_last sl_tree].
  split. { unfold pdch_ok, fits. cbn [ip_ts ip_tsc ip_arfcn ip_fh]. lia. }
  split. { vm_compute. lia. }
  split. { split; reflexivity || discriminate. }
  split. { vm_compute. tauto. }
  split. { vm_compute. discriminate. }
  exists ex_s. split; [exact ex_reach|]. vm_compute. reflexivity.
Qed.
