(** C75: the uplink frames of a timeslot, and what the blocks received in them do to its TBFs. *)
From Coq Require Import ZArith List Bool.
From Verif Require Import Model.TbfFsm Spec.TbfFsmSpec Model.TbfSub Spec.TbfSubSpec Model.Route Spec.RouteSpec
  Proofs.TbfFsmQ Proofs.RouteR Proofs.RouteW.
Import ListNotations.
Local Open Scope Z_scope.

(** No sequence of blocks and operations reaches a failed assertion. *)
Theorem C75_no_assert : forall c ops, r_run c r_init ops <> Halt.
Proof. exact never_halts. Qed.
Print Assumptions C75_no_assert.

(** At any time: a frame is reserved once; what it is reserved for exists; of each TBF, the frames reserved for uplink
    data are those it was granted, and the frames reserved for answers are no more than the polls it has sent; TFIs are
    unique in a direction; a mobile has one current TBF in a direction. *)
Theorem C75_books : forall c s, reachable c s ->
  NoDup (map fst (s_nodes s)) /\ NoDup (map r_id (s_tbfs s)) /\
  (forall fn n id, In (fn, n) (s_nodes s) -> owner n = Some id -> exists x, In x (s_tbfs s) /\ r_id x = id) /\
  (forall x, In x (s_tbfs s) -> born c (r_t x) /\ alive (r_t x) /\ grants_of s (r_id x) = t_usf (r_t x) /\
     forall r, (polls_of s (r_id x) r <= outstanding r (r_t x))%nat) /\
  (forall x y, In x (s_tbfs s) -> In y (s_tbfs s) -> r_dir x = r_dir y -> r_tfi x = r_tfi y -> 0 <= r_tfi x -> r_id x = r_id y) /\
  (forall x y, In x (s_tbfs s) -> In y (s_tbfs s) -> r_dir x = r_dir y -> r_ms x = r_ms y -> r_cur x = true -> r_cur y = true -> r_id x = r_id y).
Proof. exact books_kept. Qed.
Print Assumptions C75_books.
(** Two mobiles, three TBFs, six reserved frames. *)
Example C75_books_example : match r_run conf_default r_init h_busy with
  | Ok s => map r_id (s_tbfs s) = [3; 2; 1] /\
      s_nodes s = [(40, NPoll 2 P_UL_ACK); (36, NNacc 2); (32, NSba); (28, NUsf 2); (24, NUsf 1); (20, NPoll 1 P_DL_ASS)]
  | _ => False end.
Proof. vm_compute. split; reflexivity. Qed.

(** A frame is reserved for the answer to an uplink assignment or to an uplink acknowledgement only while the TBF waits
    for that answer. *)
Theorem C75_reserved_waits : forall c s fn id r x, reachable c s -> polled s fn id r -> r = P_UL_ASS \/ r = P_UL_ACK ->
  In x (s_tbfs s) -> r_id x = id -> waits r (r_t x) = true.
Proof. exact reserved_waits. Qed.
Print Assumptions C75_reserved_waits.

(** The full property is the converse as well: a TBF that waits for an answer has a frame reserved in which it comes, or
    is lost. This holds as long as no measurement report and no cell change notification arrives in such a frame. *)
Theorem C75_waits_reserved_partial : forall c ops s r x, r_run c r_init ops = Ok s -> none_taken c r_init ops ->
  r = P_UL_ASS \/ r = P_UL_ACK -> In x (s_tbfs s) -> waits r (r_t x) = true ->
  (exists fn, polled s fn (r_id x) r) \/ state (r_t x) = RELEASING \/ (r_dir x = DL /\ state (r_t x) = WAIT_REUSE).
Proof. exact waits_reserved. Qed.
Print Assumptions C75_waits_reserved_partial.
Theorem C75_exact_partial : forall c ops s x r, r_run c r_init ops = Ok s -> none_taken c r_init ops -> In x (s_tbfs s) ->
  polls_of s (r_id x) r = outstanding r (r_t x).
Proof. exact exact_books. Qed.
Print Assumptions C75_exact_partial.
Example C75_exact_example : none_taken conf_default r_init h_busy.
Proof. vm_compute. repeat split. Qed.

(** One that does takes the frame, and the TBF is not told. An uplink TBF that was polled for the end of its transfer
    then stays for ever, and keeps its TFI, whatever else happens, until its mobile asks for a new one. *)
Theorem C75_waits_reserved_refuted : exists s x, r_run conf_default r_init h_taken = Ok s /\ s_tbfs s = [x] /\ s_nodes s = [] /\
  r_id x = 6 /\ r_tfi x = 2 /\ state (r_t x) = FINISHED /\ waits P_UL_ACK (r_t x) = true /\
  forall ops s', (forall o, In o ops -> calm 6 7 o) -> r_run conf_default s ops = Ok s' ->
    exists y, In y (s_tbfs s') /\ r_id y = 6 /\ r_tfi y = 2 /\ state (r_t y) = FINISHED /\ waits P_UL_ACK (r_t y) = true.
Proof. exact taken_stuck. Qed.
Print Assumptions C75_waits_reserved_refuted.
Example C75_waits_reserved_refuted_example :
  match r_run conf_default r_init (h_taken ++ [RTime 100000; RDo 6 (SLife (LUl UTimer)) 0; RDo 6 (SLife (LUl UT3141)) 0;
    RDo 6 SUkSched 0; RDo 6 (SUkRts true true false) 120; RBlock 124 (MData 2)] ++ up 9 9 3 130 ++ [RFree 9]) with
  | Ok s => map r_id (s_tbfs s) = [6] | _ => False end.
Proof. vm_compute. reflexivity. Qed.

(** A block that nobody expects changes nothing: any but data, in a frame that is not reserved; an acknowledgement that
    the TBF of the frame does not wait for; a report of another TBF than the one that was polled for it; a request in a
    frame that is neither granted nor polled for the end of an uplink transfer. *)
Theorem C75_unexpected : forall c s fn m, node_at fn s = None -> (forall tfi, m <> MData tfi) -> r_step c s (RBlock fn m) = Ok s.
Proof. exact silent_frame. Qed.
Print Assumptions C75_unexpected.
Theorem C75_unexpected_ack : forall c s fn nacc s',
  (forall id r, node_at fn s = Some (NPoll id r) -> exists x, get id s = Some x /\ waits r (r_t x) = false) ->
  (forall id, node_at fn s = Some (NNacc id) -> nacc = false) -> r_step c s (RBlock fn (MAck nacc)) = Ok s' -> s' = s.
Proof. exact wrong_ack. Qed.
Print Assumptions C75_unexpected_ack.
Theorem C75_unexpected_report : forall c s fn tfi final s',
  (forall id x, node_at fn s = Some (NPoll id P_DL_ACK) -> get id s = Some x -> r_tfi x <> tfi) ->
  r_step c s (RBlock fn (MDlAck tfi final)) = Ok s' -> s' = s.
Proof. exact wrong_report. Qed.
Print Assumptions C75_unexpected_report.
Theorem C75_unexpected_request : forall c s fn w s',
  (forall id r, node_at fn s = Some (NPoll id r) -> r <> P_UL_ACK) -> (forall id, node_at fn s <> Some (NUsf id)) ->
  node_at fn s <> Some NSba -> r_step c s (RBlock fn (MRequest w)) = Ok s' -> s' = s.
Proof. exact wrong_request. Qed.
Print Assumptions C75_unexpected_request.
Example C75_unexpected_example :
  r_run conf_default r_init (h_busy ++ [RBlock 28 (MAck true); RBlock 20 (MDlAck 1 true); RBlock 20 (MRequest (ByTlli 7)); RBlock 44 MMeas;
    RBlock 36 (MAck false); RBlock 40 (MRequest (ByTlli 7))]) = r_run conf_default r_init h_busy.
Proof. vm_compute. reflexivity. Qed.

(** The acknowledgement that a TBF waits for reaches it: if the TBF is still there, it does not wait any more. *)
Theorem C75_delivered : forall c s s' fn id r x nacc, reachable c s -> polled s fn id r -> get id s = Some x ->
  r <> P_DL_ACK -> waits r (r_t x) = true -> r_step c s (RBlock fn (MAck nacc)) = Ok s' ->
  forall z, In z (s_tbfs s') -> r_id z = id -> waits r (r_t z) = false.
Proof. exact ack_ends_wait. Qed.
Print Assumptions C75_delivered.
Example C75_delivered_example : match r_run conf_default r_init h_busy with
  | Ok s => option_map (fun x => waits P_DL_ASS (r_t x)) (get 1 s) = Some true /\
      match r_step conf_default s (RBlock 20 (MAck false)) with
      | Ok s => option_map (fun x => waits P_DL_ASS (r_t x)) (get 1 s) = Some false /\
          option_map (fun x => state (r_t x)) (get 3 s) = Some FLOW
      | _ => False end
  | _ => False end.
Proof. vm_compute. repeat split; reflexivity. Qed.

(** A block, or the loss of one, changes no TBF of a mobile that it is not about: one that has no TBF for which the frame
    is reserved, and that the block does not name. *)
Theorem C75_local_block : forall c s s' fn m y, reachable c s -> r_step c s (RBlock fn m) = Ok s' -> In y (s_tbfs s) ->
  ~ expected_from s fn (r_ms y) -> ~ names s m (r_ms y) -> In y (s_tbfs s').
Proof. exact block_local. Qed.
Print Assumptions C75_local_block.
Theorem C75_local_loss : forall c s s' fn y, reachable c s -> r_step c s (RExpire fn) = Ok s' -> In y (s_tbfs s) ->
  ~ expected_from s fn (r_ms y) -> In y (s_tbfs s').
Proof. exact loss_local. Qed.
Print Assumptions C75_local_loss.
Example C75_local_example : match r_run conf_default r_init h_busy with
  | Ok s => match r_step conf_default s (RBlock 40 (MAck false)), r_step conf_default s (RBlock 28 (MRequest (ByTlli 8))) with
      | Ok u, Ok v => map r_id (s_tbfs u) = [3; 1] /\ map r_id (s_tbfs v) = [3; 1] /\ get 1 u = get 1 s /\ get 3 v = get 3 s
      | _, _ => False end
  | _ => False end.
Proof. vm_compute. repeat split; reflexivity. Qed.

(** The full property: no TBF is used after it was freed. There is one case in which one is: an acknowledgement of a
    downlink assignment that was sent on a downlink TBF which has ended and is still the mobile's current one. *)
Theorem C75_use_after_free_refuted : r_run conf_default r_init h_fault = Fault.
Proof. exact used_after_free. Qed.
Print Assumptions C75_use_after_free_refuted.
Theorem C75_use_after_free_only : forall c s o, reachable c s -> r_step c s o = Fault ->
  exists fn nacc id x, o = RBlock fn (MAck nacc) /\ node_at fn s = Some (NPoll id P_DL_ASS) /\ get id s = Some x /\
    r_dir x = DL /\ r_cur x = true /\ t_da (r_t x) = DA_WAIT /\
    (state (r_t x) = WAIT_RELEASE \/ state (r_t x) = WAIT_REUSE).
Proof. exact fault_self. Qed.
Print Assumptions C75_use_after_free_only.
(** It takes the upgrade of a downlink TBF to more timeslots. *)
Theorem C75_use_after_free_partial : forall c ops, no_upgrade ops -> r_run c r_init ops <> Fault.
Proof. exact fault_free. Qed.
Print Assumptions C75_use_after_free_partial.
Example C75_use_after_free_example : no_upgrade h_busy /\ no_upgrade h_taken.
Proof. split; intros id fn H; vm_compute in H; repeat (destruct H as [H|H]; [discriminate|]); exact H. Qed.

(** The full property: a single block allocation exists as long as its frame is reserved. It does except for those whose
    frames were taken by cell change notifications; those stay for ever. *)
Theorem C75_single_block_partial : forall c ops s, r_run c r_init ops = Ok s ->
  s_sba s = (sba_frames s + sba_taken c r_init ops)%nat.
Proof. exact sba_books. Qed.
Print Assumptions C75_single_block_partial.
Theorem C75_single_block_refuted : exists s, r_run conf_default r_init h_sba = Ok s /\ s_nodes s = [] /\ s_sba s = 1%nat /\
  forall ops s', r_run conf_default s ops = Ok s' -> (sba_frames s' < s_sba s')%nat.
Proof. exact sba_lost. Qed.
Print Assumptions C75_single_block_refuted.
Example C75_single_block_example : match r_run conf_default r_init (h_busy ++ [RSba 44; RBlock 32 (MRequest (ByTlli 9))]) with
  | Ok s => s_sba s = 1%nat | _ => False end.
Proof. vm_compute. reflexivity. Qed.
