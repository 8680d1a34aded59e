(** C69: a downlink transfer together with the mobile. *)
From Coq Require Import ZArith List Bool.
From Verif Require Import Base.Arith Model.RlcWindow Model.RlcWindowDl Model.TbfDlWindow Spec.DlWindowSpec Spec.DlLoopSpec
  Proofs.DlLoopP Proofs.DlLoopEx.
Import ListNotations.
Local Open Scope Z_scope.

(** Whatever is lost, late or repeated: a block the PCU takes as acknowledged, because its window has passed it or
    holds it as such, has been received by the mobile. *)
Theorem C69_acknowledged_is_received : forall sns ws s i, dl_loop sns ws s -> 0 <= i < o_S (p_o s) ->
  status_after (p_o s) i = DlAcked -> p_last s i = true /\ p_have s i = true.
Proof. exact acked_had. Qed.
Print Assumptions C69_acknowledged_is_received.

(** An answer that arrives is taken as it is meant: the outstanding blocks it is about become acknowledged or to be
    sent again, as the mobile had them or not when it answered; the others stay as they are. *)
Theorem C69_answer_taken : forall sns ws s h a r, dl_loop sns ws s -> p_air s = (h, a) :: r ->
  exists o', obs_step (DReport false (bits_of_answer a (o_w (p_o s)))) (p_o s) = Some o' /\ o_S o' = o_S (p_o s) /\
    forall i, outstanding (p_o s) i ->
      (covers h a i -> status_after o' i = if h i then DlAcked else DlNacked) /\
      (~ covers h a i -> status_after o' i = blk (p_o s) i).
Proof. exact answer_taken. Qed.
Print Assumptions C69_answer_taken.

(** Once the mobile has everything, its next answer to arrive completes the window. *)
Theorem C69_completes : forall sns ws s h a r o', dl_loop sns ws s -> p_air s = (h, a) :: r ->
  (forall i, 0 <= i < o_S (p_o s) -> h i = true) ->
  obs_step (DReport false (bits_of_answer a (o_w (p_o s)))) (p_o s) = Some o' -> o_A o' = o_S o'.
Proof. exact all_done. Qed.
Print Assumptions C69_completes.

Example C69_ex_sent : dl_loop 2048 128 s_sent /\ p_air s_sent = [(six, ans)].
Proof. exact (conj sent_loop eq_refl). Qed.
Example C69_ex_taken : dl_loop 2048 128 s_taken /\ o_A o_taken = 3 /\ o_S o_taken = 10 /\
  map (blk o_taken) [3; 4; 5; 6; 7; 8] = [DlNacked; DlAcked; DlAcked; DlNacked; DlAcked; DlUnacked].
Proof. exact (conj taken_loop taken_facts). Qed.
