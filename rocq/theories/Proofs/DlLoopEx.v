(** Ten blocks are sent, six arrive, and the answer is taken. *)
From Coq Require Import ZArith List Bool Lia ZifyBool.
From Verif Require Import Base.Arith Model.RlcWindow Model.RlcWindowDl Model.TbfDlWindow Spec.DlWindowSpec Spec.DlLoopSpec Proofs.DlWindowEx.
Import ListNotations.
Local Open Scope Z_scope.

Lemma loop_sends sns ws n : forall s o', dl_loop sns ws s -> obs_run (repeat send1 n) (p_o s) = Some o' ->
  dl_loop sns ws (mk_loop o' (p_have s) (p_air s) (p_last s)).
Proof.
  induction n as [|n IH]; intros s o' D E; cbn [repeat obs_run] in E.
  - injection E as <-. destruct s. exact D.
  - destruct (obs_step send1 (p_o s)) as [o1|] eqn:O; [|discriminate].
    exact (IH (mk_loop o1 (p_have s) (p_air s) (p_last s)) o' (L_send _ _ s _ _ _ _ o1 D O) E).
Qed.
Lemma loop_receives sns ws l : forall s, dl_loop sns ws s -> Forall (fun i => 0 <= i < o_S (p_o s)) l ->
  dl_loop sns ws (mk_loop (p_o s) (fold_left (fun h i => upd h i true) l (p_have s)) (p_air s) (p_last s)).
Proof.
  induction l as [|i l IH]; intros s D F; cbn [fold_left].
  - destruct s. exact D.
  - apply Forall_cons_iff in F. destruct F as [F1 F2]. exact (IH _ (L_receive _ _ s i D F1) F2).
Qed.

Definition six : have := fold_left (fun h i => upd h i true) [0; 1; 2; 7; 4; 5] nothing.
Definition ans : answer := Egprs 4 None [true; true; false; true].
Definition s_sent : loop := mk_loop o_ten six [(six, ans)] nothing.
Definition o_taken : obs := get (obs_step (DReport false (bits_of_answer ans (o_w o_ten))) o_ten).
Definition s_taken : loop := mk_loop o_taken six [] six.

Lemma six_vq : is_vq six 3.
Proof.
  split; [lia|]. split; [|reflexivity]. intros i I. assert (i = 0 \/ i = 1 \/ i = 2) as [->|[->| ->]] by lia; reflexivity.
Qed.
Lemma sent_loop : dl_loop 2048 128 s_sent.
Proof.
  assert (P : dl_params 2048 128) by (apply params_2048; lia).
  assert (D : dl_loop 2048 128 (mk_loop o_ten nothing [] nothing)).
  { apply (loop_sends 2048 128 10 _ o_ten (L_start 2048 128 P)). unfold o_ten, run_from.
    destruct (obs_run (repeat send1 10) (obs_init 2048 128)) eqn:E; [exact E|]. vm_compute in E. discriminate. }
  apply (L_answer 2048 128 (mk_loop o_ten six [] nothing) ans).
  - apply (loop_receives _ _ [0; 1; 2; 7; 4; 5] _ D). cbn [p_o]. replace (o_S o_ten) with 10 by (vm_compute; reflexivity).
    repeat constructor; lia.
  - exists 3. split; [exact six_vq|]. split; [reflexivity|]. cbn [ans bitmap_of length]. intros k K.
    do 4 (destruct k as [|k]; [reflexivity|]). lia.
Qed.
Lemma taken_step : obs_step (DReport false (bits_of_answer ans (o_w o_ten))) o_ten = Some o_taken.
Proof. unfold o_taken. destruct (obs_step _ o_ten) eqn:E; [reflexivity|]. vm_compute in E. discriminate. Qed.
Lemma taken_loop : dl_loop 2048 128 s_taken.
Proof. exact (L_arrives 2048 128 s_sent six ans [] o_taken sent_loop eq_refl taken_step). Qed.
Lemma taken_facts : o_A o_taken = 3 /\ o_S o_taken = 10 /\ map (blk o_taken) [3; 4; 5; 6; 7; 8] = [DlNacked; DlAcked; DlAcked; DlNacked; DlAcked; DlUnacked].
Proof. vm_compute. repeat split; reflexivity. Qed.
