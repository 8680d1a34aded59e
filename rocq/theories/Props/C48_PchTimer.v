(** C48: subscribers being paged. *)
From Coq Require Import ZArith List Bool.
From Verif Require Import Model.PchTimer Spec.PchTimerSpec Proofs.PchTimerP.
Import ListNotations.
Open Scope Z_scope.

(** Over every history there is at most one timer per subscriber, and no assertion fails. *)
Theorem C48_one_timer : forall n t ops c, p_run (cell_new n t) ops = Some c -> NoDup (map p_imsi (pl c)).
Proof. exact one_timer. Qed.
Print Assumptions C48_one_timer.
Theorem C48_no_assert : forall n t ops, exists c, p_run (cell_new n t) ops = Some c.
Proof. exact never_asserts. Qed.
Print Assumptions C48_no_assert.

(** A subscriber is reported as being paged exactly while a page of it is neither stopped nor
    expired; a page in between changes nothing.  P-TMSIs must not be ambiguous. *)
Theorem C48_reported_partial : forall i n t ops c, i <> [] -> Forall proper ops -> clear_run (cell_new n t) ops ->
  p_run (cell_new n t) ops = Some c -> (reported i c = true <-> s_page (s_run i (Sub None n t) ops) <> None).
Proof. exact reported_exactly. Qed.
Print Assumptions C48_reported_partial.
Definition ex_ops : list pop :=
  [Page true (Some 0xc0000001) [2; 6; 2; 1]; Page true None [2; 6; 2; 2]; Wait 1; Page true (Some 0xc0000001) [2; 6; 2; 1];
   Stop 0x80001234 [2; 6; 2; 2]; Wait 5; Timers].
Example C48_ex : exists c, p_run (cell_new 0 7) ex_ops = Some c /\ Forall proper ex_ops /\ clear_run (cell_new 0 7) ex_ops /\
  reported [2; 6; 2; 1] c = true /\ reported [2; 6; 2; 2] c = false.
Proof.
  eexists. split; [vm_compute; reflexivity|]. split; [repeat constructor; cbn; try split; discriminate|].
  split; [|split; vm_compute; reflexivity].
  unfold ex_ops.
  do 4 (split; [exact I|intros c' H; vm_compute in H; injection H as <-]).
  split; [|intros c' H; vm_compute in H; injection H as <-; do 2 (split; [exact I|intros c' H; vm_compute in H; injection H as <-]); exact I].
  intros x y [<-|[<-|[]]] Hy _ E; vm_compute in E; discriminate E.
Qed.
Example C48_ex_expired : option_map (reported [2; 6; 2; 1]) (p_run (cell_new 0 7) (ex_ops ++ [Wait 1; Timers])) = Some false.
Proof. vm_compute. reflexivity. Qed.

(** One stop ends the paging of at most one subscriber. *)
Theorem C48_stop : forall t j c c', NoDup (map p_imsi (pl c)) -> pch_stop t j c = Some c' ->
  exists gone, (length gone <= 1)%nat /\ forall i, reported i c' = true <-> reported i c = true /\ ~ In i gone.
Proof. exact stop_other. Qed.
Print Assumptions C48_stop.

(** The TLLI is looked up first, whatever the IMSI: a mobile with the P-TMSI under which another
    subscriber is paged ends the paging of that one and not its own. *)
Theorem C48_wrong_subscriber_refuted : exists c c', pl c <> [] /\
  p_run (cell_new 0 7) [Page true (Some 0xc0000001) [1]; Page true (Some 0xc0000002) [2]] = Some c /\
  pch_stop 0xc0000001 [2] c = Some c' /\ reported [2] c' = true /\ reported [1] c' = false.
Proof. eexists. eexists. split; [|split; [vm_compute; reflexivity|split; [vm_compute; reflexivity|split; vm_compute; reflexivity]]]. discriminate. Qed.
Print Assumptions C48_wrong_subscriber_refuted.

(** Starting does not look for a timer: that one remains relies on the only caller. *)
Theorem C48_start_twice_refuted : exists c', pch_stop RESERVED [1] (pch_start None [1] (pch_start None [1] (cell_new 0 7))) = Some c' /\
  reported [1] c' = true.
Proof. eexists. split; vm_compute; reflexivity. Qed.
Print Assumptions C48_start_twice_refuted.
