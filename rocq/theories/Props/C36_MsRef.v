(** C36: when a mobile's context is freed. *)
From Coq Require Import ZArith List Bool Lia.
From Verif Require Import Model.MsRef Spec.MsRefSpec Proofs.MsRefP.
Import ListNotations.
Open Scope Z_scope.

(** The reference count is the number of attached TBFs plus the number of holds. *)
Theorem C36_count : forall m, reached m -> total m = users m /\ m_tbf m = Z.of_nat (length (tbfs m)).
Proof. exact count_is_users. Qed.
Print Assumptions C36_count.
Example C36_ex_count : exists m,
  r_run (ms_alloc (Some 1) 0 60) [RAttach false 10; RAttach false 11; RAttach true 12; RUnhold 1; RDetach 10; RHold 5] = Run m /\
  tbfs m = [11; 12] /\ total m = 3.
Proof. eexists. split; [vm_compute; reflexivity|]. split; vm_compute; reflexivity. Qed.

(** It becomes idle exactly when the count drops to zero. *)
Theorem C36_idle_exactly : forall m o m', reached m -> sane o ->
  (r_step m o = Run m' \/ r_step m o = Freed m') -> o <> RTimer ->
  (m_idled m' = m_idled m \/ m_idled m' = m_idled m + 1) /\
  (m_idled m' = m_idled m + 1 <-> 0 < users m /\ users m' = 0).
Proof. exact idle_exactly. Qed.
Print Assumptions C36_idle_exactly.
Example C36_ex_idle : exists m m',
  r_run (ms_alloc (Some 1) 0 60) [RTlli true; RAttach false 10; RUnhold 1] = Run m /\
  r_step m (RDetach 10) = Run m' /\ m_idled m = 0 /\ m_idled m' = 1.
Proof. eexists _, _. split; [vm_compute; reflexivity|]. split; [vm_compute; reflexivity|]. split; reflexivity. Qed.

(** It is not freed while a TBF or a function uses it. *)
Theorem C36_not_in_use : forall m o m', reached m -> sane o -> outside m o -> r_step m o = Freed m' ->
  tbfs m' = [] /\ m_holds m' = [].
Proof. exact not_in_use. Qed.
Print Assumptions C36_not_in_use.
(** Before the release timer it is freed only if no delay is configured or nobody could find it. *)
Theorem C36_at_once : forall m o m', reached m -> sane o -> o <> RTimer -> r_step m o = Freed m' ->
  m_delay m' = 0 \/ m_known m' = false.
Proof. exact at_once. Qed.
Print Assumptions C36_at_once.
Example C36_ex_freed : exists m m' m'',
  r_run (ms_alloc (Some 1) 0 60) [RAttach false 10; RUnhold 1] = Run m /\ r_step m (RDetach 10) = Freed m' /\
  r_run (ms_alloc (Some 1) 0 60) [RTlli true; RUnhold 1; RTime 60; RTimer] = Freed m''.
Proof. eexists _, _, _. split; [vm_compute; reflexivity|]. split; vm_compute; reflexivity. Qed.

(** Becoming idle starts the release timer with the configured delay. *)
Theorem C36_idle_timer : forall m o m', reached m -> sane o -> o <> RTimer -> 0 < users m -> r_step m o = Run m' -> users m' = 0 ->
  m_timer m' = Some (m_now m' + m_delay m').
Proof. exact idle_timer. Qed.
Print Assumptions C36_idle_timer.

(** Nor is it kept for ever: without users the timer runs, and when its time has come the
    context is freed. *)
Theorem C36_released : forall h now d ops m, 0 <= d -> Forall sane ops -> r_run (ms_alloc (Some h) now d) ops = Run m ->
  users m = 0 -> exists e, m_timer m = Some e /\
    forall dt, e <= m_now m + dt -> exists m', r_run m [RTime dt; RTimer] = Freed m'.
Proof. exact released. Qed.
Print Assumptions C36_released.
Example C36_ex_released : exists m,
  r_run (ms_alloc (Some 1) 0 60) [RTlli true; RAttach false 10; RUnhold 1; RTime 5; RDetach 10; RHold 2; RTime 1; RUnhold 2] = Run m /\
  users m = 0 /\ m_timer m = Some 66.
Proof. eexists. split; [vm_compute; reflexivity|]. split; vm_compute; reflexivity. Qed.

(** Called as the program calls it, no assertion fails and every call returns. *)
Theorem C36_no_assert : forall m o, reached m -> allowed m o -> forall w, r_step m o <> Bad w.
Proof. exact no_bad. Qed.
Print Assumptions C36_no_assert.
Example C36_ex_no_assert : exists m m',
  r_run (ms_alloc (Some 1) 0 60) [RTlli true; RAttach true 10; RAttach true 11; RAttach false 12] = Run m /\
  allowed m (RReset [12]) /\ r_step m (RReset [12]) = Run m' /\ tbfs m' = [12] /\ m_known m' = false.
Proof.
  eexists _, _. split; [vm_compute; reflexivity|]. split.
  - split; [discriminate|]. cbn. intros t [<-|[]] [X|[]]. discriminate.
  - split; [vm_compute; reflexivity|]. split; reflexivity.
Qed.

(** The limits.  A hold alone does not stop the release timer: it protects only against frees
    inside the holding function. *)
Theorem C36_hold_timer_refuted : exists m m', reached m /\ m_holds m = [7] /\ r_step m RTimer = Freed m' /\ m_holds m' = [7].
Proof. exact hold_timer. Qed.
Print Assumptions C36_hold_timer_refuted.
(** A reset does not return if an old TBF has a timer pending. *)
Theorem C36_reset_refuted : exists m, reached m /\ m_holds m <> [] /\ m_old m = [10] /\ r_step m (RReset [10]) = Bad Endless.
Proof. exact reset_endless. Qed.
Print Assumptions C36_reset_refuted.
(** A context created without a use and never used stays for ever. *)
Theorem C36_never_used_refuted : forall now d ops,
  Forall (fun o => match o with RTime _ | RTimer | RTlli _ | RDelay _ => True | _ => False end) ops ->
  exists m, r_run (ms_alloc None now d) ops = Run m /\ users m = 0 /\ m_timer m = None.
Proof. exact never_used. Qed.
Print Assumptions C36_never_used_refuted.
(** Freed together with its cell while it has a TBF, it leaves its release timer running. *)
Theorem C36_destroy_refuted : exists m, reached m /\ m_timer m = None /\ m_timer (destroy m) = Some 60.
Proof. exact destroy_timer. Qed.
Print Assumptions C36_destroy_refuted.
