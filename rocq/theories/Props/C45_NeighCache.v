(** C45: the neighbour cache and the system information cache. *)
From Coq Require Import ZArith List Bool.
From Verif Require Import Model.NeighCache Spec.NeighCacheSpec Proofs.NeighCacheP.
Import ListNotations.
Open Scope Z_scope.

(** Both key comparisons tell exactly whether the keys are the same. *)
Theorem C45_neigh_key : forall a b, nkey_eq a b = true <-> a = b.
Proof. exact nkey_eq_spec. Qed.
Print Assumptions C45_neigh_key.
Theorem C45_si_key : forall a b, cgi_eq a b = true <-> a = b.
Proof. exact cgi_eq_spec. Qed.
Print Assumptions C45_si_key.

(** After a value was stored, and while less time passed than every keep time configured since, a
    lookup returns it, if nothing else was stored for the key. *)
Theorem C45_returns : forall K V (eq : K -> K -> bool), (forall a b, eq a b = true <-> a = b) ->
  forall t s (pre : list (cop K V)) k v post n, Forall sane pre -> Forall sane post -> not_stored k post ->
  n <= keep_after s pre -> keep_at_least n post -> elapsed post < n * SEC ->
  lookup eq k (c_run eq (cache_new t s) (pre ++ Add k v :: post)) = Some v.
Proof. exact (fun K V eq H => @returns K V eq H). Qed.
Print Assumptions C45_returns.

(** What a lookup returns is the value stored last for the key. *)
Theorem C45_latest : forall K V (eq : K -> K -> bool), (forall a b, eq a b = true <-> a = b) ->
  forall t s (ops : list (cop K V)) k v, Forall sane ops -> lookup eq k (c_run eq (cache_new t s) ops) = Some v ->
  exists pre post, ops = pre ++ Add k v :: post /\ not_stored k post.
Proof. exact (fun K V eq H => @latest K V eq H). Qed.
Print Assumptions C45_latest.

(** Keys are unique. *)
Theorem C45_unique : forall K V (eq : K -> K -> bool), (forall a b, eq a b = true <-> a = b) ->
  forall t s (ops : list (cop K V)), Forall sane ops -> NoDup (map e_key (c_list (c_run eq (cache_new t s) ops))).
Proof. exact (fun K V eq H => @unique K V eq H). Qed.
Print Assumptions C45_unique.

(** Once the keep time has passed, the next run of the due timers removes the entry: nothing is
    returned any more. *)
Theorem C45_removed : forall K V (eq : K -> K -> bool), (forall a b, eq a b = true <-> a = b) ->
  forall t s (pre : list (cop K V)) k v post, Forall sane pre -> Forall sane post -> not_stored k post ->
  keep_after s (pre ++ Add k v :: post) * SEC <= elapsed post ->
  lookup eq k (c_run eq (cache_new t s) (pre ++ Add k v :: post ++ [Timers])) = None.
Proof. exact (fun K V eq H => @removed K V eq H). Qed.
Print Assumptions C45_removed.

(** The timer is due whenever an entry is past its keep time: the main loop need not wait. *)
Theorem C45_timer_due : forall K V (eq : K -> K -> bool), (forall a b, eq a b = true <-> a = b) ->
  forall t s (ops : list (cop K V)) e, Forall sane ops -> let c := c_run eq (cache_new t s) ops in
  In e (c_list c) -> e_ts e + c_keep c <= c_now c -> exists d, c_timer c = Some d /\ d <= c_now c.
Proof. exact (fun K V eq H => @overdue K V eq H). Qed.
Print Assumptions C45_timer_due.

(** Two neighbours, one stored again; after 5 s the other is gone, the first is returned. *)
Definition ex_ops : list (cop nkey Z) :=
  [Add (Nkey 1 2 871 10) 100; Wait (2 * SEC); Add (Nkey 1 2 872 11) 200; Wait (2 * SEC + 500); Add (Nkey 1 2 871 10) 101;
   Timers; Wait (4 * SEC); Timers].
Example C45_ex : let c := c_run nkey_eq (cache_new 0 5) ex_ops in
  lookup nkey_eq (Nkey 1 2 871 10) c = Some 101 /\ lookup nkey_eq (Nkey 1 2 872 11) c = None /\ length (c_list c) = 1%nat.
Proof. vm_compute. repeat split. Qed.
Example C45_ex_sane : Forall sane ex_ops.
Proof. repeat constructor; vm_compute; discriminate. Qed.

(** Between the end of the keep time and the run of the timer the old value is still returned. *)
Theorem C45_late_lookup_refuted : exists ops : list (cop nkey Z), Forall sane ops /\ elapsed ops >= 7 * SEC /\
  lookup nkey_eq (Nkey 1 2 871 10) (c_run nkey_eq (cache_new 0 5) (Add (Nkey 1 2 871 10) 100 :: ops)) = Some 100 /\
  not_stored (Nkey 1 2 871 10) ops.
Proof.
  exists [Wait (7 * SEC)]. split; [repeat constructor; vm_compute; discriminate|]. split; [vm_compute; discriminate|].
  split; [vm_compute; reflexivity|]. intros v [H|[]]; discriminate.
Qed.
Print Assumptions C45_late_lookup_refuted.
