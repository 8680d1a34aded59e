(** C83: the links to the SGSN are those of the last configuration. *)
From Coq Require Import ZArith List Bool.
From Verif Require Import Model.NsConf Spec.NsConfSpec Proofs.NsConfQ Proofs.NsConfX.
Import ListNotations.
Open Scope Z_scope.

(** A released NSE is never used. *)
Theorem C83_safe : forall sns os, run sns os nsi0 <> Fault.
Proof. exact never_fault. Qed.
Print Assumptions C83_safe.

(** Whatever fails: there is no link but those of the last configuration, none twice, under its NSEI. *)
Theorem C83_only : forall os x i s s', run false os nsi0 = Goes s -> step false (Info x i) s = Goes s' ->
  nsei_of s' = Some (i_nsei i) /\ NoDup (map ends (links s')) /\ forall l, In l (links s') -> In l (wanted i).
Proof. exact only_wanted. Qed.
Print Assumptions C83_only.

(** Whatever fails: a link that is configured again is the same connection as before, not one made anew. *)
Theorem C83_kept : forall os x i s s' v, run false os nsi0 = Goes s -> distinct i -> step false (Info x i) s = Goes s' ->
  nsei_of s = Some (i_nsei i) -> In v (connections s) -> In (link_of v) (wanted i) -> In v (connections s').
Proof. exact wanted_kept. Qed.
Print Assumptions C83_kept.

(** Full statement: for every history, if all calls succeed now, the links are exactly those configured.  Missing:
    histories in which a position changes its family or local port under the same NSEI (refuted below). *)
Theorem C83_links_partial : forall at_ os x i s,
  Forall (fun o => match o with Info _ i => steady at_ i | Settle _ => True end) os -> steady at_ i ->
  run false os nsi0 = Goes s -> works x -> distinct i -> wanted i <> [] ->
  exists s', step false (Info x i) s = Goes s' /\ nsei_of s' = Some (i_nsei i) /\ NoDup (map ends (links s')) /\
    forall l, In l (links s') <-> In l (wanted i).
Proof. exact steady_links. Qed.
Print Assumptions C83_links_partial.

(** Under a new NSEI, for every history. *)
Theorem C83_new_nsei : forall os x i s, run false os nsi0 = Goes s -> nsei_of s <> Some (i_nsei i) -> works x -> distinct i -> wanted i <> [] ->
  exists s', step false (Info x i) s = Goes s' /\ nsei_of s' = Some (i_nsei i) /\ forall l, In l (links s') <-> In l (wanted i).
Proof. exact new_nsei_links. Qed.
Print Assumptions C83_new_nsei.

(** The local port of one link changes: the process ends, although every call could succeed and another link is up
    and configured as before. *)
Theorem C83_port_refuted : exists i j s, run false [Info X_OK i] nsi0 = Goes s /\ works X_OK /\ distinct i /\ distinct j /\ wanted j <> [] /\
  i_nsei i = i_nsei j /\ In (V4, 23000, 3, 23000, 102) (links s) /\ In (V4, 23000, 3, 23000, 102) (wanted j) /\ step false (Info X_OK j) s = Exits.
Proof. exact port_refuted. Qed.
Print Assumptions C83_port_refuted.

(** With IP-SNS.  Full statement: the protocol works with exactly the addresses of the last configuration.  Missing:
    a configuration that still has the address settled on (refuted below). *)
Theorem C83_sns_partial : forall os x i s s', run true os nsi0 = Goes s -> step true (Info x i) s = Goes s' ->
  nsei_of s' = Some (i_nsei i) /\
  ((s' = s /\ exists a, settled s = Some a /\ In a (remotes i)) \/
   (points s' <> [] /\ settled s' = None /\ forall a, In a (points s') -> In a (remotes i))).
Proof. exact sns_points. Qed.
Print Assumptions C83_sns_partial.

(** The local port and the address of the second SGSN change, and nothing happens. *)
Theorem C83_sns_refuted : exists i j s, run true [Info X_OK i; Settle 0] nsi0 = Goes s /\ works X_OK /\ distinct i /\ distinct j /\
  step true (Info X_OK j) s = Goes s /\ ~ In (mk_sa V4 3 23000) (points s) /\ In (mk_sa V4 3 23000) (remotes j) /\
  In (mk_sa V4 2 23000) (points s) /\ ~ In (mk_sa V4 2 23000) (remotes j) /\ ~ In (mk_sa V4 0 23001) (sockets s) /\ In (V4, 23001, 1, 23000, 101) (wanted j).
Proof. exact sns_refuted. Qed.
Print Assumptions C83_sns_refuted.

(** Two links; then the second goes to another SGSN and the first stays; then other links under another NSEI. *)
Example C83_nonvacuous :
  conn (run false [Info X_OK I1] nsi0) = [(1%nat, (V4, 23000, 1, 23000, 101)); (2%nat, (V4, 23000, 2, 23000, 102))] /\
  conn (run false [Info X_OK I1; Info X_OK I2] nsi0) = [(1%nat, (V4, 23000, 1, 23000, 101)); (3%nat, (V4, 23000, 3, 23000, 102))] /\
  conn (run false [Info X_OK I1; Info X_OK I2; Info X_OK I4] nsi0) = [(5%nat, (V4, 23001, 1, 23000, 101))].
Proof. exact example_links. Qed.
Example C83_nonvacuous_steady : Forall (steady_op (fun _ => (V4, 23000))) [Info X_OK I1] /\ steady (fun _ => (V4, 23000)) I2 /\
  distinct I2 /\ wanted I2 <> [].
Proof. exact example_steady. Qed.
