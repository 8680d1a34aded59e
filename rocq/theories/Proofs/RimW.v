(** RAN information management: where it goes wrong. *)
From Coq Require Import ZArith List Bool Lia.
From Verif Require Import Model.NeighCache Model.Nacc Model.Rim Spec.RimSpec Proofs.NeighCacheP Proofs.RimP Proofs.RimQ.
Import ListNotations.
Open Scope Z_scope.

Definition si (x : Z) : option (list Z) := Some (85 :: 6 :: repeat x 21).
Definition id (x : Z) : cgi := Cgi 1 1 false 10 1 x.
Definition cellA : cell := Cell 0 (id 1) (si 11) (si 13) (si 14).
Definition cellB : cell := Cell 0 (id 2) (si 21) (si 23) (si 24).
Definition cellC : cell := Cell 1 (id 3) (si 31) (si 33) (si 34).
Definition pcuA : pcu := Pcu [cellA] (id 1) (cache_new 0 10) [Mob 0 None; Mob 0 None].
Definition pcuB : pcu := Pcu [cellB] (id 2) (cache_new 0 10) [].
(** Two cells; the link to the SGSN bears the identity of the first one. *)
Definition pcuBC : pcu := Pcu [cellB; cellC] (id 2) (cache_new 0 10) [].
(** One cell; the link to the SGSN bears another identity (options -m and -n). *)
Definition pcuS : pcu := Pcu [cellB] (Cgi 901 70 false 10 1 2) (cache_new 0 10) [].
Definition sees (x : Z) : env := Env (fun _ => Some (id x)) true true true true.

(** A mobile goes to the second cell of the other PCU, then another one to its first cell. *)
Definition mixed : list nop :=
  [Mobile 0 0 (sees 3) (MNotif (Gsm 30 3)); Deliver 0 1; Deliver 1 0; Mobile 0 1 (sees 2) (MNotif (Gsm 20 2))].
Definition net2 : net := Net [pcuA; pcuBC] [].

Lemma mixed_fresh : fresh net2 /\ Forall whole_op mixed.
Proof.
  split; [split; [reflexivity |] | repeat constructor].
  intros p [<- | [<- | []]]; (split; [reflexivity |]); split; try (repeat constructor; fail).
  - intros m [<- | [<- | []]]; reflexivity.
  - intros m [].
Qed.

Lemma mixed_lies : ~ truthful net2 mixed.
Proof.
  intros T. destruct (t_run net2 mixed) as [t' |] eqn:E; [| vm_compute in E; discriminate].
  assert (X : exists p m n, nth_error (t_pcus t') 0 = Some p /\ nth_error (p_mobs p) 1 = Some m /\ mo_nacc m = Some n /\
    n_st n = TX_DATA /\ n_cgi n = id 2 /\ n_si n = describes cellC).
  { vm_compute in E. injection E as <-. eexists _, _, _. repeat split. }
  destruct X as (p & m & n & X1 & X2 & X3 & X4 & X5 & X6).
  destruct (T t' p m n E (nth_error_In _ _ X1) (nth_error_In _ _ X2) X3 X4) as (_ & a & b & t1 & Q & R & p1 & b1 & I & J & K & L).
  rewrite X5 in K. rewrite X6 in L. clear - Q R I J K L. unfold mixed in Q.
  assert (D : forall t, t_pcus t = t_pcus t1 -> forallb (fun p => forallb (fun c => negb (cgi_eq (l_cgi c) (id 2)) || negb (if list_eq_dec Z.eq_dec (describes c) (describes cellC) then true else false)) (p_cells p)) (t_pcus t) = false).
  { intros t ->. apply not_true_iff_false. intros F. rewrite forallb_forall in F. specialize (F p1 I). rewrite forallb_forall in F.
    specialize (F b1 J). rewrite K, L in F. vm_compute in F. discriminate. }
  specialize (D t1 eq_refl). clear I J K L.
  destruct a as [| a1 [| a2 [| a3 [| a4 [| a5 a]]]]]; cbn [app] in Q; inversion Q; subst;
    vm_compute in R; injection R as R; subst t1; vm_compute in D; discriminate.
Qed.

Lemma other_cell : exists t ops, fresh t /\ Forall whole_op ops /\ ~ truthful t ops.
Proof. exists net2, mixed. destruct mixed_fresh. split; [assumption |]. split; [assumption | exact mixed_lies]. Qed.

(** The mobile waits on although its question was answered. *)
Definition waiter : nacc := N WAIT_SI (Nkey 10 1 20 2) true (id 2) false [] 0 0 (0, 0) true.
Definition pcuW : pcu := Pcu [cellA] (id 1) (cache_new 0 10) [Mob 0 (Some waiter)].
Lemma spoofed : exists a A b B r A' m, cell_by_cgi (l_cgi a) (p_cells A) = Some a /\ cell_by_cgi (l_cgi b) (p_cells B) = Some b /\ whole_cell b /\
  NoDup (map e_key (c_list (p_cache A))) /\ awaits a (l_cgi b) m /\ In m (p_mobs A) /\
  handle_rim B (request a (l_cgi b)) = Done [Tx r] B /\ handle_rim A r = Done [] A' /\
  In m (p_mobs A') /\ lookup cgi_eq (l_cgi b) (p_cache A') = None.
Proof.
  exists cellA, pcuW, cellB, pcuS, (response pcuS (request cellA (id 2)) cellB).
  eexists _, (Mob 0 (Some waiter)). split; [reflexivity |]. split; [reflexivity |]. split; [repeat constructor |]. split; [constructor |].
  split. { split; [reflexivity |]. exists waiter. repeat split. }
  split; [now left |]. split; [reflexivity |]. split; [vm_compute; reflexivity |]. split; [now left | reflexivity].
Qed.

Lemma undecoded : exists p r g, r_dst r = Geran g /\ serves p g /\ r_cont r = None /\ handle_rim p r = Done [] p.
Proof.
  exists pcuA, (Pdu (Geran (id 1)) (Geran (id 2)) None [87]), (id 1). split; [reflexivity |].
  split; [exists cellA; split; [now left | reflexivity] |]. split; reflexivity.
Qed.
