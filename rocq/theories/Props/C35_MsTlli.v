(** C35: under which TLLIs a mobile's context is found. *)
From Coq Require Import ZArith List Bool.
From Verif Require Import Model.MsTlli Spec.MsTlliSpec Proofs.MsTlliP Proofs.MsTlliEx.
Import ListNotations.
Open Scope Z_scope.

(** Whatever TLLIs either side uses, the old one works until both have used one new TLLI. *)
Theorem C35_old_until_both : forall a t l, a <> RES -> agreed a t ->
  Forall (fun u => of_use u <> RES) l -> (forall x, x <> a -> ~ by_both x l) ->
  check_tlli (tl_uses t l) a = true.
Proof. exact old_found. Qed.
Print Assumptions C35_old_until_both.
Example C35_ex_old : check_tlli (tl_uses (Tl 1 RES RES) [Ul 2; Dl 3; Ul 4; Dl 2; Ul 1]) 1 = true.
Proof. vm_compute. reflexivity. Qed.

(** Any TLLI just used by either side works. *)
Theorem C35_used : forall u t, of_use u <> RES -> check_tlli (tl_use t u) (of_use u) = true.
Proof. exact use_found. Qed.
Print Assumptions C35_used.
Example C35_ex_used : check_tlli (tl_use (Tl 1 2 3) (Dl 5)) 5 = true.
Proof. vm_compute. reflexivity. Qed.

(** During a change from [a] to [b]: under [a], under [b] once one side has used it, and
    under nothing else.  A new context has [a = RES]. *)
Theorem C35_during : forall a b t l, a <> b -> b <> RES -> agreed a t -> change a b l -> ~ by_both b l ->
  forall y, check_tlli (tl_uses t l) y = true <->
    (y = a /\ a <> RES) \/ (y = b /\ (by_mobile b l \/ by_sgsn b l)).
Proof. exact during. Qed.
Print Assumptions C35_during.
Example C35_ex_during : change 1 2 [Ul 2; Dl 1; Ul 1; Ul 2] /\ ~ by_both 2 [Ul 2; Dl 1; Ul 1; Ul 2].
Proof.
  split.
  - intros u [<-|[<-|[<-|[<-|[]]]]]; split; try discriminate; auto.
  - intros (_ & [X|[X|[X|[X|[]]]]]); discriminate.
Qed.

(** The use that makes it both ends the change: only [b] works, and the next change can begin. *)
Theorem C35_completed : forall a b t l u, a <> b -> b <> RES -> agreed a t -> change a b (l ++ [u]) ->
  ~ by_both b l -> by_both b (l ++ [u]) -> agreed b (tl_uses t (l ++ [u])).
Proof. exact completed. Qed.
Print Assumptions C35_completed.
Theorem C35_only_new : forall b t, b <> RES -> agreed b t -> forall y, check_tlli t y = true <-> y = b.
Proof. exact agreed_only. Qed.
Print Assumptions C35_only_new.
Example C35_ex_completed : agreed 2 (tl_uses (Tl 1 RES RES) [Ul 2; Dl 1; Ul 1; Ul 2; Dl 2]) /\
  agreed 2 (tl_uses tl_new [Dl 2; Ul 2]).
Proof. split; repeat split. Qed.

(** In the store of contexts, for all histories of accesses, announcements, downlink data and
    frees with TLLIs that exist: no assertion fails, no TLLI and no IMSI belongs to two
    contexts, and looking a TLLI up gives exactly the context that has it. *)
Theorem C35_store : forall ops, Forall real_op ops -> exists s, m_run m_empty ops = Some s /\
  (forall c d x, In c (st_list s) -> In d (st_list s) ->
     check_tlli (c_tl c) x = true -> check_tlli (c_tl d) x = true -> c = d) /\
  (forall c d, In c (st_list s) -> In d (st_list s) -> c_imsi c <> 0 -> c_imsi c = c_imsi d -> c = d) /\
  (forall c x, In c (st_list s) -> (found s x (c_id c) <-> check_tlli (c_tl c) x = true)).
Proof. exact unique. Qed.
Print Assumptions C35_store.
Example C35_ex_store : exists s, m_run m_empty
    [MNamed A; MDown A true None 7; MAccess; MAnnounce 1 A; MAnnounce 1 B; MDown B true None 7] = Some s /\
  found s B 1 /\ ~ found s A 1 /\ ~ found s A 0.
Proof. exact change_ex. Qed.

(** A TLLI that only the mobile has used is dropped when the mobile uses another one. *)
Theorem C35_unconfirmed_refuted : exists l, Forall (fun u => of_use u <> RES) l /\
  l = [Ul A; Ul B] /\ check_tlli (tl_uses tl_new [Ul A]) A = true /\
  ~ by_sgsn B l /\ check_tlli (tl_uses tl_new l) A = false.
Proof. exact unconfirmed. Qed.
Print Assumptions C35_unconfirmed_refuted.

(** An SGSN that uses the reserved value during a change makes the context unreachable. *)
Theorem C35_reserved_refuted : agreed A (Tl A RES RES) /\
  (forall y, check_tlli (tl_uses (Tl A RES RES) [Dl B; Dl RES]) y = false).
Proof. exact reserved. Qed.
Print Assumptions C35_reserved_refuted.

(** An SGSN that names the old TLLI beside the new one is not understood (only half of the old
    TLLI is read): the mobile gets a second context. *)
Theorem C35_old_tlli_refuted : exists s s', m_run m_empty [MNamed A; MDown A true None 0] = Some s /\
  found s A 0 /\ m_step s (MDown B true (Some A) 0) = Some s' /\
  found s' A 0 /\ found s' B 1.
Proof. exact old_misread. Qed.
Print Assumptions C35_old_tlli_refuted.

(** Were it read in full, downlink data could put one TLLI into two contexts. *)
Theorem C35_old_first_refuted : exists s s' i, m_run m_empty [MNamed B; MNamed A; MDown A true None 1] = Some s /\
  dl_handle B A 1 s = Some (s', i) /\
  exists c d, In c (st_list s') /\ In d (st_list s') /\ c_id c <> c_id d /\
    check_tlli (c_tl c) B = true /\ check_tlli (c_tl d) B = true.
Proof. exact old_first. Qed.
Print Assumptions C35_old_first_refuted.
