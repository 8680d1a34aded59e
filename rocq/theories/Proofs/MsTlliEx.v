(** What goes wrong with TLLIs. *)
From Coq Require Import ZArith List Bool Lia.
From Verif Require Import Base.Arith Model.MsTlli Spec.MsTlliSpec.
Import ListNotations.
Open Scope Z_scope.

(** Contexts of the examples: numbers in hexadecimal, local and random TLLIs. *)
Definition A : Z := 0xc0000001.
Definition B : Z := 0xc0000002.

Lemma unconfirmed : exists l, Forall (fun u => of_use u <> RES) l /\
  l = [Ul A; Ul B] /\ check_tlli (tl_uses tl_new [Ul A]) A = true /\
  ~ by_sgsn B l /\ check_tlli (tl_uses tl_new l) A = false.
Proof.
  exists [Ul A; Ul B]. splits; try reflexivity.
  - repeat constructor; discriminate.
  - intros [X|[X|[]]]; discriminate.
Qed.

Lemma reserved : agreed A (Tl A RES RES) /\
  (forall y, check_tlli (tl_uses (Tl A RES RES) [Dl B; Dl RES]) y = false).
Proof.
  split; [unfold agreed; auto|]. intros y. change (tl_uses _ _) with tl_new. unfold check_tlli, tl_new. cbn [tlli new_ul new_dl].
  destruct (y =? RES); reflexivity.
Qed.

(** A message of the SGSN that names the old TLLI beside the new one. *)
Lemma old_misread : exists s s', m_run m_empty [MNamed A; MDown A true None 0] = Some s /\
  found s A 0 /\ m_step s (MDown B true (Some A) 0) = Some s' /\
  found s' A 0 /\ found s' B 1.
Proof.
  exists (Store [Ctx 0 (Tl A RES RES) 0] 1), (Store [Ctx 1 (Tl RES RES B) 0; Ctx 0 (Tl A RES RES) 0] 2).
  splits; try reflexivity; eexists; split; vm_compute; reflexivity.
Qed.

(** With the old TLLI as sent: two contexts under one TLLI. *)
Lemma old_first : exists s s' i, m_run m_empty [MNamed B; MNamed A; MDown A true None 1] = Some s /\
  dl_handle B A 1 s = Some (s', i) /\
  exists c d, In c (st_list s') /\ In d (st_list s') /\ c_id c <> c_id d /\
    check_tlli (c_tl c) B = true /\ check_tlli (c_tl d) B = true.
Proof.
  eexists _, _, _. split; [vm_compute; reflexivity|]. split; [vm_compute; reflexivity|].
  eexists _, _. cbn [st_list In]. split; [left; reflexivity|]. split; [right; left; reflexivity|].
  split; [cbn; discriminate|]. split; vm_compute; reflexivity.
Qed.

(** A whole change, with the merge of a context made in the meantime. *)
Lemma change_ex : exists s, m_run m_empty
    [MNamed A; MDown A true None 7; MAccess; MAnnounce 1 A; MAnnounce 1 B; MDown B true None 7] = Some s /\
  found s B 1 /\ ~ found s A 1 /\ ~ found s A 0.
Proof.
  eexists. split; [vm_compute; reflexivity|]. splits.
  - eexists. split; vm_compute; reflexivity.
  - intros (c & G & _). vm_compute in G. discriminate.
  - intros (c & G & _). vm_compute in G. discriminate.
Qed.
