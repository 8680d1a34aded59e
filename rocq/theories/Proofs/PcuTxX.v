(** Proofs about Model/PcuTx.v: forms of the lemmas used in Props, examples and witnesses. *)
From Coq Require Import ZArith List Bool Lia.
From Verif Require Import Model.PcuTx Spec.PcuTxSpec Proofs.PcuTxP Proofs.PcuTxQ Proofs.PcuTxR.
Import ListNotations.
Local Open Scope Z_scope.

Lemma pdtch_hear nr trx ts arfcn fn blk b :
  match b with Some d => (length d <= 162)%nat | None => True end -> 0 <= arfcn < 65536 -> 0 <= fn < 2 ^ 32 ->
  hear (tx_pdtch nr trx ts arfcn fn blk b) =
  Some (HData (mk_data nr trx ts 5 arfcn fn blk (match b with Some d => d | None => [] end))).
Proof.
  intros H1 H2 H3. unfold tx_pdtch. destruct b as [d|]; [apply data_req_hear; assumption|].
  apply (data_req_hear nr trx ts SAPI_PDTCH arfcn fn blk []); [cbn; lia | assumption | assumption].
Qed.
Lemma ptcch_hear nr trx ts arfcn fn blk d :
  (length d <= 162)%nat -> 0 <= arfcn < 65536 -> 0 <= fn < 2 ^ 32 ->
  hear (tx_ptcch nr trx ts arfcn fn blk d) = Some (HData (mk_data nr trx ts 7 arfcn fn blk d)).
Proof. exact (data_req_hear nr trx ts 7 arfcn fn blk d). Qed.

Lemma macblock_plen block plen : 0 <= plen < 64 -> macblock block plen = (4 * plen + 1) :: block.
Proof.
  intros H. unfold macblock. f_equal.
  assert (F : forallb (fun n => Z.lor (Z.shiftl n 2) 1 mod 256 =? 4 * n + 1) (map Z.of_nat (seq 0 64)) = true) by (vm_compute; reflexivity).
  rewrite forallb_forall in F. apply Z.eqb_eq, F. replace plen with (Z.of_nat (Z.to_nat plen)) by lia. apply in_map, in_seq. lia.
Qed.
Lemma agch_says nr block plen confirm id : length block = 22%nat -> 0 <= plen < 64 -> 0 <= id < 2 ^ 32 ->
  exists d, hear (tx_agch2 nr block plen confirm id) = Some (HData (mk_data nr 0 0 9 0 0 0 d)) /\
            hear_agch d = Some (mk_ccch id [] ((4 * plen + 1) :: block) confirm).
Proof. intros H1 H2 H3. rewrite <- macblock_plen by exact H2. apply agch_hear; assumption. Qed.
Lemma pch_says nr block plen confirm imsi id : length block = 22%nat -> 0 <= plen < 64 -> 0 <= id < 2 ^ 32 -> plain_imsi imsi ->
  exists d, hear (tx_pch2 nr block plen confirm imsi id) = Some (HData (mk_data nr 0 0 8 0 0 0 d)) /\
            hear_pch d = Some (mk_ccch id (match imsi with Some s => s | None => [] end) ((4 * plen + 1) :: block) confirm).
Proof. intros H1 H2 H3 H4. rewrite <- macblock_plen by exact H2. apply pch_hear; assumption. Qed.

Definition v1 : list Z := [49; 46; 53].
Definition es1 : list sevent := [Send [1]; Ready None true [WAgain]; Send [2]; Ready (Some (RGot [[3]] 0)) true [WAll; WAll; WAgain]].
Lemma ex1 : Forall event_ok es1 /\ k_exit (sock_run v1 true es1) = false /\
  k_wire (sock_run v1 true es1) = [txt_ind v1; [1]] /\ k_queue (sock_run v1 true es1) = [[2]; [3]].
Proof.
  split; [|split; [|split]; vm_compute; reflexivity].
  unfold es1. repeat (apply Forall_cons; [cbn [event_ok]; first [exact Logic.I | discriminate | apply Forall_cons; [discriminate | apply Forall_nil]]|]).
  apply Forall_nil.
Qed.
Lemma ex2 : k_want (sock_run v1 true es1) = true /\ k_want (sock_run v1 true (es1 ++ [Ready None true [WAll; WAll]])) = false.
Proof. split; vm_compute; reflexivity. Qed.
Lemma ex3 : let k := sock_run v1 true es1 in k_queue k <> [] /\
  let k' := sock_step v1 k (Ready (Some (RGot [[4]] 0)) true [WAll; WAll; WAll]) in k_queue k' = [] /\ k_wire k' = [txt_ind v1; [1]; [2]; [3]; [4]].
Proof. cbv zeta. split; [vm_compute; discriminate | split; vm_compute; reflexivity]. Qed.

Lemma turn_refuted : exists version es, Forall event_ok es /\ k_exit (sock_run version true es) = false /\
  forall n, let k := sock_run version true (es ++ repeat (Ready (Some (RGot [] (-22))) true [WAll; WAll]) n) in
            k_exit k = false /\ k_queue k = [txt_ind version; [1]] /\ k_wire k = [].
Proof.
  exists v1, [Send [1]]. split; [apply Forall_cons; [discriminate | apply Forall_nil]|]. split; [reflexivity|].
  intros n. cbv zeta. unfold sock_run. rewrite fold_left_app.
  set (k := fold_left _ [Send [1]] _).
  assert (E : fold_left (sock_step v1) (repeat (Ready (Some (RGot [] (-22))) true [WAll; WAll]) n) k = k).
  { induction n as [|n IH]; [reflexivity|]. cbn [repeat fold_left].
    assert (S1 : sock_step v1 k (Ready (Some (RGot [] (-22))) true [WAll; WAll]) = k) by reflexivity. rewrite S1. exact IH. }
  rewrite E. repeat split.
Qed.

Lemma released_refuted :
  (forall version n, k_kept (sock_run version false (repeat (Send [1]) n)) = repeat [1] n) /\
  (forall nr imsi, paging_request nr [] imsi = (None, false)).
Proof.
  split; [|reflexivity]. intros version n. unfold sock_run.
  assert (G : forall k, k_exit k = false -> k_fd k = false ->
    k_kept (fold_left (sock_step version) (repeat (Send [1]) n) k) = k_kept k ++ repeat [1] n).
  { induction n as [|n IH]; intros k X FD; cbn [repeat fold_left]; [rewrite app_nil_r; reflexivity|].
    rewrite IH; unfold sock_step; rewrite X; unfold sock_send; rewrite FD; cbn [fst k_kept k_exit k_fd]; [|exact X|reflexivity].
    rewrite <- app_assoc. reflexivity. }
  rewrite G; reflexivity.
Qed.
