(** What the mobile reads in the encoded messages of a cell change. *)
From Coq Require Import ZArith List Bool Lia.
From Verif.Model Require Import NeighCache Paging Nacc Csn1Enc CtrlMsg.
From Verif.Spec Require Import PagingSpec NaccSpec.
From Verif.Proofs Require Import Csn1Close AssignRead PagingP NaccP NaccP2 CtrlMsgP.
Import ListNotations.
Open Scope Z_scope.

Lemma data_same : forall h n out c, good_history h -> n_run None [] h = Some (Some n, out) -> n_st n = TX_DATA ->
  encode_data c n = Some (fst (fst (create_data c n))).
Proof.
  intros h n out c G R St. eapply data_encoded. apply sound_sending; [|exact St].
  exact (run_sound h None [] n out G Logic.I R).
Qed.
Lemma data_told : forall h n out c, good_history h -> n_run None [] h = Some (Some n, out) -> n_st n = TX_DATA ->
  0 <= cr_tfi c < 32 ->
  let rest := skipn (Z.to_nat (n_sent n)) (n_si n) in
  let room := if n_idx n =? 0 then 16%nat else 18%nat in
  exists b, encode_data c n = Some b /\ length b = 184%nat /\
    r_container b = Some (Co (n_idx n mod 32)
      (if n_idx n =? 0 then Some (k_arfcn (n_key n), k_bsic (n_key n)) else None) (if n_psi n then 1 else 0)
      (if (room <=? length rest)%nat then 31 else Z.of_nat (length rest))
      (firstn room rest ++ repeat 0 (room - length rest))).
Proof.
  intros h n out c G R St T rest rm. pose proof (run_sound h None [] n out G Logic.I R) as S.
  pose proof (sound_sending n S St) as D. fold rest in D.
  destruct (data_step c n rest D T) as (b & n' & E & A & B & L). exists b.
  rewrite (data_same h n out c G R St), E. split; [reflexivity|]. split; [exact L|].
  assert (M : (n_idx n mod 256) mod 32 = n_idx n mod 32) by (Z.div_mod_to_equations; lia).
  assert (Q : Z.to_nat (room n) = rm) by (unfold room, rm; destruct (n_idx n =? 0); reflexivity).
  assert (P : 0 <= room n) by (unfold room; destruct (n_idx n =? 0); lia).
  cbv zeta in A, B. rewrite M, Q in A, B. destruct (Nat.leb_spec rm (length rest)) as [K|K].
  - destruct (A ltac:(lia)) as [A1 _]. rewrite A1. replace (rm - length rest)%nat with 0%nat by lia.
    cbn [repeat]. rewrite app_nil_r. reflexivity.
  - destruct (B ltac:(lia)) as [B1 _]. rewrite B1. rewrite firstn_all2 by lia. reflexivity.
Qed.
Lemma continue_same : forall rrbp c n, exists t, encode_continue rrbp c n = Some (create_continue rrbp c n ++ t).
Proof. intros rrbp c n. destruct (continue_encoded rrbp c n) as (t & E & _). now exists t. Qed.
Lemma continue_read : forall rrbp c n t, 0 <= rrbp < 4 -> 0 <= cr_tfi c < 32 -> (n_present n = true -> good_key (n_key n)) ->
  r_continue (create_continue rrbp c n ++ t) =
    Some (Some rrbp, cr_dl c, cr_tfi c, if n_present n then Some (k_arfcn (n_key n), k_bsic (n_key n)) else None).
Proof.
  intros rrbp c n t A T K. unfold create_continue, r_continue. rewrite <- app_assoc. rewrite read_head by lia. cbv beta iota. change (1 =? 1) with true. cbv beta iota.
  destruct (n_present n).
  - destruct (K eq_refl) as [Ka Kb]. rewrite <- !app_assoc. rewrite uint_exact by (cbn; lia). cbv beta iota.
    rewrite uint_exact by (cbn; lia). rewrite uint_exact by (cbn; lia). reflexivity.
  - rewrite uint_exact by (cbn; lia). reflexivity.
Qed.
Lemma continue_told : forall rrbp c n, 0 <= rrbp < 4 -> 0 <= cr_tfi c < 32 -> (n_present n = true -> good_key (n_key n)) ->
  exists b, encode_continue rrbp c n = Some b /\ length b = 184%nat /\
    r_continue b = Some (Some rrbp, cr_dl c, cr_tfi c,
      if n_present n then Some (k_arfcn (n_key n), k_bsic (n_key n)) else None).
Proof.
  intros rrbp c n A T K. destruct (continue_encoded rrbp c n) as (t & E & L & _). exists (create_continue rrbp c n ++ t).
  split; [exact E|]. split; [exact L|]. now apply continue_read.
Qed.
