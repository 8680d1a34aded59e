(** Concrete reports: block 0 is missing, the blocks from 1 on follow a pattern of runs. *)
From Coq Require Import ZArith List Bool Lia.
From Verif Require Import Base.Arith Model.RlcWindow Model.RlcWindowUl Model.TbfUlWindow Model.T4 Model.UlAckDesc
  Spec.UlWindowSpec Spec.T4Spec Spec.AckDescSpec Proofs.UlWindowEx Proofs.T4P.
Import ListNotations.
Local Open Scope Z_scope.

Fixpoint ones_at (i : Z) (l : list bool) : list Z :=
  match l with [] => [] | b :: r => (if b then [i] else []) ++ ones_at (i + 1) r end.
Definition uo_runs (rs : list nat) : uobs :=
  uget (urun 2048 512 (map (fun i => urcv 2048 [i]) (ones_at 1 (paint true rs)))).
Definition reach_chk (rs : list nat) : bool :=
  let ops := map (fun i => urcv 2048 [i]) (ones_at 1 (paint true rs)) in
  forallb (rcv_ok 2048) ops && match urun 2048 512 ops with Some _ => true | None => false end.
Lemma uo_runs_reach rs : reach_chk rs = true -> ul_reach 2048 512 (uo_runs rs).
Proof.
  intros E. unfold reach_chk in E. apply andb_prop in E. destruct E as [E1 E2]. apply uget_reach; [apply uparams_2048; lia|exact E1|].
  destruct (urun 2048 512 _) as [o|]; [eauto|discriminate].
Qed.
Fixpoint rep {A} (n : nat) (l : list A) : list A := match n with O => [] | S k => l ++ rep k l end.
Definition arrived_b (o : uobs) (i : Z) : bool := existsb (fun e => match e with Arr j _ _ => i =? j end) (u_log o).
Lemma arrived_b_ok o i : arrived_b o i = true <-> arrived o i.
Proof.
  unfold arrived_b. rewrite existsb_exists. split.
  - intros ([j c far] & I & E). apply Z.eqb_eq in E. subst. exists c, far. exact I.
  - intros (c & far & I). exists (Arr i c far). split; [exact I|]. apply Z.eqb_refl.
Qed.

(** A 1 in the report for a block that has not arrived. *)
Definition false_ack (o : uobs) (l : list bool) (k : nat) : bool :=
  (k <? length l)%nat && nth k l false && (u_Q o + 1 + Z.of_nat k <? u_R o) && negb (arrived_b o (u_Q o + 1 + Z.of_nat k)).
Lemma false_ack_ok o l k : false_ack o l k = true ->
  (k < length l)%nat /\ nth k l false = true /\ u_Q o + 1 + Z.of_nat k < u_R o /\ ~ arrived o (u_Q o + 1 + Z.of_nat k).
Proof.
  unfold false_ack. intros E. apply andb_prop in E. destruct E as [E E4]. apply andb_prop in E. destruct E as [E E3].
  apply andb_prop in E. destruct E as [E1 E2]. apply Nat.ltb_lt in E1. apply Z.ltb_lt in E3. splits; auto.
  intros A. apply arrived_b_ok in A. rewrite A in E4. discriminate.
Qed.

(** 280 blocks received, then every other one. *)
Definition o_count : uobs := uo_runs (280%nat :: rep 50 [1; 1]%nat).
Lemma count_bad : exists o d l k, ul_reach 2048 512 o /\ uws o <= 512 /\
  ack_desc_egprs (ut_w (u_t o)) 102 = Some d /\ desc_bits d <= 102 /\ told d = Some l /\
  (k < length l)%nat /\ nth k l false = true /\ u_Q o + 1 + Z.of_nat k < u_R o /\ ~ arrived o (u_Q o + 1 + Z.of_nat k).
Proof.
  exists o_count. eexists. eexists. exists 292%nat. split; [apply uo_runs_reach; vm_compute; reflexivity|].
  split; [vm_compute; discriminate|]. split; [vm_compute; reflexivity|]. split; [vm_compute; discriminate|].
  split; [vm_compute; reflexivity|]. apply false_ack_ok. vm_compute. reflexivity.
Qed.
(** The room ends in the middle of a run of 70. *)
Definition o_mk : uobs := uo_runs (rep 5 [30; 3]%nat ++ [70; 18; 1]%nat).
Lemma makeup_bad : exists o d l k, ul_reach 2048 512 o /\ uws o <= 512 /\ pending o <= 255 /\
  ack_desc_egprs (ut_w (u_t o)) 102 = Some d /\ desc_bits d <= 102 /\ told d = Some l /\
  (k < length l)%nat /\ nth k l false = true /\ u_Q o + 1 + Z.of_nat k < u_R o /\ ~ arrived o (u_Q o + 1 + Z.of_nat k).
Proof.
  exists o_mk. eexists. eexists. exists 235%nat. split; [apply uo_runs_reach; vm_compute; reflexivity|].
  split; [vm_compute; discriminate|]. split; [vm_compute; discriminate|]. split; [vm_compute; reflexivity|]. split; [vm_compute; discriminate|].
  split; [vm_compute; reflexivity|]. apply false_ack_ok. vm_compute. reflexivity.
Qed.
(** The rest of the bitmap does not fit behind the compressed part. *)
Definition o_spill : uobs := uo_runs (rep 6 [30; 3]%nat ++ [20]%nat).
Lemma spill_bad : exists o d, ul_reach 2048 512 o /\ uws o <= 512 /\ pending o <= 255 /\
  ack_desc_egprs (ut_w (u_t o)) 102 = Some d /\ a_eow d = true /\ 102 + 30 < desc_bits d.
Proof.
  exists o_spill. eexists. split; [apply uo_runs_reach; vm_compute; reflexivity|].
  split; [vm_compute; discriminate|]. split; [vm_compute; discriminate|]. split; [vm_compute; reflexivity|]. split; [reflexivity|vm_compute; reflexivity].
Qed.
(** A report whose compressed bitmap says it all. *)
Definition o_good : uobs := uo_runs (rep 5 [30; 3]%nat ++ [2]%nat).
Lemma good_reach : ul_reach 2048 512 o_good /\ uws o_good <= 512 /\ pending o_good = 167.
Proof. split; [apply uo_runs_reach; vm_compute; reflexivity|]. split; [vm_compute; discriminate|vm_compute; reflexivity]. Qed.
Lemma good_no_cut : no_cut o_good 62.
Proof.
  exists true, (rep 5 [30; 3]%nat ++ [2]%nat). split; [repeat constructor|]. split; [|split; [vm_compute; reflexivity|left; repeat constructor]].
  intros k K. change (length (paint true (rep 5 [30; 3]%nat ++ [2]%nat))) with 167%nat in K. rewrite <- arrived_b_ok.
  assert (C : forallb (fun k => Bool.eqb (nth k (paint true (rep 5 [30; 3]%nat ++ [2]%nat)) false) (arrived_b o_good (u_Q o_good + 1 + Z.of_nat k))) (seq 0 167) = true)
    by (vm_compute; reflexivity).
  rewrite forallb_forall in C. specialize (C k ltac:(apply in_seq; lia)). apply eqb_prop in C. rewrite C. tauto.
Qed.
Lemma cut_bad : exists bm m out crbb n l,
  compress_rbb bm m = (out, crbb, n, true) /\ decompress_crbb 1024 (hd false bm) crbb [] = (true, l) /\
  n < Z.of_nat (length l).
Proof.
  exists (paint true (rep 5 [30; 3]%nat ++ [70; 18; 1]%nat)), 62. eexists. eexists. eexists. eexists.
  split; [vm_compute; reflexivity|]. split; [vm_compute; reflexivity|]. vm_compute. reflexivity.
Qed.
Lemma count_trunc : exists bm m out crbb n,
  compress_rbb bm m = (out, crbb, n, true) /\ decompress_crbb 1024 (hd false bm) crbb [] = (true, bm) /\
  n <> Z.of_nat (length bm).
Proof.
  exists (repeat true 300), 62. eexists. eexists. eexists.
  split; [vm_compute; reflexivity|]. split; [vm_compute; reflexivity|]. vm_compute. discriminate.
Qed.
