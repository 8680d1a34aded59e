(** More proofs about the PCU interface (C73): short messages, system information, blocks. *)
From Coq Require Import ZArith List Bool Lia.
From Verif Require Import Model.FrameNo Model.BtsConf Model.PcuIf Spec.PcuIfSpec Proofs.PcuIfP Proofs.PcuIfQ Proofs.PcuIfR
  Proofs.PcuIfS.
Import ListNotations.
Local Open Scope Z_scope.

(** ** Messages too short *)
Lemma disp_short : forall e s b ty raw,
  (match needed ty with None => True | Some n => Z.of_nat (length raw) + 4 < n end) ->
  disp e s b ty raw = Done s [] EINVAL.
Proof.
  intros e s b ty raw H. unfold disp, short.
  destruct (Z.eqb_spec ty 2) as [->|N1].
  { cbn in H. destruct (Z.ltb_spec (Z.of_nat (length raw)) 180); [reflexivity|lia]. }
  destruct (Z.eqb_spec ty 17) as [->|N2].
  { cbn in H. destruct (Z.ltb_spec (Z.of_nat (length raw)) 5); [reflexivity|lia]. }
  destruct (Z.eqb_spec ty 16) as [->|N3].
  { cbn in H. destruct (Z.ltb_spec (Z.of_nat (length raw)) 13); [reflexivity|lia]. }
  destruct (Z.eqb_spec ty 34) as [->|N4].
  { cbn in H. destruct (Z.ltb_spec (Z.of_nat (length raw)) 15); [reflexivity|lia]. }
  destruct (Z.eqb_spec ty 50) as [->|N5].
  { cbn in H. destruct (Z.ltb_spec (Z.of_nat (length raw)) 1003); [reflexivity|lia]. }
  destruct (Z.eqb_spec ty 51) as [->|N6].
  { cbn in H. destruct (Z.ltb_spec (Z.of_nat (length raw)) 5); [reflexivity|lia]. }
  destruct (Z.eqb_spec ty 82) as [->|N7].
  { cbn in H. destruct (Z.ltb_spec (Z.of_nat (length raw)) 4); [reflexivity|lia]. }
  destruct (Z.eqb_spec ty 96) as [->|N8].
  { cbn in H. destruct (Z.ltb_spec (Z.of_nat (length raw)) 11); [reflexivity|lia]. }
  destruct (Z.eqb_spec ty 3) as [->|N9].
  { cbn in H. destruct (Z.ltb_spec (Z.of_nat (length raw)) 11); [reflexivity|lia]. }
  destruct (Z.eqb_spec ty 4) as [->|N10].
  { cbn in H. destruct (Z.ltb_spec (Z.of_nat (length raw)) 164); [reflexivity|lia]. }
  destruct (Z.eqb_spec ty 83) as [->|N11]; [cbn in H; lia|].
  destruct (Z.eqb_spec ty 128) as [->|N12]; [|reflexivity].
  cbn in H. destruct (Z.ltb_spec (Z.of_nat (length raw)) 4); [reflexivity|lia].
Qed.
Lemma read_short : forall e s d, d <> [] ->
  (match needed (kind d) with None => True | Some n => Z.of_nat (length d) < n end) ->
  exists s', sock_read e s d = Done s' [] EINVAL /\
    (forall m b, find_bts s m = Some b -> find_bts s' m = Some b) /\
    (forall m x t, is_on s' m x t = is_on s m x t) /\ (forall m k, si s' m k = si s m k) /\
    s_bssgp s' = s_bssgp s /\ s_e1 s' = s_e1 s.
Proof.
  intros e s d Hd Hn. destruct (read_cases e s d) as [[-> H] | [[L H] | (ty & nr & p & q & raw & -> & H)]].
  - congruence.
  - exists s. rewrite H. easy.
  - exists (fst (have_bts s nr)). rewrite H, rx_disp. unfold kind, oct in Hn. cbn [nth length] in Hn.
    split; [|split; [|split; [|split]]].
    + apply disp_short. destruct (needed ty); [|easy]. rewrite firstn_length. lia.
    + intros m b Hm. destruct (Z.eq_dec m nr) as [->|N]; [|now rewrite have_other].
      rewrite have_find. unfold have_bts. rewrite Hm. reflexivity.
    + intros. apply have_on.
    + intros m k. unfold si. destruct (Z.eq_dec m nr) as [->|N]; [|now rewrite have_other].
      rewrite have_find. unfold have_bts. destruct (find_bts s nr); cbn [snd]; [reflexivity|].
      destruct (k =? 1), (k =? 2), (k =? 3), (k =? 13); reflexivity.
    + unfold have_bts. destruct (find_bts s nr); easy.
Qed.

(** ** System information *)
Definition bsi (b : bts) (k : Z) : option (list Z) :=
  if k =? 1 then b_si1 b else if k =? 2 then b_si2 b else if k =? 3 then b_si3 b
  else if k =? 13 then b_si13 b else None.
Definition si_raw (ty : Z) (raw : list Z) (k : Z) (old : option (list Z)) : option (list Z) :=
  if (ty =? 2) && (180 <=? Z.of_nat (length raw)) && (nth 0 raw 0 =? 4) then
    if (nth 1 raw 0 =? 23) && (nth 4 raw 0 =? rr_code k) then Some (map (fun j => nth (2 + j) raw 0) (seq 0 23))
    else if (nth 1 raw 0 =? 1) && (nth 2 raw 0 =? revoke_code k) then None
    else if (nth 1 raw 0 =? 0) && (k =? 13) then None
    else old
  else old.
Lemma nth_span : forall n w k l, (k < w)%nat -> nth k (span n w l) 0 = nth (n + k) l 0.
Proof.
  intros n w k l H. unfold span. rewrite nth_indep with (d' := nth (n + 0) l 0) by (rewrite map_length, seq_length; lia).
  rewrite (map_nth (fun j => nth (n + j) l 0)). now rewrite seq_nth.
Qed.
Lemma firstn_span : forall k n w l, (k <= w)%nat -> firstn k (span n w l) = span n k l.
Proof. intros k n w l H. unfold span. rewrite firstn_map. f_equal. replace w with (k + (w - k))%nat by lia. rewrite seq_app, firstn_app, seq_length, Nat.sub_diag. cbn [firstn]. rewrite app_nil_r. apply firstn_all2. rewrite seq_length. lia. Qed.

Lemma bcch_si : forall e s b raw k, known k -> find_bts s (b_nr b) = Some b ->
  180 <= Z.of_nat (length raw) -> nth 0 raw 0 = 4 ->
  si (fst (rx_bcch e s b (pos_data raw))) (b_nr b) k = si_raw 2 raw k (bsi b k).
Proof.
  intros e s b raw k K F L S4. unfold si_raw. rewrite S4.
  change (map (fun j => nth (2 + j) raw 0) (seq 0 23)) with (span 2 23 raw).
  replace (180 <=? Z.of_nat (length raw)) with true by lia. cbn [Z.eqb Pos.eqb andb].
  change (2 =? 2) with true. change (4 =? 4) with true. cbn [andb].
  assert (X : forall s1 s2 s3 s4 t, si (set_t (set_bts s (set_si b s1 s2 s3 s4)) t) (b_nr b) k =
            if k =? 1 then s1 else if k =? 2 then s2 else if k =? 3 then s3 else if k =? 13 then s4 else None).
  { intros. unfold si. change (find_bts (set_t ?a ?b) ?c) with (find_bts a c).
    rewrite (set_find s b (b_nr b)) by easy. reflexivity. }
  assert (X' : forall s1 s2 s3 s4, si (set_bts s (set_si b s1 s2 s3 s4)) (b_nr b) k =
            if k =? 1 then s1 else if k =? 2 then s2 else if k =? 3 then s3 else if k =? 13 then s4 else None).
  { intros. unfold si. rewrite (set_find s b (b_nr b)) by easy. reflexivity. }
  assert (Y : si s (b_nr b) k = bsi b k) by (unfold si; rewrite F; reflexivity).
  unfold rx_bcch. cbn [di_len di_data pos_data]. rewrite !nth_span by lia. cbn [Nat.add].
  rewrite firstn_span by lia.
  set (m := span 2 23 raw). clearbody m.
  destruct (Z.eqb_spec (nth 1 raw 0) 0) as [E0|E0].
  { rewrite E0. change (0 =? 23) with false. change (0 =? 1) with false. change (0 =? 0) with true. cbn [fst andb].
    rewrite X'. unfold bsi. destruct K as [-> | [-> | [-> | ->]]]; reflexivity. }
  destruct (Z.eqb_spec (nth 1 raw 0) 1) as [E1|E1].
  { rewrite E1. change (1 =? 23) with false. change (1 =? 1) with true. change (1 =? 0) with false. cbn [fst andb].
    destruct (Z.eqb_spec (nth 2 raw 0) 1) as [R1|R1]; [|destruct (Z.eqb_spec (nth 2 raw 0) 2) as [R2|R2];
      [|destruct (Z.eqb_spec (nth 2 raw 0) 3) as [R3|R3]; [|destruct (Z.eqb_spec (nth 2 raw 0) 11) as [R4|R4]]]];
      cbn [fst]; rewrite ?X', ?Y; unfold bsi; destruct K as [-> | [-> | [-> | ->]]]; unfold revoke_code;
      cbn [Z.eqb Pos.eqb]; try rewrite R1; try rewrite R2; try rewrite R3; try rewrite R4; cbn [Z.eqb Pos.eqb]; try reflexivity;
      match goal with |- _ = if ?x =? ?y then _ else _ => destruct (Z.eqb_spec x y); [congruence|reflexivity] end. }
  destruct (Z.eqb_spec (nth 1 raw 0) 23) as [E23|E23]; cbn [fst andb]; [|exact Y].
  destruct (Z.eqb_spec (nth 4 raw 0) 25) as [R1|R1]; [|destruct (Z.eqb_spec (nth 4 raw 0) 26) as [R2|R2];
      [|destruct (Z.eqb_spec (nth 4 raw 0) 27) as [R3|R3]; [|destruct (Z.eqb_spec (nth 4 raw 0) 0) as [R4|R4]]]];
      try destruct (e_si13 e _) as [t1 t2];
      cbn [fst]; rewrite ?X', ?X, ?Y; unfold bsi; destruct K as [-> | [-> | [-> | ->]]]; unfold rr_code;
      cbn [Z.eqb Pos.eqb Z.add Pos.add Pos.succ]; try rewrite R1; try rewrite R2; try rewrite R3; try rewrite R4; cbn [Z.eqb Pos.eqb]; try reflexivity.
      all: match goal with |- _ = if ?x =? ?y then _ else _ => destruct (Z.eqb_spec x y); [congruence|reflexivity] end.
Qed.

(** A message that is not about system information. *)
Lemma si_same : forall s s' nr k, find_bts s' nr = find_bts s nr -> si s' nr k = si s nr k.
Proof. intros s s' nr k H. unfold si. now rewrite H. Qed.
Lemma data_si : forall e s b raw s' a rc k, known k -> find_bts s (b_nr b) = Some b ->
  180 <= Z.of_nat (length raw) -> rx_data e s b (pos_data raw) raw = Done s' a rc ->
  si s' (b_nr b) k = si_raw 2 raw k (bsi b k).
Proof.
  intros e s b raw s' a rc k K F L E. unfold rx_data in E.
  assert (T : forall s1 a1 rc1,
    (if (rc1 <? 0) && e_tap e then
       match octets_at (di_len (pos_data raw)) (skipn 2 raw) with Some o => Done s1 (a1 ++ [ATap o]) rc1 | None => Fault end
     else Done s1 a1 rc1) = Done s' a rc -> s' = s1).
  { clear E. intros s1 a1 rc1 E1. destruct (_ && _); [destruct (octets_at _ _); [|discriminate]|]; congruence. }
  assert (Y : si s (b_nr b) k = bsi b k) by (unfold si; rewrite F; reflexivity).
  assert (N : nth 0 raw 0 <> 4 -> si_raw 2 raw k (bsi b k) = bsi b k).
  { intros N. unfold si_raw. replace (nth 0 raw 0 =? 4) with false by lia. rewrite andb_false_r. reflexivity. }
  destruct (e_log e && _); [discriminate|].
  destruct (Z.eqb_spec (di_sapi (pos_data raw)) 5) as [S5|_].
  - cbn [di_sapi pos_data] in S5. rewrite N by lia.
    destruct (e_log e && _); [discriminate|]. destruct (negb _); [discriminate|].
    destruct (slot_of b _ _) as [p|]; [|discriminate].
    assert (G : s' = set_bts s (set_fn b (di_fn (pos_data raw)))).
    { destruct (p_on p); [destruct (octets_at (di_len (pos_data raw)) (skipn 2 raw)) eqn:O|]; eapply T; exact E. }
    subst s'. unfold si. rewrite (set_find s b (b_nr b)) by easy. reflexivity.
  - destruct (Z.eqb_spec (di_sapi (pos_data raw)) 4) as [S4|S4]; cbn [di_sapi pos_data] in S4.
    + pose proof (bcch_si e s b raw k K F L S4) as G. destruct (rx_bcch e s b (pos_data raw)) as [s1 rc1].
      cbn [fst] in G. apply T in E. now subst s1.
    + apply T in E. subst s'. now rewrite N.
Qed.
Ltac split_all E := repeat (let c := match type of E with
    | context [match ?x with _ => _ end] => constr:(x) end in destruct c; try discriminate E).
Lemma disp_si : forall e s b ty raw s' a rc k, known k -> find_bts s (b_nr b) = Some b ->
  disp e s b ty raw = Done s' a rc -> si s' (b_nr b) k = si_raw ty raw k (bsi b k).
Proof.
  intros e s b ty raw s' a rc k K F E.
  assert (Y : si s (b_nr b) k = bsi b k) by (unfold si; rewrite F; reflexivity).
  unfold disp in E.
  destruct (Z.eqb_spec ty 2) as [->|N2].
  { destruct (short raw 180) eqn:Sh; unfold short in Sh.
    - injection E as <- <- <-. unfold si_raw. replace (180 <=? Z.of_nat (length raw)) with false by lia.
      cbn [andb Z.eqb Pos.eqb]. exact Y.
    - eapply data_si; eauto. lia. }
  assert (G : si_raw ty raw k (bsi b k) = bsi b k).
  { unfold si_raw. destruct (Z.eqb_spec ty 2); [congruence|]. reflexivity. }
  rewrite G, <- Y. clear G.
  assert (X : s_bts s' = s_bts s -> si s' (b_nr b) k = si s (b_nr b) k).
  { intros H. apply si_same. unfold find_bts. now rewrite H. }
  destruct (ty =? 17); [apply X; unfold rx_cnf in E; split_all E; congruence|].
  destruct (ty =? 16); [apply X; unfold rx_rts in E; split_all E; congruence|].
  destruct (ty =? 34); [apply X; unfold rx_rach in E; split_all E; congruence|].
  destruct (ty =? 50).
  { destruct (short raw 1003); [apply X; congruence|]. apply info_inv in E.
    destruct E as [(-> & _) | (_ & _ & _ & xs & g & _ & _ & ->)]; [reflexivity|]. rewrite Y. unfold si.
    change (find_bts (mk_pcu (s_bts ?x) ?t ?g ?l ?v) ?n) with (find_bts x n).
    rewrite (set_find s b (b_nr b)) by easy. reflexivity. }
  destruct (ty =? 51); [apply X; destruct (short raw 5); unfold rx_e1 in E; injection E as <- <- <-; reflexivity|].
  destruct (ty =? 82); [apply X; split_all E; congruence|].
  destruct (ty =? 96); [apply X; unfold rx_pag in E; split_all E; congruence|].
  destruct (ty =? 3); [apply X; unfold rx_susp in E; split_all E; congruence|].
  destruct (ty =? 4); [apply X; unfold rx_app in E; split_all E; congruence|].
  destruct (ty =? 83); [apply X; congruence|].
  destruct (ty =? 128); [|apply X; congruence].
  apply X. unfold rx_cont in E. split_all E; congruence.
Qed.
Lemma read_si : forall e s d s' a rc k, known k -> sock_read e s d = Done s' a rc ->
  si s' (cell_nr d) k = si_after d k (si s (cell_nr d) k).
Proof.
  intros e s d s' a rc k K E. destruct (read_cases e s d) as [[-> H] | [[L H] | (ty & nr & p & q & raw & -> & H)]];
    rewrite H in E; [discriminate| |].
  - injection E as <- <- <-. unfold si_after. replace (184 <=? Z.of_nat (length d)) with false by lia.
    rewrite andb_false_r. reflexivity.
  - rewrite rx_disp in E. pose proof (have_nr s nr) as N.
    apply (disp_si _ _ _ _ _ _ _ _ k K) in E; [|rewrite N; apply have_find]. rewrite N in E.
    unfold cell_nr, oct at 1. cbn [nth]. rewrite E.
    assert (B : bsi (snd (have_bts s nr)) k = si s (cell_nr (ty :: nr :: p :: q :: raw)) k).
    { unfold cell_nr, oct. cbn [nth]. unfold have_bts, si. destruct (find_bts s nr); [reflexivity|]. cbn [snd].
      destruct K as [-> | [-> | [-> | ->]]]; reflexivity. }
    rewrite B. unfold si_raw, si_after, kind, oct, DATA_IND. cbn [nth length Nat.add].
    rewrite !nth_cut by lia.
    replace (180 <=? Z.of_nat (length (firstn 2003 raw))) with (184 <=? Z.of_nat (S (S (S (S (length raw)))))).
    2: { rewrite firstn_length. destruct (Z.leb_spec 184 (Z.of_nat (S (S (S (S (length raw))))))), (Z.leb_spec 180 (Z.of_nat (Nat.min 2003 (length raw)))); lia. }
    destruct (_ && _ && _); [|reflexivity]. destruct (_ && _); [|reflexivity].
    f_equal. apply map_ext_in. intros j Hj. apply in_seq in Hj. apply nth_cut. lia.
Qed.
