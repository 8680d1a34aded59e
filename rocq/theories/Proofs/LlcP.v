(** The LLC queue. *)
From Coq Require Import ZArith List Bool Lia Permutation.
From Verif Require Import Base.Arith Model.Codel Model.LlcQueue Spec.LlcSpec.
Import ListNotations.
Local Open Scope Z_scope.

Lemma ql_set_same q p l : ql (set_ql q p l) p = l.
Proof. destruct p; reflexivity. Qed.
Lemma ql_set_diff q p p' l : p' <> p -> ql (set_ql q p l) p' = ql q p'.
Proof. destruct p, p'; intros; try congruence; reflexivity. Qed.
Lemma ql_cnt q n o p : ql (set_cnt q n o) p = ql q p.
Proof. destruct p; reflexivity. Qed.
Lemma ql_qc q p' c p : ql (set_qc q p' c) p = ql q p.
Proof. destruct p, p'; reflexivity. Qed.
Lemma prio_dec (p p' : prio) : {p = p'} + {p <> p'}.
Proof. decide equality. Qed.

(** ** Counts *)
Lemma sum_len_app a b : sum_len (a ++ b) = sum_len a + sum_len b.
Proof. induction a; cbn [app sum_len fold_right] in *; [reflexivity|]. unfold sum_len in *. rewrite IHa. lia. Qed.
Lemma sum_len_perm a b : Permutation a b -> sum_len a = sum_len b.
Proof. unfold sum_len. induction 1; cbn [fold_right]; lia. Qed.
Lemma counts_perm q q' : q_size q = q_size q' -> q_octets q = q_octets q' ->
  Permutation (all_frames q) (all_frames q') -> counts_ok q -> counts_ok q'.
Proof.
  intros A B P [C D]. unfold counts_ok. rewrite <- A, <- B, C, D.
  rewrite (Permutation_length P), (sum_len_perm _ _ P). auto.
Qed.

Lemma u64_add a b : u64 (a mod 2 ^ 64 + b) = (a + b) mod 2 ^ 64.
Proof. unfold u64. rewrite Zplus_mod_idemp_l. reflexivity. Qed.
Lemma u64_sub a b : u64 (a mod 2 ^ 64 - b) = (a - b) mod 2 ^ 64.
Proof. unfold u64. rewrite Zminus_mod_idemp_l. reflexivity. Qed.

Lemma all_set_perm q p l n o : Permutation (all_frames (set_cnt (set_ql q p (l)) n o))
  (l ++ match p with PGmm => ql q PSms ++ ql q POther
                   | PSms => ql q PGmm ++ ql q POther
                   | POther => ql q PGmm ++ ql q PSms end).
Proof.
  destruct p; unfold all_frames; cbn [set_cnt set_ql ql q_gmm q_sms q_other].
  - reflexivity.
  - rewrite !app_assoc. apply Permutation_app_tail, Permutation_app_comm.
  - rewrite app_assoc. apply Permutation_app_comm.
Qed.
Lemma all_perm q p : Permutation (all_frames q)
  (ql q p ++ match p with PGmm => ql q PSms ++ ql q POther
                   | PSms => ql q PGmm ++ ql q POther
                   | POther => ql q PGmm ++ ql q PSms end).
Proof.
  destruct p; unfold all_frames; cbn [ql].
  - reflexivity.
  - rewrite !app_assoc. apply Permutation_app_tail, Permutation_app_comm.
  - rewrite app_assoc. apply Permutation_app_comm.
Qed.

Lemma enqueue_perm q f : Permutation (all_frames (enqueue q f)) (f :: all_frames q).
Proof.
  unfold enqueue. rewrite all_set_perm, (all_perm q (frame_prio f)).
  rewrite <- app_assoc. cbn [app]. symmetry. apply Permutation_middle.
Qed.
Lemma prepend_perm q p f : Permutation (all_frames (merge_prepend q p f)) (f :: all_frames q).
Proof. unfold merge_prepend. rewrite all_set_perm, (all_perm q p). reflexivity. Qed.

Lemma counts_add q q' f : counts_ok q -> Permutation (all_frames q') (f :: all_frames q) ->
  q_size q' = u64 (q_size q + 1) -> q_octets q' = u64 (q_octets q + f_len f) -> counts_ok q'.
Proof.
  intros [A B] P S O. unfold counts_ok. rewrite (Permutation_length P), (sum_len_perm _ _ P), S, O, A, B.
  rewrite !u64_add. cbn [length]. split; f_equal; [lia|]. unfold sum_len; cbn [fold_right]. lia.
Qed.
Lemma enqueue_counts q f : counts_ok q -> counts_ok (enqueue q f).
Proof. intros C. apply (counts_add q _ f C); [apply enqueue_perm| |]; unfold enqueue; destruct (frame_prio f); reflexivity. Qed.
Lemma prepend_counts q p f : counts_ok q -> counts_ok (merge_prepend q p f).
Proof. intros C. apply (counts_add q _ f C); [apply prepend_perm| |]; destruct p; reflexivity. Qed.
Lemma clear_counts q : counts_ok (clear q).
Proof. split; reflexivity. Qed.
Lemma clear_all q : all_frames (clear q) = [].
Proof. reflexivity. Qed.
Lemma init_counts i : counts_ok (llcq_init i).
Proof. split; reflexivity. Qed.

Lemma count_list_val l n o : 0 <= n < 2 ^ 64 -> 0 <= o < 2 ^ 64 ->
  count_list l n o = ((n + Z.of_nat (length l)) mod 2 ^ 64, (o + sum_len l) mod 2 ^ 64).
Proof.
  revert n o. induction l as [|f l IH]; intros n o N O; cbn [count_list length].
  - change (sum_len []) with 0. rewrite !Z.add_0_r, !Z.mod_small by lia. reflexivity.
  - rewrite IH by (apply Z.mod_pos_bound; lia). unfold u64. rewrite !Zplus_mod_idemp_l.
    f_equal; f_equal; [lia|]. unfold sum_len; cbn [fold_right]; lia.
Qed.

(** ** Merging *)
Lemma merge_shuffle a : forall b, shuffle a b (merge_lists a b).
Proof.
  induction a as [|x a IH].
  - intros b. cbn [merge_lists]. induction b; constructor; auto.
  - induction b as [|y b IHb].
    + cbn [merge_lists]. clear. revert x. induction a as [|y a IH]; intros x; constructor; [constructor|apply IH].
    + change (merge_lists (x :: a) (y :: b)) with
        (if f_recv x <? f_recv y then x :: merge_lists a (y :: b) else y :: merge_lists (x :: a) b).
      destruct (f_recv x <? f_recv y); constructor; auto.
Qed.
Lemma shuffle_perm {A} (a b c : list A) : shuffle a b c -> Permutation c (a ++ b).
Proof.
  induction 1; cbn [app]; auto. rewrite IHshuffle. apply Permutation_middle.
Qed.
Lemma shuffle_in {A} (a b c : list A) x : shuffle a b c -> (In x c <-> In x a \/ In x b).
Proof. intros S. pose proof (shuffle_perm a b c S) as P.
  split; intros I.
  - apply (Permutation_in _ P) in I. apply in_app_iff; auto.
  - apply (Permutation_in _ (Permutation_sym P)). apply in_app_iff; auto.
Qed.

From Coq Require Import Sorted.
Definition le_recv (x y : frame) : Prop := f_recv x <= f_recv y.
Lemma oldest_sorted l : oldest_first l <-> StronglySorted le_recv l.
Proof.
  split.
  - induction l as [|x l IH]; intros O; constructor.
    + apply IH. intros a y m z b E. apply (O (x :: a) y m z b). cbn [app]. congruence.
    + apply Forall_forall. intros y I. apply in_split in I as (m & b & ->). apply (O [] x m y b). reflexivity.
  - intros S a x m y b E. subst l. induction a as [|z a IH]; cbn [app] in S; inversion S as [|? ? S1 F]; subst; auto.
    rewrite Forall_forall in F. apply F. apply in_app_iff. right; left; reflexivity.
Qed.
Lemma merge_sorted a : forall b, StronglySorted le_recv a -> StronglySorted le_recv b ->
  StronglySorted le_recv (merge_lists a b).
Proof.
  induction a as [|x a IH]; [auto|].
  induction b as [|y b IHb]; intros SA SB; [exact SA|].
  change (merge_lists (x :: a) (y :: b)) with
    (if f_recv x <? f_recv y then x :: merge_lists a (y :: b) else y :: merge_lists (x :: a) b).
  inversion SA as [|? ? SA1 FA]; subst. inversion SB as [|? ? SB1 FB]; subst.
  rewrite Forall_forall in FA, FB.
  destruct (f_recv x <? f_recv y) eqn:E; constructor; auto; apply Forall_forall; intros z I.
  - apply (shuffle_in _ _ _ z (merge_shuffle a (y :: b))) in I as [I|[<-|I]]; auto; unfold le_recv in *;
      [lia|]. specialize (FB z I). lia.
  - apply (shuffle_in _ _ _ z (merge_shuffle (x :: a) b)) in I as [[<-|I]|I]; auto; unfold le_recv in *;
      [lia|]. specialize (FA z I). lia.
Qed.

Lemma merge_lists_of q o p : ql (fst (move_and_merge q o)) p = merge_lists (ql q p) (ql o p).
Proof. unfold move_and_merge. destruct (count_list _ 0 0). destruct p; reflexivity. Qed.
Lemma merge_other_empty q o p : ql (snd (move_and_merge q o)) p = [].
Proof. unfold move_and_merge. destruct (count_list _ 0 0). destruct p; reflexivity. Qed.
Lemma merge_perm q o : Permutation (all_frames (fst (move_and_merge q o))) (all_frames q ++ all_frames o).
Proof.
  unfold all_frames. rewrite !merge_lists_of.
  rewrite (shuffle_perm _ _ _ (merge_shuffle (ql q PGmm) (ql o PGmm))).
  rewrite (shuffle_perm _ _ _ (merge_shuffle (ql q PSms) (ql o PSms))).
  rewrite (shuffle_perm _ _ _ (merge_shuffle (ql q POther) (ql o POther))).
  generalize (ql q PGmm) (ql o PGmm) (ql q PSms) (ql o PSms) (ql q POther) (ql o POther).
  intros a a' b b' c c'. rewrite <- !app_assoc. apply Permutation_app_head.
  rewrite (Permutation_app_swap_app a' b). apply Permutation_app_head.
  rewrite (Permutation_app_swap_app b' c). apply Permutation_app_swap_app.
Qed.
Lemma merge_counts q o : counts_ok (fst (move_and_merge q o)) /\ counts_ok (snd (move_and_merge q o)).
Proof.
  unfold move_and_merge. rewrite count_list_val by lia. cbn [fst snd]. split; [|split; reflexivity].
  unfold counts_ok, all_frames. cbn [set_cnt set_ql ql q_gmm q_sms q_other q_size q_octets].
  split; reflexivity.
Qed.

(** ** Dequeueing *)
Lemma pick_from_spec q p : pick_from q p = None /\ ql q p = [] \/
  exists f r q1, pick_from q p = Some (f, p, q1) /\ ql q p = f :: r /\ ql q1 p = r /\
    (forall p', p' <> p -> ql q1 p' = ql q p') /\ (counts_ok q -> counts_ok q1) /\
    q_use_codel q1 = q_use_codel q /\ (forall p', qc q1 p' = qc q p') /\
    qlen q = S (qlen q1).
Proof.
  unfold pick_from. destruct (ql q p) as [|f r] eqn:E; [left; auto|right].
  exists f, r. eexists. split; [reflexivity|]. split; [reflexivity|].
  split; [rewrite ql_cnt, ql_set_same; reflexivity|].
  split; [intros p' N; rewrite ql_cnt, ql_set_diff by auto; reflexivity|].
  split; [|split; [destruct p; reflexivity|split; [intros p'; destruct p, p'; reflexivity|]]].
  - intros [A B]. assert (P : Permutation (all_frames q) (f :: all_frames (set_cnt (set_ql q p r) (u64 (q_size q - 1)) (u64 (q_octets q - f_len f))))).
    { rewrite all_set_perm, (all_perm q p), E. reflexivity. }
    unfold counts_ok. revert P. generalize (all_frames (set_cnt (set_ql q p r) (u64 (q_size q - 1)) (u64 (q_octets q - f_len f)))). intros X P. split.
    + transitivity (u64 (q_size q - 1)); [destruct p; reflexivity|]. rewrite A, u64_sub.
      apply Permutation_length in P. cbn [length] in P. f_equal. lia.
    + transitivity (u64 (q_octets q - f_len f)); [destruct p; reflexivity|]. rewrite B, u64_sub.
      apply sum_len_perm in P. f_equal. unfold sum_len in *; cbn [fold_right] in P. lia.
  - unfold qlen. destruct p; cbn [ql] in E; rewrite E; cbn [set_cnt set_ql q_gmm q_sms q_other length]; lia.
Qed.
Lemma pick_spec q : pick q = None /\ (forall p, ql q p = []) \/
  exists f p r q1, pick q = Some (f, p, q1) /\ ql q p = f :: r /\ ql q1 p = r /\
    (forall p', rank p' < rank p -> ql q p' = []) /\
    (forall p', p' <> p -> ql q1 p' = ql q p') /\ (counts_ok q -> counts_ok q1) /\
    q_use_codel q1 = q_use_codel q /\ (forall p', qc q1 p' = qc q p') /\
    qlen q = S (qlen q1).
Proof.
  unfold pick.
  destruct (pick_from_spec q PGmm) as [[E0 L0]|(f & r & q1 & E & A & B & C)].
  2:{ right. rewrite E. exists f, PGmm, r, q1. split; [reflexivity|]. split; [exact A|]. split; [exact B|].
      split; [intros p' R; destruct p'; cbn [rank] in R; lia|exact C]. }
  rewrite E0. destruct (pick_from_spec q PSms) as [[E1 L1]|(f & r & q1 & E & A & B & C)].
  2:{ right. rewrite E. exists f, PSms, r, q1. split; [reflexivity|]. split; [exact A|]. split; [exact B|].
      split; [intros p' R; destruct p'; cbn [rank] in R; try lia; exact L0|exact C]. }
  rewrite E1. destruct (pick_from_spec q POther) as [[E2 L2]|(f & r & q1 & E & A & B & C)].
  - left. split; [exact E2|]. intros p; destruct p; auto.
  - right. rewrite E. exists f, POther, r, q1. split; [reflexivity|]. split; [exact A|]. split; [exact B|].
    split; [intros p' R; destruct p'; cbn [rank] in R; try lia; auto|exact C].
Qed.

Lemma takes_ext l ps l' m m' : takes l ps l' -> (forall p, m p = l p) -> (forall p, l' p = m' p) -> takes m ps m'.
Proof.
  intros T. revert m. induction T as [l l' E|l f p ps l1 l' A B C T IH]; intros m M M'.
  - constructor. intros p. rewrite M, E. auto.
  - apply (tk_cons m f p ps l1 m').
    + rewrite M. exact A.
    + intros p' R. rewrite M. auto.
    + intros p' N. rewrite M. auto.
    + apply IH; auto.
Qed.

(** What a call of the loop does, all in one. *)
Definition out_taken (r : option (frame * prio)) (d : list (frame * prio * reason)) : list (frame * prio) :=
  map fst d ++ match r with Some x => [x] | None => [] end.
Definition drop_ok (now now2 : Z) (before : bool) (x : frame * prio * reason) : Prop :=
  snd x = RLifetime ->
  is_expired now2 (f_exp (fst (fst x))) = true /\
  (is_expired now (f_exp (fst (fst x))) = true \/ before = true /\ can_be_discarded (fst (fst x)) = true).

Lemma deq_loop_spec fuel : forall q now now2 frames, (qlen q <= fuel)%nat ->
  exists q' r d, deq_loop fuel q now now2 frames = Some (q', r, d) /\
    takes (ql q) (out_taken r d) (ql q') /\
    (counts_ok q -> counts_ok q') /\
    q_use_codel q' = q_use_codel q /\
    (r = None -> forall p, ql q' p = []) /\
    (forall f p, r = Some (f, p) ->
       is_expired now2 (f_exp f) = false \/ is_expired now (f_exp f) = false) /\
    (q_use_codel q = false -> Forall (fun x => snd x = RLifetime) d) /\
    (forall a x b, d = a ++ x :: b ->
       drop_ok now now2 (match a with [] => negb (frames =? 0) | _ => true end) x).
Proof.
  induction fuel as [|n IH]; intros q now now2 frames L.
  - destruct (pick_spec q) as [[E A]|(f & p & r & q1 & E & _ & _ & _ & _ & _ & _ & _ & S)]; [|lia].
    cbn [deq_loop]. rewrite E. exists q, None, []. splits; auto.
    + constructor; auto.
    + intros; discriminate.
    + intros a x b X. destruct a; discriminate.
  - destruct (pick_spec q) as [[E A]|(f & p & r & q1 & E & A & B & HI & C & CC & U & QC & S)]; cbn [deq_loop]; rewrite E.
    { exists q, None, []. splits; auto.
      + constructor; auto.
      + intros; discriminate.
      + intros a x b X. destruct a; discriminate. }
    destruct (if q_use_codel q1 then
                let '(d, c') := codel_control (qc q1 p) (f_recv f) now (s32 (q_octets q1)) in (d, set_qc q1 p c')
              else (false, q1)) as [cd q2] eqn:CD.
    assert (Q2 : (forall p', ql q2 p' = ql q1 p') /\ (counts_ok q -> counts_ok q2) /\ q_use_codel q2 = q_use_codel q /\
                 (q_use_codel q = false -> cd = false) /\ qlen q2 = qlen q1).
    { destruct (q_use_codel q1) eqn:UC.
      - destruct (codel_control _ _ _ _) as [d c'] eqn:CE. injection CD as <- <-. splits.
        + intros p'. apply ql_qc.
        + intros K. specialize (CC K). destruct CC as [K1 K2]. unfold counts_ok, all_frames in *. rewrite !ql_qc.
          split; [rewrite <- K1|rewrite <- K2]; destruct p; reflexivity.
        + destruct p; cbn [set_qc q_use_codel]; congruence.
        + congruence.
        + unfold qlen. destruct p; reflexivity.
      - injection CD as <- <-. splits; auto. congruence. }
    destruct Q2 as (QA & QB & QU & QD & QN). clear CD.
    assert (STOP : takes (ql q) [(f, p)] (ql q2)).
    { apply (tk_cons _ f p [] (ql q2) (ql q2)); auto.
      - rewrite QA, B. exact A.
      - intros p' N. rewrite QA. auto.
      - constructor; auto. }
    (* dropping this frame *)
    assert (DROP : forall rs, (rs = RCodel -> q_use_codel q = true) ->
        drop_ok now now2 (negb (frames =? 0)) (f, p, rs) ->
        exists q' r' d, match deq_loop n q2 now now2 (u32 (frames + 1)) with
                        | None => None | Some (q3, res, l) => Some (q3, res, (f, p, rs) :: l) end = Some (q', r', d) /\
          takes (ql q) (out_taken r' d) (ql q') /\ (counts_ok q -> counts_ok q') /\
          q_use_codel q' = q_use_codel q /\
          (r' = None -> forall p, ql q' p = []) /\
          (forall f p, r' = Some (f, p) -> is_expired now2 (f_exp f) = false \/ is_expired now (f_exp f) = false) /\
          (q_use_codel q = false -> Forall (fun x => snd x = RLifetime) d) /\
          (forall a x b, d = a ++ x :: b -> drop_ok now now2 (match a with [] => negb (frames =? 0) | _ => true end) x)).
    { intros rs RC OK. destruct (IH q2 now now2 (u32 (frames + 1)) ltac:(lia))
        as (q' & r' & d & X1 & X2 & X3 & X4 & X5 & X6 & X7 & X8).
      rewrite X1. exists q', r', ((f, p, rs) :: d). splits; auto.
      - unfold out_taken. cbn [map fst app]. apply (tk_cons _ f p _ (ql q2) (ql q')); auto.
        + rewrite QA, B. exact A.
        + intros p' N. rewrite QA. auto.
      - congruence.
      - intros F. constructor; [|apply X7; congruence]. cbn [snd]. destruct rs; auto.
        rewrite (RC eq_refl) in F. discriminate.
      - intros a x b E1. destruct a as [|y a]; cbn [app] in E1.
        + injection E1 as <- <-. exact OK.
        + injection E1 as <- ->. specialize (X8 a x b eq_refl). destruct a; [|exact X8].
          unfold drop_ok in *. intros RL. destruct (X8 RL) as [Y1 [Y2|[Y2 Y3]]]; auto. }
    assert (KEEP : is_expired now2 (f_exp f) = false \/ is_expired now (f_exp f) = false ->
      exists q' r' d, Some (q2, Some (f, p), []) = Some (q', r', d) /\
          takes (ql q) (out_taken r' d) (ql q') /\ (counts_ok q -> counts_ok q') /\
          q_use_codel q' = q_use_codel q /\
          (r' = None -> forall p, ql q' p = []) /\
          (forall f p, r' = Some (f, p) -> is_expired now2 (f_exp f) = false \/ is_expired now (f_exp f) = false) /\
          (q_use_codel q = false -> Forall (fun x : frame * prio * reason => snd x = RLifetime) d) /\
          (forall a (x : frame * prio * reason) b, d = a ++ x :: b -> drop_ok now now2 (match a with [] => negb (frames =? 0) | _ => true end) x)).
    { intros NE. exists q2, (Some (f, p)), []. splits; auto.
      - discriminate.
      - intros f' p' [= <- <-]. exact NE.
      - intros a x b X. destruct a; discriminate. }
    destruct cd.
    { apply DROP; [|intros X; discriminate].
      intros _. destruct (q_use_codel q); [reflexivity|]. discriminate (QD eq_refl). }
    destruct (is_expired now2 (f_exp f)) eqn:E2; cbn [negb]; [|apply KEEP; auto].
    destruct (is_expired now (f_exp f)) eqn:E1; cbn [negb].
    + apply DROP; [discriminate|]. intros _. cbn [fst]. auto.
    + destruct (frames =? 0) eqn:F0; [apply KEEP; auto|].
      destruct (can_be_discarded f) eqn:CB; cbn [negb]; [|apply KEEP; auto].
      apply DROP; [discriminate|]. intros _. cbn [fst]. split; [exact E2|right; auto].
Qed.

Lemma dequeue_spec q now hyst : 0 <= hyst ->
  exists q' r d, dequeue q now hyst = Some (q', r, d) /\
    takes (ql q) (out_taken r d) (ql q') /\
    (counts_ok q -> counts_ok q') /\ q_use_codel q' = q_use_codel q /\
    (r = None -> forall p, ql q' p = []) /\
    (forall f p, r = Some (f, p) -> is_expired now (f_exp f) = false) /\
    (q_use_codel q = false -> Forall (fun x => snd x = RLifetime) d) /\
    (forall a x b, d = a ++ x :: b -> drop_ok now (now + hyst * 10000000) (match a with [] => false | _ => true end) x).
Proof.
  intros Hy. destruct (deq_loop_spec (qlen q) q now (now + hyst * 10000000) 0 (le_n _))
    as (q' & r & d & A & B & C & U & D & E & F & G).
  exists q', r, d. splits; auto. intros f p R. destruct (E f p R) as [X|X]; auto.
  unfold is_expired in *. destruct (f_exp f =? 0); [reflexivity|]. apply Z.ltb_ge in X. apply Z.ltb_ge. lia.
Qed.

Lemma takes_all l ps l' : takes l ps l' ->
  l PGmm ++ l PSms ++ l POther = map fst ps ++ l' PGmm ++ l' PSms ++ l' POther.
Proof.
  induction 1 as [l l' E|l f p ps l1 l' A B C T IH].
  - rewrite !E. reflexivity.
  - cbn [map fst app]. rewrite <- IH. destruct p.
    + rewrite A, (C PSms), (C POther) by discriminate. reflexivity.
    + rewrite (B PGmm) by (cbn; lia). rewrite (C PGmm), (B PGmm) by (discriminate || (cbn; lia)).
      rewrite A, (C POther) by discriminate. reflexivity.
    + rewrite (B PGmm), (B PSms) by (cbn; lia). rewrite (C PGmm), (C PSms), (B PGmm), (B PSms) by (discriminate || (cbn; lia)).
      rewrite A. reflexivity.
Qed.

(** ** Histories *)
Definition hist_ok (st : llcq * qlog) : Prop :=
  counts_ok (fst st) /\ Permutation (lg_in (snd st)) (all_frames (fst st) ++ lg_out (snd st)).
Lemma q_step_ok st op : hist_ok st -> qop_ok op -> exists st', q_step st op = Some st' /\ hist_ok st'.
Proof.
  destruct st as [q g]. intros [C P] O. cbn [fst snd] in *. destruct op as [f|now hyst|p f|o|]; cbn [q_step].
  - eexists; split; [reflexivity|]. split; cbn [fst snd lg_in lg_out]; [apply enqueue_counts; auto|].
    rewrite enqueue_perm, P. rewrite Permutation_app_comm. reflexivity.
  - destruct (dequeue_spec q now hyst O) as (q' & r & d & A & B & CC & _). rewrite A.
    eexists; split; [reflexivity|]. split; cbn [fst snd lg_in lg_out]; [auto|].
    rewrite P. apply takes_all in B. fold (all_frames q) in B. fold (all_frames q') in B. rewrite B.
    unfold out_taken. rewrite map_app, map_map.
    replace (map fst match r with Some x => [x] | None => [] end) with (opt_frame r) by (destruct r as [[? ?]|]; reflexivity).
    generalize (map (fun x : frame * prio * reason => fst (fst x)) d ++ opt_frame r) as t. intros t.
    rewrite <- app_assoc. rewrite (Permutation_app_comm t). rewrite <- app_assoc. reflexivity.
  - eexists; split; [reflexivity|]. split; cbn [fst snd lg_in lg_out]; [apply prepend_counts; auto|].
    rewrite prepend_perm, P. rewrite Permutation_app_comm. reflexivity.
  - eexists; split; [reflexivity|]. split; cbn [fst snd lg_in lg_out]; [apply merge_counts|].
    rewrite merge_perm, P. rewrite <- !app_assoc. apply Permutation_app_head, Permutation_app_comm.
  - eexists; split; [reflexivity|]. split; cbn [fst snd lg_in lg_out]; [apply clear_counts|].
    rewrite clear_all. cbn [app]. rewrite P. apply Permutation_app_comm.
Qed.
Lemma q_run_ok ops : forall st, hist_ok st -> Forall qop_ok ops -> exists st', q_run st ops = Some st' /\ hist_ok st'.
Proof.
  induction ops as [|op r IH]; intros st K F; cbn [q_run]; [eauto|]. inversion F; subst.
  destruct (q_step_ok st op K) as (st' & E & K'); auto. rewrite E. auto.
Qed.
Lemma history i ops : Forall qop_ok ops -> exists q g, q_run (llcq_init i, mk_log [] []) ops = Some (q, g) /\
  counts_ok q /\ Permutation (lg_in g) (all_frames q ++ lg_out g).
Proof.
  intros F. destruct (q_run_ok ops (llcq_init i, mk_log [] [])) as ([q g] & E & K); auto.
  - split; [apply init_counts|]. cbn. constructor.
  - exists q, g. split; [exact E|exact K].
Qed.

Lemma enqueue_lists q f p : ql (enqueue q f) p = if rank p =? rank (frame_prio f) then ql q p ++ [f] else ql q p.
Proof.
  unfold enqueue. rewrite ql_cnt. destruct (prio_dec p (frame_prio f)) as [->|N].
  - rewrite ql_set_same, Z.eqb_refl. reflexivity.
  - rewrite ql_set_diff by auto. destruct p, (frame_prio f); try reflexivity; congruence.
Qed.
Lemma prepend_lists q p0 f p : ql (merge_prepend q p0 f) p = if rank p =? rank p0 then f :: ql q p else ql q p.
Proof.
  unfold merge_prepend. rewrite ql_cnt. destruct (prio_dec p p0) as [->|N].
  - rewrite ql_set_same, Z.eqb_refl. reflexivity.
  - rewrite ql_set_diff by auto. destruct p, p0; try reflexivity; congruence.
Qed.

(** ** Giving frames back *)
Lemma shuffle_app {A} (a b c a' b' c' : list A) : shuffle a b c -> shuffle a' b' c' -> shuffle (a ++ a') (b ++ b') (c ++ c').
Proof. induction 1; intros; cbn [app]; try constructor; auto. Qed.
Lemma shuffle_left {A} (l : list A) : shuffle l [] l.
Proof. induction l; constructor; auto. Qed.
Lemma shuffle_right {A} (l : list A) : shuffle [] l l.
Proof. induction l; constructor; auto. Qed.

Lemma of_prio_app p a b : of_prio p (a ++ b) = of_prio p a ++ of_prio p b.
Proof. unfold of_prio. rewrite filter_app, map_app. reflexivity. Qed.
Lemma of_prio_cons p f p0 l : of_prio p ((f, p0) :: l) = if rank p0 =? rank p then f :: of_prio p l else of_prio p l.
Proof. unfold of_prio. cbn [filter snd]. destruct (rank p0 =? rank p); reflexivity. Qed.
Lemma takes_prio l ps l' : takes l ps l' -> forall p, l p = of_prio p ps ++ l' p.
Proof.
  induction 1 as [l l' E|l f p ps l1 l' A B C T IH]; intros p0.
  - cbn. apply E.
  - rewrite of_prio_cons. destruct (prio_dec p0 p) as [->|N].
    + rewrite Z.eqb_refl, A. cbn [app]. rewrite IH. reflexivity.
    + assert (X : (rank p =? rank p0) = false) by (destruct p, p0; try reflexivity; congruence).
      rewrite X. rewrite <- IH. symmetry. auto.
Qed.

Definition held (h : holder) : list (frame * prio) :=
  rev (h_sent h) ++ match h_cur h with Some x => [x] | None => [] end.

Lemma copy_back_lists h q p : ql (copy_back h q) p = of_prio p (held h) ++ ql q p.
Proof.
  unfold copy_back, held. rewrite of_prio_app, <- app_assoc.
  set (q1 := match h_cur h with Some (f, p0) => merge_prepend q p0 f | None => q end).
  assert (E : ql q1 p = of_prio p match h_cur h with Some x => [x] | None => [] end ++ ql q p).
  { unfold q1. destruct (h_cur h) as [[f p0]|]; [|reflexivity]. rewrite prepend_lists, of_prio_cons, (Z.eqb_sym (rank p)).
    destruct (rank p0 =? rank p); reflexivity. }
  rewrite <- E. clear E. generalize q1. induction (h_sent h) as [|[f p0] l IH]; intros q2; cbn [fold_left rev]; [reflexivity|].
  rewrite IH. cbn [fst snd]. rewrite prepend_lists, of_prio_app, <- app_assoc, of_prio_cons, (Z.eqb_sym (rank p)).
  destruct (rank p0 =? rank p); reflexivity.
Qed.
Lemma copy_back_counts h q : counts_ok q -> counts_ok (copy_back h q).
Proof.
  intros C. unfold copy_back.
  assert (C1 : counts_ok match h_cur h with Some (f, p) => merge_prepend q p f | None => q end)
    by (destruct (h_cur h) as [[f p]|]; [apply prepend_counts|]; auto).
  revert C1. generalize (match h_cur h with Some (f, p) => merge_prepend q p f | None => q end).
  induction (h_sent h) as [|x l IH]; intros q1 C1; cbn [fold_left]; auto. apply IH, prepend_counts, C1.
Qed.

(** Per priority: what the queue had and got = a part gone through, which interleaves
    drops and held frames, then what is still queued. *)
Definition hs_ok (q0 : llcq) (s : hstate) : Prop :=
  (forall p, exists P, ql q0 p ++ enq_of p (hs_enq s) = P ++ ql (hs_q s) p /\
     shuffle (of_prio p (hs_drops s)) (of_prio p (held (hs_h s))) P) /\
  (forall p f, In f (ql (hs_q s) p) -> 0 < f_len f).

Lemma h_step_ok q0 s op : hs_ok q0 s -> hop_ok op -> exists s', h_step s op = Some s' /\ hs_ok q0 s'.
Proof.
  intros [K L] O. destruct op as [f|now hyst|]; cbn [h_step hop_ok] in *.
  - eexists; split; [reflexivity|]. split; cbn [hs_q hs_h hs_drops hs_enq].
    + intros p. destruct (K p) as (P & E & S). exists P. split; [|exact S].
      unfold enq_of. rewrite filter_app, app_assoc. fold (enq_of p (hs_enq s)). rewrite E, enqueue_lists.
      cbn [filter]. rewrite (Z.eqb_sym (rank p)). destruct (rank (frame_prio f) =? rank p).
      * rewrite app_assoc. reflexivity.
      * rewrite app_nil_r. reflexivity.
    + intros p g. rewrite enqueue_lists. destruct (_ =? _); [|apply L].
      rewrite in_app_iff. intros [I|[<-|[]]]; [apply (L p); auto|exact O].
  - unfold schedule_next. destruct (h_cur (hs_h s)) as [x|] eqn:HC.
    + eexists; split; [reflexivity|]. destruct s as [h q dr en]. cbn [hs_q hs_h hs_drops hs_enq map] in *.
      rewrite app_nil_r. split; auto.
    + destruct (dequeue_spec (hs_q s) now hyst O) as (q' & r & d & A & B & _). rewrite A.
      assert (LR : forall f p0, r = Some (f, p0) -> 0 < f_len f).
      { intros f p0 ->. apply (L p0). pose proof (takes_prio _ _ _ B p0) as TP0. rewrite TP0. apply in_app_iff. left.
        unfold out_taken. rewrite of_prio_app. apply in_app_iff. right.
        rewrite of_prio_cons, Z.eqb_refl. left; reflexivity. }
      assert (M : forall h1, h_sent h1 = h_sent (hs_h s) -> h_cur h1 = r ->
                  hs_ok q0 (mk_hs h1 q' (hs_drops s ++ map fst d) (hs_enq s))).
      { intros h1 HS HR. split; cbn [hs_q hs_h hs_drops hs_enq].
        - intros p. destruct (K p) as (P & E & S). pose proof (takes_prio _ _ _ B p) as TP.
          exists (P ++ of_prio p (out_taken r d)). split; [rewrite E, TP, app_assoc; reflexivity|].
          unfold out_taken, held in *. rewrite HC, app_nil_r in S. rewrite HS, HR, !of_prio_app.
          apply shuffle_app; [exact S|].
          rewrite <- (app_nil_r (of_prio p (map fst d))) at 1. rewrite <- (app_nil_l (of_prio p match r with Some x => [x] | None => [] end)) at 1.
          apply shuffle_app; [apply shuffle_left|apply shuffle_right].
        - intros p g I. apply (L p). rewrite (takes_prio _ _ _ B p). apply in_app_iff. auto. }
      destruct r as [[f p0]|].
      * specialize (LR f p0 eq_refl). 
        replace (f_len f =? 0) with false by lia.
        eexists; split; [reflexivity|]. apply M; reflexivity.
      * eexists; split; [reflexivity|]. apply M; auto.
  - eexists; split; [reflexivity|]. split; cbn [hs_q hs_h hs_drops hs_enq]; [|exact L].
    intros p. destruct (K p) as (P & E & S). exists P. split; [exact E|].
    unfold complete_frame, held in *. destruct (h_cur (hs_h s)) as [x|] eqn:HC; cbn [h_sent h_cur rev].
    + rewrite app_nil_r. exact S.
    + rewrite HC. exact S.
Qed.
Lemma h_run_ok q0 ops : forall s, hs_ok q0 s -> Forall hop_ok ops -> exists s', h_run s ops = Some s' /\ hs_ok q0 s'.
Proof.
  induction ops as [|op r IH]; intros s K F; cbn [h_run]; [eauto|]. inversion F; subst.
  destruct (h_step_ok q0 s op K) as (s' & E & K'); auto. rewrite E. auto.
Qed.
Lemma give_back q0 ops : (forall p f, In f (ql q0 p) -> 0 < f_len f) -> Forall hop_ok ops ->
  exists s, h_run (mk_hs (mk_h None []) q0 [] []) ops = Some s /\
    forall p, shuffle (of_prio p (hs_drops s)) (ql (copy_back (hs_h s) (hs_q s)) p) (ql q0 p ++ enq_of p (hs_enq s)).
Proof.
  intros L F. destruct (h_run_ok q0 ops (mk_hs (mk_h None []) q0 [] [])) as (s & E & K & _); auto.
  - split; [|exact L]. intros p. exists []. split; [cbn; rewrite app_nil_r; reflexivity|constructor].
  - exists s. split; [exact E|]. intros p. destruct (K p) as (P & E1 & S). rewrite E1, copy_back_lists.
    rewrite <- (app_nil_r (of_prio p (hs_drops s))). apply shuffle_app; [exact S|apply shuffle_right].
Qed.
