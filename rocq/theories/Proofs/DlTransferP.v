(** What one more block takes from the queue, and what the mobile makes of the first blocks. *)
From Coq Require Import ZArith List Bool Lia.
From Verif Require Import Base.Arith Model.Segment Model.DlTransfer Spec.SegSpec Proofs.SegP.
Import ListNotations.
Local Open Scope nat_scope.

(** ** The receiver only adds frames *)
Lemma gprs_grows lis : forall d r, exists l, fst (rx_gprs lis d r) = fst r ++ l.
Proof.
  induction lis as [|x lis IH]; intros d r; cbn [rx_gprs]; [exists []; symmetry; apply app_nil_r|].
  destruct (Nat.eqb (gprs_li x) 0); [exists []; symmetry; apply app_nil_r|].
  destruct (gprs_m x); cbn [negb]; [|exists [snd r ++ firstn (gprs_li x) d]; reflexivity].
  destruct (ext_e x); [exists [snd r ++ firstn (gprs_li x) d]; reflexivity|].
  destruct (IH (skipn (gprs_li x) d) (finish (more r (firstn (gprs_li x) d)))) as [l E]. rewrite E.
  exists ([snd r ++ firstn (gprs_li x) d] ++ l). cbn [finish more fst snd]. now rewrite app_assoc.
Qed.
Lemma egprs_grows lis : forall d r, exists l, fst (rx_egprs lis d r) = fst r ++ l.
Proof.
  induction lis as [|x lis IH]; intros d r; cbn [rx_egprs]; [exists []; symmetry; apply app_nil_r|].
  destruct (Nat.eqb (egprs_li x) 127); [exists []; symmetry; apply app_nil_r|].
  destruct (ext_e x); [exists [snd r ++ firstn (egprs_li x) d]; reflexivity|].
  destruct (IH (skipn (egprs_li x) d) (finish (more r (firstn (egprs_li x) d)))) as [l E]. rewrite E.
  exists ([snd r ++ firstn (egprs_li x) d] ++ l). cbn [finish more fst snd]. now rewrite app_assoc.
Qed.
Lemma end_grows fbi r : exists l, fst (rx_end fbi r) = fst r ++ l.
Proof.
  unfold rx_end. destruct fbi; [|exists []; symmetry; apply app_nil_r]. destruct (snd r) eqn:E; [exists []; symmetry; apply app_nil_r|].
  exists [snd r]. cbn [finish fst]. reflexivity.
Qed.
Lemma block_grows edge b r r' : rx_block edge b r = Some r' -> exists l, fst r' = fst r ++ l.
Proof.
  unfold rx_block. destruct (sb_e b).
  - intros E. injection E as <-. destruct (end_grows (sb_fbi b) (more r (sb_oct b))) as [l E]. exists l. exact E.
  - destruct (split_ext (sb_oct b)) as [[lis d]|]; [|discriminate]. intros E. injection E as <-.
    destruct (end_grows (sb_fbi b) ((if edge then rx_egprs else rx_gprs) lis d r)) as [l E]. rewrite E.
    assert (X : exists l0, fst ((if edge then rx_egprs else rx_gprs) lis d r) = fst r ++ l0).
    { destruct edge; [apply egprs_grows|apply gprs_grows]. }
    destruct X as [l0 X]. exists (l0 ++ l). rewrite X, app_assoc. reflexivity.
Qed.
Lemma rx_app edge a : forall b r, rx_run edge (a ++ b) r = match rx_run edge a r with Some r' => rx_run edge b r' | None => None end.
Proof. induction a as [|x a IH]; intros b r; cbn [app rx_run]; [reflexivity|]. destruct (rx_block edge x r); [apply IH|reflexivity]. Qed.
Lemma run_grows edge a : forall r r', rx_run edge a r = Some r' -> exists l, fst r' = fst r ++ l.
Proof.
  induction a as [|x a IH]; intros r r' E; cbn [rx_run] in E; [injection E as <-; exists []; symmetry; apply app_nil_r|].
  destruct (rx_block edge x r) as [r1|] eqn:B; [|discriminate]. destruct (block_grows _ _ _ _ B) as [l1 E1]. destruct (IH _ _ E) as [l2 E2].
  exists (l1 ++ l2). rewrite E2, E1, app_assoc. reflexivity.
Qed.

(** ** One append *)
Lemma append_shape edge len b l fin r b' l' : append edge len b l fin = (r, b', l') ->
  l_frame l' = l_frame l /\
  match r with
  | AR_NEED_MORE_BLOCKS => b_fbi b' = b_fbi b /\ l_idx l <= l_idx l' /\
      (2 <= len - b_off b -> l_idx l < l_idx l') /\ len - b_off b <= chunk_size l
  | AR_COMPLETED_SPACE_LEFT => b_fbi b' = b_fbi b /\ fin = false /\ b_nch b' = S (b_nch b)
  | AR_COMPLETED_BLOCK_FILLED => b_fbi b' = fin || b_fbi b
  end.
Proof.
  intros E.
  assert (ST : forall x y : nat, (x <? y) = true -> x < y) by (intros x y; apply Nat.ltb_lt).
  destruct edge; cbn [append] in E; unfold append_egprs, append_gprs in E; cbv zeta in E;
    (destruct (len - b_off b <? chunk_size l) eqn:A; [|destruct ((chunk_size l =? len - b_off b) && fin)%bool eqn:B; [|destruct (chunk_size l =? len - b_off b) eqn:C]]);
    unfold consume in E; cbv beta iota zeta in E.
  - injection E as <- <- <-. cbn. apply Nat.ltb_lt in A. repeat split; lia.
  - injection E as <- <- <-. cbn. apply andb_true_iff in B. destruct B as [_ ->]. repeat split.
  - injection E as <- <- <-. cbn. apply Nat.eqb_eq in C. repeat split; lia.
  - destruct fin; cbn [negb] in E.
    + destruct (0 <? len - b_off b - 1 - chunk_size l); injection E as <- <- <-; cbn; repeat split.
    + destruct (0 <? len - b_off b - 1 - chunk_size l); injection E as <- <- <-; cbn; repeat split.
  - injection E as <- <- <-. cbn. apply Nat.ltb_lt in A. repeat split; lia.
  - injection E as <- <- <-. cbn. apply andb_true_iff in B. destruct B as [_ ->]. repeat split.
  - injection E as <- <- <-. cbn. apply Nat.eqb_eq in C. repeat split; lia.
  - destruct fin; cbn [negb] in E; destruct (0 <? len - b_off b - 1 - chunk_size l); injection E as <- <- <-; cbn; repeat split.
Qed.

Definition wl (l : llc) : nat := match l_frame l with [] => 0 | _ => S (chunk_size l) end.
Definition wq (q : list (list Z)) : nat := fold_right (fun f n => S (length f) + n) 0 q.
(** How much is still to be sent. *)
Definition work (s : sender) : nat := wl (s_llc s) + wq (s_queue s).
Lemma wq_app a b : wq (a ++ b) = wq a + wq b.
Proof. induction a as [|f a IH]; cbn [wq fold_right app] in *; [reflexivity|]. fold (wq (a ++ b)). fold (wq a). lia. Qed.
Lemma next_work s : work (next_frame s) <= work s.
Proof.
  unfold next_frame. destruct (l_frame (s_llc s)) eqn:F; [|lia]. destruct (s_queue s) as [|f q] eqn:Q; [lia|].
  unfold work. rewrite Q. cbn [s_llc s_queue wq fold_right]. fold (wq q). unfold wl at 1. cbn [l_frame].
  unfold chunk_size. cbn [l_frame l_idx]. destruct f; cbn [length]; lia.
Qed.

(** The dummy frames are marked, and nothing else. *)
Definition dmy (s : sender) : Prop :=
  Forall (fun t => snd t = true -> exists n, fst t = dummy_frame n) (s_done s) /\
  (s_dummy s = true -> exists n, l_frame (s_llc s) = dummy_frame n).
Lemma next_dmy s : dmy s -> dmy (next_frame s).
Proof.
  intros [A B]. unfold next_frame. destruct (l_frame (s_llc s)) eqn:F; [|split; [exact A|rewrite F; exact B]].
  destruct (s_queue s); [split; [exact A|rewrite F; exact B]|]. split; cbn [s_done s_dummy]; [exact A|discriminate].
Qed.
Definition completed (s : sender) (f : list Z) : sender :=
  next_frame (mk_snd no_llc false (s_queue s) (s_done s ++ [(f, s_dummy s)])).
Lemma completed_dmy s : dmy s -> dmy (completed s (l_frame (s_llc s))).
Proof.
  intros [A B]. apply next_dmy. split; cbn [s_done s_dummy]; [|discriminate]. apply Forall_app. split; [exact A|].
  constructor; [exact B|constructor].
Qed.
Lemma completed_queue s f : length (s_queue (completed s f)) = length (s_queue s) - 1 /\ l_frame (s_llc (completed s f)) = hd [] (s_queue s).
Proof. unfold completed, next_frame. cbn [s_llc no_llc l_frame s_queue]. destruct (s_queue s); cbn; split; try reflexivity; lia. Qed.
Lemma completed_work s f : work (completed s f) <= wq (s_queue s).
Proof. eapply Nat.le_trans; [apply next_work|]. unfold work, wl. cbn [s_llc no_llc l_frame s_queue]. lia. Qed.

Definition dummied (len off : nat) (s : sender) : sender :=
  mk_snd (mk_llc (dummy_frame (len - off - 1)) 0) true (s_queue s) (s_done s).

(** One round of the loop, as an equation. *)
Definition round (fuel : nat) (edge : bool) (len : nat) (fin : nat -> bool) (b : blk) (s : sender) : option (blk * sender) :=
  let '(r, b', l') := append edge len b (s_llc s) (fin (b_nch b)) in
  match r with
  | AR_NEED_MORE_BLOCKS => Some (b', mk_snd l' (s_dummy s) (s_queue s) (s_done s))
  | AR_COMPLETED_SPACE_LEFT => fill fuel edge len fin b' (completed s (l_frame l'))
  | AR_COMPLETED_BLOCK_FILLED => Some (b', completed s (l_frame l'))
  end.
Lemma fill_eq fuel edge len fin b s : fill (S fuel) edge len fin b s =
  match l_frame (s_llc s) with
  | [] =>
    match b_nch b with
    | O => round fuel edge len fin b (dummied len (b_off b) s)
    | S _ =>
      let b1 := if fin (b_nch b) then mk_blk (b_oct b) (b_off b) (b_nch b) (b_e b) true else b in
      Some (if edge then li_padding len b1 else b1, s)
    end
  | _ => round fuel edge len fin b s
  end.
Proof. cbn [fill]. unfold round, completed, dummied. destruct (l_frame (s_llc s)); [destruct (b_nch b) as [|n] eqn:E|]; try reflexivity; cbn; repeat (destruct (append _ _ _ _ _) as [[[] ?] ?]; try reflexivity). Qed.

(** ** Filling a block *)
Lemma round_dmy fuel edge len fin : (forall b s b' s', fill fuel edge len fin b s = Some (b', s') -> dmy s -> dmy s') ->
  forall b s b' s', round fuel edge len fin b s = Some (b', s') -> dmy s -> dmy s'.
Proof.
  intros IH b s b' s' E D. unfold round in E. destruct (append edge len b (s_llc s) (fin (b_nch b))) as [[r b1] l1] eqn:A.
  apply append_shape in A. destruct A as [F _]. destruct r.
  - injection E as <- <-. destruct D as [D1 D2]. split; cbn [s_done s_dummy s_llc]; [exact D1|]. rewrite F. exact D2.
  - eapply IH; [exact E|]. rewrite F. apply completed_dmy, D.
  - injection E as <- <-. rewrite F. apply completed_dmy, D.
Qed.
Lemma fill_dmy fuel edge len fin : forall b s b' s', fill fuel edge len fin b s = Some (b', s') -> dmy s -> dmy s'.
Proof.
  induction fuel as [|fuel IH]; intros b s b' s' E D; [discriminate|]. rewrite fill_eq in E.
  destruct (l_frame (s_llc s)) eqn:F; [destruct (b_nch b)|].
  - eapply round_dmy; [exact IH|exact E|]. split; [apply D|]. intros _. eexists. reflexivity.
  - cbv zeta in E. injection E as <- <-. exact D.
  - eapply round_dmy; [exact IH|exact E|exact D].
Qed.

(** The final block indicator: nothing is left. *)
Lemma round_fbi fuel edge len fin n : (forall k, fin k = true -> n - k = 0) ->
  (forall b s b' s', fill fuel edge len fin b s = Some (b', s') -> b_fbi b = false -> length (s_queue s) = n - b_nch b ->
     b_fbi b' = true -> l_frame (s_llc s') = [] /\ s_queue s' = []) ->
  forall b s b' s', round fuel edge len fin b s = Some (b', s') -> b_fbi b = false -> length (s_queue s) = n - b_nch b ->
     b_fbi b' = true -> l_frame (s_llc s') = [] /\ s_queue s' = [].
Proof.
  intros FN IH b s b' s' E B Q B'. unfold round in E. destruct (append edge len b (s_llc s) (fin (b_nch b))) as [[r b1] l1] eqn:A.
  apply append_shape in A. destruct A as [F A]. destruct r.
  - injection E as <- <-. destruct A as [A _]. congruence.
  - destruct A as (A1 & A2 & A3). eapply IH; [exact E|congruence| |exact B']. destruct (completed_queue s (l_frame l1)) as [-> _]. lia.
  - injection E as <- <-. rewrite B, orb_false_r in A. rewrite A in B'. apply FN in B'. assert (s_queue s = []) as QE.
    { destruct (s_queue s); [reflexivity|cbn [length] in Q; lia]. }
    destruct (completed_queue s (l_frame l1)) as [C1 C2]. rewrite QE in C1, C2. split; [exact C2|].
    destruct (s_queue (completed s (l_frame l1))); [reflexivity|discriminate].
Qed.
Lemma fill_fbi fuel edge len fin n : (forall k, fin k = true -> n - k = 0) ->
  forall b s b' s', fill fuel edge len fin b s = Some (b', s') -> b_fbi b = false -> length (s_queue s) = n - b_nch b ->
     b_fbi b' = true -> l_frame (s_llc s') = [] /\ s_queue s' = [].
Proof.
  intros FN. induction fuel as [|fuel IH]; intros b s b' s' E B Q B'; [discriminate|]. rewrite fill_eq in E.
  destruct (l_frame (s_llc s)) eqn:F; [destruct (b_nch b) as [|k] eqn:N|].
  - eapply (round_fbi fuel edge len fin n FN IH); [exact E|exact B| |exact B']. cbn [dummied s_queue]. rewrite N. exact Q.
  - cbv zeta in E. injection E as <- <-. split; [exact F|]. assert (FT : fin (S k) = true).
    { destruct (fin (S k)); [reflexivity|]. destruct edge; cbn [li_padding b_fbi] in B'; congruence. }
    apply FN in FT. destruct (s_queue s); [reflexivity|cbn [length] in Q; lia].
  - eapply (round_fbi fuel edge len fin n FN IH); eassumption.
Qed.

(** Work done. *)
Lemma fill_work fuel edge len fin : forall b s b' s', fill fuel edge len fin b s = Some (b', s') -> b_nch b <> 0 -> work s' <= work s.
Proof.
  induction fuel as [|fuel IH]; intros b s b' s' E N; [discriminate|]. rewrite fill_eq in E.
  destruct (l_frame (s_llc s)) as [|z fz] eqn:F; [destruct (b_nch b) as [|k] eqn:NB; [congruence|]|].
  - cbv zeta in E. injection E as <- <-. lia.
  - unfold round in E. destruct (append edge len b (s_llc s) (fin (b_nch b))) as [[r b1] l1] eqn:A.
    apply append_shape in A. destruct A as [F1 A]. destruct r.
    + injection E as <- <-. unfold work, wl, chunk_size. cbn [s_llc s_queue]. rewrite F1, F. destruct A as (_ & A & _). lia.
    + destruct A as (_ & _ & A). apply IH in E; [|lia]. pose proof (completed_work s (l_frame l1)). unfold work at 2. lia.
    + injection E as <- <-. pose proof (completed_work s (l_frame l1)). unfold work at 2. lia.
Qed.
Lemma fill_first fuel edge len fin b s b' s' : fill fuel edge len fin b s = Some (b', s') -> b_nch b = 0 -> b_off b = 0 -> 8 <= len ->
  (l_frame (s_llc s) = [] -> fin 0 = true) -> l_idx (s_llc s) <= length (l_frame (s_llc s)) ->
  b_fbi b' = true \/ work s' < work s.
Proof.
  intros E N O L FI I. destruct fuel as [|fuel]; [discriminate|]. rewrite fill_eq, N, O in E.
  destruct (l_frame (s_llc s)) as [|z fz] eqn:F.
  - left. specialize (FI eq_refl). unfold round in E. cbn [dummied s_llc] in E. rewrite N, FI in E.
    destruct (append edge len b _ true) as [[r b1] l1] eqn:A. apply append_shape in A. destruct A as [_ A]. destruct r.
    + destruct A as (_ & _ & _ & A). unfold chunk_size, dummy_frame in A. rewrite O in A. cbn [l_frame l_idx] in A.
      rewrite app_length, repeat_length in A. cbn [length] in A. lia.
    + destruct A as (_ & A & _). discriminate.
    + injection E as <- <-. exact A.
  - right. unfold round in E. destruct (append edge len b (s_llc s) (fin (b_nch b))) as [[r b1] l1] eqn:A.
    apply append_shape in A. destruct A as [F1 A]. assert (WS : work s = S (chunk_size (s_llc s)) + wq (s_queue s)) by (unfold work, wl; now rewrite F).
    destruct r.
    + injection E as <- <-. rewrite WS. unfold work, wl, chunk_size. cbn [s_llc s_queue]. rewrite F1, F. destruct A as (_ & _ & A & A2).
      specialize (A ltac:(lia)). unfold chunk_size in *. rewrite F in A2. lia.
    + destruct A as (_ & _ & A). apply fill_work in E; [|lia]. pose proof (completed_work s (l_frame l1)). lia.
    + injection E as <- <-. pose proof (completed_work s (l_frame l1)). lia.
Qed.

(** ** A new block *)
Lemma create_dmy edge len fin s sb s' : create_block edge len fin s = Some (sb, s') -> dmy s -> dmy s'.
Proof.
  unfold create_block. destruct (fill _ _ _ _ _ _) as [[b s1]|] eqn:E; [|discriminate]. intros X D. injection X as <- <-.
  eapply fill_dmy; [exact E|]. apply next_dmy, D.
Qed.
Lemma create_fbi edge len keep s sb s' : create_block edge len (is_final keep s) s = Some (sb, s') -> sb_fbi sb = true ->
  l_frame (s_llc s') = [] /\ s_queue s' = [].
Proof.
  unfold create_block. destruct (fill _ _ _ _ _ _) as [[b s1]|] eqn:E; [|discriminate]. intros X D. injection X as <- <-. cbn [sb_fbi] in D.
  eapply (fill_fbi _ _ _ _ (length (s_queue (next_frame s)))); [|exact E|reflexivity| |exact D].
  - intros k K. unfold is_final in K. apply andb_true_iff in K. destruct K as [K _]. now apply Nat.eqb_eq in K.
  - cbn [b_nch]. lia.
Qed.
Lemma create_work edge len keep s sb s' : create_block edge len (is_final keep s) s = Some (sb, s') -> 8 <= len ->
  l_idx (s_llc s) <= length (l_frame (s_llc s)) -> Forall (fun f => f <> []) (s_queue s) ->
  (l_frame (s_llc (next_frame s)) = [] -> keep 0 = false) ->
  sb_fbi sb = true \/ work s' < work s.
Proof.
  unfold create_block. destruct (fill _ _ _ _ _ _) as [[b s1]|] eqn:E; [|discriminate]. intros X L I NE K. injection X as <- <-. cbn [sb_fbi].
  pose proof (next_work s). destruct (fill_first _ _ _ _ _ _ _ _ E eq_refl eq_refl L) as [F|F]; [| |left; exact F|right; lia].
  - intros F. unfold is_final. rewrite Nat.sub_0_r, (K F). cbn [negb]. rewrite andb_true_r. apply Nat.eqb_eq.
    revert F. unfold next_frame. destruct (l_frame (s_llc s)) eqn:F; [|congruence]. destruct (s_queue s) as [|f q] eqn:Q; [rewrite Q; reflexivity|].
    cbn [s_llc l_frame s_queue]. intros ->. inversion NE. congruence.
  - unfold next_frame. destruct (l_frame (s_llc s)) eqn:F; [|rewrite F; exact I]. destruct (s_queue s) as [|f q]; [rewrite F; exact I|]. cbn. lia.
Qed.
