(** C13-C17, C54 and C57: frame numbers, the uplink reservation table, polling frames,
    single block allocations and the block clock. *)
From Coq Require Import ZArith List Bool Lia Sorted.
From Verif Require Import Base.Arith Model.FrameNo Model.UlController Spec.FrameSpec
  Proofs.FrameP Proofs.UlcP Proofs.UlcProps.
Import ListNotations.
Local Open Scope Z_scope.

(** *** C13: the block raster. *)

(** From a block start, the next block is a block start of the hyperframe; no block start
    is passed over; when five frames lie between, the extra one is frame 12, 25, 38 or 51
    of the multiframe. *)
Theorem C13_next_block : forall fn, in_hyper fn -> block_start fn ->
  in_hyper (fn_next_block fn) /\ block_start (fn_next_block fn) /\
  4 <= ahead fn (fn_next_block fn) <= 5 /\
  (forall k, 0 < k < ahead fn (fn_next_block fn) -> ~ block_start ((fn + k) mod HYP)) /\
  (ahead fn (fn_next_block fn) = 5 -> In ((fn + 4) mod 52) [12; 25; 38; 51]).
Proof. exact next_block_ok. Qed.
Print Assumptions C13_next_block.
Example C13_ex_next : block_start 2715643 /\ in_hyper 2715643 /\ fn_next_block 2715643 = 0.
Proof. split; [|split; [split; [discriminate|reflexivity]|vm_compute; reflexivity]]. vm_compute. tauto. Qed.

(** The scheduler's own step to the next frame agrees. *)
Theorem C13_rts_next : forall fn, in_hyper fn -> block_start fn ->
  rts_next_fn fn (fn2bn fn) = fn_next_block fn.
Proof. exact rts_next_ok. Qed.
Print Assumptions C13_rts_next.

(** Block numbers are 0..11 and number the block starts in order. *)
Theorem C13_block_number : forall fn, block_start fn ->
  0 <= fn2bn fn <= 11 /\ nth_error block_starts (Z.to_nat (fn2bn fn)) = Some (fn mod 52).
Proof. exact fn2bn_ok. Qed.
Print Assumptions C13_block_number.
Example C13_ex_bn : block_start 47 /\ fn2bn 47 = 11 /\ fn2bn (47 + 52 * 100) = 11.
Proof. vm_compute. tauto. Qed.

(** The validity test is the block raster. *)
Theorem C13_valid : forall fn, fn_valid fn = true <-> block_start fn.
Proof. exact fn_valid_iff. Qed.
Print Assumptions C13_valid.
Example C13_ex_valid : fn_valid 13 = true /\ fn_valid 12 = false /\ fn_valid 51 = false.
Proof. vm_compute. tauto. Qed.

(** Twelve blocks make a multiframe, for any number of multiframes; 52224 multiframes
    lead back to the start. *)
Theorem C13_period : forall k fn, in_hyper fn -> block_start fn ->
  steps (k * 12) fn = (fn + 52 * Z.of_nat k) mod HYP /\ steps (Z.to_nat 52224 * 12) fn = fn.
Proof. exact (fun k fn h b => conj (steps_multiframes k fn h b) (steps_hyper fn h b)). Qed.
Print Assumptions C13_period.
Example C13_ex_period : steps 36 2715643 = (2715643 + 156) mod HYP /\ (2715643 + 156) mod HYP = 151.
Proof. vm_compute. tauto. Qed.

(** For frames that are not block starts the claims fail: block number 12, and a block
    start passed over (from the last frame of a block). *)
Theorem C13_any_frame_refuted :
  (exists fn, in_hyper fn /\ fn2bn fn = 12) /\
  (exists fn k, in_hyper fn /\ block_start (fn - 3) /\ 0 < k < ahead fn (fn_next_block fn) /\ block_start (fn + k)).
Proof. exact any_frame_bad. Qed.
Print Assumptions C13_any_frame_refuted.

(** *** C14: relative frame numbers. *)

(** The result is in the hyperframe and has the given remainder. *)
Theorem C14_congruent : forall cur rfn, in_hyper cur -> 0 <= rfn < 42432 ->
  exists f, bts_rfn_to_fn cur rfn = Some f /\ in_hyper f /\ f mod 42432 = rfn.
Proof. exact rfn_congruent. Qed.
Print Assumptions C14_congruent.

(** A burst less than half a modulus old is placed at its true frame. *)
Theorem C14_past_exact : forall cur a, in_hyper cur -> 0 <= a < 21216 ->
  bts_rfn_to_fn cur (((cur - a) mod HYP) mod 42432) = Some ((cur - a) mod HYP).
Proof. exact rfn_past. Qed.
Print Assumptions C14_past_exact.
Example C14_ex_past : bts_rfn_to_fn 5 (((5 - 10) mod HYP) mod 42432) = Some 2715643.
Proof. vm_compute; reflexivity. Qed.

(** So is a burst ahead of the clock within the same cycle of the modulus. *)
Theorem C14_ahead_same_cycle : forall cur d, in_hyper cur -> 0 <= d <= 21216 ->
  cur mod 42432 + d < 42432 ->
  bts_rfn_to_fn cur (((cur + d) mod HYP) mod 42432) = Some ((cur + d) mod HYP).
Proof. exact rfn_ahead_same. Qed.
Print Assumptions C14_ahead_same_cycle.
Example C14_ex_ahead : bts_rfn_to_fn 100 ((100 + 300) mod 42432) = Some 400.
Proof. vm_compute; reflexivity. Qed.

(** A burst one frame ahead, in the next cycle, is placed two cycles back from there; a
    burst exactly half a modulus old, in the previous cycle, one cycle too late. *)
Theorem C14_ahead_next_cycle_refuted :
  exists cur, in_hyper cur /\ bts_rfn_to_fn cur (((cur + 1) mod HYP) mod 42432) <> Some ((cur + 1) mod HYP).
Proof. exact ahead_next_bad. Qed.
Print Assumptions C14_ahead_next_cycle_refuted.
Theorem C14_threshold_refuted :
  exists cur, in_hyper cur /\
    bts_rfn_to_fn cur (((cur - 21216) mod HYP) mod 42432) <> Some ((cur - 21216) mod HYP).
Proof. exact threshold_bad. Qed.
Print Assumptions C14_threshold_refuted.

(** *** C15: the reservation table. *)

(** Every history of reservations, releases and expiries behaves as on a plain table of
    frames, whatever shape the search tree takes: same results, same contents. *)
Theorem C15_table : forall bal frees now ops, keeps_order bal -> in_hyper now ->
  ops_in_time frees (mk_ts t_empty now) ops ->
  exists t, ul_run bal frees Leaf ops = Some (t, snd (t_run frees (mk_ts t_empty now) ops)) /\
    forall fn, get_node t fn = option_map (mk_item fn) (ts_m (fst (t_run frees (mk_ts t_empty now) ops)) fn).
Proof. exact refines. Qed.
Print Assumptions C15_table.

Definition ex_ops : list ulop :=
  [UReserve 2715643 (OPoll 7 PollUlAck); UReserve 4 (OUsf 8); UReserve 0 (OSba 9); UReserve 4 (OSba 5);
   UReserve 13 (OUsf 7); UReserve 8 (OUsf 7); UReleaseFn 99; UExpire 2; UReserve 21 (OUsf 7); UReleaseTbf 7].
(** The timeout of an entry of TBF 7 frees TBF 8. *)
Definition ex_frees (it : item) : list Z := if owned_by 7 (i_own it) then [8] else [].
(** Rebuild the tree as a list, to the other side. *)
Fixpoint lcomb (l : list item) (t : tree) : tree := match l with [] => t | x :: r => lcomb r (Node t x Leaf) end.
Definition ex_bal (t : tree) : tree := lcomb (inorder t) Leaf.
Lemma ex_bal_ok : keeps_order ex_bal.
Proof.
  intros t. unfold ex_bal. generalize (inorder t) as l. intros l.
  assert (X : forall r u, inorder (lcomb r u) = inorder u ++ r).
  { induction r as [|x r IH]; intros u; cbn [lcomb]; [rewrite app_nil_r; reflexivity|].
    rewrite IH. cbn [inorder]. rewrite <- app_assoc. reflexivity. }
  apply X.
Qed.
Example C15_ex_table : ops_in_time ex_frees (mk_ts t_empty 2715640) ex_ops /\
  option_map snd (ul_run ex_bal ex_frees Leaf ex_ops) =
    Some [RBool true; RBool true; RBool true; RBool false; RBool true; RBool true; RBool false;
          RReport [mk_item 2715643 (OPoll 7 PollUlAck); mk_item 0 (OSba 9)]; RBool true; RDone].
Proof.
  split; [|vm_compute; reflexivity].
  cbn [ops_in_time ex_ops]. unfold op_in_time, in_hyper.
  repeat match goal with |- _ /\ _ => split end; try exact I; try (vm_compute; discriminate); vm_compute; reflexivity.
Qed.

(** A reservation for a taken frame is refused and changes nothing; any other is accepted
    and adds exactly that entry. *)
Theorem C15_reserve : forall bal frees t s fn o, keeps_order bal -> ulc_reach bal frees t s ->
  in_hyper fn -> ahead (ts_now s) fn < HYP / 2 ->
  (get_node t fn <> None -> reserve bal t fn o = (t, false)) /\
  (get_node t fn = None -> exists t', reserve bal t fn o = (t', true) /\
     get_node t' fn = Some (mk_item fn o) /\ forall x, x <> fn -> get_node t' x = get_node t x).
Proof. exact reserve_exact. Qed.
Print Assumptions C15_reserve.

Definition ex_t : tree := match ul_run ex_bal ex_frees Leaf (firstn 6 ex_ops) with Some (t, _) => t | None => Leaf end.
Definition ex_s : tstate := fst (t_run ex_frees (mk_ts t_empty 2715640) (firstn 6 ex_ops)).
Lemma ex_reach : ulc_reach ex_bal ex_frees ex_t ex_s.
Proof.
  exists 2715640, (firstn 6 ex_ops), (match ul_run ex_bal ex_frees Leaf (firstn 6 ex_ops) with Some (_, r) => r | None => [] end).
  split; [split; [discriminate|reflexivity]|]. splits; [| |reflexivity].
  - cbn [ops_in_time ex_ops firstn]. unfold op_in_time, in_hyper.
    repeat match goal with |- _ /\ _ => split end; try exact I; try (vm_compute; discriminate); vm_compute; reflexivity.
  - unfold ex_t. vm_compute. reflexivity.
Qed.
Example C15_ex_reserve : get_node ex_t 4 = Some (mk_item 4 (OUsf 8)) /\ get_node ex_t 17 = None /\
  map i_fn (inorder ex_t) = [2715643; 0; 4; 8; 13].
Proof. vm_compute. tauto. Qed.

(** Releasing a frame removes exactly its entry; releasing a TBF exactly its entries. *)
Theorem C15_release_frame : forall bal frees t s fn, keeps_order bal -> ulc_reach bal frees t s ->
  (get_node t fn = None -> release_fn bal t fn = (t, false)) /\
  (get_node t fn <> None -> exists t', release_fn bal t fn = (t', true) /\
     get_node t' fn = None /\ forall x, x <> fn -> get_node t' x = get_node t x).
Proof. exact release_fn_exact. Qed.
Print Assumptions C15_release_frame.
Theorem C15_release_tbf : forall bal frees t s b, keeps_order bal -> ulc_reach bal frees t s ->
  exists t', release_tbf bal t b = Some t' /\
    forall fn, get_node t' fn =
      match get_node t fn with Some it => if owned_by b (i_own it) then None else Some it | None => None end.
Proof. exact release_tbf_exact. Qed.
Print Assumptions C15_release_tbf.
Example C15_ex_release : option_map (fun t => map i_fn (inorder t)) (release_tbf ex_bal ex_t 7) = Some [0; 4].
Proof. vm_compute; reflexivity. Qed.

(** *** C16: the polling frame. *)

(** A granted poll is in the one frame the mobile derives from the RRBP value, which was
    free and can then be reserved; a refusal means that all candidates are taken. *)
Theorem C16_rrbp : forall bal frees t s fn, keeps_order bal -> ulc_reach bal frees t s ->
  in_hyper fn -> block_start fn -> ahead (ts_now s) fn + 26 < HYP / 2 ->
  match get_next_free_rrbp_fn t fn with
  | Some (p, v) =>
      in_hyper p /\ block_start p /\ answers_in fn v p /\ (forall q, answers_in fn v q -> q = p) /\
      get_node t p = None /\
      forall tbf r, exists t', reserve bal t p (OPoll tbf r) = (t', true) /\ get_tbf_poll t' p = Some tbf
  | None => forall v p, 0 <= v <= 3 -> answers_in fn v p -> get_node t p <> None
  end.
Proof. exact rrbp_exact. Qed.
Print Assumptions C16_rrbp.
Example C16_ex_rrbp : get_next_free_rrbp_fn ex_t 2715643 = Some (17, 2) /\ block_start 2715643.
Proof. vm_compute. tauto. Qed.

(** Each of the four values names exactly one frame. *)
Theorem C16_candidates : forall fn v, block_start fn -> 0 <= v <= 3 -> exists p, answers_in fn v p.
Proof. exact answer_exists. Qed.
Print Assumptions C16_candidates.
Theorem C16_candidate_unique : forall fn v p p', block_start fn ->
  answers_in fn v p -> answers_in fn v p' -> p = p'.
Proof. exact answer_unique. Qed.
Print Assumptions C16_candidate_unique.

(** *** C17: expiry. *)

(** Expiring up to a frame: what is reported is in time order, without repetition, and
    consists of entries up to that frame; each such entry is reported, unless its TBF was
    freed in reaction to an earlier one; none of them stays; later entries stay, unless
    their TBF was freed so. *)
Theorem C17_expire : forall bal frees t s fn, keeps_order bal -> ulc_reach bal frees t s ->
  in_hyper fn -> ahead (ts_now s) fn < HYP / 2 ->
  exists t' rep, expire_fn bal frees t fn = Some (t', rep) /\
    StronglySorted (fun a b => ahead (ts_now s) (i_fn a) < ahead (ts_now s) (i_fn b)) rep /\
    (forall it, In it rep -> get_node t (i_fn it) = Some it /\ ahead (ts_now s) (i_fn it) <= ahead (ts_now s) fn) /\
    (forall it, get_node t (i_fn it) = Some it -> ahead (ts_now s) (i_fn it) <= ahead (ts_now s) fn ->
       In it rep \/ exists e b, In e rep /\ ahead (ts_now s) (i_fn e) < ahead (ts_now s) (i_fn it) /\
                                In b (frees e) /\ owned_by b (i_own it) = true) /\
    (forall x, in_hyper x -> ahead (ts_now s) x <= ahead (ts_now s) fn -> get_node t' x = None) /\
    (forall x, in_hyper x -> ahead (ts_now s) fn < ahead (ts_now s) x ->
       get_node t' x = match get_node t x with
                       | Some it => if freed_by frees rep (i_own it) then None else Some it
                       | None => None end).
Proof. exact expire_exact. Qed.
Print Assumptions C17_expire.
Example C17_ex_expire :
  match expire_fn ex_bal ex_frees ex_t 8 with
  | Some (t', rep) => map i_fn rep = [2715643; 0; 8] /\ map i_fn (inorder t') = [13]
  | None => False
  end.
Proof. vm_compute. tauto. Qed.

(** *** C54: the block clock. *)

(** Every sequence of block frame numbers is processed, and keeps the clock legal. *)
Theorem C54_total : forall c l, clk_ok c -> Forall in_hyper l -> exists c', clk_run c l = Some c' /\ clk_ok c'.
Proof. exact clk_run_ok. Qed.
Print Assumptions C54_total.

(** A block either moves the block clock forward by less than half a hyperframe, or is
    ignored altogether. *)
Theorem C54_monotone : forall c fn, clk_ok c -> in_hyper fn ->
  exists c', set_block_fn c fn = Some c' /\ clk_ok c' /\
    (ck_blk c' = ck_blk c /\ c' = c \/
     ck_blk c' = fn /\ (ck_blk c = -1 \/ 0 < ahead (ck_blk c) fn < HYP / 2)).
Proof. exact clk_step. Qed.
Print Assumptions C54_monotone.

(** An accepted block sets the frame clock when it was unknown; otherwise, unless it
    reads 0, exactly when the block is not 0 to 500 frames behind it. *)
Theorem C54_resync_partial : forall c fn, clk_ok c -> in_hyper fn ->
  (ck_blk c = -1 \/ 0 < ahead (ck_blk c) fn < HYP / 2) ->
  exists c', set_block_fn c fn = Some c' /\ ck_blk c' = fn /\
    (ck_fn c = FN_UNSET -> ck_fn c' = fn) /\
    (ck_fn c <> FN_UNSET -> ck_fn c <> 0 ->
     (ahead fn (ck_fn c) <= 500 -> ck_fn c' = ck_fn c) /\ (500 < ahead fn (ck_fn c) -> ck_fn c' = fn)).
Proof. exact clk_accept. Qed.
Print Assumptions C54_resync_partial.
Example C54_ex : clk_ok (mk_clk 2715640 2715630) /\
  clk_run (mk_clk FN_UNSET (-1)) [2715630; 4; 2715630; 100000] = Some (mk_clk 100000 100000) /\
  set_block_fn (mk_clk 2715640 2715630) 2715634 = Some (mk_clk 2715640 2715634).
Proof. split; [split; left; split; vm_compute; congruence|]. vm_compute. tauto. Qed.

(** A frame clock that reads 0 is not set, however far away the block is. *)
Theorem C54_zero_refuted : exists fn, in_hyper fn /\ 500 < ahead fn 0 /\
  set_block_fn (mk_clk 0 (-1)) fn = Some (mk_clk 0 fn).
Proof. exact zero_bad. Qed.
Print Assumptions C54_zero_refuted.

(** *** C57: single block allocations. *)

(** The block announced was free, starts a block, lies at least 52 frames after the
    last served block, and no earlier such block was free; it is owned by this allocation
    from then on. The reservation, whose result the code ignores, succeeds. *)
Theorem C57_alloc : forall bal frees t s last id, keeps_order bal -> ulc_reach bal frees t s ->
  in_hyper last -> block_start last ->
  ahead (ts_now s) last + 52 + 5 * Z.of_nat (length (inorder t)) < HYP / 2 ->
  exists t' fn, sba_alloc bal t last id = (t', fn, true) /\
    in_hyper fn /\ block_start fn /\ 52 <= ahead last fn < HYP / 2 /\ get_node t fn = None /\
    (forall x, in_hyper x -> block_start x -> 52 <= ahead last x < ahead last fn -> get_node t x <> None) /\
    get_sba t' fn = Some id /\
    ulc_reach bal frees t' (mk_ts (t_set (ts_m s) fn (Some (OSba id))) (ts_now s)).
Proof. exact sba_exact. Qed.
Print Assumptions C57_alloc.
Example C57_ex : match sba_alloc ex_bal ex_t 2715643 77 with
  (t', fn, ok) => fn = 47 /\ ok = true /\ ahead 2715643 47 = 52 /\
    match sba_alloc ex_bal t' 2715643 78 with (_, fn', ok') => fn' = 52 /\ ok' = true /\ ahead 2715643 52 = 57 end end /\
  block_start 2715643 /\ ahead (ts_now ex_s) 2715643 + 52 + 5 * Z.of_nat (length (inorder ex_t)) < HYP / 2.
Proof. vm_compute. tauto. Qed.

(** It stays so through any operation except releasing that very frame or expiring up
    to it. *)
Theorem C57_owned : forall bal frees t s op fn id, keeps_order bal -> ulc_reach bal frees t s ->
  op_in_time s op -> get_sba t fn = Some id ->
  match op with UReleaseFn x => x <> fn
              | UExpire x => ahead (ts_now s) x < ahead (ts_now s) fn
              | _ => True end ->
  exists t' r, ul_step bal frees t op = Some (t', r) /\ get_sba t' fn = Some id.
Proof. exact owned_stays. Qed.
Print Assumptions C57_owned.
Example C57_ex_owned : get_sba ex_t 0 = Some 9.
Proof. vm_compute; reflexivity. Qed.
