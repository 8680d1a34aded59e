(** The counters of octets. *)
From Coq Require Import ZArith List Bool Lia.
From Verif Require Import Base.Arith Model.Segment Model.UlParse Model.ByteCtr Spec.SegSpec Spec.UlParseSpec Spec.ByteCtrSpec.
From Verif Require Import Proofs.SegQ Proofs.UlParseP.
Import ListNotations.
Local Open Scope Z_scope.

Lemma octets_in_app a b : octets_in (a ++ b) = octets_in a + octets_in b.
Proof. unfold octets_in. rewrite concat_app, app_length. lia. Qed.
Lemma octets_in_one f : octets_in [f] = Z.of_nat (length f).
Proof. unfold octets_in. cbn [concat]. rewrite app_nil_r. reflexivity. Qed.

(** What is appended is what is counted; a frame reported complete is at its end. *)
Lemma append_counts edge len b l fin r b' l' : (l_idx l <= length (l_frame l))%nat ->
  append edge len b l fin = (r, b', l') ->
  l_frame l' = l_frame l /\ l_idx l' = (l_idx l + count_payload edge len b l fin)%nat /\
  (l_idx l' <= length (l_frame l'))%nat /\ (r <> AR_NEED_MORE_BLOCKS -> l_idx l' = length (l_frame l')).
Proof.
  intros LE E. unfold append in E.
  destruct edge; unfold append_egprs, append_gprs, count_payload, consume, chunk_size in *;
    destruct (Nat.ltb_spec (len - b_off b) (length (l_frame l) - l_idx l)) as [A|A];
    [| destruct (Nat.eqb_spec (length (l_frame l) - l_idx l) (len - b_off b)) as [B|B];
       [destruct fin|]; cbn [andb] in * | | destruct (Nat.eqb_spec (length (l_frame l) - l_idx l) (len - b_off b)) as [B|B];
       [destruct fin|]; cbn [andb] in *];
    cbn [fst snd] in E; repeat match type of E with context [if ?c then _ else _] => destruct c end;
    injection E as <- <- <-; cbn [l_frame l_idx]; repeat split; intros; try congruence; lia.
Qed.

(** What the counters hold while the sender is in state [s]. *)
Definition tight (s : sender) (k : octr) : Prop :=
  (l_idx (s_llc s) <= length (l_frame (s_llc s)))%nat /\
  o_llc k = octets_in (map fst (s_done s)) /\ o_rlc k = o_llc k + Z.of_nat (l_idx (s_llc s)).

Lemma tight_next s k : tight s k -> tight (next_frame s) k.
Proof.
  intros (A & B & C). unfold next_frame. destruct (l_frame (s_llc s)) as [|x f] eqn:F; [|split; [rewrite F; exact A|split; assumption]].
  destruct (s_queue s) as [|g r]; [split; [rewrite F; exact A|split; assumption]|].
  cbn [length] in A. unfold tight. cbn [s_llc s_done l_idx l_frame]. split; [lia|]. split; [exact B|]. rewrite C. lia.
Qed.

Lemma fill_ctr_ok fuel : forall edge len fin b s k, tight s k ->
  match fill fuel edge len fin b s with
  | Some (b', s') => exists k', fill_ctr fuel edge len fin b s k = Some (b', s', k') /\ tight s' k'
  | None => fill_ctr fuel edge len fin b s k = None
  end.
Proof.
  induction fuel as [|n IH]; intros edge len fin b s k TI; [reflexivity|].
  assert (ROUND : forall s0, tight s0 k ->
    match (let '(r, b', l') := append edge len b (s_llc s0) (fin (b_nch b)) in
      match r with
      | AR_NEED_MORE_BLOCKS => Some (b', mk_snd l' (s_dummy s0) (s_queue s0) (s_done s0))
      | _ =>
        let s' := next_frame (mk_snd no_llc false (s_queue s0) (s_done s0 ++ [(l_frame l', s_dummy s0)])) in
        match r with
        | AR_COMPLETED_SPACE_LEFT => fill n edge len fin b' s'
        | _ => Some (b', s')
        end
      end) with
    | Some (b', s') => exists k',
      (let '(r, b', l') := append edge len b (s_llc s0) (fin (b_nch b)) in
      let k1 := add_rlc (Z.of_nat (count_payload edge len b (s_llc s0) (fin (b_nch b)))) k in
      match r with
      | AR_NEED_MORE_BLOCKS => Some (b', mk_snd l' (s_dummy s0) (s_queue s0) (s_done s0), k1)
      | _ =>
        let k2 := add_llc (Z.of_nat (length (l_frame l'))) k1 in
        let s' := next_frame (mk_snd no_llc false (s_queue s0) (s_done s0 ++ [(l_frame l', s_dummy s0)])) in
        match r with
        | AR_COMPLETED_SPACE_LEFT => fill_ctr n edge len fin b' s' k2
        | _ => Some (b', s', k2)
        end
      end) = Some (b', s', k') /\ tight s' k'
    | None =>
      (let '(r, b', l') := append edge len b (s_llc s0) (fin (b_nch b)) in
      let k1 := add_rlc (Z.of_nat (count_payload edge len b (s_llc s0) (fin (b_nch b)))) k in
      match r with
      | AR_NEED_MORE_BLOCKS => Some (b', mk_snd l' (s_dummy s0) (s_queue s0) (s_done s0), k1)
      | _ =>
        let k2 := add_llc (Z.of_nat (length (l_frame l'))) k1 in
        let s' := next_frame (mk_snd no_llc false (s_queue s0) (s_done s0 ++ [(l_frame l', s_dummy s0)])) in
        match r with
        | AR_COMPLETED_SPACE_LEFT => fill_ctr n edge len fin b' s' k2
        | _ => Some (b', s', k2)
        end
      end) = None
    end).
  { intros s0 (T1 & T2 & T3). destruct (append edge len b (s_llc s0) (fin (b_nch b))) as [[r b'] l'] eqn:AP.
    destruct (append_counts _ _ _ _ _ _ _ _ T1 AP) as (A1 & A2 & A3 & A4).
    set (c := count_payload edge len b (s_llc s0) (fin (b_nch b))) in *. clearbody c. cbv zeta.
    assert (DONE : r <> AR_NEED_MORE_BLOCKS ->
      tight (next_frame (mk_snd no_llc false (s_queue s0) (s_done s0 ++ [(l_frame l', s_dummy s0)])))
            (add_llc (Z.of_nat (length (l_frame l'))) (add_rlc (Z.of_nat c) k))).
    { intros NM. apply tight_next. specialize (A4 NM). unfold tight, add_llc, add_rlc, no_llc.
      cbn [s_llc s_done l_idx l_frame o_rlc o_llc length]. rewrite map_app. cbn [map fst].
      rewrite octets_in_app, octets_in_one. split; [lia|]. split; lia. }
    destruct r.
    - eexists. split; [reflexivity|]. unfold tight, add_rlc. cbn [s_llc s_done o_rlc o_llc]. split; [exact A3|]. split; [exact T2|]. lia.
    - apply IH. apply DONE. discriminate.
    - eexists. split; [reflexivity|]. apply DONE. discriminate. }
  cbn [fill fill_ctr]. destruct (l_frame (s_llc s)) as [|x f] eqn:F.
  - destruct (b_nch b) eqn:NC.
    + rewrite <- NC in ROUND |- *. apply ROUND. destruct TI as (T1 & T2 & T3). rewrite F in T1. cbn [length] in T1.
      unfold tight. cbn [s_llc s_done l_idx]. split; [lia|]. split; [exact T2|]. rewrite T3. lia.
    + eexists. split; [reflexivity|exact TI].
  - apply ROUND. exact TI.
Qed.

Lemma seg_ctr_ok edge steps : forall s k, tight s k ->
  match seg_run edge steps s with
  | Some (l, s') => exists k', seg_ctr edge steps s k = Some (l, s', k') /\ tight s' k'
  | None => seg_ctr edge steps s k = None
  end.
Proof.
  induction steps as [|x r IH]; intros s k TI; cbn [seg_run seg_ctr]; [exists k; auto|].
  set (s0 := mk_snd (s_llc s) (s_dummy s) (s_queue s ++ ss_new x) (s_done s)).
  assert (T0 : tight s0 k) by exact TI. clearbody s0.
  unfold create_block, create_ctr. apply tight_next in T0.
  pose proof (fill_ctr_ok (S (ss_len x)) edge (ss_len x) (ss_fin x) (mk_blk (prepare (ss_len x)) 0 0 true false) (next_frame s0) k T0) as FI.
  destruct (fill _ _ _ _ _ _) as [[b s1]|]; [|rewrite FI; reflexivity].
  destruct FI as (k1 & -> & T1). specialize (IH s1 k1 T1).
  destruct (seg_run edge r s1) as [[l s2]|]; [|rewrite IH; reflexivity].
  destruct IH as (k2 & -> & T2). exists k2. auto.
Qed.
Lemma tight_fresh : tight fresh (mk_octr 0 0).
Proof. unfold tight, fresh, no_llc, octets_in. cbn. auto. Qed.

Lemma real_dummies l : octets_in (map fst l) = octets_in (real l) + octets_in (map fst (filter snd l)).
Proof.
  induction l as [|[f d] l IH]; [reflexivity|]. unfold real in *. cbn [map filter snd fst].
  change (f :: map fst l) with ([f] ++ map fst l). rewrite octets_in_app, IH.
  destruct d; cbn [negb map fst].
  - change (f :: map fst (filter snd l)) with ([f] ++ map fst (filter snd l)). rewrite octets_in_app. lia.
  - match goal with |- context [octets_in (f :: map ?g ?t)] => change (f :: map g t) with ([f] ++ map g t) end. rewrite octets_in_app. lia.
Qed.

Lemma dl_run edge steps blocks s : seg_run edge steps fresh = Some (blocks, s) ->
  exists k, seg_ctr edge steps fresh (mk_octr 0 0) = Some (blocks, s, k) /\
    o_llc k = octets_in (real (s_done s)) + octets_in (map fst (filter snd (s_done s))) /\
    o_rlc k = o_llc k + Z.of_nat (length (firstn (l_idx (s_llc s)) (l_frame (s_llc s)))).
Proof.
  intros E. pose proof (seg_ctr_ok edge steps fresh _ tight_fresh) as T. rewrite E in T.
  destruct T as (k & A & B & C & D). exists k. split; [exact A|]. rewrite <- real_dummies. split; [exact C|].
  rewrite firstn_length, Nat.min_l by exact B. exact D.
Qed.

Lemma dl_egprs steps : Forall (step_ok true) steps ->
  exists blocks s k frames rest, seg_ctr true steps fresh (mk_octr 0 0) = Some (blocks, s, k) /\
    rx_run true blocks ([], []) = Some (frames, rest) /\
    o_llc k = octets_in frames /\ o_rlc k = octets_in frames + Z.of_nat (length rest).
Proof.
  intros OK. destruct (seg_egprs steps OK) as (blocks & s & A & B & _). destruct (dl_run _ _ _ _ A) as (k & K1 & K2 & K3).
  rewrite <- real_dummies in K2. exists blocks, s, k. do 2 eexists. split; [exact K1|]. split; [exact B|]. lia.
Qed.
Lemma dl_gprs steps : Forall (step_ok false) steps ->
  exists blocks s k, seg_ctr false steps fresh (mk_octr 0 0) = Some (blocks, s, k) /\
    (Forall (fun b => sb_fbi b = false) blocks -> exists frames rest,
      rx_run false blocks ([], []) = Some (frames, rest) /\
      o_llc k = octets_in frames /\ o_rlc k = octets_in frames + Z.of_nat (length rest)).
Proof.
  intros OK. destruct (seg_gprs_open steps OK) as (blocks & s & A & B). destruct (dl_run _ _ _ _ A) as (k & K1 & K2 & K3).
  rewrite <- real_dummies in K2. exists blocks, s, k. split; [exact K1|]. intros F. destruct (B F) as [B1 _].
  do 2 eexists. split; [exact B1|]. lia.
Qed.

(** Uplink. *)
Definition utight (st : ullc) (F : list (list Z)) (k : octr) : Prop :=
  o_llc k = octets_in F /\ o_rlc k = octets_in F + num (u_data st).
Lemma forward_ctr_ok mem l : Forall (inside (num mem)) l -> forall st F k, utight st F k ->
  match forward mem l st with
  | Some (out, st') => exists k', forward_ctr mem l st k = Some (out, st', k') /\ utight st' (F ++ out) k'
  | None => forward_ctr mem l st k = None
  end.
Proof.
  induction 1 as [|c l (C1 & C2 & C3) FA IH]; intros st F k [U1 U2]; cbn [forward forward_ctr].
  - exists k. rewrite app_nil_r. split; [reflexivity|split; assumption].
  - set (st1o := if c_len c =? 0 then Some st else _).
    set (k1 := if c_len c =? 0 then k else add_rlc (c_len c) k).
    assert (H1 : forall st1, st1o = Some st1 -> utight st1 F k1).
    { unfold st1o, k1. destruct (Z.eqb_spec (c_len c) 0) as [Z0|Z0]; intros st1 E; [injection E as <-; split; assumption|].
      unfold llc_append_frame in E. destruct (_ <? _); [discriminate|]. injection E as <-.
      unfold utight, add_rlc, llc_consume. cbn [u_data o_rlc o_llc]. rewrite num_app, slice_num by lia. split; lia. }
    destruct st1o as [st1|]; [|reflexivity]. specialize (H1 st1 eq_refl). clearbody k1. destruct H1 as [V1 V2]. cbv zeta.
    destruct (c_done c).
    + assert (U3 : utight ullc_reset (F ++ [u_data st1]) (add_llc (num (u_data st1)) k1)).
      { unfold utight, ullc_reset, add_llc. cbn [o_rlc o_llc u_data]. rewrite octets_in_app, octets_in_one.
        change (num (@nil Z)) with 0. unfold num in *. split; lia. }
      specialize (IH _ _ _ U3). destruct (forward mem l ullc_reset) as [[out st3]|]; [|rewrite IH; reflexivity].
      destruct IH as (k3 & -> & U4). exists k3. split; [reflexivity|]. rewrite <- app_assoc in U4. exact U4.
    + specialize (IH _ _ _ (conj V1 V2)). destruct (forward mem l st1) as [[out st3]|]; [|rewrite IH; reflexivity].
      destruct IH as (k3 & -> & U4). exists k3. split; [reflexivity|exact U4].
Qed.
Lemma assemble_ctr_forward b st k : block_ok (ub_rdbi b) (ub_mem b) -> assemble_ctr b st k = forward_ctr (ub_mem b) (chunks_of b) st k.
Proof.
  intros OK. unfold assemble_ctr, chunks_of. destruct (block_only (ub_edge b) _ _ OK) as [_ N].
  destruct (from_ul_data _ _ _ _) as [i|e|l t]; [exfalso; exact (N i eq_refl)|reflexivity|reflexivity].
Qed.
Lemma assemble_ctr_ok bs : Forall (fun b => block_ok (ub_rdbi b) (ub_mem b)) bs -> forall st F k, utight st F k ->
  match assemble_all bs st with
  | Some (out, st') => exists k', assemble_all_ctr bs st k = Some (out, st', k') /\ utight st' (F ++ out) k'
  | None => assemble_all_ctr bs st k = None
  end.
Proof.
  induction 1 as [|b bs OK FA IH]; intros st F k U; cbn [assemble_all assemble_all_ctr].
  - exists k. rewrite app_nil_r. split; [reflexivity|exact U].
  - rewrite assemble_forward, assemble_ctr_forward by exact OK.
    pose proof (forward_ctr_ok _ _ (placed_mem b OK) st F k U) as FO.
    destruct (forward (ub_mem b) (chunks_of b) st) as [[o1 st1]|]; [|rewrite FO; reflexivity].
    destruct FO as (k1 & -> & U1). specialize (IH _ _ _ U1).
    destruct (assemble_all bs st1) as [[o2 st2]|]; [|rewrite IH; reflexivity].
    destruct IH as (k2 & -> & U2). exists k2. split; [reflexivity|]. rewrite <- app_assoc in U2. exact U2.
Qed.
Lemma ul_run bs out st : Forall (fun b => block_ok (ub_rdbi b) (ub_mem b)) bs -> assemble_all bs ullc_reset = Some (out, st) ->
  exists k, assemble_all_ctr bs ullc_reset (mk_octr 0 0) = Some (out, st, k) /\
    o_llc k = octets_in out /\ o_rlc k = octets_in out + num (u_data st).
Proof.
  intros OK E. pose proof (assemble_ctr_ok bs OK ullc_reset [] (mk_octr 0 0)) as P. rewrite E in P.
  destruct P as (k & A & B & C); [split; reflexivity|]. exists k. auto.
Qed.
