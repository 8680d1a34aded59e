(** Proofs about the routing of uplink blocks: the histories and the final statements. *)
From Coq Require Import ZArith Lia List Bool.
From Verif Require Import Base.Arith Model.TbfFsm Spec.TbfFsmSpec Proofs.TbfFsmP Proofs.TbfFsmQ
  Model.TbfSub Spec.TbfSubSpec Proofs.TbfSubP Proofs.TbfSubQ Proofs.TbfSubR Model.Route Spec.RouteSpec
  Proofs.RouteP Proofs.RouteQ Proofs.RouteR Proofs.RouteS Proofs.RouteT Proofs.RouteU Proofs.RouteV.
Import ListNotations.
Open Scope Z_scope.

Lemma never_halts : forall c ops, r_run c r_init ops <> Halt.
Proof.
  intros c ops E. pose proof (run_kept c false ops r_init (sound_init c false)) as X. rewrite E in X. apply X.
  intros H. discriminate.
Qed.

Lemma books_kept : forall c s, reachable c s ->
  NoDup (map fst (s_nodes s)) /\ NoDup (map r_id (s_tbfs s)) /\
  (forall fn n id, In (fn, n) (s_nodes s) -> owner n = Some id -> exists x, In x (s_tbfs s) /\ r_id x = id) /\
  (forall x, In x (s_tbfs s) -> born c (r_t x) /\ alive (r_t x) /\ grants_of s (r_id x) = t_usf (r_t x) /\
     forall r, (polls_of s (r_id x) r <= outstanding r (r_t x))%nat) /\
  (forall x y, In x (s_tbfs s) -> In y (s_tbfs s) -> r_dir x = r_dir y -> r_tfi x = r_tfi y -> 0 <= r_tfi x -> r_id x = r_id y) /\
  (forall x y, In x (s_tbfs s) -> In y (s_tbfs s) -> r_dir x = r_dir y -> r_ms x = r_ms y -> r_cur x = true -> r_cur y = true -> r_id x = r_id y).
Proof.
  intros c s R. destruct (reach_sound c s R) as ((A & B & C) & D & E & F). splits; try assumption.
  - intros x I. destruct (F x I) as (G & H & K & L). unfold e0, g0 in *. cbn [leq] in K. splits; try assumption; [lia|].
    intros r. specialize (K r). lia.
  - intros x y IX IY ED ET P. apply (B x y (r_dir x) (r_tfi x) IX IY); unfold is_tfi; rewrite <- ?ED, <- ?ET, Z.eqb_refl;
      destruct (r_dir x); cbn; lia.
  - intros x y IX IY ED EM CX CY. apply (C x y (r_dir x) (r_ms x) IX IY); unfold is_cur; rewrite <- ?ED, <- ?EM, Z.eqb_refl, ?CX, ?CY;
      destruct (r_dir x); reflexivity.
Qed.

Lemma polls_in : forall s fn id r, polled s fn id r -> (0 < polls_of s id r)%nat.
Proof.
  intros s fn id r P. unfold polls_of. assert (I : In (fn, NPoll id r) (filter (poll_of id r) (s_nodes s))).
  { apply filter_In. split; [exact P|]. unfold poll_of. cbn. rewrite Z.eqb_refl. destruct r; reflexivity. }
  destruct (filter _ _); [destruct I | cbn; lia].
Qed.

Lemma reserved_waits : forall c s fn id r x, reachable c s -> polled s fn id r -> r = P_UL_ASS \/ r = P_UL_ACK ->
  In x (s_tbfs s) -> r_id x = id -> waits r (r_t x) = true.
Proof.
  intros c s fn id r x R P H I <-. destruct (books_kept c s R) as (_ & _ & _ & F & _). destruct (F x I) as (B & A & _ & L).
  specialize (L r). pose proof (polls_in _ _ _ _ P). destruct B as (d & w & now & l1 & l3 & l5 & t0 & ops & outs & N & RU).
  apply (poll_waits c d w now l1 l3 l5 t0 ops (r_t x) outs N RU A r H).
  destruct (run_reach c d w now l1 l3 l5 t0 ops (r_t x) outs N RU A) as (_ & CO & _).
  unfold core in CO. destruct H as [-> | ->]; cbn [outstanding] in *; lia.
Qed.

Lemma waits_reserved : forall c ops s r x, r_run c r_init ops = Ok s -> none_taken c r_init ops -> r = P_UL_ASS \/ r = P_UL_ACK ->
  In x (s_tbfs s) -> waits r (r_t x) = true ->
  (exists fn, polled s fn (r_id x) r) \/ state (r_t x) = RELEASING \/ (r_dir x = DL /\ state (r_t x) = WAIT_REUSE).
Proof.
  intros c ops s r x R NT H I W. destruct (exact_sound c s ops R NT) as (_ & _ & _ & F). destruct (F x I) as (B & A & L & _).
  destruct B as (d & w & now & l1 & l3 & l5 & t0 & os & outs & N & RU).
  destruct (waits_poll c d w now l1 l3 l5 t0 os (r_t x) outs N RU A r H W) as [O|X]; [|auto].
  left. specialize (L r). unfold e0 in L. cbn [leq] in L. rewrite O in L. unfold polls_of in L.
  destruct (filter (poll_of (r_id x) r) (s_nodes s)) as [|[fn n] l] eqn:FI; [cbn in L; lia|].
  exists fn. assert (X : In (fn, n) (filter (poll_of (r_id x) r) (s_nodes s))) by (rewrite FI; left; reflexivity).
  apply filter_In in X. destruct X as (X & Y). unfold poll_of in Y. cbn in Y. destruct n; try discriminate.
  apply andb_prop in Y. destruct Y as (Y & Z). apply Z.eqb_eq in Y. apply reason_eqb_eq in Z. subst. exact X.
Qed.

Lemma exact_books : forall c ops s x r, r_run c r_init ops = Ok s -> none_taken c r_init ops -> In x (s_tbfs s) ->
  polls_of s (r_id x) r = outstanding r (r_t x).
Proof.
  intros c ops s x r R NT I. destruct (exact_sound c s ops R NT) as (_ & _ & _ & F). destruct (F x I) as (_ & _ & L & _).
  specialize (L r). unfold e0 in L. cbn [leq] in L. lia.
Qed.

(** ** Blocks that nobody expects *)
Lemma silent_frame : forall c s fn m, node_at fn s = None -> (forall tfi, m <> MData tfi) -> r_step c s (RBlock fn m) = Ok s.
Proof.
  intros c s fn m N D. cbn [r_step]. destruct m; cbn [rcv].
  - unfold rcv_ack. rewrite N. reflexivity.
  - unfold rcv_dl_ack. rewrite N. reflexivity.
  - unfold rcv_request. rewrite N. reflexivity.
  - unfold rcv_meas. rewrite N. reflexivity.
  - unfold rcv_cell_change. rewrite N, (release_nothing _ _ N). destruct (by_tfi d tfi s); reflexivity.
  - destruct (D tfi eq_refl).
  - reflexivity.
Qed.
Lemma wrong_ack : forall c s fn nacc s', (forall id r, node_at fn s = Some (NPoll id r) -> exists x, get id s = Some x /\ waits r (r_t x) = false) ->
  (forall id, node_at fn s = Some (NNacc id) -> nacc = false) -> r_step c s (RBlock fn (MAck nacc)) = Ok s' -> s' = s.
Proof.
  intros c s fn nacc s' H1 H2 E. cbn [r_step rcv] in E. unfold rcv_ack in E. destruct (node_at fn s) as [[id r | id | id | ]|] eqn:N; try congruence.
  - destruct (H1 id r eq_refl) as (x & G & W). rewrite G in E. assert (AW : awaits r (r_t x) = false) by (destruct r; [exact W..|reflexivity]).
    rewrite AW in E. cbn [negb] in E. destruct r, (r_dir x); congruence.
  - rewrite (H2 id eq_refl) in E. destruct (get id s); congruence.
Qed.
Lemma wrong_report : forall c s fn tfi final s', (forall id x, node_at fn s = Some (NPoll id P_DL_ACK) -> get id s = Some x -> r_tfi x <> tfi) ->
  r_step c s (RBlock fn (MDlAck tfi final)) = Ok s' -> s' = s.
Proof.
  intros c s fn tfi final s' H E. cbn [r_step rcv] in E. unfold rcv_dl_ack in E. destruct (node_at fn s) as [[id r | id | id | ]|] eqn:N; try congruence.
  destruct r; try congruence. destruct (get id s) as [x|] eqn:G; [|discriminate]. destruct (r_dir x); [|discriminate].
  destruct (Z.eqb_spec (r_tfi x) tfi) as [T|_]; [|congruence]. destruct (H id x eq_refl G T).
Qed.
Lemma wrong_request : forall c s fn w s', (forall id r, node_at fn s = Some (NPoll id r) -> r <> P_UL_ACK) -> (forall id, node_at fn s <> Some (NUsf id)) ->
  node_at fn s <> Some NSba -> r_step c s (RBlock fn (MRequest w)) = Ok s' -> s' = s.
Proof.
  intros c s fn w s' H1 H2 H3 E. cbn [r_step rcv] in E. unfold rcv_request in E. destruct (node_at fn s) as [[id r | id | id | ]|] eqn:N; try congruence.
  - destruct (ms_of w s); [|congruence]. destruct (get id s) as [x|]; [|discriminate]. destruct r; try congruence. destruct (H1 id P_UL_ACK eq_refl eq_refl).
  - destruct (ms_of w s); [|congruence]. destruct (get id s); congruence.
Qed.

(** ** Locality *)
Lemma block_local : forall c s s' fn m y, reachable c s -> r_step c s (RBlock fn m) = Ok s' -> In y (s_tbfs s) ->
  ~ expected_from s fn (r_ms y) -> ~ names s m (r_ms y) -> In y (s_tbfs s').
Proof. intros c s s' fn m y R E I NX NN. exact (rcv_local c s (reach_sound c s R) fn y I NX m s' NN E). Qed.
Lemma loss_local : forall c s s' fn y, reachable c s -> r_step c s (RExpire fn) = Ok s' -> In y (s_tbfs s) ->
  ~ expected_from s fn (r_ms y) -> In y (s_tbfs s').
Proof. intros c s s' fn y R E I NX. exact (expire_local c s (reach_sound c s R) fn y I NX s' E). Qed.

Lemma ack_ends_wait : forall c s s' fn id r x nacc, reachable c s -> polled s fn id r -> get id s = Some x ->
  r <> P_DL_ACK -> waits r (r_t x) = true -> r_step c s (RBlock fn (MAck nacc)) = Ok s' ->
  forall z, In z (s_tbfs s') -> r_id z = id -> waits r (r_t z) = false.
Proof. intros c s s' fn id r x nacc R P G NR W E. exact (answer_delivered c s fn id r x nacc s' (reach_sound c s R) P G NR W E). Qed.

(** ** Use after free *)
Lemma fault_self : forall c s o, reachable c s -> r_step c s o = Fault -> self s o.
Proof.
  intros c s o R E. pose proof (step_kept c false s o (reach_sound c s R)) as X. rewrite E in X. apply X. discriminate.
Qed.
Lemma fault_free : forall c ops, no_upgrade ops -> r_run c r_init ops <> Fault.
Proof.
  intros c ops N. apply no_fault; [apply sound_init | | exact N]. split; [|constructor].
  intros x I. destruct I.
Qed.

Definition up (id m tfi fn : Z) : list rop :=
  [RNewUl id m tfi OnPacch 10 4 8; RDo id SUaSched 0; RDo id (SUaRts true true true true) fn; RBlock fn (MAck false)].
Definition rts (id fn : Z) : rop := RDo id (SDaRts true true true true true true) fn.
Definition h_fault : list rop :=
  up 1 7 1 10 ++
  [RNewDl (Some 1) 2 7 1 10 4 1; rts 1 20; RBlock 20 (MAck false); RDo 2 SDlPoll 30; RDo 2 SDlPoll 34; RExpire 30;
   RNewDl (Some 1) 4 7 3 10 4 8; rts 1 40; RBlock 34 (MDlAck 1 false); RNewUl 3 7 2 OnPacch 10 4 8; RDo 2 SUaSched 0;
   RExpire 40; RSba 60; RBlock 60 (MRequest (ByTlli 7))] ++
  up 6 7 2 70 ++
  [RDo 6 SUlLast 0; RDo 6 SUkSched 0; RDo 6 (SUkRts true true false) 80; RBlock 80 (MAck false);
   RNewDl None 5 7 5 10 4 8; RDo 5 (SLife (LDl (DEv PCUIF_CNF))) 0; RTime 200; RDo 5 (SLife (LDl (DTimer UpgradeOk))) 0;
   rts 1 90; RBlock 90 (MAck false); RDo 5 (SLife (LDl (DEv LAST_DL_DATA))) 0; RDo 5 (SLife (LDl DFinalBlock)) 0;
   RDo 5 SDlPoll 100; RBlock 100 (MDlAck 5 true); rts 5 110; RBlock 110 (MAck false)].
Lemma used_after_free : r_run conf_default r_init h_fault = Fault.
Proof. vm_compute. reflexivity. Qed.

(** ** A poll that is taken *)
Definition h_taken : list rop :=
  up 6 7 2 70 ++ [RDo 6 SUlLast 0; RDo 6 SUkSched 0; RDo 6 (SUkRts true true false) 80; RBlock 80 MMeas].
Lemma taken_stuck : exists s x, r_run conf_default r_init h_taken = Ok s /\ s_tbfs s = [x] /\ s_nodes s = [] /\
  r_id x = 6 /\ r_tfi x = 2 /\ state (r_t x) = FINISHED /\ waits P_UL_ACK (r_t x) = true /\
  forall ops s', (forall o, In o ops -> calm 6 7 o) -> r_run conf_default s ops = Ok s' ->
    exists y, In y (s_tbfs s') /\ r_id y = 6 /\ r_tfi y = 2 /\ state (r_t y) = FINISHED /\ waits P_UL_ACK (r_t y) = true.
Proof.
  destruct (r_run conf_default r_init h_taken) as [s| |] eqn:E; vm_compute in E; try discriminate.
  injection E as <-. eexists. eexists. split; [reflexivity|]. split; [reflexivity|]. split; [reflexivity|].
  do 4 (split; [reflexivity|]). intros ops s' C R.
  assert (X : stuck_in 6 7 2 s').
  { refine (stuck_run conf_default 6 7 2 ops _ s' _ C R). split; [repeat constructor; intros []|]. split; [|intros fn []].
    eexists. split; [reflexivity|]. repeat split. }
  destruct X as (_ & (y & G & A & B & ST) & _). apply get_in in G. destruct G as (I & K). exists y. destruct ST as (_ & _ & F & W & _). splits; try assumption. unfold waits. rewrite W. reflexivity.
Qed.

(** ** Single block allocations *)
Lemma sba_run : forall c ops s s', sound c false e0 g0 s -> (sba_frames s <= s_sba s)%nat -> r_run c s ops = Ok s' ->
  (s_sba s' + sba_frames s = s_sba s + sba_frames s' + sba_taken c s ops)%nat.
Proof.
  intros c ops. induction ops as [|o ops IH]; intros s s' SO LE R; [injection R as <-; cbn [sba_taken]; lia|].
  cbn [r_run sba_taken] in *. apply andthen_ok in R. destruct R as (u & E & R). rewrite E.
  pose proof (step_sba c s o u SO LE E) as ST. assert (SU : sound c false e0 g0 u).
  { pose proof (step_kept c false s o SO) as X. rewrite E in X. apply X. discriminate. }
  assert (LU : (sba_frames u <= s_sba u)%nat) by (destruct (takes_sba s o); lia).
  specialize (IH u s' SU LU R). destruct (takes_sba s o); lia.
Qed.
Lemma sba_books : forall c ops s, r_run c r_init ops = Ok s -> s_sba s = (sba_frames s + sba_taken c r_init ops)%nat.
Proof. intros c ops s R. pose proof (sba_run c ops r_init s (sound_init c false) (le_n _) R) as X. change (sba_frames r_init) with 0%nat in X. change (s_sba r_init) with 0%nat in X. lia. Qed.
Definition h_sba : list rop := up 6 7 2 70 ++ [RSba 80; RBlock 80 (MCellChange UL 2)].
Lemma sba_lost : exists s, r_run conf_default r_init h_sba = Ok s /\ s_nodes s = [] /\ s_sba s = 1%nat /\
  forall ops s', r_run conf_default s ops = Ok s' -> (sba_frames s' < s_sba s')%nat.
Proof.
  destruct (r_run conf_default r_init h_sba) as [s| |] eqn:E; [|vm_compute in E; discriminate..].
  exists s. split; [reflexivity|]. assert (A : s_nodes s = [] /\ s_sba s = 1%nat) by (vm_compute in E; injection E as <-; split; reflexivity).
  destruct A as (A & B). split; [exact A|]. split; [exact B|]. intros ops s' R.
  assert (F : sba_frames s = 0%nat) by (unfold sba_frames; rewrite A; reflexivity).
  assert (SO : sound conf_default false e0 g0 s) by (apply reach_sound; exists h_sba; exact E).
  pose proof (sba_run conf_default ops s s' SO ltac:(lia) R). lia.
Qed.

(** Two mobiles, three TBFs, six reserved frames. *)
Definition h_busy : list rop :=
  up 1 7 1 10 ++ up 2 8 2 12 ++
  [RNewDl (Some 1) 3 7 1 10 4 8; rts 1 20; RUsf 1 24; RUsf 2 28; RSba 32; RNacc 2 36; RDo 2 SUlLast 0; RDo 2 SUkSched 0;
   RDo 2 (SUkRts true true false) 40].
