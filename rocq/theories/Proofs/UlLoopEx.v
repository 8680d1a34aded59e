(** Concrete runs of an uplink transfer with the mobile: witnesses for C72. *)
From Coq Require Import ZArith List Bool Lia.
From Verif Require Import Base.Arith Model.RlcWindow Model.RlcWindowUl Model.UlParse Model.TbfUlWindow Model.UlFrames
  Spec.UlWindowSpec Spec.UlFramesSpec Spec.UlLoopSpec Proofs.UlWindowP Proofs.UlFramesEx Proofs.UlLoopP.
Import ListNotations.
Local Open Scope Z_scope.

(** The mobile, at V(A) = [a], sends blocks in one radio block; a report is sent, heard, lost. *)
Inductive act := Snd (a : Z) (l : list Z) | Rep (rest : Z) | Hear (a : Z) | Lose.
Definition vab (h : known) (a : Z) : bool := (0 <=? a) && forallb (fun k => h (Z.of_nat k)) (seq 0 (Z.to_nat a)) && negb (h a).
Lemma vab_va h a : vab h a = true -> is_va h a.
Proof.
  unfold vab. rewrite !andb_true_iff. intros [[A B] C]. split; [lia|]. split; [|destruct (h a); [discriminate|reflexivity]].
  intros i R. rewrite forallb_forall in B. specialize (B (Z.to_nat i)). rewrite Z2Nat.id in B by lia. apply B. apply in_seq. lia.
Qed.
Definition play1 (edge : bool) (sns n : Z) (blk : Z -> mblock) (x : act) (s : uloop) : option uloop :=
  match x with
  | Snd a l =>
    let bs := map (rx_blk edge sns blk) l in
    if vab (l_known s) a && forallb (fun i => (0 <=? i) && (i <? n) && (a <=? i) && (i <? a + uws (l_o s))) l then
      match ul_rcv_llc false true (u_t (l_o s)) (l_m s) bs, uobs_step (URcv false true bs) (l_o s) with
      | Some (_, m', new, _), Some o' => Some (with_pcu s o' m' new)
      | _, _ => None
      end
    else None
  | Rep rest => if (0 <=? rest) && (rest <? 256)
    then Some (with_air s (l_air s ++ [(l_o s, pcu_report edge (ut_w (u_t (l_o s))) rest)])) else None
  | Hear a => match l_air s with
    | (o, r) :: rest => if vab (l_known s) a then Some (mk_ul (l_o s) (l_m s) (l_out s) (hears a (uws (l_o s)) n r (l_known s)) rest o) else None
    | [] => None
    end
  | Lose => match l_air s with _ :: rest => Some (with_air s rest) | [] => None end
  end.
Fixpoint play (edge : bool) (sns n : Z) (blk : Z -> mblock) (l : list act) (s : uloop) : option uloop :=
  match l with [] => Some s | x :: r => match play1 edge sns n blk x s with Some s' => play edge sns n blk r s' | None => None end end.

Lemma play1_step edge sns n blk x s s' : play1 edge sns n blk x s = Some s' -> lstep edge sns n blk s s'.
Proof.
  destruct x as [a l|rest|a|]; cbn [play1].
  - destruct (vab (l_known s) a) eqn:V; [|discriminate]. cbn [andb]. destruct (forallb _ l) eqn:FA; [|discriminate].
    destruct (ul_rcv_llc _ _ _ _ _) as [[[[t' m'] new] fin]|] eqn:E1; [|discriminate].
    destruct (uobs_step _ _) as [o'|] eqn:E2; [|discriminate]. intros E. injection E as <-.
    eapply L_send; [exact (vab_va _ _ V)| | |exact E1|exact E2].
    + right. apply Forall_forall. intros b B. apply in_map_iff in B. destruct B as (i & <- & _). reflexivity.
    + apply Forall_forall. intros b B. apply in_map_iff in B. destruct B as (i & <- & B). rewrite forallb_forall in FA. specialize (FA i B).
      exists i. split; [lia|]. split; [lia|]. split; reflexivity.
  - destruct ((0 <=? rest) && (rest <? 256)) eqn:R; [|discriminate]. intros E. injection E as <-. apply L_report. lia.
  - destruct (l_air s) as [|[o r] rest] eqn:A; [discriminate|]. destruct (vab (l_known s) a) eqn:V; [|discriminate].
    intros E. injection E as <-. exact (L_hears edge sns n blk s a o r rest (vab_va _ _ V) A).
  - destruct (l_air s) as [|y rest] eqn:A; [discriminate|]. intros E. injection E as <-. exact (L_lost edge sns n blk s [] y rest A).
Qed.
Lemma play_steps edge sns n blk : forall l s s', play edge sns n blk l s = Some s' -> lsteps edge sns n blk s s'.
Proof.
  induction l as [|x l IH]; intros s s' E; cbn [play] in E; [injection E as <-; apply L_refl|].
  destruct (play1 edge sns n blk x s) as [s1|] eqn:E1; [|discriminate].
  apply steps_trans with s1; [|exact (IH _ _ E)]. eapply L_more; [apply L_refl|]. exact (play1_step _ _ _ _ _ _ _ E1).
Qed.
Definition got (x : option uloop) (d : uloop) : uloop := match x with Some s => s | None => d end.
Definition ran {A} (x : option A) : bool := match x with Some _ => true | None => false end.
Lemma is_loop edge sns ws n blk l : loop_params edge sns ws -> ran (play edge sns n blk l (lstart sns ws)) = true ->
  ul_loop edge sns n blk ws (got (play edge sns n blk l (lstart sns ws)) (lstart sns ws)).
Proof.
  intros P R. split; [exact P|]. destruct (play edge sns n blk l (lstart sns ws)) as [s|] eqn:E; [|discriminate].
  exact (play_steps _ _ _ _ _ _ _ E).
Qed.

(** GPRS: block 1 arrives, block 0 is lost; the report is heard; block 0 arrives, its report is lost; block 2 arrives,
    and its report is heard. *)
Definition gacts1 : list act := [Snd 0 [1]; Rep 0; Hear 0; Snd 0 [0]; Rep 0].
Definition gacts2 : list act := gacts1 ++ [Lose; Snd 0 [2]; Rep 0; Hear 0].
Definition grun (l : list act) : uloop := got (play false 128 3 gblk l (lstart 128 64)) (lstart 128 64).
Lemma grun1 : ul_loop false 128 3 gblk 64 (grun gacts1).
Proof. apply is_loop; [split; reflexivity|vm_compute; reflexivity]. Qed.
Lemma grun2 : ul_loop false 128 3 gblk 64 (grun gacts2).
Proof. apply is_loop; [split; reflexivity|vm_compute; reflexivity]. Qed.
(** EGPRS: blocks 2 and 1 in one radio block, the report has room for one bit; then block 0. *)
Definition eacts1 : list act := [Snd 0 [2; 1]; Rep 1; Hear 0].
Definition eacts2 : list act := eacts1 ++ [Snd 0 [0]; Rep 1; Hear 0].
Definition erun (l : list act) : uloop := got (play true 2048 3 eblk l (lstart 2048 64)) (lstart 2048 64).
Lemma erun1 : ul_loop true 2048 3 eblk 64 (erun eacts1).
Proof. apply is_loop; [split; [reflexivity|lia]|vm_compute; reflexivity]. Qed.
Lemma erun2 : ul_loop true 2048 3 eblk 64 (erun eacts2).
Proof. apply is_loop; [split; [reflexivity|lia]|vm_compute; reflexivity]. Qed.

(** A frame of 1280 octets in 64 blocks of 20 octets; the first one to arrive is the last one. *)
Definition sblk (i : Z) : mblock := mk_mb (if i =? 63 then 0 else 15) None (Whole (repeat 7 20)).
Definition sframe : list Z := repeat 7 (Z.to_nat 1280).
Lemma smobile : mobile false 64 sblk [sframe].
Proof.
  constructor; [lia| | |vm_compute; reflexivity|constructor; [vm_compute; discriminate|constructor]].
  - intros i R. split; [exact I|]. split; [exact I|]. change (block_octets false (sblk i)) with (repeat 7 20).
    split; [vm_compute; split; discriminate|]. apply octs. vm_compute. reflexivity.
  - intros i R. cbn [sblk b_cv]. destruct (i =? 63) eqn:E; split; intros; try discriminate; lia.
Qed.
Definition sacts : list act := Snd 0 [63] :: map (fun k => Snd 0 [Z.of_nat k]) (seq 0 63).
Definition srun : uloop := got (play false 128 64 sblk sacts (lstart 128 64)) (lstart 128 64).
Lemma srun_loop : ul_loop false 128 64 sblk 64 srun.
Proof. apply is_loop; [split; reflexivity|vm_compute; reflexivity]. Qed.
Lemma srun_stuck : stuck 64 (l_o srun).
Proof. unfold stuck, rec. vm_compute. auto. Qed.
Lemma stuck_gprs : exists n blk F ws s, mobile false n blk F /\ ul_loop false 128 n blk ws s /\
  forall s', lsteps false 128 n blk s s' -> u_Q (l_o s') < n /\ l_out s' <> F /\ (forall a, is_va (l_known s') a -> a < n).
Proof.
  exists 64, sblk, [sframe], 64, srun. split; [exact smobile|]. split; [exact srun_loop|]. intros s' S.
  destruct (stuck_forever false 128 64 64 sblk [sframe] smobile (conj eq_refl eq_refl) srun s' srun_loop srun_stuck S) as (A & B & C).
  split; [rewrite A; reflexivity|]. split; [|exact B]. rewrite C. vm_compute. discriminate.
Qed.
