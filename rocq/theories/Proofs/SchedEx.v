(** Concrete situations for the scheduler. *)
From Coq Require Import ZArith List Bool Lia.
From Verif Require Import Base.Arith Model.FrameNo Model.UlController Model.CodingScheme Model.Sched
  Model.DlBlockTx Spec.FrameSpec Spec.SchedSpec Proofs.FrameP Proofs.UlcP Proofs.SchedP Proofs.SchedQ.
Import ListNotations.
Local Open Scope Z_scope.

Definition conf0 : sconf := mk_sconf 5000 2000 true.
Definition ul_at (l : list (Z * ultbf)) (t : Z) : option ultbf :=
  option_map snd (find (fun p => fst p =? t) l).
Definition dl_at (l : list (Z * dltbf)) (t : Z) : option dltbf :=
  option_map snd (find (fun p => fst p =? t) l).
(** A GPRS and two EGPRS uplink TBFs. *)
Definition uls : list (Z * ultbf) :=
  [(3, mk_ul 103 true false 0 GPRS); (7, mk_ul 107 true true 1 EGPRS); (30, mk_ul 130 true true 2 EGPRS)].
(** An EGPRS downlink TBF with new data, one with data to resend that must be polled, a
    GPRS one with nothing but unacknowledged blocks. *)
Definition d_new : dltbf := mk_dl 200 0 true false false 3 false true false false false 0 (-1).
Definition d_poll : dltbf := mk_dl 205 0 true true false 20 false true true false false 0 (-1).
Definition d_sent : dltbf := mk_dl 209 1 false false false 3 false false false false false 0 (-1).
Definition dls : list (Z * dltbf) := [(2, d_new); (5, d_poll); (9, d_sent)].
Definition env0 (dl : list (Z * dltbf)) : senv :=
  mk_env conf0 (ul_at uls) (dl_at dl)
    (fun b => option_map snd (find (fun p => u_id (snd p) =? b) uls))
    [] [] (fun _ _ => true) false false (fun _ => true) true 6 0 false.
Definition same (t : tree) : tree := t.

(** The invitation of a GPRS mobile goes out with a block of an EGPRS TBF that resends. *)
Lemma usf_bad : exists e s fn bn s' o u nul t tfi d,
  rts_step same e s fn bn = (s', o) /\ rts_uplink same e s fn bn = (Some u, nul, t, EGPRS_GMSK) /\
  u_mode u = GPRS /\ o_usf o = u_usf u /\ e_dl e tfi = Some d /\
  o_block o = SbData tfi true EGPRS_GMSK 5 /\ resends (e_conf e) d = true /\
  retx_scheme MCS8 MCS1 true = Some MCS8 /\ retx_scheme MCS9 MCS1 false = Some MCS6.
Proof.
  exists (env0 dls), ps_init, 0, 0.
  eexists (fst (rts_step same (env0 dls) ps_init 0 0)), (snd (rts_step same (env0 dls) ps_init 0 0)).
  exists (mk_ul 103 true false 0 GPRS). eexists _, _. exists 5, d_poll.
  split; [apply surjective_pairing|]. split; [vm_compute; reflexivity|].
  repeat (split; [vm_compute; reflexivity|]). vm_compute; reflexivity.
Qed.
(** The same for a TBF with new data whose window is full. *)
Definition d_stall : dltbf := mk_dl 205 0 true true false 3 false true false false true 0 (-1).
Lemma usf_bad_stalled : exists e s fn bn s' o u nul t tfi d,
  rts_step same e s fn bn = (s', o) /\ rts_uplink same e s fn bn = (Some u, nul, t, EGPRS_GMSK) /\
  u_mode u = GPRS /\ o_usf o = u_usf u /\ e_dl e tfi = Some d /\ d_resend d = false /\
  o_block o = SbData tfi true EGPRS_GMSK 3 /\ resends (e_conf e) d = true.
Proof.
  exists (env0 [(5, d_stall)]), ps_init, 0, 0.
  eexists (fst (rts_step same (env0 [(5, d_stall)]) ps_init 0 0)), (snd (rts_step same (env0 [(5, d_stall)]) ps_init 0 0)).
  exists (mk_ul 103 true false 0 GPRS). eexists _, _. exists 5, d_stall.
  split; [apply surjective_pairing|]. split; [vm_compute; reflexivity|].
  repeat (split; [vm_compute; reflexivity|]). vm_compute; reflexivity.
Qed.

(** With splitting of blocks (the default) all but MCS-8 blocks are resent in GMSK. *)
Definition egprs_schemes : list scheme := [MCS1; MCS2; MCS3; MCS4; MCS5; MCS6; MCS7; MCS8; MCS9].
Lemma retx_chk : forallb (fun i => forallb (fun c =>
    seqb i MCS8 || match retx_scheme i c true with Some x => mcs_is_edge_gmsk x | None => false end)
    [MCS1; MCS2; MCS3; MCS4]) egprs_schemes = true.
Proof. vm_compute. reflexivity. Qed.
Lemma retx_gmsk i c : In i egprs_schemes -> In c [MCS1; MCS2; MCS3; MCS4] -> i <> MCS8 ->
  exists x, retx_scheme i c true = Some x /\ In x [MCS1; MCS2; MCS3; MCS4].
Proof.
  intros I C NE. pose proof (proj1 (forallb_forall _ _) retx_chk i I) as Q. cbv beta in Q.
  pose proof (proj1 (forallb_forall _ _) Q c C) as W. cbv beta in W.
  apply orb_true_iff in W. destruct W as [W|W].
  - destruct i; try discriminate. contradiction.
  - destruct (retx_scheme i c true) as [x|]; [|discriminate]. exists x. split; auto.
    destruct x; try discriminate; cbn [In]; tauto.
Qed.

(** Seventeen blocks for EGPRS, then one for GPRS. *)
Definition run18 : list rts :=
  map (fun n => mk_rts (env0 [(2, d_new); (9, d_sent)]) (fst n) (snd n))
    [(0,0);(4,1);(8,2);(13,3);(17,4);(21,5);(26,6);(30,7);(34,8);(39,9);(43,10);(47,11);
     (52,0);(56,1);(60,2);(65,3);(69,4);(73,5)].
Lemma run18_out : map o_block (snd (rts_run same run18 ps_init)) =
  [SbData 2 true EGPRS_GMSK 3] ++ repeat (SbData 2 true EGPRS 3) 2 ++
  flat_map (fun _ => [SbData 2 true EGPRS_GMSK 3; SbData 2 true EGPRS 3; SbData 2 true EGPRS 3]) (seq 0 4) ++
  [SbData 2 true EGPRS_GMSK 3; SbData 2 true EGPRS 3; SbData 9 false GPRS 1].
Proof. vm_compute. reflexivity. Qed.

(** A block asked for twice: two mobiles invited to the same uplink block. *)
Lemma repeated_bad : exists e s s' o s'' o' b,
  rts_step same e s 0 0 = (s', o) /\ rts_step same e s' 0 0 = (s'', o') /\
  get_node (p_ulc s') 4 = Some (mk_item 4 (OUsf b)) /\ get_node (p_ulc s'') 4 = Some (mk_item 4 (OUsf b)) /\
  o_usf o <> o_usf o' /\ o_usf o' <> 7.
Proof.
  exists (env0 dls), ps_init.
  exists (fst (rts_step same (env0 dls) ps_init 0 0)), (snd (rts_step same (env0 dls) ps_init 0 0)).
  exists (fst (rts_step same (env0 dls) (fst (rts_step same (env0 dls) ps_init 0 0)) 0 0)).
  exists (snd (rts_step same (env0 dls) (fst (rts_step same (env0 dls) ps_init 0 0)) 0 0)). exists 103.
  split; [apply surjective_pairing|]. split; [apply surjective_pairing|].
  split; [vm_compute; reflexivity|]. split; [vm_compute; reflexivity|].
  split; vm_compute; discriminate.
Qed.

(** EGPRS TBFs are passed over in synchronisation blocks. *)
Lemma sync_starves n : exists l t, length l = n /\ tfi_ok t /\
  (forall ul g, In (ul, g) l -> exists u, ul t = Some u /\ u_flow u = true) /\ ~ In (Some t) (ul_rounds l 0).
Proof.
  exists (repeat (ul_at uls, true) n), 7. split; [|split; [|split]].
  - apply repeat_length.
  - unfold tfi_ok. lia.
  - intros ul g I. apply repeat_spec in I. injection I as -> ->. exists (mk_ul 107 true true 1 EGPRS). split; reflexivity.
  - intros I.
    assert (Q : forall n next, tfi_ok next -> ~ In (Some 7) (ul_rounds (repeat (ul_at uls, true) n) next)).
    { clear. induction n; intros next N; [intros []|]. cbn [repeat ul_rounds].
      destruct (select_uplink (ul_at uls) true next) as [[[a u]|] next'] eqn:E.
      - destruct (select_uplink_some _ _ _ _ _ _ N E) as ((T & x & X & _ & G) & _ & -> & _). cbn [option_map fst].
        intros [W|W]; [|revert W; apply IHn; unfold tfi_ok; apply Z.mod_pos_bound; lia].
        injection W as ->. vm_compute in X. injection X as <-. specialize (G eq_refl). discriminate.
      - apply select_uplink_idle in E. subst. cbn [option_map]. intros [W|W]; [discriminate|].
        revert W; apply IHn; auto. }
    revert I. apply Q. unfold tfi_ok. lia.
Qed.

(** ** Control messages *)

Definition t_both : ctbf := mk_ct 7 true true false false true false false.
Definition r_both : cround := mk_cr (fun _ _ => true) false false (candidates [t_both] []).
(** A neighbour cell message of a TBF that always has an acknowledgement to send. *)
Lemma nacc_starves n : exists l, length l = n /\ Forall (fun r => no_app r /\ due r KNacc t_both) l /\
  (forall prio m, 0 <= prio < 4 -> In (Some m) (ctrl_rounds l prio) -> m_kind m <> KNacc).
Proof.
  exists (repeat r_both n). splits.
  - apply repeat_length.
  - apply Forall_forall. intros r I. apply repeat_spec in I. subst r. split.
    + intros t E. vm_compute in E. discriminate.
    + vm_compute. auto.
  - induction n; intros prio m P; [intros []|]. cbn [repeat ctrl_rounds].
    assert (R : r_sent (cr_run r_both prio) = Some (mk_cmsg KUlAck (Some 7)) /\ r_prio (cr_run r_both prio) = (prio + 1) mod 4).
    { assert (E : prio = 0 \/ prio = 1 \/ prio = 2 \/ prio = 3) by lia.
      destruct E as [-> | [-> | [-> | ->]]]; vm_compute; auto. }
    destruct R as [-> ->]. intros [W|W].
    + injection W as <-. discriminate.
    + apply (IHn ((prio + 1) mod 4)); auto. apply Z.mod_pos_bound. lia.
Qed.

(** Packet Application Information is always lost, and its flag cleared. *)
Lemma app_lost r prio t : k_dl_ass (cr_cands r) = Some t -> t_app t = true -> cr_stored r = true ->
  r_made (cr_run r prio) = Some (mk_cmsg KApp None) /\ r_sent (cr_run r prio) = None /\ r_cleared (cr_run r prio) = true.
Proof. intros E A S. unfold cr_run, select_ctrl. rewrite E, A, S. auto. Qed.
Lemma app_bad : exists r prio, r_made (cr_run r prio) <> None /\ r_sent (cr_run r prio) = None /\ r_cleared (cr_run r prio) = true.
Proof.
  exists (mk_cr (fun _ _ => true) true false (candidates [] [mk_ct 1 false false true false false false true])), 0.
  vm_compute. splits; auto; discriminate.
Qed.
