(** Two transfers. *)
From Coq Require Import ZArith List Bool Lia.
From Verif Require Import Base.Arith Model.CodingScheme Model.RlcWindow Model.RlcWindowDl Model.TbfDlWindow Model.Segment Model.DlTransfer
  Spec.SegSpec Spec.DlWindowSpec Spec.DlLoopSpec Spec.DlTransferSpec Proofs.DlTransferR Proofs.DlTransferS.
Import ListNotations.
Local Open Scope Z_scope.

Definition sent_or (edge : bool) (k : pick) (s : xfer) : xfer :=
  match d_send edge false k None false false (t_x s) with
  | Some (x, air) => mk_xfer x (t_in s) air (t_have s) (t_got s) (t_rep s) (t_over s)
  | None => s
  end.
Definition got (edge : bool) (q : Z) (s : xfer) : xfer :=
  match t_air s with
  | (b, sb) :: _ => let i := q + (b - q) mod space edge in
      mk_xfer (t_x s) (t_in s) (t_air s) (upd (t_have s) i true) (upd (t_got s) i sb) (t_rep s) (t_over s)
  | [] => s
  end.
Definition queued (f : list Z) (s : xfer) : xfer :=
  mk_xfer (d_queue f (t_x s)) (t_in s ++ [f]) (t_air s) (t_have s) (t_got s) (t_rep s) (t_over s).
Definition told (a : answer) (s : xfer) : xfer :=
  match d_report (bits_of_answer a (x_w (t_x s))) (t_x s) with
  | Some x => mk_xfer x (t_in s) (t_air s) (t_have s) (t_got s) [] (t_over s)
  | None => s
  end.
Definition ended (s : xfer) : xfer := mk_xfer (t_x s) (t_in s) (t_air s) (t_have s) (t_got s) (t_rep s) true.

Lemma xs_snoc edge pre mw a b c : xsteps edge pre mw a b -> xstep edge pre mw b c -> xsteps edge pre mw a c.
Proof. intros X Y. eapply xs_trans; [exact X|apply xs_one, Y]. Qed.

(** GPRS: two frames in one final block. *)
Definition g_pick : pick := mk_pick CS1 (fun _ => false).
Definition f3 : list Z := [1; 2; 3].
Definition f16 : list Z := repeat 7 16.
Definition g1 := queued f16 (queued f3 (xfer_new 128 64)).
Definition g2 := sent_or false g_pick g1.
Definition g3 := got false 0 g2.
Definition g4 := ended g3.
Lemma g_steps : xreach false false 64 64 g4 /\ gets false g4 [f3] /\ t_in g4 = [f3; f16] /\ left_over g4 = [].
Proof.
  assert (AIR : t_air g2 = [(0, mk_sb false true (sb_oct (snd (hd (0, mk_sb false false []) (t_air g2)))))]) by (vm_compute; reflexivity).
  assert (V : is_vq (t_have g4) 1).
  { split; [lia|]. split; [|reflexivity]. intros i I. assert (i = 0) as -> by lia. reflexivity. }
  split; [split; [unfold sizes, dl_params, sns_ok, space; lia|]|].
  - unfold g4. eapply xs_snoc.
    2:{ apply (X_final false false 64 g3 1); [exact V|lia|vm_compute; reflexivity]. }
    unfold g3, got. rewrite AIR. eapply xs_snoc.
    2:{ cbv zeta. rewrite <- AIR. apply (X_receive false false 64 g2 0 _ 0); [rewrite AIR; left; reflexivity| |reflexivity].
        split; [lia|]. split; [lia|reflexivity]. }
    eapply xs_snoc.
    2:{ apply (X_send false false 64 g1 g_pick None false false (t_x g2) (t_air g2)); [reflexivity|reflexivity|exact Logic.I|vm_compute; reflexivity]. }
    unfold g1. eapply xs_snoc; [|apply X_frame; discriminate]. apply xs_one, X_frame. discriminate.
  - split; [|split; reflexivity]. exists 1, []. split; [exact V|]. vm_compute. reflexivity.
Qed.

(** EGPRS: the first block is lost; the second arrives, and the mobile says which one it lacks. *)
Definition e_pick (keep : bool) : pick := mk_pick MCS1 (fun _ => keep).
Definition f30 : list Z := repeat 9 30.
Definition e0 := queued f3 (queued f30 (xfer_new 2048 64)).
Definition e1 := sent_or true (e_pick true) e0.
Definition e2 := sent_or true (e_pick false) e1.
Definition e3 := got true 0 e2.
Definition e_ans : answer := Egprs 1 None [true].
Definition e4 := mk_xfer (t_x e3) (t_in e3) (t_air e3) (t_have e3) (t_got e3) [(t_have e3, e_ans)] (t_over e3).
Definition e5 := told e_ans e4.
Definition e6 := sent_or true (e_pick false) e5.
Definition e7 := got true 0 e6.
Definition e8 := ended e7.
Definition nosb : Z * sent_block := (0, mk_sb false false []).
Lemma e_steps : xreach true false 64 64 e8 /\ gets true e8 [f30; f3] /\ t_in e8 = [f30; f3] /\ left_over e8 = [] /\
  xreach true false 64 64 e3 /\ gets true e3 [] /\ t_over e3 = false.
Proof.
  assert (A2 : t_air e2 = [(1, snd (hd nosb (t_air e2)))]) by (vm_compute; reflexivity).
  assert (A6 : t_air e6 = [(0, snd (hd nosb (t_air e6)))]) by (vm_compute; reflexivity).
  assert (V0 : is_vq (t_have e2) 0) by (split; [lia|]; split; [lia|reflexivity]).
  assert (V3 : is_vq (t_have e3) 0) by (split; [lia|]; split; [lia|reflexivity]).
  assert (V6 : is_vq (t_have e6) 0) by (split; [lia|]; split; [lia|reflexivity]).
  assert (V : is_vq (t_have e8) 2).
  { split; [lia|]. split; [|reflexivity]. intros i I. assert (i = 0 \/ i = 1) as [-> | ->] by lia; reflexivity. }
  assert (SZ : sizes true 64 64) by (unfold sizes, dl_params, sns_ok, space; lia).
  assert (X3 : xsteps true false 64 (xfer_new (space true) 64) e3).
  { unfold e3, got. rewrite A2. eapply xs_snoc.
    2:{ cbv zeta. rewrite <- A2. apply (X_receive true false 64 e2 1 _ 0); [rewrite A2 at 2; left; reflexivity|exact V0|reflexivity]. }
    eapply xs_snoc.
    2:{ apply (X_send true false 64 e1 (e_pick false) None false false (t_x e2) (t_air e2)); [reflexivity|reflexivity|exact Logic.I|vm_compute; reflexivity]. }
    eapply xs_snoc.
    2:{ apply (X_send true false 64 e0 (e_pick true) None false false (t_x e1) (t_air e1)); [reflexivity|reflexivity|exact Logic.I|vm_compute; reflexivity]. }
    unfold e0. eapply xs_snoc; [|apply X_frame; discriminate]. apply xs_one, X_frame. discriminate. }
  split; [split; [exact SZ|]|].
  - unfold e8. eapply xs_snoc.
    2:{ apply (X_final true false 64 e7 2); [exact V|lia|vm_compute; reflexivity]. }
    unfold e7, got. rewrite A6. eapply xs_snoc.
    2:{ cbv zeta. rewrite <- A6. apply (X_receive true false 64 e6 0 _ 0); [rewrite A6 at 2; left; reflexivity|exact V6|reflexivity]. }
    eapply xs_snoc.
    2:{ apply (X_send true false 64 e5 (e_pick false) None false false (t_x e6) (t_air e6)); [reflexivity|reflexivity|exact Logic.I|vm_compute; reflexivity]. }
    eapply xs_snoc.
    2:{ apply (X_arrives true false 64 e4 (t_have e3) e_ans [] (t_x e5)); [reflexivity|reflexivity|vm_compute; reflexivity]. }
    eapply xs_snoc; [exact X3|]. apply (X_answer true false 64 e3 e_ans). exists 0. split; [exact V3|]. split; [reflexivity|].
    intros k K. cbn [length] in K. assert (k = 0%nat) as -> by lia. reflexivity.
  - split; [exists 2, []; split; [exact V|vm_compute; reflexivity]|]. split; [reflexivity|]. split; [reflexivity|].
    split; [split; [exact SZ|exact X3]|]. split; [|reflexivity]. exists 0, []. split; [exact V3|reflexivity].
Qed.

(** From any state without final block every frame can get to an EGPRS mobile. *)
Lemma all_arrive pre ws mw s : xreach true pre ws mw s -> t_over s = false -> x_fin (t_x s) = false ->
  exists s' frames tags, xsteps true pre mw s s' /\ t_in s' = t_in s /\ complete s' /\ gets true s' frames /\ tagged tags frames /\ real tags = t_in s.
Proof.
  intros RC OV F. destruct (live_end _ _ _ _ _ RC OV) as (s' & ST & O & I & _ & L). specialize (L F).
  assert (RC' : xreach true pre ws mw s') by (destruct RC as [SZ R]; split; [exact SZ|eapply xs_trans; eassumption]).
  destruct (gets_some _ _ _ _ _ RC') as [frames G].
  destruct (complete_egprs _ _ _ _ _ RC' (or_introl O) G) as (tags & T & E). exists s', frames, tags.
  split; [exact ST|]. split; [exact I|]. split; [left; exact O|]. split; [exact G|]. split; [exact T|]. rewrite <- I, E, L, app_nil_r. reflexivity.
Qed.
