(** Access bursts over the PCU interface (C73). *)
From Coq Require Import ZArith List Bool Lia.
From Verif Require Import Model.FrameNo Model.BtsConf Model.PcuIf Spec.PcuIfSpec Proofs.FrameP Proofs.PcuIfP
  Proofs.PcuIfQ Proofs.PcuIfR Proofs.PcuIfS Proofs.PcuIfT Proofs.PcuIfU.
Import ListNotations.
Local Open Scope Z_scope.

Lemma rach_len : forall ar m, length (enc_rach ar m) = 15%nat.
Proof. intros ar m. unfold enc_rach. rewrite !app_length, !octets_le_length. reflexivity. Qed.
Lemma pos_enc_rach : forall ar m, u16 ar -> ok_rach m -> pos_rach (enc_rach ar m) = m.
Proof.
  intros ar m A M. pose proof (layout_rach ar m A M []) as L. rewrite app_nil_r in L.
  rewrite rach_at in L by (rewrite rach_len by easy; lia).
  apply (f_equal (fun x => match x with Some (a, _) => a | None => m end)) in L. exact L.
Qed.
Lemma access_rx : forall e s ar m nr b, u16 ar -> ok_rach m -> find_bts s nr = Some b ->
  sock_read e s (header RACH_IND nr ++ enc_rach ar m) = rx_rach e s b m.
Proof.
  intros e s ar m nr b Ha Hm Fb. pose proof (rach_len ar m) as L.
  rewrite read_msg by lia. rewrite (rx_have _ _ _ _ _ b Fb). unfold disp, RACH_IND.
  change (34 =? 2) with false. change (34 =? 17) with false. change (34 =? 16) with false. change (34 =? 34) with true. cbn iota.
  unfold short. rewrite L. change (Z.of_nat 15 <? 15) with false. cbn iota. now rewrite (pos_enc_rach ar m Ha Hm).
Qed.
Lemma access : forall e s ar m nr b a, u16 ar -> ok_rach m -> find_bts s nr = Some b -> ri_sapi m = 1 ->
  0 <= b_fn b < HYP -> 0 <= a < 21216 -> ri_fn m = (b_fn b - a) mod HYP ->
  sock_read e s (header RACH_IND nr ++ enc_rach ar m) =
  Done s [ARach nr (ri_burst m) (0 <? ri_11 m) (ri_ra m) (ri_trx m) (ri_ts m) (ri_fn m mod 42432) (ri_fn m) (ri_qta m)] (e_rc e).
Proof.
  intros e s ar m nr b a Ha Hm Fb S1 Hb Hal Hf. rewrite (access_rx e s ar m nr b Ha Hm Fb).
  assert (Nb : b_nr b = nr) by now apply find_in in Fb.
  unfold rx_rach. pose proof (Z.mod_pos_bound (b_fn b - a) HYP ltac:(reflexivity)) as Mb. rewrite <- Hf in Mb.
  destruct (Z.ltb_spec (HYP - 1) (ri_fn m)); [lia|]. cbv zeta.
  pose proof (rfn_past (b_fn b) a Hb Hal) as P. rewrite <- Hf in P.
  rewrite P, S1. change (1 =? 1) with true. cbn iota. now rewrite Nb.
Qed.
Lemma access_no_frame : forall e s ar m nr, u16 ar -> ok_rach m -> find_bts s nr <> None -> HYP <= ri_fn m ->
  sock_read e s (header RACH_IND nr ++ enc_rach ar m) = Done s [] EINVAL.
Proof.
  intros e s ar m nr Ha Hm F Hf. destruct (find_bts s nr) as [b|] eqn:Fb; [|congruence].
  rewrite (access_rx e s ar m nr b Ha Hm Fb). unfold rx_rach. destruct (Z.ltb_spec (HYP - 1) (ri_fn m)); [easy|lia].
Qed.
