(** The PACKET UPLINK ASSIGNMENT: sent or not, and read. *)
From Coq Require Import ZArith List Bool Lia.
From Verif.Model Require Import CodingScheme Csn1 Csn1Tables Csn1Enc BtsConf Assign.
From Verif.Spec Require Import AssignSpec AssignTold.
From Verif.Proofs Require Import Csn1Emit AssignRead AssignMem AssignFits Csn1Close AssignUp AssignUpMsg.
Import ListNotations.
Open Scope Z_scope.

Lemma advance_told_ok t p : tbf_ok t p -> advance_ok (advance_of t).
Proof.
  intros (_ & TA & _). unfold advance_of, advance_ok, in_bits. cbn [a_value a_index]. split.
  - intros v V. destruct (t_ta t <? 64) eqn:E; [|discriminate V]. injection V as <-. apply Z.ltb_lt in E. lia.
  - intros q V. discriminate V.
Qed.
Lemma frequency_told_ok t p : tbf_ok t p -> frequency_ok (frequency_of p).
Proof.
  intros (_ & _ & _ & _ & _ & _ & _ & _ & T & AR & H). unfold frequency_of, carrier_of, frequency_ok, in_bits. cbn [f_tsc f_carrier].
  split; [lia|]. destruct (s_hop p) as [h|]; [|lia]. destruct (H h eq_refl) as (H1 & H2 & H3 & H4).
  rewrite last_len by lia. lia.
Qed.
Lemma dynamic_told_ok t p d alpha gamma rrbp : tbf_ok t p -> cell_ok d alpha gamma rrbp -> dynamic_ok (dynamic_of t alpha gamma).
Proof.
  intros OK (_ & AL & GA & _). pose proof (shares_len (powered_by alpha gamma) gamma t p OK) as SL.
  destruct OK as (TF & _ & _ & _ & _ & US & _). unfold dynamic_ok, dynamic_of, powered, in_bits. cbn [y_tfi y_alpha y_slots].
  split; [lia|]. split; [|split; [exact SL|]].
  - intros a A. destruct (powered_by alpha gamma); [|discriminate A]. injection A as <-. lia.
  - intros s I. unfold shares in I. apply in_map_iff in I. destruct I as ([q u] & E & I). destruct q as [q|]; [|discriminate E].
    injection E as <-. apply in_combine_r in I. pose proof (US u I) as U. unfold share_ok, in_bits. cbn [h_usf h_gamma].
    split; [lia|]. destruct (powered_by alpha gamma); [split; [reflexivity|lia]|reflexivity].
Qed.
Lemma told_ok d tlli t p alpha gamma rrbp c : tbf_ok t p -> cell_ok d alpha gamma rrbp -> 0 <= tlli < 2 ^ 32 -> coding_ok c ->
  uplink_ok (uplink_told d tlli t p alpha gamma rrbp c).
Proof.
  intros OK CE TL C. rewrite told_eq. unfold uplink_ok. cbn [u_to u_coding u_advance u_frequency u_dynamic].
  split; [|split; [exact C|split; [now apply advance_told_ok with p|split]]].
  - unfold who_ul, who_ok, in_bits. destruct CE. destruct (tlli =? RESERVED_TLLI); lia.
  - intros f F. injection F as <-. now apply frequency_told_ok with t.
  - now apply dynamic_told_ok with p d rrbp.
Qed.

Definition of_cs (t : tbf) (egprs : bool) : coding :=
  if egprs then Egprs (mcs_chan_code (t_cs t)) true 64 else Gprs (mcs_chan_code (t_cs t)).
Lemma uplink_outcome junk d tlli t p alpha gamma rrbp : tbf_ok t p -> cell_ok d alpha gamma rrbp -> 0 <= tlli < 2 ^ 32 ->
  coding_ok (of_cs t (d_egprs d)) -> (d_egprs d = true -> window_ok (t_window t)) ->
  let told := uplink_told d tlli t p alpha gamma rrbp (of_cs t (d_egprs d)) in
  match create_packet_ul_assign junk d tlli t alpha gamma rrbp with
  | Sent b => length b = 184%nat /\ reads r_uplink b = Some told
  | NotSent => 176 < len (uplink_bits told)
  | Aborted => False
  end.
Proof.
  intros OK CE TL C WO told. pose proof (told_ok d tlli t p alpha gamma rrbp _ OK CE TL C) as TO. fold told in TO.
  unfold create_packet_ul_assign, encoded.
  destruct (write_packet_uplink_assignment _ _ _ _ _ _ _ _ _ _) as [m|] eqn:W.
  2: { unfold write_packet_uplink_assignment in W. rewrite (first_ok t p OK) in W. discriminate W. }
  assert (G : gen full 0 (erun m (enc m) 0 T_Packet_Uplink_Assignment_t 0) (uplink_bits told)).
  { unfold told, of_cs. destruct (d_egprs d) eqn:E; rewrite <- E in W.
    - apply (egprs_gen junk d tlli t p alpha gamma rrbp m OK E (WO eq_refl)); exact W.
    - apply (gprs_gen junk d tlli t p alpha gamma rrbp m OK E); exact W. }
  pose proof (encode_gen m full 0 _ _ rrbp (fun r t X => proj1 X) G) as X. destruct (encode_dl _ _ _ _ _ _) as [b|].
  - destruct X as (tl & -> & L & F). split; [exact L|]. apply uplink_read; [|exact TO|apply F|reflexivity].
    destruct CE as (_ & _ & _ & R). unfold in_bits. lia.
  - lia.
Qed.

(** ** Length *)
Lemma shares_bits_len pw gamma slots : forall usf, length slots = length usf ->
  len (slots_bits (shares pw gamma slots usf)) = Z.of_nat (length slots) + (if pw then 8 else 3) * slot_count slots.
Proof.
  unfold slot_count. induction slots as [|q r IH]; intros usf L; destruct usf as [|u v]; cbn [length] in L; try discriminate L.
  - destruct pw; reflexivity.
  - injection L as L. specialize (IH v L). unfold shares, slots_bits in *. cbn [combine map concat length filter].
    rewrite len_app, IH. destruct q as [q|]; cbn [given optb]; destruct pw; unfold share_bits; cbn [h_usf h_gamma length];
      rewrite ?len_cons, ?len_app, ?fb_lenz, ?len_nil; lia.
Qed.
Lemma uplink_len d tlli t p alpha gamma rrbp egprs : tbf_ok t p -> s_hop p = None -> slot_count (t_slots t) <= 7 ->
  len (uplink_bits (uplink_told d tlli t p alpha gamma rrbp (of_cs t egprs))) <= 176.
Proof.
  intros OK H S. pose proof OK as (_ & _ & _ & L & U & _).
  assert (SB := shares_bits_len (powered_by alpha gamma) gamma (t_slots t) (t_usf t) ltac:(congruence)). rewrite L in SB.
  assert (S0 : 0 <= slot_count (t_slots t)) by (unfold slot_count; lia).
  rewrite told_eq. unfold uplink_bits, of_cs, who_ul, advance_of, frequency_of, carrier_of, dynamic_of, dynamic_bits, start_bits. cbv zeta.
  rewrite H. cbn [u_to u_coding u_tlli_same u_advance u_frequency u_dynamic y_tfi y_alpha y_slots].
  rewrite ?len_app, SB.
  destruct (tlli =? RESERVED_TLLI); destruct (t_ta t <? 64); destruct (powered_by alpha gamma); destruct egprs;
    cbn [coding_bits who_bits optb]; unfold advance_bits, frequency_bits, carrier_bits, alpha_bits;
    cbn [a_value a_index f_tsc f_carrier optb];
    rewrite ?len_app, ?len_cons, ?len_app, ?fb_lenz, ?len_nil; lia.
Qed.
Lemma uplink_sent junk d tlli t p alpha gamma rrbp : tbf_ok t p -> cell_ok d alpha gamma rrbp -> 0 <= tlli < 2 ^ 32 ->
  coding_ok (of_cs t (d_egprs d)) -> (d_egprs d = true -> window_ok (t_window t)) -> s_hop p = None -> slot_count (t_slots t) <= 7 ->
  exists b, create_packet_ul_assign junk d tlli t alpha gamma rrbp = Sent b.
Proof.
  intros OK CE TL C WO H S. pose proof (uplink_outcome junk d tlli t p alpha gamma rrbp OK CE TL C WO) as X. cbv zeta in X.
  pose proof (uplink_len d tlli t p alpha gamma rrbp (d_egprs d) OK H S) as B.
  destruct (create_packet_ul_assign _ _ _ _ _ _ _); [eauto|lia|destruct X].
Qed.
