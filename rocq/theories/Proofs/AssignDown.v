(** The PACKET DOWNLINK ASSIGNMENT as a whole. *)
From Coq Require Import ZArith List Bool Lia.
From Verif.Model Require Import CodingScheme Csn1 Csn1Tables Csn1Enc BtsConf Assign.
From Verif.Spec Require Import AssignSpec AssignTold.
From Verif.Proofs Require Import Csn1Emit AssignRead AssignMem AssignFits Csn1Close AssignUp AssignUpMsg AssignUpEnd.
Import ListNotations.
Open Scope Z_scope.

Definition who_dl (d : sender) (t : tbf) : addressee := if d_known d then ByTfi (d_down d) (d_tfi d) else ByTlli (t_tlli t).
Lemma downlink_memory junk d t p alpha gamma m : tbf_ok t p ->
  write_packet_downlink_assignment junk (d_known d) (d_tfi d) (d_down d) t alpha gamma (-1) 0 (d_egprs d) (d_wait_release d) = Some m ->
  byte_at m 0 = 2 /\ byte_at m 1 = 0 /\ byte_at m 4 = 0 /\ who_at m 12 (who_dl d t) /\ byte_at m 20 = 0 /\ byte_at m 21 = 0 /\
  byte_at m 22 = Z.b2z (d_wait_release d) /\ byte_at m 23 = slot_mask 0 (t_slots t) mod 256 /\ advance_at m 24 (advance_of t) /\
  byte_at m 32 = 0 /\ byte_at m 40 = 1 /\ frequency_at m 44 p /\ byte_at m 72 = 1 /\ byte_at m 76 = t_tfi t mod 256 /\
  byte_at m 80 = 1 /\ byte_at m 84 = alpha mod 256 /\ gammas_at m 85 (gammas gamma (t_slots t)) /\ byte_at m 104 = 0 /\ byte_at m 114 = 0 /\
  (if d_egprs d
   then byte_at m 124 = 1 /\ byte_at m 128 = 1 /\ byte_at m 132 = enc_ws (t_window t) mod 256 /\ byte_at m 133 = 0 /\
        byte_at m 136 = 0 /\ byte_at m 144 = 0 /\ byte_at m 152 = 0
   else byte_at m 124 = 0).
Proof.
  intros OK W. pose proof OK as (_ & _ & _ & E & _ & _ & _ & _ & SO).
  unfold write_packet_downlink_assignment in W. rewrite (first_ok t p OK) in W.
  change (0 <=? -1) with false in W.
  unfold advance_of, who_dl, advance_at. cbv zeta.
  assert (TA : (t_ta t <=? 63) = (t_ta t <? 64)).
  { destruct (Z.leb_spec (t_ta t) 63); destruct (Z.ltb_spec (t_ta t) 64); lia || reflexivity. }
  rewrite TA in W. clear TA.
  destruct (d_known d); destruct (t_ta t <? 64); destruct (d_egprs d);
    cbv zeta in W; unfold stb, st32, st16 in W; apply (f_equal (fun o => match o with Some x => x | None => m end)) in W;
    cbv beta iota in W; cbn [who_at a_value a_index given Z.b2z];
    repeat match goal with |- _ /\ _ => split end;
    lazymatch goal with
    | |- byte_at _ _ = Z.b2z (d_down d) => destruct (d_down d); rewrite <- W; peel E
    | |- byte_at _ _ = Z.b2z (d_wait_release d) => destruct (d_wait_release d); rewrite <- W; peel E
    | |- byte_at _ _ = _ => rewrite <- W; peel E
    | |- frequency_at _ _ _ =>
      match type of W with context [gen_freq_params junk ?o p ?x] => apply frequency_same with (m2 := gen_freq_params junk o p x) end;
                             [intros a A; rewrite <- W; clear - A E; repeat first [rewrite byte_other by lia | rewrite byte_false | rewrite dl_slots_other by (rewrite E; lia)]; reflexivity
                             |exact SO|apply gen_freq_at; exact SO]
    | |- gammas_at _ _ _ =>
      match type of W with context [dl_slots gamma ?o (t_slots t) ?x] => apply gammas_same with (m2 := dl_slots gamma o (t_slots t) x) end;
        [unfold gammas; rewrite map_length, E; intros a A; rewrite <- W; clear - A; repeat rewrite byte_other by lia; reflexivity
        |apply dl_slots_at]
    | |- forall _, _ => let V := fresh in intros ? V; first [discriminate V | injection V as <-; rewrite <- W; peel E]
    end.
Qed.

Definition to_downlink (d : sender) (t : tbf) (p : slot) (alpha gamma rrbp : Z) (w : option Z) : downlink :=
  mk_downlink (Some rrbp) (who_dl d t) true (d_wait_release d) (map given (t_slots t)) (advance_of t) (Some (frequency_of p))
    (Some (t_tfi t)) (Some (alpha, gammas gamma (t_slots t))) w.
Lemma down_told_eq d t p alpha gamma rrbp w : downlink_told d t p alpha gamma rrbp w = to_downlink d t p alpha gamma rrbp w.
Proof. reflexivity. Qed.

Lemma additions_wr m base w nl cap : window_ok w -> byte_at m (base + 128 + 0) = 1 -> byte_at m (base + 128 + 4) = enc_ws w mod 256 ->
  byte_at m (base + 128 + 5) = 0 -> byte_at m (base + 128 + 8) = 0 -> byte_at m (base + 128 + 16) = 0 -> byte_at m (base + 128 + 24) = 0 ->
  wr (enc m (Typ nl 128 cap T_PDA_AdditionsR99_t) base) (r99_bits w).
Proof.
  intros (k & K & WK) A B C D F G. apply wr_typ. eapply fits_eq.
  - unfold T_PDA_AdditionsR99_t. apply next_some; [exact A|cbn [length]; lia|]. c8; [exact B|].
    apply fits_cons; [reflexivity|apply wr_u8 with (x := 0); [reflexivity|lia|exact C]|].
    apply next_none; [exact D|cbn [length]; lia|]. cbn [skipn]. apply next_none; [exact F|cbn [length]; lia|]. cbn [skipn].
    apply next_none; [exact G|cbn [length]; lia|]. cbn [skipn]. apply fits_nil.
  - unfold r99_bits, enc_ws. cbn [app]. f_equal. f_equal. f_equal.
    rewrite Z.quot_div_nonneg by lia. rewrite Z.mod_small; [reflexivity|]. rewrite WK. split; Z.div_mod_to_equations; lia.
Qed.

Lemma down_gen junk d t p alpha gamma rrbp w m : tbf_ok t p ->
  write_packet_downlink_assignment junk (d_known d) (d_tfi d) (d_down d) t alpha gamma (-1) 0 (d_egprs d) (d_wait_release d) = Some m ->
  (d_egprs d = true -> window_ok (t_window t)) ->
  let bits := downlink_bits (downlink_told d t p alpha gamma rrbp w) in
  if d_egprs d then gen (added (r99_bits (t_window t))) 12 (erun m (enc m) 0 T_Packet_Downlink_Assignment_t 0) bits
  else gen full 0 (erun m (enc m) 0 T_Packet_Downlink_Assignment_t 0) bits.
Proof.
  intros OK W WO bits. pose proof (downlink_memory junk d t p alpha gamma m OK W) as M.
  destruct M as (M0 & M1 & M4 & MW & M20 & M21 & M22 & M23 & MA & M32 & M40 & MF & M72 & M76 & M80 & M84 & MG & M104 & M114 & MR).
  pose proof OK as (_ & _ & _ & L & _ & _ & _ & _ & SO).
  assert (G : forall T k, 0 <= k -> gen T k (erun m (enc m) 0 [NextExist true 1 124 4; Typ false 128 56 T_PDA_AdditionsR99_t; Padding] 0) [] ->
    gen T k (erun m (enc m) 0 T_Packet_Downlink_Assignment_t 0) bits).
  { intros T k K H. eapply gen_eq.
    - unfold T_Packet_Downlink_Assignment_t. k8 2; [exact M0|]. k8 0; [exact M1|].
      apply gen_none; [lia|exact M4|cbn [length]; lia|]. cbn [skipn].
      apply gen_cons; [lia|reflexivity|apply who_wr_dl with (o := 12); [reflexivity|exact MW]|].
      apply gen_cons; [lia|reflexivity|apply wr_fixed; lia|]. k8 0; [exact M20|].
      apply gen_cons; [lia|reflexivity|apply wr_zero; exact M21|].
      apply gen_cons; [lia|reflexivity|apply wr_u8 with (x := Z.b2z (d_wait_release d)); [reflexivity|lia|change (byte_at m 22 = Z.b2z (d_wait_release d) mod 256); rewrite M22; now destruct (d_wait_release d)]|].
      k8 (slot_mask 0 (t_slots t)); [exact M23|].
      apply gen_cons; [lia|reflexivity|apply wr_typ, advance_fits; exact MA|].
      apply gen_none; [lia|exact M32|cbn [length]; lia|]. cbn [skipn]. apply gen_some; [lia|exact M40|cbn [length]; lia|].
      apply gen_cons; [lia|reflexivity|apply wr_typ, frequency_fits; [exact SO|exact MF]|].
      apply gen_some; [lia|exact M72|cbn [length]; lia|]. k8 (t_tfi t); [exact M76|].
      apply gen_some; [lia|exact M80|cbn [length]; lia|].
      apply gen_cons; [lia|reflexivity|apply wr_typ, power_fits; [exact M84|unfold gammas; rewrite map_length; exact L|exact MG]|].
      apply gen_none; [lia|exact M104|cbn [length]; lia|]. cbn [skipn]. apply gen_none; [lia|exact M114|cbn [length]; lia|]. cbn [skipn].
      exact H.
    - unfold bits. rewrite down_told_eq. unfold downlink_bits, to_downlink, start_bits.
      cbn [w_to w_acknowledged w_control_ack w_slots w_advance w_frequency w_tfi w_power optb negb].
      change (Z.to_nat 1) with 1%nat. rewrite fb_bool. change (Z.to_nat 8) with 8%nat. rewrite mask_bits by exact L.
      change (field_bits 1 0) with [false].
      repeat (rewrite <- ?app_assoc; cbn [app]). reflexivity. }
  destruct (d_egprs d).
  - destruct MR as (R0 & R1 & R2 & R3 & R4 & R5 & R6). apply G; [lia|].
    change 12 with (1 + len (r99_bits (t_window t))). apply gen_additions; [exact R0|reflexivity|].
    apply additions_wr; [now apply WO|exact R1|exact R2|exact R3|exact R4|exact R5|exact R6].
  - apply G; [lia|]. apply gen_no_additions. exact MR.
Qed.

Lemma down_told_ok d t p alpha gamma rrbp w : tbf_ok t p -> cell_ok d alpha gamma rrbp -> (forall x, w = Some x -> window_ok x) ->
  downlink_ok (downlink_told d t p alpha gamma rrbp w).
Proof.
  intros OK CE WO. pose proof OK as (TF & _ & TL & L & _). destruct CE as (DT & AL & GA & RR). rewrite down_told_eq.
  unfold downlink_ok, to_downlink. cbn [w_to w_slots w_advance w_frequency w_tfi w_power w_window].
  split; [|split; [rewrite map_length; exact L|split; [now apply advance_told_ok with p|split; [|split; [|split]]]]].
  - unfold who_dl, who_ok, in_bits. destruct (d_known d); lia.
  - intros f F. injection F as <-. now apply frequency_told_ok with t.
  - intros x X. injection X as <-. unfold in_bits. lia.
  - intros q Q. injection Q as <-. cbn [fst snd]. unfold in_bits. split; [lia|]. split; [unfold gammas; rewrite map_length; exact L|].
    intros g I. unfold gammas in I. apply in_map_iff in I. destruct I as (s & E & _). destruct s; [|discriminate E]. injection E as <-. lia.
  - intros x X. destruct (WO x X) as (k & K & ->). exists k. unfold in_bits. split; [lia|reflexivity].
Qed.

(** With EGPRS the window is told, unless the message is exactly full without it. *)
Lemma downlink_outcome junk d t p alpha gamma rrbp : tbf_ok t p -> cell_ok d alpha gamma rrbp ->
  (d_egprs d = true -> window_ok (t_window t)) -> (d_known d && (t_tlli t =? RESERVED_TLLI)) = false ->
  let told := downlink_told d t p alpha gamma rrbp (if d_egprs d then Some (t_window t) else None) in
  let n := len (downlink_bits told) in
  match create_packet_dl_assign junk d t alpha gamma rrbp with
  | Sent b => length b = 184%nat /\
              (reads r_downlink b = Some told \/ (d_egprs d = true /\ n = 176 /\ reads r_downlink b = Some (downlink_told d t p alpha gamma rrbp None)))
  | NotSent => 176 < n + (if d_egprs d then 12 else 0)
  | Aborted => False
  end.
Proof.
  intros OK CE WO NR told n. unfold create_packet_dl_assign. rewrite NR. unfold encoded.
  destruct (write_packet_downlink_assignment _ _ _ _ _ _ _ _ _ _ _) as [m|] eqn:W.
  2: { unfold write_packet_downlink_assignment in W. rewrite (first_ok t p OK) in W. discriminate W. }
  assert (TO : downlink_ok told).
  { apply down_told_ok; [exact OK|exact CE|]. intros x X. destruct (d_egprs d); [|discriminate X]. injection X as <-. now apply WO. }
  assert (R : in_bits 2 rrbp) by (destruct CE as (_ & _ & _ & R); unfold in_bits; lia).
  pose proof (downlink_read rrbp true told R TO eq_refl) as (R1 & R2).
  pose proof (down_gen junk d t p alpha gamma rrbp (if d_egprs d then Some (t_window t) else None) m OK W WO) as G. cbv zeta in G. fold told in G.
  destruct (d_egprs d) eqn:EG.
  - pose proof (encode_gen m _ 12 _ _ rrbp (fun r t X => proj1 X) G) as X. destruct (encode_dl _ _ _ _ _ _) as [b|].
    + destruct X as (tl & -> & LB & _ & F). split; [exact LB|]. destruct F as [->|(t' & ->)].
      * right. split; [reflexivity|]. split.
        { unfold n, len. rewrite !app_length in LB. cbn [length] in LB. unfold mac_bits in LB. rewrite !app_length, !fb_len in LB. lia. }
        apply R1. now left.
      * left. change (true :: r99_bits (t_window t) ++ t') with ((true :: r99_bits (t_window t)) ++ t'). apply R2. reflexivity.
    + exact X.
  - pose proof (encode_gen m full 0 _ _ rrbp (fun r t X => proj1 X) G) as X. destruct (encode_dl _ _ _ _ _ _) as [b|].
    + destruct X as (tl & -> & LB & F). split; [exact LB|]. left. apply R1. apply F.
    + exact X.
Qed.

Lemma gammas_len gamma slots : len (gammas_bits (gammas gamma slots)) = Z.of_nat (length slots) + 5 * slot_count slots.
Proof.
  unfold slot_count. induction slots as [|q r IH]; [reflexivity|]. unfold gammas, gammas_bits in *. cbn [map concat length filter].
  rewrite len_app, IH. destruct q; cbn [given optb length]; rewrite ?len_cons, ?fb_lenz, ?len_nil; lia.
Qed.
Lemma count_le {A} (l : list (option A)) : slot_count l <= Z.of_nat (length l).
Proof. unfold slot_count. induction l as [|[x|] l IH]; cbn [filter given length]; lia. Qed.
Lemma downlink_len d t p alpha gamma rrbp w : tbf_ok t p -> s_hop p = None ->
  len (downlink_bits (downlink_told d t p alpha gamma rrbp w)) <= 150.
Proof.
  intros OK H. pose proof OK as (_ & _ & _ & L & _).
  pose proof (gammas_len gamma (t_slots t)) as GL. pose proof (count_le (t_slots t)) as CL. rewrite L in GL, CL.
  rewrite down_told_eq. unfold downlink_bits, to_downlink, who_dl, advance_of, frequency_of, carrier_of, start_bits, power_bits.
  rewrite H. cbn [w_to w_acknowledged w_control_ack w_slots w_advance w_frequency w_tfi w_power optb fst snd].
  assert (ML : len (map given (t_slots t)) = 8) by (unfold len; rewrite map_length, L; reflexivity).
  destruct (d_known d); destruct (t_ta t <? 64); cbn [who_bits]; unfold advance_bits, frequency_bits, carrier_bits;
    cbn [a_value a_index f_tsc f_carrier optb];
    rewrite ?len_app, ?len_cons, ?len_app, ?len_cons, ?len_app, ?fb_lenz, ?len_nil, ?ML, ?GL; lia.
Qed.
