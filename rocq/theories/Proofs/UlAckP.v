(** The acknowledgement and what the mobile reads. *)
From Coq Require Import ZArith List Bool Lia ZifyBool Znumtheory.
From Verif Require Import Base.Arith.
From Verif.Model Require Import CodingScheme RlcWindow RlcWindowUl TbfUlWindow T4 UlAckDesc Csn1Enc CtrlMsg UlAck.
From Verif.Spec Require Import UlWindowSpec AckDescSpec AssignSpec UlAckSpec UlAckTold.
From Verif.Proofs Require Import Csn1Emit AssignRead UlWindowP UlWindowI UlWindowProps AckDescP.
Import ListNotations.
Open Scope Z_scope.

Lemma tlli_read a r : acked_ok a -> opt (num 32) (tlli_bits (k_tlli a) ++ r) = Some (tlli_told a, r).
Proof.
  intros (_ & T & _). unfold tlli_bits, tlli_told, NO_TLLI. destruct (k_tlli a =? 0xffffffff); cbn [negb].
  - reflexivity.
  - exact (opt_ok (num 32) (field_bits 32) (Some (k_tlli a)) r ltac:(intros x E r'; injection E as <-; apply num_small; exact T)).
Qed.
Lemma ta_read a r : acked_ok a -> r_ta (ta_bits (k_ta a) ++ r) = Some (ta_told a, r).
Proof.
  intros (_ & _ & T). unfold ta_bits, ta_told, r_ta. destruct (k_ta a <? 64) eqn:E.
  - apply Z.ltb_lt in E.
    assert (O : opt r_advance (optb advance_bits (Some (mk_advance (Some (k_ta a)) None)) ++ r) = Some (Some (mk_advance (Some (k_ta a)) None), r)).
    { apply opt_ok. intros x X r'. injection X as <-. apply advance_read. split; cbn; [|discriminate].
      intros v V. injection V as <-. unfold in_bits. lia. }
    assert (B : optb advance_bits (Some (mk_advance (Some (k_ta a)) None)) = field_bits 1 1 ++ field_bits 1 1 ++ field_bits 6 (k_ta a) ++ field_bits 1 0).
    { cbn [optb advance_bits a_value a_index]. reflexivity. }
    rewrite <- B. erewrite bind_ok by exact O. reflexivity.
  - reflexivity.
Qed.
Lemma string_read l r : string (length l) (l ++ r) = Some (l, r).
Proof. apply flags_ok. Qed.
Lemma flag_fb b r : flag (field_bits 1 (Z.b2z b) ++ r) = Some (b, r).
Proof. now destruct b. Qed.

(** ** The header *)
Definition head_bits (a : acked) (final : bool) (rrbp : Z) : list bool :=
  field_bits 2 1 ++ field_bits 2 rrbp ++ field_bits 1 (Z.b2z final) ++ field_bits 3 0 ++ field_bits 6 9 ++
    field_bits 2 0 ++ field_bits 2 0 ++ field_bits 5 (k_tfi a).

Lemma over_firstn w : (length w <= 184)%nat -> firstn 184 (over w dummy_vec) = w ++ skipn (length w) dummy_vec.
Proof.
  intros L. unfold over. apply firstn_all2. rewrite app_length, skipn_length.
  change (length dummy_vec) with 184%nat. lia.
Qed.
Lemma over_length w : length (firstn 184 (over w dummy_vec)) = 184%nat.
Proof.
  rewrite firstn_length. unfold over. rewrite app_length, skipn_length. change (length dummy_vec) with 184%nat. lia.
Qed.

(** ** GPRS *)
Lemma gprs_read a w final rrbp ssn bits r : acked_ok a -> in_bits 2 rrbp -> ul_report_gprs w = (ssn, bits) -> in_bits 7 ssn ->
  length bits = 64%nat -> in_bits 2 (mcs_chan_code (k_cs a)) ->
  reads r_ul_ack ((head_bits a final rrbp ++ field_bits 1 0 ++ ack_gprs_bits a w final) ++ r) =
    Some (mk_ul_ack (if final then Some rrbp else None) (k_tfi a) (mcs_chan_code (k_cs a)) final (GprsReport ssn bits)
           (tlli_told a) (ta_told a) true).
Proof.
  intros A R W S L C. pose proof A as (AT & _ & _). unfold in_bits in *. unfold reads, r_ul_ack, head_bits, ack_gprs_bits, desc_gprs_bits. rewrite W.
  rewrite <- !app_assoc.
  erewrite bind_ok by (apply must_ok; lia). erewrite bind_ok by (apply num_small; lia). erewrite bind_ok by apply flag_fb.
  erewrite bind_ok by (apply num_small; lia). erewrite bind_ok by (apply must_ok; lia). erewrite bind_ok by (apply num_small; lia).
  erewrite bind_ok by (apply must_ok; lia). erewrite bind_ok by (apply num_small; lia).
  erewrite bind_ok by (apply (flag_fb false)). cbv zeta iota.
  erewrite bind_ok by (apply num_small; lia).
  erewrite bind_ok.
  2: { unfold r_gprs_desc. erewrite bind_ok by apply flag_fb. erewrite bind_ok by (apply num_small; lia).
       rewrite <- L. erewrite bind_ok by apply string_read. reflexivity. }
  erewrite bind_ok by (apply tlli_read; exact A). erewrite bind_ok by (apply ta_read; exact A).
  reflexivity.
Qed.

(** ** EGPRS *)
Lemma desc_read d final r l : a_len d = desc_bits d - 9 -> desc_bits d <= 200 -> in_bits 11 (a_ssn d) ->
  (forall c b, a_crbb d = Some (c, b) -> Z.of_nat (length b) <= 127) -> told d = Some l ->
  r_egprs_desc (desc_egprs_bits d final ++ r) = Some ((final, EgprsReport (a_ssn d) (a_eow d) l), r).
Proof.
  intros L M S C T. unfold in_bits in S. unfold r_egprs_desc, desc_egprs_bits. rewrite <- !app_assoc.
  unfold desc_bits in *. unfold told in T.
  erewrite bind_ok by (apply must_ok; lia).
  erewrite bind_ok by (apply num_small; destruct (a_crbb d) as [[c b]|]; lia).
  erewrite bind_ok by apply flag_fb. erewrite bind_ok by (apply (flag_fb true)). erewrite bind_ok by apply flag_fb.
  erewrite bind_ok by (apply num_small; lia).
  destruct (a_crbb d) as [[c b]|] eqn:E.
  - specialize (C c b eq_refl). rewrite <- !app_assoc.
    erewrite bind_ok.
    2: { change (field_bits 1 1) with [true]. cbn [app]. unfold opt. erewrite bind_ok by reflexivity. cbv iota.
         erewrite bind_ok. 2: { erewrite bind_ok by (apply num_small; lia). erewrite bind_ok by apply flag_fb.
           rewrite Nat2Z.id. erewrite bind_ok by apply string_read. reflexivity. } reflexivity. }
    cbv beta iota. replace (Z.to_nat (a_len d - 23 - Z.of_nat (length b))) with (length (a_urbb d)) by lia.
    erewrite bind_ok by apply string_read. destruct (decompress_crbb 1024 c b []) as [rc x]. destruct rc; [|discriminate].
    injection T as <-. reflexivity.
  - erewrite bind_ok by reflexivity. cbv beta iota. replace (Z.to_nat (a_len d - 15)) with (length (a_urbb d)) by lia.
    change (0 :: nil) with [0].
    erewrite bind_ok by apply string_read. injection T as <-. reflexivity.
Qed.

Lemma room_range a : 102 <= room a <= 142.
Proof. unfold room, tlli_told, ta_told. destruct (k_tlli a =? 0xffffffff), (k_ta a <? 64); lia. Qed.

Lemma egprs_read a w final rrbp d l : acked_ok a -> in_bits 2 rrbp -> in_bits 4 (mcs_chan_code (k_cs a)) -> k_egprs a = true ->
  ack_desc_egprs w (room a) = Some d -> a_len d = (desc_bits d - 9) mod 256 -> desc_bits d <= room a -> in_bits 11 (a_ssn d) ->
  (forall c b, a_crbb d = Some (c, b) -> Z.of_nat (length b) <= 127) -> told d = Some l ->
  exists block, write_packet_uplink_ack a w final rrbp = Some block /\ length block = 184%nat /\
    reads r_ul_ack block = Some (mk_ul_ack (if final then Some rrbp else None) (k_tfi a) (mcs_chan_code (k_cs a)) final
      (EgprsReport (a_ssn d) (a_eow d) l) (tlli_told a) (ta_told a) true).
Proof.
  intros A R C G D L F S B T. pose proof A as (AT & _ & _). pose proof (room_range a) as RR.
  assert (LB : length (desc_egprs_bits d final) = Z.to_nat (desc_bits d)).
  { unfold desc_egprs_bits, desc_bits. rewrite !app_length, !fb_len. destruct (a_crbb d) as [[c b]|]; rewrite ?app_length, ?fb_len; lia. }
  assert (DB : 24 <= desc_bits d) by (unfold desc_bits; destruct (a_crbb d) as [[c b]|]; lia).
  rewrite Z.mod_small in L by lia.
  unfold write_packet_uplink_ack. rewrite G. unfold ack_egprs_bits.
  match goal with |- context [ack_desc_egprs w (23 * 8 - (24 + Z.of_nat (length ?h)) - 2)] => set (hd := h) end.
  assert (HL : Z.of_nat (length hd) = 158 - room a).
  { unfold hd, tlli_bits, ta_bits, room, tlli_told, ta_told, NO_TLLI. rewrite !app_length, !fb_len.
    destruct (k_tlli a =? 0xffffffff), (k_ta a <? 64); cbn [negb]; rewrite ?app_length, ?fb_len; reflexivity. }
  replace (23 * 8 - (24 + Z.of_nat (length hd)) - 2) with (room a) by lia. rewrite D. cbn [option_map].
  eexists. split; [reflexivity|]. split; [apply over_length|].
  fold (head_bits a final rrbp). rewrite over_firstn.
  2: { rewrite !app_length, LB, !fb_len. unfold head_bits. rewrite !app_length, !fb_len. lia. }
  generalize (skipn (length (head_bits a final rrbp ++ field_bits 1 1 ++ hd ++ desc_egprs_bits d final ++ field_bits 1 0 ++ field_bits 1 0)) dummy_vec).
  intros tl. unfold in_bits in *. unfold hd, reads, r_ul_ack, head_bits. rewrite <- !app_assoc.
  erewrite bind_ok by (apply must_ok; lia). erewrite bind_ok by (apply num_small; lia). erewrite bind_ok by apply flag_fb.
  erewrite bind_ok by (apply num_small; lia). erewrite bind_ok by (apply must_ok; lia). erewrite bind_ok by (apply num_small; lia).
  erewrite bind_ok by (apply must_ok; lia). erewrite bind_ok by (apply num_small; lia).
  erewrite bind_ok by (apply (flag_fb true)). cbv zeta iota.
  erewrite bind_ok by (apply must_ok; lia). erewrite bind_ok by (apply num_small; lia).
  erewrite bind_ok by (apply (flag_fb true)). erewrite bind_ok by (apply (flag_fb true)).
  erewrite bind_ok by (apply (flag_fb false)). erewrite bind_ok by (apply (flag_fb false)).
  erewrite bind_ok by (apply tlli_read; exact A). erewrite bind_ok by (apply (flag_fb true)).
  erewrite bind_ok by (apply ta_read; exact A).
  erewrite bind_ok by (apply must_ok; lia). erewrite bind_ok by (apply must_ok; lia). erewrite bind_ok by (apply must_ok; lia).
  erewrite bind_ok by (apply desc_read; [exact L|lia|exact S|exact B|exact T]).
  erewrite bind_ok by (apply must_ok; lia). reflexivity.
Qed.

(** ** The theorems *)
Lemma code_gprs a cs : k_egprs a = false -> coding_told a = Some cs -> mcs_chan_code (k_cs a) = cs /\ in_bits 2 cs.
Proof.
  intros E C. unfold coding_told in C. rewrite E in C. unfold in_bits. destruct (k_cs a); try discriminate C; injection C as <-; split; try reflexivity; lia.
Qed.
Lemma code_egprs a cs : k_egprs a = true -> coding_told a = Some cs -> mcs_chan_code (k_cs a) = cs /\ in_bits 4 cs.
Proof.
  intros E C. unfold coding_told in C. rewrite E in C. unfold in_bits. destruct (k_cs a); try discriminate C; injection C as <-; split; try reflexivity; lia.
Qed.

Lemma gprs_told ws o a final rrbp cs : ul_reach 128 ws o -> acked_ok a -> 0 <= rrbp < 4 -> k_egprs a = false -> coding_told a = Some cs ->
  exists block bits, write_packet_uplink_ack a (ut_w (u_t o)) final rrbp = Some block /\ length block = 184%nat /\
    reads r_ul_ack block = Some (ack_told a final rrbp cs (GprsReport (u_R o mod 128) bits)) /\ length bits = 64%nat /\
    forall k, (k < 64)%nat ->
      (nth k bits false = true -> arrived o (u_R o - 64 + Z.of_nat k)) /\
      (no_far (u_log o) -> arrived o (u_R o - 64 + Z.of_nat k) -> nth k bits false = true).
Proof.
  intros U A R E C. destruct (code_gprs a cs E C) as [C1 C2].
  destruct (ul_report_gprs (ut_w (u_t o))) as [ssn bits] eqn:W.
  destruct (c07_gprs ws o ssn bits U W) as (S & L & T).
  unfold write_packet_uplink_ack. rewrite E. eexists. exists bits. split; [reflexivity|]. split; [apply over_length|].
  split; [|split; [exact L|exact T]]. fold (head_bits a final rrbp). rewrite over_firstn.
  - rewrite <- C1. unfold ack_told. rewrite <- S. apply gprs_read; try assumption.
    + unfold in_bits. rewrite S. apply Z.mod_pos_bound. lia.
    + now rewrite C1.
  - unfold ack_gprs_bits, desc_gprs_bits, head_bits, tlli_bits, ta_bits. rewrite W. rewrite !app_length, !fb_len, L.
    destruct (k_tlli a =? NO_TLLI), (k_ta a <? 64); cbn [negb]; rewrite ?app_length, ?fb_len; lia.
Qed.

Lemma egprs_told ws o a final rrbp cs : ul_reach 2048 ws o -> uws o <= 512 -> pending o <= 255 -> no_cut o (room a - 40) ->
  (forall d, ack_desc_egprs (ut_w (u_t o)) (room a) = Some d -> desc_bits d <= room a) ->
  acked_ok a -> 0 <= rrbp < 4 -> k_egprs a = true -> coding_told a = Some cs ->
  exists block eow bits, write_packet_uplink_ack a (ut_w (u_t o)) final rrbp = Some block /\ length block = 184%nat /\
    reads r_ul_ack block = Some (ack_told a final rrbp cs (EgprsReport ((u_Q o + 1) mod 2048) eow bits)) /\
    bitmap o bits /\ Z.of_nat (length bits) <= pending o /\ (eow = true <-> Z.of_nat (length bits) = pending o).
Proof.
  intros U W P N F A R E C. destruct (code_egprs a cs E C) as [C1 C2]. pose proof (room_range a) as RR.
  destruct (report_ok ws o (room a) U W ltac:(lia) P N) as (d & D & S & L & B & _ & l & T & M & K & Q).
  destruct (egprs_read a (ut_w (u_t o)) final rrbp d l A R) as (block & X & Y & V); try assumption.
  - now rewrite C1.
  - apply F. exact D.
  - unfold in_bits. rewrite S. apply Z.mod_pos_bound. lia.
  - exists block, (a_eow d), l. split; [exact X|]. split; [exact Y|]. split; [|split; [exact M|split; [exact K|exact Q]]].
    unfold ack_told. rewrite <- S, <- C1. exact V.
Qed.

Lemma report_short ws o rest0 : ul_reach 2048 ws o -> uws o <= 512 -> 40 <= rest0 <= 160 -> pending o <= rest0 - 24 ->
  exists d l, ack_desc_egprs (ut_w (u_t o)) rest0 = Some d /\ a_ssn d = (u_Q o + 1) mod 2048 /\ a_len d = (desc_bits d - 9) mod 256 /\
    a_crbb d = None /\ desc_bits d <= rest0 /\ a_eow d = true /\ told d = Some l /\ bitmap o l /\ Z.of_nat (length l) = pending o.
Proof.
  intros H Hws HR HP.
  pose proof (reach_UInv _ _ _ H) as [HJ _ _ _]. pose proof HJ as HJ0. destruct HJ0. fold (uws o) in *.
  pose proof (truth_bitmap ws o) as TB.
  pose proof (fun len eow ssn n => tell_unc ws o len eow ssn n H Hws) as TU.
  set (w := ut_w (u_t o)) in *.
  assert (Hok : sns_ok (uw_sns w)) by now rewrite j_sns.
  unfold ack_desc_egprs.
  rewrite !umod_mod by auto. rewrite j_sns, j_vq, j_vr.
  rewrite mod_add_l by lia.
  rewrite (mod_sub_l 2048 (u_Q o + 1) 1) by lia.
  replace (u_Q o + 1 - 1) with (u_Q o) by lia.
  rewrite (mod_sub_dist 2048 (u_Q o) (u_R o)) by lia.
  replace (if u_R o - u_Q o >? 0 then u_R o - u_Q o - 1 else u_R o - u_Q o) with (pending o).
  2:{ unfold pending. destruct (u_R o - u_Q o >? 0) eqn:E; lia. }
  change (uw_ws w) with (uws o). replace (pending o >? uws o) with false by (unfold pending; lia).
  replace (rest0 - 24 <? 16) with false by lia.
  assert (PN : 0 <= pending o) by (unfold pending; lia).
  replace (pending o >? rest0 - 24) with false by lia.
  cbn [length]. change (23 * 8 <? Z.of_nat 0) with false. cbv iota.
  replace (pending o >? 0 + (rest0 - 24)) with false by lia.
  rewrite Z.sub_0_r, (Z.mod_small (pending o) (2 ^ 32)), (Z.mod_small (pending o) 256) by lia.
  destruct (TU ((pending o + 15) mod 256) true ((u_Q o + 1) mod 2048) (Z.to_nat (pending o)) ltac:(lia)) as [T1 T2].
  eexists. exists (truth w (u_Q o) (Z.to_nat (pending o))). split; [reflexivity|]. cbn [negb].
  split; [reflexivity|]. rewrite T2. split; [cbn [a_len]; f_equal; lia|]. split; [reflexivity|]. split; [lia|]. split; [reflexivity|].
  split; [exact T1|]. split; [apply TB; auto; lia|]. rewrite truth_length. lia.
Qed.
Lemma egprs_short_told ws o a final rrbp cs : ul_reach 2048 ws o -> uws o <= 512 -> pending o <= room a - 24 ->
  acked_ok a -> 0 <= rrbp < 4 -> k_egprs a = true -> coding_told a = Some cs ->
  exists block bits, write_packet_uplink_ack a (ut_w (u_t o)) final rrbp = Some block /\ length block = 184%nat /\
    reads r_ul_ack block = Some (ack_told a final rrbp cs (EgprsReport ((u_Q o + 1) mod 2048) true bits)) /\
    bitmap o bits /\ Z.of_nat (length bits) = pending o.
Proof.
  intros U W P A R E C. destruct (code_egprs a cs E C) as [C1 C2]. pose proof (room_range a) as RR.
  destruct (report_short ws o (room a) U W ltac:(lia) P) as (d & l & D & S & L & B & F & EO & T & M & K).
  destruct (egprs_read a (ut_w (u_t o)) final rrbp d l A R) as (block & X & Y & V); try assumption.
  - now rewrite C1.
  - unfold in_bits. rewrite S. apply Z.mod_pos_bound. lia.
  - rewrite B. discriminate.
  - exists block, l. split; [exact X|]. split; [exact Y|]. split; [|split; [exact M|exact K]].
    unfold ack_told. rewrite EO in V. rewrite <- S, <- C1. exact V.
Qed.
