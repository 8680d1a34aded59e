(** The uplink control messages the PCU acts on: procedure called and fields. *)
From Coq Require Import ZArith List Bool Lia.
Import ListNotations.
From Verif Require Import Model.Csn1 Model.Csn1Tables Spec.UlControlSpec Proofs.Csn1Check Proofs.Csn1Ul Proofs.Csn1Fields.
Open Scope Z_scope.

Section Msg.
Variable msg : list Z.
Notation v := (bit_of msg).
Notation n := (8 * Z.of_nat (length msg)).
Notation fl := (fld v n).
Notation go := (run v n (dec v n) 0).

Lemma decode_start s : decode_ul msg = Go s ->
  exists mt t sz s0, mt = fl 8 6 /\ 0 <= mt < 64 /\ ul_message mt = Some (t, sz) /\
    st s0 (stm 1 (stm 2 (fun _ => 0) 1376 184) 0 mt) 0 184 /\ go t 0 (0, sz) s0 = Go s.
Proof.
  unfold decode_ul. destruct (_ || _); [discriminate|]. set (mt := rfield v n 6 8).
  assert (R : 0 <= mt < 64) by apply (rfield_range v n 6 8).
  destruct (ul_message mt) as [[t sz]|] eqn:E; [|discriminate]. intro H. apply table_go in H.
  exists mt, t, sz. eexists. split; [reflexivity|]. split; [exact R|]. split; [exact E|]. split; [|exact H].
  apply put8_st. apply put_st. unfold st. cbn. auto.
Qed.
End Msg.

Ltac uint H S x X RX :=
  let s1 := fresh "s" in let D := fresh "D" in let S1 := fresh "S" in
  apply run_go in H; [|reflexivity]; destruct H as (s1 & D & _ & H);
  first [apply (uint_go _ _ _ _ _ _ _ _ _ _ _ _ S) in D; [|lia] | apply (bit_go _ _ _ _ _ _ _ _ _ _ _ S) in D];
  destruct D as (x & X & RX & _ & S1); clear S; rename S1 into S.
Ltac keeps H lo K :=
  match type of H with run _ _ _ _ ?l ?base ?w _ = _ =>
    pose proof (fun C => keeps_at _ _ lo l base w _ _ C H) as K; specialize (K ltac:(vm_compute; reflexivity)); clear H
  end.

Definition header (t : list entry) : Prop := exists e tail,
  t = Uint false 2 1 1 :: Uint false 5 2 1 :: e :: Uint false 6 0 1 :: tail /\ (e = Uint false 1 3 1 \/ e = Bit false 3 1).

Lemma header_all mt t sz : ul_message mt = Some (t, sz) -> mt <> 9 -> header t /\ 
  chk_run 1 UL_SIZE false (fun _ => 255) (chk 1 UL_SIZE false (fun _ => 255)) None (skipn 4 t) 0 (0, sz) = true.
Proof.
  intros H N. pose proof (ul_message_range _ _ _ H) as R. cbn in R.
  repeat (destruct R as [<-|R]; [first [now destruct N | injection H as <- <-; split; [eexists; eexists; split; [reflexivity|auto]|vm_compute; reflexivity]]|]).
  destruct R.
Qed.

Lemma dispatched msg s : decode_ul msg = Go s -> fld (bit_of msg) (8 * Z.of_nat (length msg)) 8 6 <> 9 ->
  get8 s 0 = fld (bit_of msg) (8 * Z.of_nat (length msg)) 8 6.
Proof.
  intros H N. destruct (decode_start msg s H) as (mt & t & sz & s0 & M & R & E & S & G). rewrite <- M in N.
  destruct (header_all mt t sz E N) as [(e & tail & -> & HE) C]. cbn [skipn] in C.
  uint G S x1 X1 R1. uint G S x2 X2 R2.
  destruct HE as [-> | ->]; uint G S x3 X3 R3; uint G S x4 X4 R4.
  all: pose proof (tail_keeps _ _ 1 _ _ _ _ C G 0 ltac:(lia)) as K; unfold get8; rewrite K; destruct S as (S & _); rewrite S;
    cbn in X4 |- *; rewrite rem256, Z.mod_small by (change (2 ^ 6) with 64 in R4; lia); rewrite X4; reflexivity.
Qed.

Section Fields.
Variable msg : list Z.
Hypothesis O : octets msg.
Hypothesis L : (23 <= length msg)%nat.
Notation v := (bit_of msg).
Notation n := (8 * Z.of_nat (length msg)).
Notation fl := (fld v n).
Notation go := (run v n (dec v n) 0).

Lemma fl_field i k : 0 <= i -> 0 <= k -> i + k <= 184 -> fl i k = field msg i k.
Proof. intros. unfold fld. apply rfield_field; auto. lia. Qed.

Lemma start_of s k t sz : decode_ul msg = Go s -> message_type msg = k -> ul_message k = Some (t, sz) ->
  exists s0, st s0 (stm 1 (stm 2 (fun _ => 0) 1376 184) 0 k) 0 184 /\ go t 0 (0, sz) s0 = Go s.
Proof.
  intros H K U. destruct (decode_start msg s H) as (mt & t' & sz' & s0 & M & R & E & S & G).
  rewrite fl_field in M by lia. unfold message_type in K. rewrite K in M. subst mt. rewrite U in E.
  assert (t' = t /\ sz' = sz) as [-> ->] by (split; congruence). eauto.
Qed.

(** The procedure called is the one the message type names. *)
Theorem right_handler h s : rcv_control_block msg = Some (h, s) -> message_type msg <> PAUSE -> h = dispatch (message_type msg).
Proof.
  unfold rcv_control_block. destruct (decode_ul msg) as [s1|c s1|s1] eqn:D; try discriminate. intros [= <- <-] N.
  rewrite (dispatched msg s1 D); rewrite fl_field by lia; [reflexivity|exact N].
Qed.

Ltac val S := destruct S as (S & _); rewrite S; cbn; rewrite ?rem256.

Theorem control_ack s : decode_ul msg = Go s -> message_type msg = CONTROL_ACKNOWLEDGEMENT ->
  pca_tlli s = field msg 14 32 /\ pca_ctrl_ack s = field msg 46 2.
Proof.
  intros D M. destruct (start_of s 1 _ _ D M eq_refl) as (s0 & S & G). unfold T_Packet_Control_Acknowledgement_t in G.
  uint G S x1 X1 R1. uint G S x2 X2 R2. uint G S x3 X3 R3. uint G S x4 X4 R4. uint G S x5 X5 R5. uint G S x6 X6 R6.
  keeps G 9 K. destruct S as (S & _).
  unfold pca_tlli, pca_ctrl_ack, u32, u16, u8, get8. rewrite !K by lia. rewrite S. cbn. rewrite !rem256.
  rewrite le32 by exact R5. rewrite Z.mod_small by (change (2 ^ 2) with 4 in R6; lia).
  rewrite X5, X6, !fl_field by lia. split; reflexivity.
Qed.

Theorem dl_ack_nack s : decode_ul msg = Go s -> message_type msg = DOWNLINK_ACK_NACK ->
  pda_tfi s = field msg 14 5 /\ pda_final s = field msg 19 1 /\ pda_ssn s = field msg 20 7 /\
  forall k, 0 <= k < 8 -> pda_rbb s k = field msg (27 + 8 * k) 8.
Proof.
  intros D M. destruct (start_of s 2 _ _ D M eq_refl) as (s0 & S & G). unfold T_Packet_Downlink_Ack_Nack_t in G.
  uint G S x1 X1 R1. uint G S x2 X2 R2. uint G S x3 X3 R3. uint G S x4 X4 R4. uint G S x5 X5 R5.
  apply run_go in G; [|reflexivity]. destruct G as (q6 & D6 & _ & G). apply typ_go in D6. unfold T_Ack_Nack_Description_t in D6.
  uint D6 S x6 X6 R6. uint D6 S x7 X7 R7.
  apply run_go in D6; [|reflexivity]. destruct D6 as (q8 & B & _ & D6). apply run_nil_go in D6. subst q8.
  apply (bitmap64_go _ _ _ _ _ _ _ _ _ _ _ S) in B. destruct B as [_ B].
  keeps G 15 K. destruct B as (B & _).
  unfold pda_tfi, pda_final, pda_ssn, pda_rbb, u8, get8. rewrite !K by lia. rewrite B.
  change (0 + 5 + 2) with 7. change (2 ^ 5) with 32 in R5. change (2 ^ 1) with 2 in R6. change (2 ^ 7) with 128 in R7.
  split; [|split; [|split]].
  1-3: rewrite stocts_other by lia; cbn -[fld field]; rewrite !rem256, Z.mod_small by lia; rewrite ?X5, ?X6, ?X7, fl_field by lia; reflexivity.
  intros k Hk. rewrite K by lia. rewrite B.
  rewrite stocts_at by lia. rewrite Z.mod_small by apply (rfield_range v n 8). rewrite fl_field by lia. f_equal; lia.
Qed.

Lemma gtfi_go base w s s1 f i r : st s f i r -> go T_Global_TFI_t base w s = Go s1 ->
  exists x y, x = fl i 1 /\ y = fl (i + 1) 5 /\ 0 <= x < 2 /\ 0 <= y < 32 /\ st s1 (stm 1 (stm 1 f (base + 0) x) (base + 1) y) (i + 1 + 5) (r - 1 - 5).
Proof.
  intros S H. unfold T_Global_TFI_t in H. apply run_go in H; [|reflexivity]. destruct H as (q2 & D & _ & H).
  apply run_nil_go in H. subst q2. apply (union2_go _ _ _ _ _ _ _ _ _ _ _ _ _ S) in D. destruct D as (x & q2 & X & RX & S2 & D).
  replace (if x =? 0 then Uint false 5 1 1 else Uint false 5 1 1) with (Uint false 5 1 1) in D by (now destruct (x =? 0)).
  apply (alt_uint_go _ _ _ _ _ _ _ _ _ _ _ _ _ S2) in D; [|lia]. destruct D as (y & Y & RY & _ & S3).
  exists x, y. auto.
Qed.

(** Where the identity starts depends on an optional access type of 2 bits. *)
Definition id_at : Z := if field msg 14 1 =? 0 then 15 else 17.
Theorem resource_request s : decode_ul msg = Go s -> message_type msg = RESOURCE_REQUEST ->
  prr_id_type s = field msg id_at 1 /\
  (field msg id_at 1 = 1 -> prr_tlli s = field msg (id_at + 1) 32) /\
  (field msg id_at 1 = 0 -> prr_tfi_type s = field msg (id_at + 1) 1 /\ prr_tfi s = field msg (id_at + 2) 5).
Proof.
  intros D M. destruct (start_of s 5 _ _ D M eq_refl) as (s0 & S & G). unfold T_Packet_Resource_Request_t in G.
  uint G S x1 X1 R1. uint G S x2 X2 R2. uint G S x3 X3 R3. uint G S x4 X4 R4.
  apply (ne_go _ _ _ _ _ _ _ _ _ _ _ _ _ _ S) in G; [|lia]. destruct G as (e & q5 & E & RE & G). cbv zeta in G.
  change (184 - 2 - 5 - 1 - 6 =? 1) with false in G. cbv iota in G. destruct G as [S5 G].
  set (tail := Typ false 8 8 T_PacketResourceRequestID_t :: _) in G.
  assert (A : exists q6 f, st q6 f id_at (184 - id_at) /\ go tail 0 (0, 1308) q6 = Go s).
  { change (fl (0 + 2 + 5 + 1 + 6) 1) with (fl 14 1) in E. rewrite fl_field in E by lia. unfold id_at. rewrite <- E.
    destruct (e =? 0) eqn:E0.
    - exists q5. eexists. split; [exact S5|exact G].
    - uint G S5 y Y RY. eexists. eexists. split; [exact S5|exact G]. }
  clear S S5 G. destruct A as (q6 & f & S & G). subst tail.
  apply run_go in G; [|reflexivity]. destruct G as (q7 & D7 & _ & G). apply typ_go in D7. unfold T_PacketResourceRequestID_t in D7.
  apply run_go in D7; [|reflexivity]. destruct D7 as (q8 & C & _ & D7). apply run_nil_go in D7. subst q8.
  apply (choice2_go _ _ _ _ _ _ _ _ _ _ _ _ _ S) in C. destruct C as (x & q8 & X & RX & S8 & C).
  keeps G 16 K.
  assert (I : 15 <= id_at <= 17) by (clear; unfold id_at; destruct (field msg 14 1 =? 0); lia).
  rewrite fl_field in X by lia. rewrite <- X.
  unfold prr_id_type, prr_tlli, prr_tfi_type, prr_tfi, u32, u16, u8, get8. rewrite !K by lia.
  destruct (x =? 0) eqn:E0.
  - apply Z.eqb_eq in E0. apply typ_go in C. apply (gtfi_go _ _ _ _ _ _ _ S8) in C. destruct C as (y & z & Y & ZE & RY & RZ & (S9 & _)).
    rewrite S9. cbn -[fld field]. rewrite !rem256. rewrite E0. split; [reflexivity|]. split; [lia|]. intros _.
    rewrite !Z.mod_small by lia. rewrite Y, ZE. split; (rewrite fl_field by lia); f_equal; lia.
  - apply Z.eqb_neq in E0. apply (uint_go _ _ _ _ _ _ _ _ _ _ _ _ S8) in C; [|lia]. destruct C as (y & Y & RY & _ & (S9 & _)).
    rewrite S9. cbn -[fld field]. rewrite !rem256. rewrite le32 by exact RY. split; [apply Z.mod_small; lia|]. split; [|lia].
    intros _. rewrite Y. apply fl_field; lia.
Qed.

Theorem measurement_report s : decode_ul msg = Go s -> message_type msg = MEASUREMENT_REPORT -> pmr_tlli s = field msg 14 32.
Proof.
  intros D M. destruct (start_of s 4 _ _ D M eq_refl) as (s0 & S & G). unfold T_Packet_Measurement_Report_t in G.
  uint G S x1 X1 R1. uint G S x2 X2 R2. uint G S x3 X3 R3. uint G S x4 X4 R4. uint G S x5 X5 R5.
  keeps G 8 K. destruct S as (S & _).
  unfold pmr_tlli, u32, u16, u8, get8. rewrite !K by lia. rewrite S. cbn. rewrite !rem256.
  rewrite le32 by exact R5. rewrite X5, fl_field by lia. reflexivity.
Qed.

Theorem cell_change_notification s : decode_ul msg = Go s -> message_type msg = CELL_CHANGE_NOTIFICATION ->
  ccn_tfi_type s = field msg 14 1 /\ ccn_tfi s = field msg 15 5 /\ ccn_target_type s = field msg 20 1 /\
  (field msg 20 1 = 0 -> ccn_arfcn s = field msg 21 10 /\ ccn_bsic s = field msg 31 6).
Proof.
  intros D M. destruct (start_of s 12 _ _ D M eq_refl) as (s0 & S & G). unfold T_Packet_Cell_Change_Notification_t in G.
  uint G S x1 X1 R1. uint G S x2 X2 R2. uint G S x3 X3 R3. uint G S x4 X4 R4.
  apply run_go in G; [|reflexivity]. destruct G as (q6 & D6 & _ & G). apply typ_go in D6.
  apply (gtfi_go _ _ _ _ _ _ _ S) in D6. destruct D6 as (x & y & X & Y & RX & RY & S6).
  apply run_go in G; [|reflexivity]. destruct G as (q7 & D7 & _ & G). apply typ_go in D7. unfold T_Target_Cell_t in D7.
  apply run_go in D7; [|reflexivity]. destruct D7 as (q8 & U & _ & D7). apply run_nil_go in D7. subst q8.
  apply (union2_go _ _ _ _ _ _ _ _ _ _ _ _ _ S6) in U. destruct U as (z & q8 & ZE & RZ & S8 & U).
  keeps G 88 K.
  rewrite fl_field in X by lia. rewrite fl_field in Y by lia. rewrite fl_field in ZE by lia.
  change (0 + 2 + 5 + 1 + 6) with 14 in X, Y, ZE. change (14 + 1) with 15 in *. change (15 + 5) with 20 in *. rewrite <- X, <- Y, <- ZE.
  unfold ccn_tfi_type, ccn_tfi, ccn_target_type, ccn_arfcn, ccn_bsic, u16, u8, get8. rewrite !K by lia.
  destruct (z =? 0) eqn:E0.
  - apply Z.eqb_eq in E0. apply alt_typ_go in U. unfold T_Target_Cell_GSM_Notif_t in U. 
    uint U S8 a A RA. uint U S8 b B RB. apply run_nil_go in U. subst q7. destruct S8 as (S8 & _).
    rewrite S8. cbn -[fld field]. rewrite !rem256. change (2 ^ 6) with 64 in RB. change (2 ^ 10) with 1024 in RA.
    rewrite le16 by (change (2 ^ 16) with 65536; lia).
    rewrite !Z.mod_small by lia. rewrite A, B, !fl_field by lia. auto.
  - apply Z.eqb_neq in E0.
    assert (F : forall a, a < 9 -> mem q7 a = mem q8 a).
    { apply alt_typ_go in U. keeps U 9 K9. exact K9. }
    rewrite !F by lia. destruct S8 as (S8 & _). rewrite S8. cbn -[fld field]. rewrite !rem256. rewrite !Z.mod_small by lia.
    repeat (split; [reflexivity|]). intro; lia.
Qed.

Lemma skipped k e r base w s s' : run v n (dec v n) (S k) (e :: r) base w s = Go s' -> run v n (dec v n) k r base w s = Go s'.
Proof. intro H. exact H. Qed.

Ltac none G S :=
    apply (ne_go _ _ _ _ _ _ _ _ _ _ _ _ _ _ S) in G; [|lia];
    let e := fresh "e" in let q := fresh "q" in let E := fresh "E" in let S1 := fresh "S" in
    destruct G as (e & q & E & _ & G); cbv zeta in G; rewrite fl_field in E by lia;
    match type of E with _ = field _ ?i _ => assert (e = 0) as -> by (rewrite E; auto) end; clear E;
    cbn [Z.eqb] in G; cbv iota in G; destruct G as [S1 G]; clear S; rename S1 into S.

(** With none of the optional parts before the description: exist bits 20 to 23, and 39 for the compressed bitmap. *)
Theorem egprs_ack_nack s : decode_ul msg = Go s -> message_type msg = EGPRS_DOWNLINK_ACK_NACK ->
  epda_tfi s = field msg 14 5 /\
  (field msg 20 4 = 0 -> field msg 24 1 = 0 -> field msg 39 1 = 0 ->
   epda_final s = field msg 25 1 /\ epda_bow s = field msg 26 1 /\ epda_eow s = field msg 27 1 /\ epda_ssn s = field msg 28 11 /\
   epda_exist_crbb s = 0 /\ epda_urbb_length s = 144 /\ forall k, 0 <= k < 18 -> epda_urbb s k = field msg (40 + 8 * k) 8).
Proof.
  intros D M. destruct (start_of s 8 _ _ D M eq_refl) as (s0 & S & G). unfold T_EGPRS_PD_AckNack_t in G.
  uint G S x1 X1 R1. uint G S x2 X2 R2. uint G S x3 X3 R3. uint G S x4 X4 R4. uint G S x5 X5 R5. uint G S x6 X6 R6.
  split.
  { keeps G 8 K. unfold epda_tfi, u8, get8. rewrite K by lia. destruct S as (S & _). rewrite S. cbn -[fld field].
    rewrite !rem256. change (2 ^ 5) with 32 in R5. rewrite Z.mod_small by lia. rewrite X5, fl_field by lia. reflexivity. }
  intros Z4 Z24 Z39.
  assert (Z20 : field msg 20 1 = 0 /\ field msg 21 1 = 0 /\ field msg 22 1 = 0 /\ field msg 23 1 = 0).
  { rewrite <- !fl_field in * by lia. pose proof (rfield_range v n 1) as R. unfold fld in *.
    change (Z.to_nat 4) with 4%nat in Z4. change (Z.to_nat 1) with 1%nat. cbn [rfield] in *.
    pose proof (R 20). pose proof (R 21). pose proof (R 22). pose proof (R 23).
    change (20 + 1) with 21 in Z4. change (21 + 1) with 22 in Z4. change (22 + 1) with 23 in Z4.
    change (2 ^ Z.of_nat 3) with 8 in *. change (2 ^ Z.of_nat 2) with 4 in *. change (2 ^ Z.of_nat 1) with 2 in *. change (2 ^ Z.of_nat 0) with 1 in *. lia. }
  destruct Z20 as (Z20 & Z21 & Z22 & Z23).
  none G S. apply skipped in G. none G S. apply skipped in G. none G S. apply skipped in G. none G S. apply skipped in G.
  apply run_go in G; [|reflexivity]. destruct G as (q6 & D6 & _ & G). apply typ_go in D6. unfold T_EGPRS_AckNack_t in D6.
  apply run_go in D6; [|reflexivity]. destruct D6 as (q7 & U & _ & D6). apply run_nil_go in D6. subst q7.
  apply (union2_go _ _ _ _ _ _ _ _ _ _ _ _ _ S) in U. destruct U as (z & q8 & ZE & _ & S8 & U).
  rewrite fl_field in ZE by lia. assert (z = 0) as -> by (rewrite ZE; exact Z24). cbn [Z.eqb] in U. cbv iota in U. clear ZE S. rename S8 into S.
  apply alt_typ_go in U. unfold T_EGPRS_AckNack_Desc_t in U.
  uint U S y1 Y1 RY1. uint U S y2 Y2 RY2. uint U S y3 Y3 RY3. uint U S y4 Y4 RY4.
  none U S. do 3 apply skipped in U.
  apply run_go in U; [|reflexivity]. destruct U as (q9 & B & _ & U). apply run_nil_go in U. subst q9.
  match type of S with st _ _ _ ?r => change r with (8 * Z.of_nat 18) in S end.
  apply (left_rest_go _ _ _ _ _ _ _ _ _ _ _ _ S) in B; [|lia].
  keeps G 284 K. destruct B as (B & _).
  unfold epda_final, epda_bow, epda_eow, epda_ssn, epda_exist_crbb, epda_urbb_length, epda_urbb, u16, u8, get8.
  rewrite !K by lia. rewrite B.
  change (2 ^ 11) with 2048 in RY4. change (2 ^ 1) with 2 in *.
  split; [|split; [|split; [|split; [|split; [|split]]]]].
  1-6: rewrite !stocts_other by lia; cbn -[fld field]; rewrite ?rem256.
  1-3: rewrite Z.mod_small by lia; rewrite ?Y1, ?Y2, ?Y3, fl_field by lia; reflexivity.
  - rewrite le16 by (change (2 ^ 16) with 65536; lia). rewrite Y4, fl_field by lia. reflexivity.
  - reflexivity.
  - reflexivity.
  - intros k Hk. rewrite K by lia. rewrite B. change (0 + 204 + 4 + 32) with 240. rewrite stocts_at by lia.
    rewrite Z.mod_small by apply (rfield_range v n 8). rewrite fl_field by lia. f_equal; lia.
Qed.
End Fields.
