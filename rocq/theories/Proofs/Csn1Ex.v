(** What the decoder properties say, from the checks; concrete messages. *)
From Coq Require Import ZArith List Bool Lia.
Import ListNotations.
From Verif Require Import Model.Csn1 Model.Csn1Tables Spec.UlControlSpec Proofs.Csn1Check Proofs.Csn1Ul Proofs.Csn1Fields Proofs.Csn1Msgs.
Open Scope Z_scope.

Definition MR_NC7 : list Z := [64; 19; 4; 141; 21; 156; 192; 224; 148; 8; 168; 101; 132; 46; 41; 129; 140; 142; 105; 43; 43; 43; 43].
Definition MR_3G8 : list Z := [64; 19; 4; 141; 21; 156; 192; 23; 129; 80; 18; 160; 214; 8; 184; 86; 3; 50; 29; 161; 13; 171; 43].
Definition PAUSE_MSG : list Z := [64; 39; 4; 141; 21; 159; 255; 255; 255; 255; 255; 255; 255; 255; 43; 43; 43; 43; 43; 43; 43; 43; 43].
Definition CCN_NC7 : list Z := [64; 48; 116; 2; 169; 192; 224; 148; 8; 168; 101; 132; 46; 41; 129; 140; 142; 105; 43; 43; 43; 43; 43].
Definition ACK : list Z := [64; 7; 4; 141; 21; 159; 43; 43; 43; 43; 43; 43; 43; 43; 43; 43; 43; 43; 43; 43; 43; 43; 43].
Definition DLACK : list Z := [64; 9; 186; 160; 32; 64; 96; 128; 160; 192; 249; 0; 0; 43; 43; 43; 43; 43; 43; 43; 43; 43; 43].
Definition REQ : list Z := [64; 22; 240; 72; 209; 89; 192; 0; 0; 11; 43; 43; 43; 43; 43; 43; 43; 43; 43; 43; 43; 43; 43].
Definition EGPRS_ACK : list Z := [64; 33; 160; 88; 6; 0; 17; 34; 51; 68; 85; 102; 119; 136; 153; 170; 187; 204; 221; 238; 255; 16; 33].
Definition REQ_TFI : list Z := [64; 20; 220; 0; 0; 0; 0; 43; 43; 43; 43; 43; 43; 43; 43; 43; 43; 43; 43; 43; 43; 43; 43].

Lemma inside msg : exists s,
  (decode_ul msg = Go s \/ exists c, c < 0 /\ decode_ul msg = Stop c s) /\
  Forall (fun a => 0 <= a_off a /\ a_off a + a_len a <= UL_SIZE) (acc s) /\
  (forall a, ~ 0 <= a < UL_SIZE -> mem s a = 0).
Proof.
  pose proof (decode_fine msg) as F. unfold fine in F. destruct (decode_ul msg) as [s|c s|s]; [| |destruct F].
  - exists s. split; [now left|]. destruct F as (_ & (l & E & G) & M). rewrite app_nil_r in E. rewrite E.
    split; [|exact M]. eapply Forall_impl; [|exact G]. cbv beta. unfold good. intuition.
  - exists s. destruct F as [F C]. split; [right; eauto|]. destruct F as (_ & (l & E & G) & M). rewrite app_nil_r in E. rewrite E.
    split; [|exact M]. eapply Forall_impl; [|exact G]. cbv beta. unfold good. intuition.
Qed.

Lemma members msg s : octets msg -> (2 <= length msg)%nat -> ~ In (message_type msg) [MEASUREMENT_REPORT; PAUSE; CELL_CHANGE_NOTIFICATION] ->
  (decode_ul msg = Go s \/ exists c, decode_ul msg = Stop c s) ->
  Forall (fun a => a_lo a <= a_off a /\ a_off a + a_len a <= a_hi a) (acc s).
Proof.
  intros O L N H. pose proof (decode_fine msg) as F.
  assert (C : clean (rfield (bit_of msg) (8 * Z.of_nat (length msg)) 6 8) = true).
  { change 6%nat with (Z.to_nat 6). rewrite rfield_field by (auto; lia). change (field msg 8 6) with (message_type msg).
    unfold clean. destruct (existsb _ _) eqn:E; [|reflexivity]. apply existsb_exists in E. destruct E as (x & I & E).
    apply Z.eqb_eq in E. subst x. now destruct N. }
  rewrite C in F. destruct H as [H|[c H]]; rewrite H in F; [|destruct F as [F _]];
    destruct F as (_ & (l & E & G) & _); rewrite app_nil_r in E; rewrite E; (eapply Forall_impl; [|exact G]); cbv beta; unfold good; intuition.
Qed.

Lemma racap msg : exists s,
  (decode_racap msg = Go s \/ exists c, c < 0 /\ decode_racap msg = Stop c s) /\
  Forall (fun a => 0 <= a_off a /\ a_off a + a_len a <= RACAP_SIZE /\ a_lo a <= a_off a /\ a_off a + a_len a <= a_hi a) (acc s) /\
  (forall a, ~ 0 <= a < RACAP_SIZE -> mem s a = 0).
Proof.
  pose proof (racap_fine msg) as F. unfold fine in F. destruct (decode_racap msg) as [s|c s|s]; [| |destruct F].
  - exists s. split; [now left|]. destruct F as (_ & (l & E & G) & M). rewrite app_nil_r in E. rewrite E.
    split; [|exact M]. eapply Forall_impl; [|exact G]. cbv beta. unfold good. intuition.
  - exists s. destruct F as [F C]. split; [right; eauto|]. destruct F as (_ & (l & E & G) & M). rewrite app_nil_r in E. rewrite E.
    split; [|exact M]. eapply Forall_impl; [|exact G]. cbv beta. unfold good. intuition.
Qed.

Definition overruns (msg : list Z) : bool :=
  match decode_ul msg with Go s => existsb (fun a => a_hi a <? a_off a + a_len a) (acc s) | _ => false end.
Definition end_state (msg : list Z) : state := match decode_ul msg with Go s | Stop _ s | Wild s => s end.
Definition is_go (r : result) : bool := match r with Go _ => true | _ => false end.
Lemma go_end msg : is_go (decode_ul msg) = true -> decode_ul msg = Go (end_state msg).
Proof. unfold end_state. now destruct (decode_ul msg). Qed.
Lemma overrun_ex msg : overruns msg = true -> exists s, decode_ul msg = Go s /\ Exists (fun a => a_hi a < a_off a + a_len a) (acc s).
Proof.
  unfold overruns. destruct (decode_ul msg) as [s|c s|s]; try discriminate. intro H. exists s. split; [reflexivity|].
  apply Exists_exists. apply existsb_exists in H. destruct H as (a & I & H). apply Z.ltb_lt in H. eauto.
Qed.
Lemma octets_dec m : forallb (fun x => (0 <=? x) && (x <? 256)) m = true -> octets m.
Proof. intro H. apply Forall_forall. intros x I. rewrite forallb_forall in H. specialize (H x I). lia. Qed.

Lemma members_refuted : forall mt, In mt [MEASUREMENT_REPORT; PAUSE; CELL_CHANGE_NOTIFICATION] ->
  exists msg s, octets msg /\ length msg = 23%nat /\ message_type msg = mt /\ decode_ul msg = Go s /\
    Exists (fun a => a_hi a < a_off a + a_len a) (acc s).
Proof.
  intros mt [<-|[<-|[<-|[]]]].
  - exists MR_NC7. destruct (overrun_ex MR_NC7 ltac:(vm_compute; reflexivity)) as (s & A & B). exists s.
    split; [apply octets_dec; reflexivity|]. split; [reflexivity|]. split; [vm_compute; reflexivity|]. auto.
  - exists PAUSE_MSG. destruct (overrun_ex PAUSE_MSG ltac:(vm_compute; reflexivity)) as (s & A & B). exists s.
    split; [apply octets_dec; reflexivity|]. split; [reflexivity|]. split; [vm_compute; reflexivity|]. auto.
  - exists CCN_NC7. destruct (overrun_ex CCN_NC7 ltac:(vm_compute; reflexivity)) as (s & A & B). exists s.
    split; [apply octets_dec; reflexivity|]. split; [reflexivity|]. split; [vm_compute; reflexivity|]. auto.
Qed.

Lemma pause_refuted : exists msg s, octets msg /\ length msg = 23%nat /\ message_type msg = PAUSE /\
  rcv_control_block msg = Some (OnControlAck, s) /\ pca_tlli s <> field msg 14 32.
Proof.
  exists PAUSE_MSG, (end_state PAUSE_MSG). split; [apply octets_dec; reflexivity|]. split; [reflexivity|]. split; [vm_compute; reflexivity|].
  split; [|vm_compute; discriminate].
  unfold rcv_control_block. rewrite go_end by (vm_compute; reflexivity). 
  replace (dispatch _) with OnControlAck by (vm_compute; reflexivity). reflexivity.
Qed.

Lemma handled msg h : is_go (decode_ul msg) = true -> dispatch (get8 (end_state msg) 0) = h -> rcv_control_block msg = Some (h, end_state msg).
Proof. intros G <-. unfold rcv_control_block. now rewrite go_end. Qed.

Section Rcv.
Variables (msg : list Z) (h : handler) (s : state).
Hypothesis O : octets msg.
Hypothesis L : (23 <= length msg)%nat.
Hypothesis R : rcv_control_block msg = Some (h, s).

Lemma rcv_go : decode_ul msg = Go s.
Proof. unfold rcv_control_block in R. destruct (decode_ul msg); congruence. Qed.

Lemma who : message_type msg <> PAUSE ->
  (message_type msg = CONTROL_ACKNOWLEDGEMENT <-> h = OnControlAck) /\
  (message_type msg = DOWNLINK_ACK_NACK <-> h = OnDlAckNack) /\
  (message_type msg = EGPRS_DOWNLINK_ACK_NACK <-> h = OnEgprsDlAckNack) /\
  (message_type msg = RESOURCE_REQUEST <-> h = OnResourceRequest) /\
  (message_type msg = MEASUREMENT_REPORT <-> h = OnMeasurementReport) /\
  (message_type msg = UPLINK_DUMMY <-> h = OnDummy) /\
  (message_type msg = CELL_CHANGE_NOTIFICATION <-> h = OnCellChangeNotification).
Proof.
  intro N. rewrite (right_handler msg O L h s R N).
  assert (M : 0 <= message_type msg < 64) by (apply Z.mod_pos_bound; reflexivity).
  generalize dependent (message_type msg). clear. intros t _ [T0 T1].
  assert (E : t = 0 \/ t = 1 \/ t = 2 \/ t = 3 \/ t = 4 \/ t = 5 \/ t = 6 \/ t = 7 \/ t = 8 \/ t = 9 \/ t = 10 \/ t = 11 \/ t = 12 \/ 12 < t) by lia.
  unfold CONTROL_ACKNOWLEDGEMENT, DOWNLINK_ACK_NACK, EGPRS_DOWNLINK_ACK_NACK, RESOURCE_REQUEST, MEASUREMENT_REPORT, UPLINK_DUMMY, CELL_CHANGE_NOTIFICATION.
  repeat (destruct E as [->|E]; [cbn; repeat split; intro; first [reflexivity|discriminate]|]).
  assert (dispatch t = OnUnknown) as ->.
  { destruct t as [|p|p]; try lia. do 6 (destruct p as [p|p|]; try lia; try reflexivity). }
  repeat split; intro; first [lia|discriminate].
Qed.
End Rcv.
