(** Proofs about Model/PcuTx.v: the other messages, and paging. *)
From Coq Require Import ZArith List Bool Lia.
From Verif Require Import Model.Csn1Enc Model.CtrlMsg Model.PcuTx Spec.PcuTxSpec Proofs.PcuTxP.
Import ListNotations.
Local Open Scope Z_scope.

Lemma act_req_hear nr trx ts activate : hear (act_req nr trx ts activate) = Some (HAct nr trx ts (negb (activate =? 0))).
Proof. reflexivity. Qed.

Lemma neigh_hear nr lac ci arfcn bsic :
  0 <= lac < 65536 -> 0 <= ci < 65536 -> 0 <= arfcn < 65536 ->
  hear (neigh_addr_req nr lac ci arfcn bsic) = Some (HNeigh nr lac ci arfcn bsic).
Proof.
  intros H1 H2 H3.
  assert (E : hear (neigh_addr_req nr lac ci arfcn bsic) =
              Some (HNeigh nr (netnum (net16 lac)) (netnum (net16 ci)) (netnum (net16 arfcn)) bsic)) by reflexivity.
  rewrite E, !netnum_net16, !Z.mod_small by assumption. reflexivity.
Qed.

Lemma strlcpy_len n s : (1 <= n)%nat -> (length (strlcpy n s) <= n)%nat.
Proof. intros H. unfold strlcpy. rewrite app_length, firstn_length. cbn [length]. lia. Qed.

Lemma Forall_first {A} (P : A -> Prop) n : forall l, Forall P l -> Forall P (firstn n l).
Proof. induction n; intros l H; cbn; auto. destruct H; auto. Qed.

Lemma slice_text L off n s m : length m = L -> (off + n <= L)%nat -> (1 <= n)%nat -> Forall (fun c => c <> 0) s ->
  cstring (slice (put off (strlcpy n s) m) off n) = firstn (n - 1) s /\ length (slice (put off (strlcpy n s) m) off n) = n.
Proof.
  intros H1 H2 H3 H4. pose proof (strlcpy_len n s H3) as H5.
  assert (LP : length (put off (strlcpy n s) m) = L) by (apply put_len; [exact H1 | lia]).
  split.
  - unfold slice, put. rewrite skipn_app, skipn_all2 by (rewrite firstn_length; lia). cbn [app].
    rewrite firstn_length. replace (off - Nat.min off (length m))%nat with 0%nat by lia. cbn [skipn].
    rewrite firstn_app, (firstn_all2 (strlcpy n s)) by lia. unfold strlcpy. rewrite <- app_assoc. cbn [app].
    apply cstring_app. apply Forall_first, H4.
  - unfold slice. rewrite firstn_length, skipn_length. lia.
Qed.

Lemma txt_hear text : Forall (fun c => c <> 0) text -> hear (txt_ind text) = Some (HVersion (firstn 127 text)).
Proof.
  intros H. unfold txt_ind. pose proof (strlcpy_len 128 text ltac:(lia)) as HL.
  set (m := put 4 _ _). assert (LM : length m = SIZE) by (unfold m; side).
  destruct (slice_text SIZE 5 128 text m LM ltac:(unfold SIZE; lia) ltac:(lia) H) as [T1 T2].
  set (z := put 5 _ _) in *.
  assert (Q : forall a n, (a + n <= 5)%nat -> slice z a n = slice m a n).
  { intros a n Ha. unfold z. apply (slice_other SIZE); [exact LM | unfold SIZE; lia | lia]. }
  unfold hear. rewrite (cut_slices0 L_HDR). cbn [slices L_HDR list_sum fold_right Nat.add].
  rewrite (Q 0 1)%nat, (Q 1 1)%nat by lia.
  assert (slice m 0 1 = [0x70]) as -> by reflexivity.
  assert (slice m 1 1 = [0]) as -> by reflexivity.
  cbn [Z.eqb Pos.eqb]. rewrite (cut_slices L_TXT). cbn [slices L_TXT list_sum fold_right Nat.add].
  rewrite (Q 4 1)%nat by lia. assert (slice m 4 1 = [0]) as -> by reflexivity.
  rewrite T1, T2. reflexivity.
Qed.

(** ** The common control channel *)
Definition oct (x : Z) : Prop := 0 <= x < 256.

Lemma macblock_len b plen : length b = 22%nat -> length (macblock b plen) = 23%nat.
Proof. intros H. cbn [macblock length]. lia. Qed.

Lemma agch_hear nr block plen confirm id : length block = 22%nat -> 0 <= id < 2 ^ 32 ->
  exists d, hear (tx_agch2 nr block plen confirm id) = Some (HData (mk_data nr 0 0 9 0 0 0 d)) /\
            hear_agch d = Some (mk_ccch id [] (macblock block plen) confirm).
Proof.
  intros HB HI. unfold tx_agch2. set (a := put 4 _ _).
  assert (HM : length (macblock block plen) = 23%nat) by (apply macblock_len, HB).
  assert (LA : length a = 28%nat).
  { unfold a. apply put_len; [|lia]. apply put_len; [|rewrite host_len; lia]. reflexivity. }
  exists a. split.
  - change 28 with (Z.of_nat 28). rewrite <- LA. apply data_req_hear; lia.
  - unfold hear_agch. rewrite cut_slices0. cbn [slices L_AGCH list_sum fold_right Nat.add].
    rewrite (skipn_all2 a) by lia. unfold a.
    rewrite (slice_same 28); [| apply put_len; [reflexivity | rewrite host_len; lia] | lia | lia].
    rewrite (slice_other 28 _ _ _ 0 4); [| apply put_len; [reflexivity | rewrite host_len; lia] | lia | lia].
    rewrite (slice_other 28 _ _ _ 27 1); [| apply put_len; [reflexivity | rewrite host_len; lia] | lia | lia].
    rewrite (slice_same 28); [| reflexivity | rewrite host_len; lia | rewrite host_len; reflexivity].
    rewrite (slice_other 28 _ _ _ 27 1); [| reflexivity | rewrite host_len; lia | rewrite host_len; lia].
    assert (slice (put 27 [Z.b2z confirm] (repeat 0 28)) 27 1 = [Z.b2z confirm]) as -> by reflexivity.
    rewrite hostnum_host, Z.mod_small by (cbn; lia). destruct confirm; reflexivity.
Qed.

Definition plain_imsi (i : option (list Z)) : Prop :=
  match i with Some s => (length s <= 15)%nat /\ Forall (fun c => c <> 0) s | None => True end.

Lemma pch_hear nr block plen confirm imsi id : length block = 22%nat -> 0 <= id < 2 ^ 32 -> plain_imsi imsi ->
  exists d, hear (tx_pch2 nr block plen confirm imsi id) = Some (HData (mk_data nr 0 0 8 0 0 0 d)) /\
            hear_pch d = Some (mk_ccch id (match imsi with Some s => s | None => [] end) (macblock block plen) confirm).
Proof.
  intros HB HI HS. unfold tx_pch2. set (a0 := match imsi with Some s => _ | None => _ end).
  assert (HM : length (macblock block plen) = 23%nat) by (apply macblock_len, HB).
  set (b := put 0 (host 4 id) (repeat 0 44)).
  assert (Lb : length b = 44%nat) by (apply put_len; [reflexivity | rewrite host_len; lia]).
  assert (A0 : length a0 = 44%nat /\ slice a0 0 4 = host 4 id /\
               cstring (slice a0 4 16) = match imsi with Some s => s | None => [] end).
  { unfold a0. fold b. destruct imsi as [s|].
    - destruct HS as [S1 S2]. pose proof (strlcpy_len 16 s ltac:(lia)) as HL.
      destruct (slice_text 44 4 16 s b Lb ltac:(lia) ltac:(lia) S2) as [T _].
      split; [apply put_len; [exact Lb | lia]|]. split.
      + rewrite (slice_other 44) by lia. apply (slice_same 44); [reflexivity | rewrite host_len; lia | rewrite host_len; reflexivity].
      + rewrite T. apply firstn_all2. lia.
    - split; [exact Lb|]. split.
      + apply (slice_same 44); [reflexivity | rewrite host_len; lia | rewrite host_len; reflexivity].
      + unfold b. rewrite (slice_other 44); [reflexivity | reflexivity | rewrite host_len; lia | rewrite host_len; lia]. }
  destruct A0 as (A1 & A2 & A3). clearbody a0.
  set (c := put 43 _ a0). assert (Lc : length c = 44%nat) by (apply put_len; [exact A1 | cbn [length]; lia]).
  assert (LA : length (put 20 (macblock block plen) c) = 44%nat) by (apply put_len; [exact Lc | lia]).
  exists (put 20 (macblock block plen) c). split.
  - change 44 with (Z.of_nat 44). rewrite <- LA. apply data_req_hear; lia.
  - unfold hear_pch. rewrite cut_slices0. cbn [slices L_PCH list_sum fold_right Nat.add].
    rewrite (skipn_all2 (put 20 _ c)) by lia.
    rewrite (slice_same 44) by lia.
    rewrite (slice_other 44 _ _ _ 0 4) by lia. rewrite (slice_other 44 _ _ _ 4 16) by lia. rewrite (slice_other 44 _ _ _ 43 1) by lia.
    unfold c.
    rewrite (slice_other 44 _ _ _ 0 4) by (cbn [length]; lia). rewrite (slice_other 44 _ _ _ 4 16) by (cbn [length]; lia).
    rewrite (slice_same 44) by (cbn [length]; lia).
    rewrite A2, A3, hostnum_host, Z.mod_small by (cbn; lia). destruct confirm; reflexivity.
Qed.

(** ** Paging *)
Lemma field8 x : oct x -> bits_octet (field_bits 8 x) = x.
Proof.
  intros H. unfold oct in H.
  assert (E : forallb (fun x => bits_octet (field_bits 8 x) =? x) (map Z.of_nat (seq 0 256)) = true) by (vm_compute; reflexivity).
  rewrite forallb_forall in E. apply Z.eqb_eq, E. replace x with (Z.of_nat (Z.to_nat x)) by lia.
  apply in_map, in_seq. lia.
Qed.
Lemma pack_oct n x v : oct x -> pack (S n) (field_bits 8 x ++ v) = x :: pack n v.
Proof.
  intros H. change (pack (S n) (field_bits 8 x ++ v)) with (bits_octet (field_bits 8 x) :: pack n v).
  rewrite field8 by exact H. reflexivity.
Qed.
Lemma pack_octs l : forall n v, Forall oct l -> pack (length l + n) (flat_map (field_bits 8) l ++ v) = l ++ pack n v.
Proof.
  induction l as [|x l IH]; intros n v H; [reflexivity|]. inversion H; subst.
  cbn [flat_map length Nat.add]. rewrite <- app_assoc, pack_oct by assumption. cbn [app]. f_equal. apply IH. assumption.
Qed.
Lemma fm8_len l : length (flat_map (field_bits 8) l) = (8 * length l)%nat.
Proof. induction l as [|x l IH]; [reflexivity|]. cbn [flat_map]. rewrite app_length, IH. cbn [length field_bits]. lia. Qed.
Lemma fm8_skip k : forall l, skipn (8 * k) (flat_map (field_bits 8) l) = flat_map (field_bits 8) (skipn k l).
Proof.
  induction k as [|k IH]; intros l; [reflexivity|]. destruct l as [|x l]; [cbn; reflexivity|].
  cbn [flat_map skipn]. replace (8 * S k)%nat with (8 + 8 * k)%nat by lia. rewrite <- IH.
  rewrite <- skip_skip. f_equal.
Qed.
Lemma skipn_repeat' {A} (x : A) k : forall n, skipn k (repeat x n) = repeat x (n - k).
Proof. induction k; intros [|n]; cbn; auto. Qed.

(** The octets of the request. *)
Lemma request_octets mi v plen : Forall oct mi -> (length mi <= 17)%nat -> write_paging_request mi = Some (v, plen) ->
  plen = 4 + Z.of_nat (length mi) /\
  pack 22 v = [0x06; 0x21; 0; Z.of_nat (length mi)] ++ mi ++ 0x27 :: repeat 0x2b (17 - length mi).
Proof.
  intros HM HL E. unfold write_paging_request in E. destruct mi as [|m0 r0]; [discriminate|].
  remember (m0 :: r0) as mi eqn:EM. clear m0 r0 EM.
  set (w := field_bits 4 0 ++ _) in E.
  assert (E1 : v = over w (flat_map (field_bits 8) (repeat 0x2b 22))) by congruence.
  assert (E2 : plen = (32 + 8 * Z.of_nat (length mi)) / 8) by congruence. clear E. subst v plen.
  split; [Z.div_mod_to_equations; lia|].
  set (six := field_bits 1 0 ++ field_bits 1 0 ++ field_bits 1 1 ++ field_bits 1 0 ++ field_bits 1 0 ++ field_bits 1 1) in w.
  assert (EW : w = flat_map (field_bits 8) ([0x06; 0x21; 0; Z.of_nat (length mi)] ++ mi) ++ six).
  { unfold w. rewrite flat_map_app. cbn [flat_map]. rewrite app_nil_r, <- !app_assoc. reflexivity. }
  assert (LW : length w = (8 * (4 + length mi) + 6)%nat).
  { rewrite EW, app_length, fm8_len, app_length. cbn [length]. change (length six) with 6%nat. lia. }
  unfold over. rewrite LW. rewrite <- skip_skip, fm8_skip, skipn_repeat'.
  replace (22 - (4 + length mi))%nat with (S (17 - length mi))%nat by lia.
  cbn [repeat flat_map].
  assert (ES : skipn 6 (field_bits 8 0x2b ++ flat_map (field_bits 8) (repeat 0x2b (17 - length mi))) =
               [true; true] ++ flat_map (field_bits 8) (repeat 0x2b (17 - length mi))) by reflexivity.
  rewrite ES, EW, <- app_assoc.
  replace (six ++ [true; true] ++ flat_map (field_bits 8) (repeat 0x2b (17 - length mi)))
    with (flat_map (field_bits 8) (0x27 :: repeat 0x2b (17 - length mi)) ++ []).
  2:{ rewrite app_nil_r. cbn [flat_map]. rewrite app_assoc. f_equal. }
  set (h := [_; _; _; _] ++ mi). set (t := _ :: repeat _ _).
  assert (LH : (length h + length t = 22)%nat).
  { unfold h, t. rewrite app_length. cbn [length]. rewrite repeat_length. lia. }
  replace 22%nat with (length h + (length t + 0))%nat by lia.
  rewrite pack_octs.
  2:{ unfold h. apply Forall_app. split; [|exact HM].
      repeat (apply Forall_cons; [unfold oct; lia|]). apply Forall_nil. }
  rewrite pack_octs.
  2:{ unfold t. apply Forall_cons; [unfold oct; lia|]. clear. induction (17 - length mi)%nat; cbn [repeat]; constructor; auto. unfold oct; lia. }
  cbn [pack]. rewrite app_nil_r. unfold h. rewrite <- app_assoc. reflexivity.
Qed.

Lemma page_request mi : Forall oct mi -> (0 < length mi <= 17)%nat ->
  exists v, write_paging_request mi = Some (v, 4 + Z.of_nat (length mi)) /\ length (pack 22 v) = 22%nat /\
            page (macblock (pack 22 v) (4 + Z.of_nat (length mi))) = Some (mi, true).
Proof.
  intros HM HL. destruct (write_paging_request mi) as [[v plen]|] eqn:E.
  2:{ destruct mi; [cbn in HL; lia | discriminate]. }
  destruct (request_octets mi v plen HM ltac:(lia) E) as [-> EP]. exists v. split; [reflexivity|].
  assert (LP : length (pack 22 v) = 22%nat).
  { rewrite EP, !app_length. cbn [length]. rewrite repeat_length. lia. }
  split; [exact LP|]. unfold macblock. rewrite EP. cbn [app]. unfold page.
  set (n := Z.of_nat (length mi)).
  assert (E2 : Z.lor (Z.shiftl (4 + n) 2) 1 mod 256 = 4 * (4 + n) + 1).
  { assert (F : forallb (fun n => Z.lor (Z.shiftl (4 + n) 2) 1 mod 256 =? 4 * (4 + n) + 1) (map Z.of_nat (seq 0 18)) = true)
      by (vm_compute; reflexivity).
    rewrite forallb_forall in F. apply Z.eqb_eq, F. unfold n. apply in_map, in_seq. lia. }
  rewrite E2.
  assert (LL : Nat.eqb (length (4 * (4 + n) + 1 :: 6 :: 33 :: 0 :: n :: mi ++ 39 :: repeat 43 (17 - length mi)%nat)) 23 = true).
  { apply Nat.eqb_eq. cbn [length]. rewrite app_length. cbn [length]. rewrite repeat_length. lia. }
  rewrite LL.
  assert ((4 * (4 + n) + 1) mod 4 = 1) as -> by (Z.div_mod_to_equations; lia).
  assert ((4 * (4 + n) + 1) / 4 = 4 + n) as -> by (Z.div_mod_to_equations; lia).
  rewrite !Z.eqb_refl. cbn [andb Z.eqb Pos.eqb].
  unfold n. rewrite Nat2Z.id, skipn_app, skipn_all, Nat.sub_diag. cbn [app skipn].
  rewrite firstn_app, firstn_all, Nat.sub_diag. cbn [firstn]. rewrite app_nil_r. reflexivity.
Qed.

Lemma paging_hear nr mi imsi : Forall oct mi -> (0 < length mi <= 17)%nat -> plain_imsi imsi ->
  exists m d block, paging_request nr mi imsi = (Some m, true) /\
    hear m = Some (HData (mk_data nr 0 0 8 0 0 0 d)) /\
    hear_pch d = Some (mk_ccch 0xffffffff (match imsi with Some s => s | None => [] end) block false) /\
    page block = Some (mi, true).
Proof.
  intros HM HL HI. destruct (page_request mi HM HL) as (v & E1 & E2 & E3).
  unfold paging_request. rewrite E1.
  destruct (pch_hear nr (pack 22 v) (4 + Z.of_nat (length mi)) false imsi RESERVED_TMSI E2 ltac:(unfold RESERVED_TMSI; lia) HI)
    as (d & D1 & D2).
  eexists _, d, _. split; [reflexivity|]. split; [exact D1|]. split; [exact D2 | exact E3].
Qed.
