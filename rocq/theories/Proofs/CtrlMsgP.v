(** The messages of a cell change come out of the encoder as Model/Nacc.v has them. *)
From Coq Require Import ZArith List Bool Lia.
From Verif.Model Require Import NeighCache Paging Nacc Csn1 Csn1Tables Csn1Enc Assign CtrlMsg.
From Verif.Spec Require Import NaccSpec.
From Verif.Proofs Require Import Csn1Emit AssignRead AssignMem AssignFits Csn1Close AssignUp NaccP NaccP2.
Import ListNotations.
Open Scope Z_scope.

Lemma fldb_fb k v : fldb k v = field_bits k v.
Proof. induction k; cbn [fldb field_bits]; [reflexivity|now rewrite IHk]. Qed.
Lemma flat_fldb l : flat_map (fldb 8) l = flat_map (field_bits 8) l.
Proof. induction l as [|x l IH]; [reflexivity|]. cbn [flat_map]. now rewrite fldb_fb, IH. Qed.
Lemma b2z_b b : Nacc.b2z b = Z.b2z b.
Proof. now destruct b. Qed.

(** An array of octets. *)
Lemma wr_arr m num off cap base l : Z.to_nat num = length l -> 0 <= num ->
  (forall k x, nth_error l k = Some x -> byte_at m (base + off + Z.of_nat k) = x mod 256) ->
  wr (enc m (UintArr 8 num off cap) base) (flat_map (field_bits 8) l).
Proof.
  intros L N B s. cbn [Csn1Enc.enc]. unfold enc_uint_arr. destruct (8 * num <=? e_rem s) eqn:E.
  - change (8 <=? 8) with true. cbv iota. rewrite L, octets_more. f_equal. now apply octs_all.
  - apply Z.leb_gt in E. unfold len. change (flat_map (field_bits 8) l) with (flat_map AssignSpec.octet_bits l).
    rewrite flat_len. lia.
Qed.

(** Any header. *)
Lemma encode_any m (T : Z -> list bool -> Prop) k tab w p rrbp sp usf : (forall r t, T r t -> r = 0) ->
  gen T k (erun m (enc m) 0 tab 0) w -> len w + k <= 176 ->
  exists t, encode_dl m tab p rrbp sp usf =
      Some ((field_bits 2 p ++ field_bits 2 rrbp ++ field_bits 1 sp ++ field_bits 3 usf) ++ w ++ t) /\
    T 0 t /\ len (w ++ t) = 176.
Proof.
  intros T0 G L. unfold encode_dl, Csn1Enc.etable. cbn [e_rem]. change (176 <? 0) with false. cbv iota.
  set (h := field_bits 2 p ++ _). specialize (G (mk_estate h 176) ltac:(cbn [e_rem]; lia)).
  destruct (erun m (enc m) 0 tab 0 (mk_estate h 176)) as [s|c|].
  - destruct G as (t & G1 & G2 & G3). pose proof (T0 _ _ G3) as Z0. rewrite Z0 in *. cbn [Z.ltb Z.compare]. rewrite G1 in Z0 |- *.
    cbn [more e_rem e_out] in *. exists t. split; [reflexivity|]. split; [exact G3|lia].
  - cbn [e_rem] in G. lia.
  - destruct G.
Qed.

Lemma tfi_wr m dl tfi base : byte_at m (base + 0) = Z.b2z dl -> byte_at m (base + 1) = tfi mod 256 ->
  fits (erun m (enc m) 0 T_Global_TFI_t base) (field_bits 1 (Z.b2z dl) ++ field_bits 5 tfi).
Proof.
  intros A B. unfold T_Global_TFI_t. rewrite <- (app_nil_r (_ ++ _)). apply fits_cons; [reflexivity| |apply fits_nil].
  destruct dl.
  - eapply wr_union with (i := 1%nat); [exact A|reflexivity|cbn [length]; lia|reflexivity|reflexivity|].
    apply alt_uint; [apply wr_u8; [reflexivity|lia|exact B]|lia|reflexivity].
  - eapply wr_union with (i := 0%nat); [exact A|reflexivity|cbn [length]; lia|reflexivity|reflexivity|].
    apply alt_uint; [apply wr_u8; [reflexivity|lia|exact B]|lia|reflexivity].
Qed.

(** ** Continue *)
Lemma continue_encoded rrbp c n : exists t,
  encode_continue rrbp c n = Some (create_continue rrbp c n ++ t) /\ length (create_continue rrbp c n ++ t) = 184%nat /\ ends t.
Proof.
  unfold encode_continue, create_continue, ctrl_head.
  set (m := write_packet_cell_change_continue _ _ _ _ _ _).
  set (w := field_bits 6 0x0b ++ field_bits 2 0 ++ field_bits 1 0 ++ (field_bits 1 (Z.b2z (cr_dl c)) ++ field_bits 5 (cr_tfi c)) ++
    (n_present n :: if n_present n then field_bits 10 (k_arfcn (n_key n)) ++ field_bits 6 (k_bsic (n_key n)) ++ field_bits 2 0 else [])).
  assert (G : gen full 0 (erun m (enc m) 0 T_Packet_Cell_Change_Continue_t 0) w).
  { unfold T_Packet_Cell_Change_Continue_t, w.
    apply gen_cons; [lia|reflexivity|apply wr_u8; [reflexivity|lia|]|].
    { unfold m, write_packet_cell_change_continue, global_tfi, st16. cbv zeta. peel I. }
    apply gen_cons; [lia|reflexivity|apply wr_u8; [reflexivity|lia|]|].
    { unfold m, write_packet_cell_change_continue, global_tfi, st16. cbv zeta. peel I. }
    apply gen_cons; [lia|reflexivity|apply wr_fixed; lia|].
    apply gen_cons; [lia|reflexivity|apply wr_typ; apply tfi_wr|].
    { unfold m, write_packet_cell_change_continue, global_tfi, st16. cbv zeta. destruct (cr_dl c); peel I. }
    { unfold m, write_packet_cell_change_continue, global_tfi, st16. cbv zeta. peel I. }
    apply gen_next; [lia| |cbn [length]; lia|].
    { unfold m, write_packet_cell_change_continue, global_tfi, st16. cbv zeta. destruct (n_present n); peel I. }
    destruct (n_present n) eqn:P.
    - apply gen_cons; [lia|reflexivity|apply wr_u16; [reflexivity|lia| |]|].
      { unfold m, write_packet_cell_change_continue, global_tfi, st16. cbv zeta. peel I. }
      { unfold m, write_packet_cell_change_continue, global_tfi, st16. cbv zeta. peel I. }
      apply gen_cons; [lia|reflexivity|apply wr_u8; [reflexivity|lia|]|].
      { unfold m, write_packet_cell_change_continue, global_tfi, st16. cbv zeta. peel I. }
      rewrite <- (app_nil_r (field_bits 2 0)).
      apply gen_cons; [lia|reflexivity|apply wr_u8; [reflexivity|lia|]|].
      { unfold m, write_packet_cell_change_continue, global_tfi, st16. cbv zeta. peel I. }
      apply gen_pad.
    - cbn [skipn]. apply gen_pad. }
  destruct (encode_any m full 0 _ w 1 rrbp 1 0 (fun r t H => proj1 H) G) as (t & E & [_ N] & L).
  { unfold w, len. destruct (n_present n); rewrite !app_length; cbn [length]; rewrite ?app_length, ?fb_len; cbn; lia. }
  assert (Q : (field_bits 2 1 ++ field_bits 2 rrbp ++ field_bits 1 1 ++ field_bits 3 0) ++ w ++ t =
    create_continue rrbp c n ++ t).
  { unfold w, create_continue, ctrl_head. destruct (n_present n); rewrite <- !app_assoc; reflexivity. }
  fold (ctrl_head rrbp 1 0x0b c). fold (create_continue rrbp c n).
  exists t. rewrite <- Q. split; [exact E|]. split; [|exact N].
  rewrite app_length. change (length (field_bits 2 1 ++ field_bits 2 rrbp ++ field_bits 1 1 ++ field_bits 3 0)) with 8%nat.
  unfold len in L. lia.
Qed.

(** ** Data *)
Lemma nth_pad_to (l : list Z) k n x : nth_error (pad_to n l) k = Some x -> nth_error l k = Some x \/ (nth_error l k = None /\ x = 0).
Proof.
  unfold pad_to. intros H. destruct (Nat.lt_ge_cases k (length l)) as [L|L].
  - left. now rewrite nth_error_app1 in H.
  - right. split; [now apply nth_error_None|]. rewrite nth_error_app2 in H by exact L.
    apply nth_error_In in H. now apply repeat_spec in H.
Qed.

Section Data.
Variables (dl : bool) (tfi idx : Z) (first : bool) (arfcn bsic x : Z) (data : list Z).
Let base : Z -> Z := if first then st true 4 bsic (st16 true 2 arfcn (st true 0 1 (fun _ => 0))) else st true 0 0 (fun _ => 0).
Let cont : Z -> Z := copy true ((if first then 5 else 2) + 1) data (st true (if first then 5 else 2) x base).
Let m := write_packet_neighbour_cell_data dl tfi 0 idx cont.
Hypothesis L : (length data <= if first then 16 else 18)%nat.

Lemma low a : a < 8 -> byte_at m a =
  byte_at (st true 6 idx (st true 5 0 (st true 4 0 (global_tfi dl tfi (st true 1 0 (st true 0 0x0c (fun _ => 0))))))) a.
Proof.
  intros A. unfold m, write_packet_neighbour_cell_data, byte_at. cbv zeta.
  now replace (8 <=? a) with false by (symmetry; apply Z.leb_gt; lia).
Qed.
Lemma high a : 8 <= a < 30 -> byte_at m a = byte_at cont (a - 8).
Proof.
  intros A. unfold m, write_packet_neighbour_cell_data, byte_at. cbv zeta.
  replace (8 <=? a) with true by (symmetry; apply Z.leb_le; lia).
  now replace (a <? 30) with true by (symmetry; apply Z.ltb_lt; lia).
Qed.
Lemma cont_low a : a < (if first then 5 else 2) -> byte_at cont a = byte_at base a.
Proof. intros A. unfold cont. rewrite copy_other by (destruct first; lia). apply byte_other. destruct first; lia. Qed.
Lemma base_zero a : 5 < a \/ (first = false /\ 0 < a) -> byte_at base a = 0.
Proof.
  intros A. unfold base. destruct first; unfold st16.
  - rewrite !byte_other by (destruct A as [A|[A _]]; [lia|discriminate A]). reflexivity.
  - rewrite !byte_other by lia. reflexivity.
Qed.
Lemma cont_at k y : nth_error (pad_to (if first then 17 else 19) (x :: data)) k = Some y ->
  byte_at cont ((if first then 5 else 2) + Z.of_nat k) = y mod 256.
Proof.
  intros N. destruct (nth_pad_to _ _ _ _ N) as [E|[E ->]].
  - destruct k as [|k]; cbn [nth_error] in E.
    + injection E as <-. unfold cont. rewrite copy_other by lia. apply byte_same. lia.
    + unfold cont. replace ((if first then 5 else 2) + Z.of_nat (S k)) with ((if first then 5 else 2) + 1 + Z.of_nat k) by lia.
      now apply copy_at.
  - apply nth_error_None in E. cbn [length] in E. unfold cont. rewrite copy_other by lia.
    rewrite byte_other by lia. rewrite base_zero; [reflexivity|]. destruct first; [left; lia|right; split; [reflexivity|lia]].
Qed.

Lemma data_gen : gen full 0 (erun m (enc m) 0 T_Packet_Neighbour_Cell_Data_t 0)
  (field_bits 6 0x0c ++ field_bits 2 0 ++ field_bits 1 0 ++ (field_bits 1 (Z.b2z dl) ++ field_bits 5 tfi) ++
   field_bits 2 0 ++ field_bits 1 0 ++ field_bits 5 idx ++
   ((if first then field_bits 1 1 ++ field_bits 10 arfcn ++ field_bits 6 bsic else field_bits 1 0) ++
    flat_map (field_bits 8) (pad_to (if first then 17 else 19) (x :: data))) ++ []).
Proof.
  assert (PL : length (pad_to (if first then 17 else 19) (x :: data)) = if first then 17%nat else 19%nat).
  { apply pad_len. cbn [length]. destruct first; lia. }
  unfold T_Packet_Neighbour_Cell_Data_t.
  apply gen_cons; [lia|reflexivity|apply wr_u8; [reflexivity|lia|]|]. { rewrite low by lia. unfold global_tfi. peel I. }
  apply gen_cons; [lia|reflexivity|apply wr_u8; [reflexivity|lia|]|]. { rewrite low by lia. unfold global_tfi. peel I. }
  apply gen_cons; [lia|reflexivity|apply wr_fixed; lia|].
  apply gen_cons; [lia|reflexivity|apply wr_typ; apply tfi_wr|].
  { rewrite low by lia. unfold global_tfi. destruct dl; peel I. }
  { rewrite low by lia. unfold global_tfi. peel I. }
  apply gen_cons; [lia|reflexivity|apply wr_u8; [reflexivity|lia|]|]. { rewrite low by lia. unfold global_tfi. peel I. }
  apply gen_cons; [lia|reflexivity|apply wr_u8; [reflexivity|lia|]|]. { rewrite low by lia. unfold global_tfi. peel I. }
  apply gen_cons; [lia|reflexivity|apply wr_u8; [reflexivity|lia|]|]. { rewrite low by lia. unfold global_tfi. peel I. }
  apply gen_cons; [lia|reflexivity| |apply gen_pad]. apply wr_typ.
  rewrite <- (app_nil_r ((if first then _ else _) ++ _)). unfold T_PNCDContainer_t.
  apply fits_cons; [reflexivity| |apply fits_nil].
  assert (U : byte_at m (0 + 8 + 0) = Z.of_nat (if first then 1 else 0)).
  { change (0 + 8 + 0) with 8. rewrite high by lia. change (8 - 8) with 0. rewrite cont_low by (destruct first; lia).
    unfold base, st16. destruct first; peel I. }
  pose proof cont_low as CL. pose proof cont_at as CA.
  destruct (Bool.bool_dec first true) as [F|F]; [|apply not_true_is_false in F]; rewrite F in U, PL, CL, CA |- *.
  - rewrite <- app_assoc. eapply wr_choice with (i := 1%nat); [exact U|reflexivity|lia|reflexivity|].
    apply wr_typ. unfold T_PNCD_Container_With_ID_t. rewrite <- !app_assoc.
    apply fits_cons; [reflexivity|apply wr_u16; [reflexivity|lia| |]|].
    { rewrite high, CL by lia. unfold base, st16. rewrite F. peel I. }
    { rewrite high, CL by lia. unfold base, st16. rewrite F. peel I. }
    apply fits_cons; [reflexivity|apply wr_u8; [reflexivity|lia|]|].
    { rewrite high, CL by lia. unfold base, st16. rewrite F. peel I. }
    rewrite <- (app_nil_r (flat_map _ _)). apply fits_cons; [reflexivity| |apply fits_nil].
    apply wr_arr; [symmetry; exact PL|lia|]. intros k y N.
    assert (K : (k < 17)%nat) by (rewrite <- PL; apply nth_error_Some; congruence).
    rewrite high by lia. replace (0 + 8 + 2 + 3 + Z.of_nat k - 8) with (5 + Z.of_nat k) by lia. now apply CA.
  - eapply wr_choice with (i := 0%nat); [exact U|reflexivity|lia|reflexivity|].
    apply wr_typ. unfold T_PNCD_Container_Without_ID_t.
    rewrite <- (app_nil_r (flat_map _ _)). apply fits_cons; [reflexivity| |apply fits_nil].
    apply wr_arr; [symmetry; exact PL|lia|]. intros k y N.
    assert (K : (k < 19)%nat) by (rewrite <- PL; apply nth_error_Some; congruence).
    rewrite high by lia. replace (0 + 8 + 2 + 0 + Z.of_nat k - 8) with (2 + Z.of_nat k) by lia. now apply CA.
Qed.

Lemma data_bits : encode_dl m T_Packet_Neighbour_Cell_Data_t 1 0 0 0 =
  Some (field_bits 2 1 ++ field_bits 2 0 ++ field_bits 1 0 ++ field_bits 3 0 ++
    field_bits 6 0x0c ++ field_bits 2 0 ++ field_bits 1 0 ++ field_bits 1 (Z.b2z dl) ++ field_bits 5 tfi ++
    field_bits 2 0 ++ field_bits 1 0 ++ field_bits 5 idx ++
    (if first then field_bits 1 1 ++ field_bits 10 arfcn ++ field_bits 6 bsic else field_bits 1 0) ++
    flat_map (field_bits 8) (pad_to (if first then 17 else 19) (x :: data))).
Proof.
  assert (PL : length (pad_to (if first then 17 else 19) (x :: data)) = if first then 17%nat else 19%nat).
  { apply pad_len. cbn [length]. destruct first; lia. }
  pose proof data_gen as G. set (w := field_bits 6 0x0c ++ _) in G.
  assert (W : len w = 176).
  { unfold w, len. rewrite !app_length. change (flat_map (field_bits 8)) with (flat_map AssignSpec.octet_bits). rewrite flat_len, PL.
    destruct first; rewrite ?app_length, !fb_len; reflexivity. }
  destruct (encode_any m full 0 _ w 1 0 0 0 (fun r t H => proj1 H) G) as (t & E & _ & Lt); [lia|].
  rewrite len_app, W in Lt. assert (t = []) by (destruct t; [reflexivity|unfold len in Lt; cbn [length] in Lt; lia]). subst t.
  rewrite E. unfold w. rewrite !app_nil_r, <- !app_assoc. reflexivity.
Qed.
End Data.

Lemma data_encoded c n rest : sending n rest -> encode_data c n = Some (fst (fst (create_data c n))).
Proof.
  intros S. pose proof (rest_len _ _ S) as RL. pose proof (s_pos _ _ S) as P. pose proof (s_len _ _ S) as Ln.
  unfold encode_data, create_data, fill_container.
  assert (E : sz (Z.of_nat (length (n_si n)) - n_sent n) = Z.of_nat (length rest)).
  { unfold sz. rewrite Z.mod_small by lia. lia. }
  rewrite E. rewrite <- (s_rest _ _ S). cbv zeta. fold (b2z (n_psi n)).
  assert (B : forall x (data : list Z), (length data <= if (n_idx n =? 0)%Z then 16 else 18)%nat ->
    encode_dl (write_packet_neighbour_cell_data (cr_dl c) (cr_tfi c) 0 (n_idx n mod 256)
      (copy true ((if n_idx n =? 0 then 5 else 2) + 1) data (st true (if n_idx n =? 0 then 5 else 2) x
        (if n_idx n =? 0 then st true 4 (k_bsic (n_key n)) (st16 true 2 (k_arfcn (n_key n)) (st true 0 1 (fun _ => 0))) else st true 0 0 (fun _ => 0)))))
      T_Packet_Neighbour_Cell_Data_t 1 0 0 0 =
    Some (ctrl_head 0 0 12 c ++ fldb 2 0 ++ fldb 1 0 ++ fldb 5 (n_idx n mod 256) ++
     (if n_idx n =? 0 then fldb 1 1 ++ fldb 10 (k_arfcn (n_key n)) ++ fldb 6 (k_bsic (n_key n)) else fldb 1 0) ++
     flat_map (fldb 8) (pad_to (Z.to_nat (if n_idx n =? 0 then 17 else 19)) (x :: data)))).
  { intros x data D. rewrite data_bits by exact D. f_equal. unfold ctrl_head. rewrite <- !app_assoc. destruct (n_idx n =? 0); reflexivity. }
  replace (Z.to_nat (if n_idx n =? 0 then 17 - 1 else 19 - 1)) with (Z.to_nat ((if n_idx n =? 0 then 17 else 19) - 1)) by now destruct (n_idx n =? 0).
  replace (if n_idx n =? 0 then 17 - 1 else 19 - 1) with ((if n_idx n =? 0 then 17 else 19) - 1) by now destruct (n_idx n =? 0).
  rewrite !Z.geb_leb.
  destruct (Z.eqb_spec (Z.of_nat (length rest)) 0) as [Z0|Z0].
  - cbn [fst]. exact (B (Z.lor (Z.shiftl (b2z (n_psi n)) 5) 0) [] ltac:(cbn [length]; lia)).
  - destruct (Z.leb_spec ((if n_idx n =? 0 then 17 else 19) - 1) (Z.of_nat (length rest))) as [G|G]; cbn [fst]; apply B.
    + rewrite firstn_length. destruct (n_idx n =? 0); lia.
    + rewrite firstn_length. destruct (n_idx n =? 0); lia.
Qed.
