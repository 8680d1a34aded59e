(** Proofs about Model/PcuTx.v: the messages. *)
From Coq Require Import ZArith List Bool Lia.
From Verif Require Import Model.Csn1Enc Model.CtrlMsg Model.PcuTx Spec.PcuTxSpec.
Import ListNotations.
Local Open Scope Z_scope.

(** ** Memory *)
Definition slice (m : list Z) (a n : nat) : list Z := firstn n (skipn a m).

Lemma skip_skip {A} a b (l : list A) : skipn b (skipn a l) = skipn (a + b) l.
Proof. revert l; induction a; intros [|x l]; cbn; auto. destruct b; reflexivity. Qed.

Lemma put_len L off bs m : length m = L -> (off + length bs <= L)%nat -> length (put off bs m) = L.
Proof. intros H1 H2. unfold put. rewrite !app_length, firstn_length, skipn_length. lia. Qed.

Lemma slice_same L off bs m n : length m = L -> (off + length bs <= L)%nat -> n = length bs -> slice (put off bs m) off n = bs.
Proof.
  intros H1 H2 ->. unfold slice, put. rewrite skipn_app, (skipn_all2 (firstn off m)) by (rewrite firstn_length; lia).
  rewrite firstn_length. replace (off - Nat.min off (length m))%nat with 0%nat by lia. cbn [app skipn].
  rewrite firstn_app, Nat.sub_diag, firstn_all. cbn [firstn]. apply app_nil_r.
Qed.

Lemma skipn_firstn_comm' {A} a b (l : list A) : skipn a (firstn b l) = firstn (b - a) (skipn a l).
Proof. apply skipn_firstn_comm. Qed.

Lemma slice_other L off bs m a n : length m = L -> (off + length bs <= L)%nat -> (a + n <= off \/ off + length bs <= a)%nat ->
  slice (put off bs m) a n = slice m a n.
Proof.
  intros H1 H2 [H3|H3]; unfold slice, put.
  - rewrite skipn_app, skipn_firstn_comm'. rewrite firstn_length.
    replace (a - Nat.min off (length m))%nat with 0%nat by lia. cbn [skipn].
    rewrite firstn_app, firstn_firstn, firstn_length, skipn_length.
    replace (n - Nat.min (off - a) (length m - a))%nat with 0%nat by lia. cbn [firstn]. rewrite app_nil_r.
    f_equal. lia.
  - rewrite skipn_app, (skipn_all2 (firstn off m)) by (rewrite firstn_length; lia). cbn [app].
    rewrite firstn_length. rewrite skipn_app, (skipn_all2 bs) by lia. cbn [app]. rewrite skip_skip. do 2 f_equal. lia.
Qed.

Lemma slice_in L off bs m a n : length m = L -> (off + length bs <= L)%nat -> (off <= a)%nat -> (a + n <= off + length bs)%nat ->
  slice (put off bs m) a n = slice bs (a - off) n.
Proof.
  intros H1 H2 H3 H4. unfold slice, put.
  rewrite skipn_app, (skipn_all2 (firstn off m)) by (rewrite firstn_length; lia). cbn [app].
  rewrite firstn_length. rewrite skipn_app, firstn_app, skipn_length.
  replace (n - (length bs - (a - Nat.min off (length m))))%nat with 0%nat by lia. cbn [firstn]. rewrite app_nil_r.
  do 2 f_equal. lia.
Qed.

Fixpoint slices (a : nat) (sizes : list nat) (m : list Z) : list (list Z) :=
  match sizes with [] => [] | n :: r => slice m a n :: slices (a + n) r m end.

Lemma cut_slices sizes : forall a m, cut sizes (skipn a m) = (slices a sizes m, skipn (a + list_sum sizes) m).
Proof.
  induction sizes as [|n r IH]; intros a m; cbn [cut slices list_sum fold_right].
  - rewrite Nat.add_0_r. reflexivity.
  - rewrite skip_skip, IH. unfold slice. do 2 f_equal. unfold list_sum. lia.
Qed.
Lemma cut_slices0 sizes m : cut sizes m = (slices 0 sizes m, skipn (list_sum sizes) m).
Proof. exact (cut_slices sizes 0 m). Qed.

(** ** Numbers *)
Lemma host_len n : forall x, length (host n x) = n.
Proof. induction n; intros; cbn [host length]; auto. Qed.
Lemma hostnum_host n : forall x, hostnum (host n x) = x mod 256 ^ Z.of_nat n.
Proof.
  induction n as [|n IH]; intros x; cbn [host hostnum fold_right].
  - cbn. rewrite Z.mod_1_r. reflexivity.
  - fold (hostnum (host n (x / 256))). rewrite IH, Nat2Z.inj_succ, Z.pow_succ_r by lia.
    rewrite (Z.rem_mul_r x 256 (256 ^ Z.of_nat n)) by (try apply Z.pow_nonzero; lia). ring.
Qed.
Lemma netnum_net16 x : netnum (net16 x) = x mod 65536.
Proof. unfold net16, netnum. cbn [fold_left]. Z.div_mod_to_equations. lia. Qed.

Lemma cstring_app s : Forall (fun c => c <> 0) s -> forall r, cstring (s ++ 0 :: r) = s.
Proof.
  induction 1 as [|c s H1 H2 IH]; intros r; cbn [cstring app].
  - reflexivity.
  - destruct (Z.eqb_spec c 0); [contradiction|]. rewrite IH. reflexivity.
Qed.

(** ** The messages *)
Ltac lens := repeat (apply put_len; [| rewrite ?host_len; cbn [length]; lia]); first [reflexivity | apply repeat_length | assumption].
Ltac sl := repeat first
  [ rewrite (slice_same SIZE) by first [lens | rewrite ?host_len; cbn [length]; unfold SIZE; lia]
  | rewrite (slice_other SIZE) by first [lens | rewrite ?host_len; cbn [length]; unfold SIZE; lia] ].

Lemma alloc_len ty nr : length (msgb_alloc ty nr) = SIZE.
Proof. unfold msgb_alloc. rewrite (put_len SIZE); [reflexivity | rewrite (put_len SIZE); [reflexivity | reflexivity | cbn; unfold SIZE; lia] | cbn; unfold SIZE; lia]. Qed.
Lemma alloc_0 ty nr : slice (msgb_alloc ty nr) 0 1 = [ty].
Proof. reflexivity. Qed.
Lemma alloc_1 ty nr : slice (msgb_alloc ty nr) 1 1 = [nr].
Proof. reflexivity. Qed.

Ltac side := match goal with
  | |- length (put _ _ _) = _ => apply put_len; [side | side]
  | |- length (msgb_alloc _ _) = _ => apply alloc_len
  | |- length (repeat _ _) = _ => apply repeat_length
  | |- _ => rewrite ?host_len; unfold SIZE in *; cbn [length net16] in *; lia
  end.
Ltac here := rewrite (slice_same SIZE) by side.
Ltac past := rewrite (slice_other SIZE) by side.
Ltac walk := repeat first [here | past].

Lemma zero_slice ty nr a n : (2 <= a)%nat -> (a + n <= SIZE)%nat -> slice (msgb_alloc ty nr) a n = repeat 0 n.
Proof.
  intros H1 H2. unfold msgb_alloc. rewrite (slice_other SIZE) by side. rewrite (slice_other SIZE) by side.
  unfold slice. generalize SIZE, H2. clear H1 H2.
  intros L. revert a n. induction L as [|L IH]; intros a n H2.
  - assert (a = 0%nat) as -> by lia. assert (n = 0%nat) as -> by lia. reflexivity.
  - destruct a as [|a].
    + destruct n as [|n]; [reflexivity|]. cbn [skipn repeat firstn]. f_equal. exact (IH 0%nat n ltac:(lia)).
    + cbn [skipn repeat]. apply IH. lia.
Qed.

Lemma hdr ty nr a : slices 0 L_HDR (msgb_alloc ty nr) = a -> a = [[ty]; [nr]; [0; 0]].
Proof. intros <-. reflexivity. Qed.

Lemma data_req_hear nr trx ts sapi arfcn fn blk d :
  (length d <= 162)%nat -> 0 <= arfcn < 65536 -> 0 <= fn < 2 ^ 32 ->
  hear (data_req nr trx ts sapi arfcn fn blk d (Z.of_nat (length d))) = Some (HData (mk_data nr trx ts sapi arfcn fn blk d)).
Proof.
  intros HD HA HF. unfold data_req.
  assert (Z.of_nat (length d) mod 256 = Z.of_nat (length d)) as -> by (apply Z.mod_small; lia).
  set (m := put 176 _ _).
  assert (LM : length m = SIZE) by (unfold m; side).
  set (m' := if _ =? 0 then m else _).
  assert (E : m' = put 6 d m).
  { unfold m'. rewrite Nat2Z.id, firstn_all. destruct (Z.eqb_spec (Z.of_nat (length d)) 0) as [e|e]; [|reflexivity].
    destruct d; [|cbn in e; lia]. unfold put. cbn [app length]. rewrite Nat.add_0_r. symmetry. apply firstn_skipn. }
  rewrite E. clear m' E.
  assert (L6 : length (put 6 d m) = SIZE) by (apply put_len; [exact LM | unfold SIZE; lia]).
  unfold hear. rewrite (cut_slices0 L_HDR). cbn [slices L_HDR list_sum fold_right Nat.add].
  set (z := put 5 _ _).
  assert (P : forall a n, (a + n <= 5 \/ 6 <= a)%nat -> slice z a n = slice (put 6 d m) a n).
  { intros a n Ha. unfold z. apply (slice_other SIZE); [exact L6 | cbn; unfold SIZE; lia | cbn [length]; lia]. }
  assert (P5 : slice z 5 1 = [Z.of_nat (length d)]).
  { unfold z. apply (slice_same SIZE); [exact L6 | cbn; unfold SIZE; lia | reflexivity]. }
  assert (Q : forall a n, (a + n <= 5 \/ 168 <= a)%nat -> slice z a n = slice m a n).
  { intros a n Ha. rewrite P by lia. apply (slice_other SIZE); [exact LM | unfold SIZE; lia | lia]. }
  assert (QD : slice z 6 162 = d ++ slice m (6 + length d) (162 - length d)).
  { rewrite P by lia. unfold slice, put. rewrite skipn_app, skipn_all2 by (rewrite firstn_length; lia). cbn [app].
    rewrite firstn_length, LM. replace (6 - Nat.min 6 SIZE)%nat with 0%nat by (unfold SIZE; lia). cbn [skipn].
    rewrite firstn_app. rewrite (firstn_all2 d) by lia. reflexivity. }
  rewrite (Q 0 1)%nat, (Q 1 1)%nat by lia.
  assert (slice m 0 1 = [0]) as -> by (unfold m; walk; reflexivity).
  assert (slice m 1 1 = [nr]) as -> by (unfold m; walk; reflexivity).
  cbn [Z.eqb].
  rewrite (cut_slices L_DATA). cbn [slices L_DATA list_sum fold_right Nat.add].
  rewrite P5, QD. rewrite (Q 4 1)%nat, (Q 168 4)%nat, (Q 172 2)%nat, (Q 174 1)%nat, (Q 175 1)%nat, (Q 176 1)%nat, (Q 177 1)%nat, (Q 182 2)%nat by lia.
  assert (slice m 4 1 = [sapi]) as -> by (unfold m; walk; reflexivity).
  assert (slice m 168 4 = host 4 fn) as -> by (unfold m; walk; reflexivity).
  assert (slice m 172 2 = host 2 arfcn) as -> by (unfold m; walk; reflexivity).
  assert (slice m 174 1 = [trx]) as -> by (unfold m; walk; reflexivity).
  assert (slice m 175 1 = [ts]) as -> by (unfold m; walk; reflexivity).
  assert (slice m 176 1 = [blk]) as -> by (unfold m; walk; reflexivity).
  assert (slice m 177 1 = [0]) as -> by (unfold m; walk; rewrite zero_slice by (unfold SIZE; lia); reflexivity).
  assert (slice m 182 2 = [0; 0]) as -> by (unfold m; walk; rewrite zero_slice by (unfold SIZE; lia); reflexivity).
  destruct (Z.leb_spec (Z.of_nat (length d)) 162); [|lia].
  rewrite !hostnum_host. rewrite !Z.mod_small by (cbn; lia).
  rewrite Nat2Z.id, firstn_app, Nat.sub_diag, firstn_all. cbn [firstn]. rewrite app_nil_r. reflexivity.
Qed.
