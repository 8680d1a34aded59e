(** Segmentation and reassembly. *)
From Coq Require Import ZArith List Bool Lia Arith.
From Verif Require Import Base.Arith Model.Segment Spec.SegSpec.
Import ListNotations.
Local Open Scope Z_scope.

(** ** Octet arithmetic *)
Lemma li_bits_all : forallb (fun k => let n := Z.of_nat k in
   (Z.land (n * 4 + 1) 0xfe =? n * 4) && (Z.lor (n * 4) 2 =? n * 4 + 2) && (Z.lor (n * 4 + 1) 2 =? n * 4 + 3) &&
   (Z.lor (n * 4 + 1) 1 =? n * 4 + 1)) (seq 0 64) = true.
Proof. vm_compute. reflexivity. Qed.
Lemma li_bits n : (n < 64)%nat -> let z := Z.of_nat n in
  set_m1 (clear_e (z * 4 + 1)) = z * 4 + 2 /\ set_m1 (z * 4 + 1) = z * 4 + 3 /\ set_e1 (z * 4 + 1) = z * 4 + 1.
Proof.
  intros L z. pose proof li_bits_all as F. rewrite forallb_forall in F. specialize (F n). cbv zeta in F. fold z in F.
  assert (I : In n (seq 0 64)) by (apply in_seq; lia). specialize (F I). unfold set_m1, clear_e, set_e1.
  rewrite !andb_true_iff, !Z.eqb_eq in F. destruct F as [[[F1 F2] F3] F4]. rewrite F1, F2, F3, F4. auto.
Qed.
Lemma li_bits_e_all : forallb (fun k => Z.land (Z.of_nat k * 2 + 1) 0xfe =? Z.of_nat k * 2) (seq 0 128) = true.
Proof. vm_compute. reflexivity. Qed.
Lemma li_bits_e n : (n < 128)%nat -> clear_e (Z.of_nat n * 2 + 1) = Z.of_nat n * 2.
Proof.
  intros L. pose proof li_bits_e_all as F. rewrite forallb_forall in F. specialize (F n ltac:(apply in_seq; lia)).
  cbv beta in F. unfold clear_e. lia.
Qed.

Lemma ext_e_odd z k : 0 < k -> k mod 2 = 0 -> ext_e (z * k + 1) = true.
Proof.
  intros K M. unfold ext_e. rewrite Z.add_mod, Z.mul_mod, M by lia. rewrite Z.mul_0_r. reflexivity.
Qed.
Lemma ext_even z : ext_e (z * 2) = false.
Proof. unfold ext_e. rewrite Z_mod_mult. reflexivity. Qed.
Ltac dm := repeat match goal with |- (_ =? _) = true => apply Z.eqb_eq | |- (_ =? _) = false => apply Z.eqb_neq | |- Z.to_nat _ = Z.to_nat _ => f_equal end; Z.div_mod_to_equations; lia.
Lemma f41 z : ext_e (z * 4 + 1) = true /\ gprs_m (z * 4 + 1) = false /\ gprs_li (z * 4 + 1) = Z.to_nat z.
Proof. unfold ext_e, gprs_m, gprs_li. splits; dm. Qed.
Lemma f42 z : ext_e (z * 4 + 2) = false /\ gprs_m (z * 4 + 2) = true /\ gprs_li (z * 4 + 2) = Z.to_nat z.
Proof. unfold ext_e, gprs_m, gprs_li. splits; dm. Qed.
Lemma f43 z : ext_e (z * 4 + 3) = true /\ gprs_m (z * 4 + 3) = true /\ gprs_li (z * 4 + 3) = Z.to_nat z.
Proof. unfold ext_e, gprs_m, gprs_li. splits; dm. Qed.
Lemma f21 z : ext_e (z * 2 + 1) = true /\ egprs_li (z * 2 + 1) = Z.to_nat z.
Proof. unfold ext_e, egprs_li. splits; dm. Qed.
Lemma f20 z : ext_e (z * 2) = false /\ egprs_li (z * 2) = Z.to_nat z.
Proof. unfold ext_e, egprs_li. splits; dm. Qed.

(** ** Lists *)
Lemma firstn_app_exact {A} (a b : list A) : firstn (length a) (a ++ b) = a.
Proof. rewrite firstn_app, Nat.sub_diag, firstn_O, app_nil_r. apply firstn_all. Qed.
Lemma skipn_app_exact {A} (a b : list A) : skipn (length a) (a ++ b) = b.
Proof. rewrite skipn_app, Nat.sub_diag, skipn_all. reflexivity. Qed.
Lemma skipn_repeat {A} (x : A) k n : skipn k (repeat x n) = repeat x (n - k).
Proof. revert n. induction k; intros [|n]; cbn [skipn repeat Nat.sub]; auto. Qed.

Lemma put_pad lis d m c : put (lis ++ d ++ repeat 0x2b m) (length lis + length d) c
  = lis ++ (d ++ c) ++ repeat 0x2b (m - length c).
Proof.
  unfold put. rewrite (app_assoc lis d). replace (length lis + length d)%nat with (length (lis ++ d)) by apply app_length.
  rewrite firstn_app_exact, skipn_app, skipn_repeat.
  rewrite (skipn_all2 (lis ++ d)) by lia.
  rewrite <- !app_assoc. cbn [app]. repeat f_equal. lia.
Qed.
Lemma insert_pad lis d m v : (1 <= m)%nat -> insert_li (lis ++ d ++ repeat 0x2b m) (length lis) (length lis + length d) v
  = (lis ++ [v]) ++ d ++ repeat 0x2b (m - 1).
Proof.
  intros M. unfold insert_li. rewrite firstn_app_exact, skipn_app_exact.
  replace (length lis + length d - length lis)%nat with (length d) by lia. rewrite firstn_app_exact.
  rewrite (app_assoc lis d), skipn_app, skipn_repeat, app_length.
  rewrite (skipn_all2 (lis ++ d)) by (rewrite app_length; lia).
  rewrite <- !app_assoc. cbn [app]. repeat f_equal. lia.
Qed.
Lemma upd_last lis x r f : upd_octet ((lis ++ [x]) ++ r) (length lis) f = (lis ++ [f x]) ++ r.
Proof.
  unfold upd_octet. rewrite <- !app_assoc, skipn_app_exact. cbn [app].
  rewrite firstn_app_exact. reflexivity.
Qed.

(** ** Length octets for chunk sizes; [z] encodes all but the last *)
Fixpoint encs (k a b : Z) (ns : list nat) : list Z :=
  match ns with
  | [] => []
  | [n] => [Z.of_nat n * k + b]
  | n :: r => (Z.of_nat n * k + a) :: encs k a b r
  end.
Lemma encs_snoc k a b ns n : encs k a b (ns ++ [n]) = map (fun n => Z.of_nat n * k + a) ns ++ [Z.of_nat n * k + b].
Proof.
  induction ns as [|m ns IH]; [reflexivity|]. cbn [app map]. rewrite <- IH.
  destruct ns; reflexivity.
Qed.
Lemma encs_length k a b ns : length (encs k a b ns) = length ns.
Proof.
  induction ns as [|n [|m r] IH]; [reflexivity|reflexivity|].
  change (encs k a b (n :: m :: r)) with ((Z.of_nat n * k + a) :: encs k a b (m :: r)). cbn [length] in *. rewrite IH. reflexivity.
Qed.
Definition sum (ns : list nat) : nat := fold_right Nat.add 0%nat ns.
Lemma sum_app a b : sum (a ++ b) = (sum a + sum b)%nat.
Proof. unfold sum. induction a; cbn [app fold_right]; lia. Qed.

Fixpoint rx_chunks (ns : list nat) (d : list Z) (r : rx) : rx :=
  match ns with [] => r | n :: l => rx_chunks l (skipn n d) (finish (more r (firstn n d))) end.
Lemma rx_chunks_snoc ns : forall d c r, length d = sum ns ->
  rx_chunks (ns ++ [length c]) (d ++ c) r = finish (more (rx_chunks ns d r) c).
Proof.
  induction ns as [|n ns IH]; intros d c r L; cbn [app rx_chunks sum fold_right] in *.
  - destruct d; [|discriminate]. cbn [app]. rewrite firstn_all. reflexivity.
  - rewrite firstn_app, skipn_app. replace (n - length d)%nat with 0%nat by lia.
    cbn [firstn skipn]. rewrite app_nil_r. apply IH. rewrite skipn_length. fold (sum ns) in *. lia.
Qed.
Lemma more_more r a b : more (more r a) b = more r (a ++ b).
Proof. unfold more. cbn [fst snd]. rewrite app_assoc. reflexivity. Qed.
Lemma more_nil r : more r [] = r.
Proof. destruct r. unfold more. cbn [fst snd]. rewrite app_nil_r. reflexivity. Qed.

Lemma split_encs (f : nat -> Z) ns x rest : (forall n, ext_e (f n) = false) -> ext_e x = true ->
  split_ext ((map f ns ++ [x]) ++ rest) = Some (map f ns ++ [x], rest).
Proof.
  intros F X. induction ns as [|n ns IH]; cbn [map app split_ext].
  - rewrite X. reflexivity.
  - rewrite F, IH. reflexivity.
Qed.

(** *** EGPRS *)
Definition fe (n : nat) : Z := Z.of_nat n * 2 + 0.
Lemma fe_val n : fe n = Z.of_nat n * 2. Proof. unfold fe. lia. Qed.
Lemma rx_egprs_all ns : forall d rest r x, (forall n, In n ns -> (n < 127)%nat) -> length d = sum ns ->
  rx_egprs (map fe ns ++ [x]) (d ++ rest) r = rx_egprs [x] rest (rx_chunks ns d r).
Proof.
  induction ns as [|n ns IH]; intros d rest r x B L; cbn [map app sum fold_right] in *.
  - destruct d; [|discriminate]. reflexivity.
  - fold (sum ns) in *. specialize (B n (or_introl eq_refl)) as Bn. cbn [rx_egprs]. rewrite !fe_val.
    destruct (f20 (Z.of_nat n)) as [E1 E2]. rewrite E1, E2, Nat2Z.id.
    replace (Nat.eqb n 127) with false by (symmetry; apply Nat.eqb_neq; lia).
    rewrite firstn_app, skipn_app. replace (n - length d)%nat with 0%nat by lia. cbn [firstn skipn rx_chunks].
    rewrite app_nil_r. apply IH; [intros m I; apply B; right; exact I|]. rewrite skipn_length. lia.
Qed.
Lemma rx_egprs_encs ns d rest r : ns <> [] -> (forall n, In n ns -> (n < 127)%nat) -> length d = sum ns ->
  rx_egprs (encs 2 0 1 ns) (d ++ rest) r = more (rx_chunks ns d r) rest.
Proof.
  intros N. destruct (exists_last N) as (ms & n & ->). intros B L.
  rewrite encs_snoc. fold fe. change (map (fun n0 => Z.of_nat n0 * 2 + 0) ms) with (map fe ms).
  rewrite sum_app in L. cbn [sum fold_right] in L.
  assert (D : d = firstn (sum ms) d ++ skipn (sum ms) d) by (symmetry; apply firstn_skipn).
  set (d1 := firstn (sum ms) d) in *. set (d2 := skipn (sum ms) d) in *.
  assert (L1 : length d1 = sum ms) by (unfold d1; rewrite firstn_length; lia).
  assert (L2 : length d2 = n) by (unfold d2; rewrite skipn_length; lia).
  rewrite D, <- app_assoc. rewrite rx_egprs_all; auto.
  2:{ intros m I. apply B. apply in_app_iff. auto. }
  rewrite <- L2. rewrite rx_chunks_snoc by auto.
  assert (Bn : (n < 127)%nat) by (apply B, in_app_iff; right; left; reflexivity).
  cbn [rx_egprs]. destruct (f21 (Z.of_nat (length d2))) as [E1 E2]. rewrite E1, E2, Nat2Z.id.
  replace (Nat.eqb (length d2) 127) with false by (symmetry; apply Nat.eqb_neq; lia).
  rewrite firstn_app_exact, skipn_app_exact. reflexivity.
Qed.
Lemma rx_egprs_pad ns d rest r : (forall n, In n ns -> (n < 127)%nat) -> length d = sum ns ->
  rx_egprs (map fe ns ++ [255]) (d ++ rest) r = rx_chunks ns d r.
Proof. intros B L. rewrite rx_egprs_all by auto. reflexivity. Qed.

(** *** GPRS *)
Definition fg (n : nat) : Z := Z.of_nat n * 4 + 2.
Lemma rx_gprs_cons x l d r : rx_gprs (x :: l) d r =
  if Nat.eqb (gprs_li x) 0 then more r d
  else if negb (gprs_m x) then finish (more r (firstn (gprs_li x) d))
  else if ext_e x then more (finish (more r (firstn (gprs_li x) d))) (skipn (gprs_li x) d)
  else rx_gprs l (skipn (gprs_li x) d) (finish (more r (firstn (gprs_li x) d))).
Proof. reflexivity. Qed.
Lemma rx_gprs_all ns : forall d rest r x, (forall n, In n ns -> (0 < n)%nat) -> length d = sum ns ->
  rx_gprs (map fg ns ++ [x]) (d ++ rest) r = rx_gprs [x] rest (rx_chunks ns d r).
Proof.
  induction ns as [|n ns IH]; intros d rest r x B L; cbn [map app sum fold_right] in *.
  - destruct d; [|discriminate]. reflexivity.
  - fold (sum ns) in *. specialize (B n (or_introl eq_refl)) as Bn. rewrite (rx_gprs_cons (fg n)).
    destruct (f42 (Z.of_nat n)) as (E1 & E2 & E3). change (Z.of_nat n * 4 + 2) with (fg n) in *. rewrite E1, E2, E3, Nat2Z.id.
    replace (Nat.eqb n 0) with false by (symmetry; apply Nat.eqb_neq; lia). cbn [negb].
    rewrite firstn_app, skipn_app. replace (n - length d)%nat with 0%nat by lia. cbn [firstn skipn rx_chunks].
    rewrite app_nil_r. apply IH; [intros m I; apply B; right; exact I|]. rewrite skipn_length. lia.
Qed.
(** The last octet with M=0 or M=1. *)
Lemma rx_gprs_last ns n d c rest r (m : bool) : (forall n, In n ns -> (0 < n)%nat) -> (0 < n)%nat ->
  length d = sum ns -> length c = n ->
  rx_gprs (map fg ns ++ [Z.of_nat n * 4 + (if m then 3 else 1)]) ((d ++ c) ++ rest) r
  = (if m then more (rx_chunks (ns ++ [n]) (d ++ c) r) rest else rx_chunks (ns ++ [n]) (d ++ c) r).
Proof.
  intros B N L LC. rewrite <- app_assoc, rx_gprs_all by auto. rewrite <- LC, rx_chunks_snoc by auto. cbn [rx_gprs].
  destruct m.
  - destruct (f43 (Z.of_nat (length c))) as (E1 & E2 & E3). rewrite E1, E2, E3, Nat2Z.id.
    replace (Nat.eqb (length c) 0) with false by (symmetry; apply Nat.eqb_neq; lia). cbn [negb].
    rewrite firstn_app_exact, skipn_app_exact. reflexivity.
  - destruct (f41 (Z.of_nat (length c))) as (E1 & E2 & E3). rewrite E2, E3, Nat2Z.id.
    replace (Nat.eqb (length c) 0) with false by (symmetry; apply Nat.eqb_neq; lia). cbn [negb].
    rewrite firstn_app_exact. reflexivity.
Qed.
Lemma rx_gprs_zero ns d rest r : (forall n, In n ns -> (0 < n)%nat) -> length d = sum ns ->
  rx_gprs (map fg ns ++ [1]) (d ++ rest) r = more (rx_chunks ns d r) rest.
Proof. intros B L. rewrite rx_gprs_all by auto. reflexivity. Qed.

(** ** Blocks under construction *)
Definition enc_of (edge : bool) (ns : list nat) : list Z := if edge then encs 2 0 1 ns else encs 4 2 1 ns.
Definition ns_ok (edge : bool) (ns : list nat) : Prop :=
  forall n, In n ns -> if edge then (n < 127)%nat else (0 < n < 64)%nat.
(** The block [b] of length [len] holds whole chunks [ns] with the octets [d]. *)
Definition binv (edge : bool) (len : nat) (b : blk) (ns : list nat) (d : list Z) : Prop :=
  b_oct b = enc_of edge ns ++ d ++ repeat 0x2b (len - b_off b) /\
  b_nch b = length ns /\ b_off b = (length ns + length d)%nat /\ (b_off b < len)%nat /\
  b_fbi b = false /\ b_e b = (match ns with [] => true | _ => false end) /\ length d = sum ns /\ ns_ok edge ns.

(** Sender and receiver agree. *)
Definition llc_ok (edge : bool) (l : llc) : Prop :=
  l_frame l = [] /\ l_idx l = 0%nat \/
  l_frame l <> [] /\ (l_idx l <= length (l_frame l))%nat /\ (edge = false -> (l_idx l < length (l_frame l))%nat).
Definition agree (edge : bool) (s : sender) (r : rx) : Prop :=
  fst r = map fst (s_done s) /\ snd r = firstn (l_idx (s_llc s)) (l_frame (s_llc s)) /\
  llc_ok edge (s_llc s) /\ Forall (fun f => f <> []) (s_queue s).
Definition all_of (s : sender) : list (list Z) := real (s_done s) ++ under_way s ++ s_queue s.


Lemma next_ok edge s r : l_frame (s_llc s) = [] /\ l_idx (s_llc s) = 0%nat \/ l_frame (s_llc s) <> [] ->
  agree edge s r -> agree edge (next_frame s) r /\ all_of (next_frame s) = all_of s.
Proof.
  intros _ (A & B & C & D). unfold next_frame. destruct (l_frame (s_llc s)) as [|x f] eqn:F; [|split; [|auto]].
  2:{ unfold agree. rewrite F. auto. }
  destruct (s_queue s) as [|g q] eqn:Q; [split; [unfold agree; rewrite F, Q; auto|auto]|].
  inversion D; subst. split.
  - unfold agree. cbn [s_done s_llc l_idx l_frame s_queue firstn]. splits; auto.
    + rewrite B. destruct (l_idx (s_llc s)); reflexivity.
    + right. cbn [l_frame l_idx]. splits; auto; [lia|]. intros _. destruct g; [congruence|cbn [length]; lia].
  - unfold all_of, under_way. cbn [s_done s_dummy s_llc l_frame s_queue]. rewrite F, Q.
    destruct g; [congruence|]. destruct (s_dummy s); reflexivity.
Qed.
Lemma real_snoc l f d : real (l ++ [(f, d)]) = real l ++ (if d then [] else [f]).
Proof. unfold real. rewrite filter_app, map_app. cbn [filter snd]. destruct d; reflexivity. Qed.

(** A frame is completed: the receiver has got the rest of it. *)
Lemma complete_ok edge s r c l' : agree edge s r -> l_frame (s_llc s) <> [] -> l_frame l' = l_frame (s_llc s) ->
  c = skipn (l_idx (s_llc s)) (l_frame (s_llc s)) ->
  let s1 := next_frame (mk_snd no_llc false (s_queue s) (s_done s ++ [(l_frame l', s_dummy s)])) in
  agree edge s1 (finish (more r c)) /\ all_of s1 = all_of s.
Proof.
  intros (A & B & C & D) F L ->. cbv zeta.
  set (s0 := mk_snd no_llc false (s_queue s) (s_done s ++ [(l_frame l', s_dummy s)])).
  assert (A0 : agree edge s0 (finish (more r (skipn (l_idx (s_llc s)) (l_frame (s_llc s)))))).
  { unfold agree, s0, finish, more. cbn [fst snd s_done s_llc no_llc l_idx l_frame firstn s_queue]. splits; auto.
    - rewrite map_app, A, B, firstn_skipn, L. reflexivity.
    - left. auto. }
  destruct (next_ok edge s0 _ (or_introl (conj eq_refl eq_refl)) A0) as [X Y]. split; [exact X|].
  rewrite Y. unfold all_of, s0, under_way. cbn [s_done s_dummy s_llc no_llc l_frame s_queue].
  rewrite real_snoc, <- app_assoc, L. destruct (s_dummy s); cbn [app]; [reflexivity|].
  destruct (l_frame (s_llc s)); [congruence|reflexivity].
Qed.

Lemma chunk_pos edge l : edge = false -> llc_ok edge l -> l_frame l <> [] -> (0 < chunk_size l)%nat.
Proof. intros -> [[A _]|(_ & _ & B)] N; [congruence|]. specialize (B eq_refl). unfold chunk_size. lia. Qed.
Lemma skipn_chunk l : firstn (chunk_size l) (skipn (l_idx l) (l_frame l)) = skipn (l_idx l) (l_frame l).
Proof. unfold chunk_size. apply firstn_all2. rewrite skipn_length. lia. Qed.
Lemma chunk_length l : length (skipn (l_idx l) (l_frame l)) = chunk_size l.
Proof. rewrite skipn_length. reflexivity. Qed.
Lemma firstn_more (n i : nat) (f : list Z) : firstn (i + n) f = firstn i f ++ firstn n (skipn i f).
Proof.
  revert f. induction i as [|i IH]; intros f; [reflexivity|]. destruct f as [|x f]; cbn [Nat.add firstn skipn app].
  - rewrite firstn_nil. reflexivity.
  - rewrite IH. reflexivity.
Qed.

Definition sb_of (b : blk) : sent_block := mk_sb (b_e b) (b_fbi b) (b_oct b).

(** *** The new chunk appended, EGPRS and GPRS *)
Lemma enc_add_e ns n rest : (n < 128)%nat -> ns_ok true ns ->
  (match length ns with O => fun o => o | S k => fun o => upd_octet o k clear_e end)
     ((encs 2 0 1 ns ++ [li_octet_egprs (Z.of_nat n) 1]) ++ rest) = encs 2 0 1 (ns ++ [n]) ++ rest.
Proof.
  intros N K. unfold li_octet_egprs. rewrite Z.mod_small by lia.
  destruct ns as [|m ns'] eqn:E; [reflexivity|]. rewrite <- E in *.
  assert (NE : ns <> []) by congruence. destruct (exists_last NE) as (ms & l & EL). clear E NE. subst ns.
  rewrite app_length. cbn [length]. rewrite Nat.add_1_r. rewrite !encs_snoc.
  assert (L : length ms = length (map (fun n0 => Z.of_nat n0 * 2 + 0) ms)) by (rewrite map_length; reflexivity).
  rewrite L at 1. rewrite <- app_assoc, upd_last.
  assert (l < 127)%nat by (apply (K l); apply in_app_iff; right; left; reflexivity).
  rewrite li_bits_e by lia. rewrite map_app. cbn [map]. rewrite <- !app_assoc. cbn [app].
  rewrite Z.add_0_r. reflexivity.
Qed.
Lemma enc_pad_e ns rest : ns <> [] -> ns_ok true ns ->
  (match length ns with O => fun o => o | S k => fun o => upd_octet o k clear_e end)
     ((encs 2 0 1 ns ++ [li_octet_egprs 127 1]) ++ rest) = (map fe ns ++ [255]) ++ rest.
Proof.
  intros NE K. pose proof (enc_add_e ns 127 rest ltac:(lia) K) as X. rewrite encs_snoc in X. exact X.
Qed.

Definition app_post (edge : bool) (len : nat) (s : sender) (R r0 : rx) (b : blk) (out : ar * blk * llc) : Prop :=
  let '(r, b', l') := out in
  let c := skipn (l_idx (s_llc s)) (l_frame (s_llc s)) in
  l_frame l' = l_frame (s_llc s) /\
  match r with
  | AR_NEED_MORE_BLOCKS => b_fbi b' = false /\ exists R', rx_block edge (sb_of b') r0 = Some R' /\
      agree edge (mk_snd l' (s_dummy s) (s_queue s) (s_done s)) R'
  | AR_COMPLETED_SPACE_LEFT => exists ns' d', binv edge len b' ns' d' /\ ns' <> [] /\
      rx_chunks ns' d' r0 = finish (more R c) /\ (b_off b < b_off b')%nat
  | AR_COMPLETED_BLOCK_FILLED => rx_block edge (sb_of b') r0 = Some (finish (more R c))
  end.

Lemma rx_block_e ns d tail r0 fbi : ns_ok true ns -> length d = sum ns ->
  rx_block true (mk_sb (match ns with [] => true | _ => false end) fbi (encs 2 0 1 ns ++ d ++ tail)) r0
  = Some (rx_end fbi (more (rx_chunks ns d r0) tail)).
Proof.
  intros K L. unfold rx_block. cbn [sb_e sb_fbi sb_oct]. destruct ns as [|n ns'] eqn:E.
  - destruct d; [|discriminate]. reflexivity.
  - rewrite <- E in *. assert (NE : ns <> []) by congruence. clear E n ns'.
    assert (SP : split_ext (encs 2 0 1 ns ++ d ++ tail) = Some (encs 2 0 1 ns, d ++ tail)).
    { destruct (exists_last NE) as (ms & l & ->). rewrite encs_snoc. apply split_encs.
      - intros m. destruct (f20 (Z.of_nat m)) as [E1 _]. rewrite Z.add_0_r. exact E1.
      - apply f21. }
    rewrite SP, rx_egprs_encs by auto. reflexivity.
Qed.
Lemma rx_block_pad ns d tail r0 fbi : ns_ok true ns -> ns <> [] -> length d = sum ns ->
  rx_block true (mk_sb false fbi ((map fe ns ++ [255]) ++ d ++ tail)) r0 = Some (rx_end fbi (rx_chunks ns d r0)).
Proof.
  intros K NE L. unfold rx_block. cbn [sb_e sb_fbi sb_oct]. rewrite split_encs.
  - rewrite rx_egprs_pad by auto. reflexivity.
  - intros n. rewrite fe_val. apply f20.
  - reflexivity.
Qed.
Lemma rx_end_finish fbi r : rx_end fbi (finish r) = finish r.
Proof. destruct fbi; reflexivity. Qed.

Lemma padding_oct ns d m nch : ns <> [] -> ns_ok true ns -> nch = length ns -> (1 <= m)%nat ->
  (match nch with
   | O => insert_li (encs 2 0 1 ns ++ d ++ repeat 0x2b m) nch (nch + length d) (li_octet_egprs 127 1)
   | S k => upd_octet (insert_li (encs 2 0 1 ns ++ d ++ repeat 0x2b m) nch (nch + length d) (li_octet_egprs 127 1)) k clear_e
   end) = (map fe ns ++ [255]) ++ d ++ repeat 0x2b (m - 1).
Proof.
  intros NE K -> M. assert (EL : length ns = length (encs 2 0 1 ns)) by (rewrite encs_length; reflexivity).
  assert (I : insert_li (encs 2 0 1 ns ++ d ++ repeat 0x2b m) (length ns) (length ns + length d) (li_octet_egprs 127 1)
     = (encs 2 0 1 ns ++ [li_octet_egprs 127 1]) ++ d ++ repeat 0x2b (m - 1)) by (rewrite EL; apply insert_pad; exact M).
  rewrite I. pose proof (enc_pad_e ns (d ++ repeat 0x2b (m - 1)) NE K) as P.
  destruct (length ns); exact P.
Qed.

Lemma li_padding_ok len b ns d r0 : binv true len b ns d -> ns <> [] -> forall fbi,
  rx_block true (sb_of (li_padding len (mk_blk (b_oct b) (b_off b) (b_nch b) (b_e b) fbi))) r0
  = Some (rx_end fbi (rx_chunks ns d r0)).
Proof.
  destruct b as [oct off nch e fb]. intros (O & N & F & LT & FB & E & L & K) NE fbi.
  cbn [b_oct b_off b_nch b_e b_fbi] in *. unfold li_padding, sb_of, enc_of in *. cbn [b_oct b_off b_nch b_e b_fbi]. subst oct off e fb.
  pose proof (padding_oct ns d (len - (length ns + length d)) nch NE K N ltac:(lia)) as P.
  rewrite <- N in *. destruct nch as [|k]; [destruct ns; [congruence|discriminate]|].
  rewrite P. destruct ns as [|x y] eqn:EN; [congruence|]. rewrite <- EN in *. apply rx_block_pad; auto.
Qed.

Lemma snoc_ne {A} (l : list A) x : l ++ [x] <> [].
Proof. destruct l; discriminate. Qed.

Lemma append_e_ok len b ns d s R r0 fin : (len <= 127)%nat -> binv true len b ns d -> rx_chunks ns d r0 = R ->
  agree true s R -> l_frame (s_llc s) <> [] -> app_post true len s R r0 b (append_egprs len b (s_llc s) fin).
Proof.
  intros LEN (O & N & F & LT & FB & E & L & K) RC AG NE. unfold append_egprs. cbv zeta.
  pose proof (chunk_length (s_llc s)) as CL. set (c := skipn (l_idx (s_llc s)) (l_frame (s_llc s))) in *.
  destruct AG as (A1 & A2 & A3 & A4). destruct A3 as [[X _]|(_ & I1 & _)]; [congruence|].
  assert (EL : length (encs 2 0 1 ns) = length ns) by apply encs_length.
  assert (PUT : forall x, put (b_oct b) (b_off b) x = encs 2 0 1 ns ++ (d ++ x) ++ repeat 0x2b (len - b_off b - length x)).
  { intros x. rewrite O, F, <- EL. apply put_pad. }
  assert (CAT : firstn (l_idx (s_llc s)) (l_frame (s_llc s)) ++ c = l_frame (s_llc s)) by apply firstn_skipn.
  destruct (Nat.ltb_spec (len - b_off b) (chunk_size (s_llc s))) as [LT1|GE].
  { (* frame does not fit *)
    cbn [consume]. unfold app_post. fold c. cbn [l_frame]. split; [reflexivity|]. cbn [b_fbi]. split; [exact FB|].
    eexists. split.
    - unfold sb_of. cbn [b_e b_fbi b_oct]. rewrite PUT, FB, E, <- app_assoc. rewrite rx_block_e by auto. reflexivity.
    - unfold rx_end. rewrite RC. unfold agree, more. cbn [fst snd s_done s_llc l_idx l_frame s_queue].
      rewrite firstn_length. fold c. rewrite CL. replace (Nat.min (len - b_off b) (chunk_size (s_llc s))) with (len - b_off b)%nat by lia.
      rewrite Nat.sub_diag. cbn [repeat]. rewrite app_nil_r. splits; auto.
      + rewrite A2, firstn_more. reflexivity.
      + right. cbn [l_frame l_idx]. unfold chunk_size in *. splits; auto; [lia|discriminate]. }
  destruct (Nat.eqb_spec (chunk_size (s_llc s)) (len - b_off b)) as [EQ|NEQ]; cbn [andb].
  { destruct fin.
    - (* final, fits exactly *)
      cbn [consume]. unfold app_post. fold c. cbn [l_frame]. split; [reflexivity|].
      unfold sb_of. cbn [b_e b_fbi b_oct]. rewrite PUT, E, <- EQ. unfold c at 1 2. rewrite skipn_chunk. fold c. rewrite CL.
      rewrite EQ, Nat.sub_diag. cbn [repeat]. rewrite app_nil_r. rewrite rx_block_e by auto.
      rewrite RC. unfold rx_end. cbn [snd more]. rewrite A2, CAT. unfold more. cbn [fst snd].
      destruct (l_frame (s_llc s)); [congruence|reflexivity].
    - cbn [consume]. unfold app_post. fold c. cbn [l_frame]. split; [reflexivity|]. cbn [b_fbi]. split; [exact FB|].
      eexists. split.
      + unfold sb_of. cbn [b_e b_fbi b_oct]. rewrite PUT, FB, E, <- app_assoc. rewrite rx_block_e by auto. reflexivity.
      + unfold rx_end. rewrite RC. unfold agree, more. cbn [fst snd s_done s_llc l_idx l_frame s_queue].
        rewrite firstn_length. fold c. rewrite CL. replace (Nat.min (len - b_off b) (chunk_size (s_llc s))) with (len - b_off b)%nat by lia.
        rewrite Nat.sub_diag. cbn [repeat]. rewrite app_nil_r. splits; auto.
        * rewrite A2, firstn_more. reflexivity.
        * right. cbn [l_frame l_idx]. unfold chunk_size in *. splits; auto; [lia|discriminate]. }
  (* length octet *)
  cbn [consume]. unfold c. rewrite skipn_chunk. fold c.
  set (n := chunk_size (s_llc s)) in *.
  assert (NB : (n < 127)%nat) by lia.
  assert (INS : (match b_nch b with
                 | O => insert_li (b_oct b) (b_nch b) (b_off b) (li_octet_egprs (Z.of_nat n) 1)
                 | S k => upd_octet (insert_li (b_oct b) (b_nch b) (b_off b) (li_octet_egprs (Z.of_nat n) 1)) k clear_e end)
      = encs 2 0 1 (ns ++ [n]) ++ d ++ repeat 0x2b (len - b_off b - 1)).
  { assert (I : insert_li (b_oct b) (b_nch b) (b_off b) (li_octet_egprs (Z.of_nat n) 1)
       = (encs 2 0 1 ns ++ [li_octet_egprs (Z.of_nat n) 1]) ++ d ++ repeat 0x2b (len - b_off b - 1)).
    { rewrite O, N, F, <- EL. apply insert_pad. lia. }
    rewrite I. pose proof (enc_add_e ns n (d ++ repeat 0x2b (len - b_off b - 1)) ltac:(lia) K) as P.
    rewrite <- N in P. destruct (b_nch b); exact P. }
  set (o := match b_nch b with O => _ | S k => _ end) in *. clearbody o. subst o.
  assert (EL1 : length (encs 2 0 1 (ns ++ [n])) = S (length ns)) by (rewrite encs_length, app_length; cbn [length]; lia).
  assert (K1 : ns_ok true (ns ++ [n])).
  { intros m I. apply in_app_iff in I as [I|[<-|[]]]; [apply K; exact I|exact NB]. }
  assert (L1 : length (d ++ c) = sum (ns ++ [n])).
  { rewrite app_length, sum_app, CL, L. unfold sum; cbn [fold_right]. lia. }
  assert (RC1 : rx_chunks (ns ++ [n]) (d ++ c) r0 = finish (more R c)).
  { rewrite <- CL, rx_chunks_snoc by exact L. rewrite RC. reflexivity. }
  assert (P2 : put (encs 2 0 1 (ns ++ [n]) ++ d ++ repeat 0x2b (len - b_off b - 1)) (S (b_off b)) c
     = encs 2 0 1 (ns ++ [n]) ++ (d ++ c) ++ repeat 0x2b (len - (S (b_off b) + n))).
  { rewrite F. replace (S (length ns + length d)) with (length (encs 2 0 1 (ns ++ [n])) + length d)%nat by lia.
    rewrite put_pad. rewrite CL. do 3 f_equal. lia. }
  rewrite P2.
  set (b' := mk_blk (encs 2 0 1 (ns ++ [n]) ++ (d ++ c) ++ repeat 0x2b (len - (S (b_off b) + n)))
                    (S (b_off b) + n) (S (b_nch b)) false (fin || b_fbi b)).
  assert (NSB : forall A (x y : A), match ns ++ [n] with [] => x | _ => y end = y) by (intros; destruct ns; reflexivity).
  assert (BI : fin = false -> (S (b_off b) + n < len)%nat -> binv true len b' (ns ++ [n]) (d ++ c)).
  { intros -> LL. unfold binv, b', enc_of. cbn [b_oct b_off b_nch b_e b_fbi orb]. rewrite NSB, (app_length ns), (app_length d c). cbn [length]. splits; auto; try lia; rewrite <- (app_length d c); exact L1. }
  destruct fin; cbn [negb].
  - destruct (Nat.ltb_spec 0 (len - b_off b - 1 - n)) as [LL|LL]; unfold app_post; fold c; cbn [l_frame]; (split; [reflexivity|]).
    + set (b0 := mk_blk (b_oct b') (b_off b') (b_nch b') (b_e b') false).
      assert (BI0 : binv true len b0 (ns ++ [n]) (d ++ c)).
      { unfold binv, b0, b', enc_of. cbn [b_oct b_off b_nch b_e b_fbi orb]. rewrite NSB, (app_length ns), (app_length d c). cbn [length]. splits; auto; try lia; rewrite <- (app_length d c); exact L1. }
      pose proof (li_padding_ok len b0 (ns ++ [n]) (d ++ c) r0 BI0 (snoc_ne _ _) true) as P.
      unfold b0 in P. cbn [b_oct b_off b_nch b_e] in P. unfold b' in *. cbn [b_oct b_off b_nch b_e orb] in *.
      rewrite P, RC1, rx_end_finish. reflexivity.
    + unfold sb_of, b'. cbn [b_e b_fbi b_oct orb]. replace (len - (S (b_off b) + n))%nat with 0%nat by lia. cbn [repeat].
      pose proof (rx_block_e (ns ++ [n]) (d ++ c) [] r0 true K1 L1) as P. rewrite NSB in P.
      rewrite P, RC1, more_nil, rx_end_finish. reflexivity.
  - destruct (Nat.ltb_spec 0 (len - b_off b - 1 - n)) as [LL|LL]; unfold app_post; fold c; cbn [l_frame]; (split; [reflexivity|]).
    + exists (ns ++ [n]), (d ++ c). splits; auto; [apply BI; auto; lia|apply snoc_ne|].
      unfold b'. cbn [b_off]. lia.
    + unfold sb_of, b'. cbn [b_e b_fbi b_oct orb]. rewrite FB. replace (len - (S (b_off b) + n))%nat with 0%nat by lia. cbn [repeat].
      pose proof (rx_block_e (ns ++ [n]) (d ++ c) [] r0 false K1 L1) as P. rewrite NSB in P.
      rewrite P, RC1, more_nil, rx_end_finish. reflexivity.
Qed.

(** ** GPRS *)
Definition last_with (f : Z -> Z) (ns : list nat) : list Z :=
  match rev ns with [] => [] | l :: ms => map fg (rev ms) ++ [f (Z.of_nat l * 4 + 1)] end.
Lemma last_with_snoc f ms l : last_with f (ms ++ [l]) = map fg ms ++ [f (Z.of_nat l * 4 + 1)].
Proof. unfold last_with. rewrite rev_app_distr. cbn [rev app]. rewrite rev_involutive. reflexivity. Qed.
Lemma last_with_length f ns : length (last_with f ns) = length ns.
Proof.
  destruct ns as [|x y] eqn:E; [reflexivity|]. rewrite <- E. assert (NE : ns <> []) by congruence.
  destruct (exists_last NE) as (ms & l & ->). rewrite last_with_snoc, !app_length, map_length. reflexivity.
Qed.
Lemma e_ptr_g ns rest f :
  (match length ns with O => fun o => o | S k => fun o => upd_octet o k f end) (encs 4 2 1 ns ++ rest)
  = last_with f ns ++ rest.
Proof.
  destruct ns as [|x y] eqn:E; [reflexivity|]. rewrite <- E. assert (NE : ns <> []) by congruence. clear E.
  destruct (exists_last NE) as (ms & l & ->). rewrite last_with_snoc, app_length. cbn [length]. rewrite Nat.add_1_r.
  rewrite encs_snoc. change (map (fun n => Z.of_nat n * 4 + 2) ms) with (map fg ms).
  rewrite <- (map_length fg ms) at 1. apply upd_last.
Qed.
Lemma last_m ns : ns_ok false ns -> last_with (fun x => set_m1 (clear_e x)) ns = map fg ns.
Proof.
  intros K. destruct ns as [|x y] eqn:E; [reflexivity|]. rewrite <- E in *. assert (NE : ns <> []) by congruence. clear E.
  destruct (exists_last NE) as (ms & l & ->). rewrite last_with_snoc, map_app. cbn [map].
  assert (0 < l < 64)%nat by (apply (K l); apply in_app_iff; right; left; reflexivity).
  destruct (li_bits l) as (A & _); [lia|]. rewrite A. reflexivity.
Qed.
Lemma ns_pos ns : ns_ok false ns -> forall n, In n ns -> (0 < n)%nat.
Proof. intros K n I. specialize (K n I). cbn in K. lia. Qed.

(** The receiver on the kinds of block the encoder makes: M=1 or M=0 on the last length
    octet, or a zero length. *)
Lemma rx_block_g ns d tail r0 fbi (m : bool) : ns_ok false ns -> length d = sum ns ->
  rx_block false (mk_sb (match ns with [] => true | _ => false end) fbi
     (last_with (if m then set_m1 else (fun x => x)) ns ++ d ++ tail)) r0
  = Some (rx_end fbi (match ns, m with _ :: _, false => rx_chunks ns d r0 | _, _ => more (rx_chunks ns d r0) tail end)).
Proof.
  intros K L. unfold rx_block. cbn [sb_e sb_fbi sb_oct]. destruct ns as [|x y] eqn:E.
  - destruct d; [|discriminate]. reflexivity.
  - rewrite <- E in *. assert (NE : ns <> []) by congruence.
    replace (match ns, m with _ :: _, false => rx_chunks ns d r0 | _, _ => more (rx_chunks ns d r0) tail end)
      with (if m then more (rx_chunks ns d r0) tail else rx_chunks ns d r0) by (rewrite E; destruct m; reflexivity).
    clear E x y. destruct (exists_last NE) as (ms & l & ->). rewrite last_with_snoc.
    assert (Kl : (0 < l < 64)%nat) by (apply (K l); apply in_app_iff; right; left; reflexivity).
    destruct (li_bits l) as (_ & B & _); [lia|].
    replace ((if m then set_m1 else fun x => x) (Z.of_nat l * 4 + 1)) with (Z.of_nat l * 4 + (if m then 3 else 1))
      by (destruct m; [rewrite B|]; reflexivity).
    rewrite split_encs.
    2:{ intros n. apply f42. }
    2:{ destruct m; [apply f43|apply f41]. }
    rewrite sum_app in L. unfold sum in L at 2; cbn [fold_right] in L.
    rewrite <- (firstn_skipn (sum ms) d).
    rewrite rx_gprs_last; [reflexivity| | | |].
    + intros n I. apply (ns_pos _ K). apply in_app_iff; auto.
    + lia.
    + rewrite firstn_length. lia.
    + rewrite skipn_length. lia.
Qed.
Lemma rx_block_zero ns d tail r0 : ns_ok false ns -> length d = sum ns ->
  rx_block false (mk_sb false false ((map fg ns ++ [1]) ++ d ++ tail)) r0 = Some (more (rx_chunks ns d r0) tail).
Proof.
  intros K L. unfold rx_block. cbn [sb_e sb_fbi sb_oct]. rewrite split_encs.
  - rewrite rx_gprs_zero by (auto; apply ns_pos; exact K). reflexivity.
  - intros n. apply f42.
  - reflexivity.
Qed.
Lemma last_with_id ns : last_with (fun x => x) ns = encs 4 2 1 ns.
Proof.
  destruct ns as [|x y] eqn:E; [reflexivity|]. rewrite <- E. assert (NE : ns <> []) by congruence. clear E.
  destruct (exists_last NE) as (ms & l & ->). rewrite last_with_snoc, encs_snoc. reflexivity.
Qed.
Lemma rx_chunks_end ns : forall d r, ns <> [] -> snd (rx_chunks ns d r) = [].
Proof.
  induction ns as [|n ns IH]; intros d r NE; [congruence|]. cbn [rx_chunks].
  destruct ns as [|m ns']; [reflexivity|]. apply IH. discriminate.
Qed.

(** As above, or the last frame is lost: it filled the final block exactly, behind
    another one. *)
Definition app_post_g (len : nat) (s : sender) (R r0 : rx) (b : blk) (out : ar * blk * llc) : Prop :=
  app_post false len s R r0 b out \/
  let '(r, b', l') := out in
  l_frame l' = l_frame (s_llc s) /\ r = AR_COMPLETED_BLOCK_FILLED /\ b_e b' = false /\ b_fbi b' = true /\
  rx_block false (sb_of b') r0 = Some R /\ snd R = [].

Lemma append_g_ok len b ns d s R r0 fin : (len <= 64)%nat -> binv false len b ns d -> rx_chunks ns d r0 = R ->
  agree false s R -> l_frame (s_llc s) <> [] -> app_post_g len s R r0 b (append_gprs len b (s_llc s) fin).
Proof.
  intros LEN (O & N & F & LT & FB & E & L & K) RC AG NE. unfold append_gprs. cbv zeta.
  pose proof (chunk_length (s_llc s)) as CL. set (c := skipn (l_idx (s_llc s)) (l_frame (s_llc s))) in *.
  destruct AG as (A1 & A2 & A3 & A4).
  pose proof (chunk_pos false (s_llc s) eq_refl A3 NE) as CP.
  destruct A3 as [[X _]|(_ & I1 & I2)]; [congruence|]. specialize (I2 eq_refl).
  assert (CAT : firstn (l_idx (s_llc s)) (l_frame (s_llc s)) ++ c = l_frame (s_llc s)) by apply firstn_skipn.
  assert (PTR : forall f, match b_nch b with O => b_oct b | S k => upd_octet (b_oct b) k f end
      = last_with f ns ++ d ++ repeat 0x2b (len - b_off b)).
  { intros f. pose proof (e_ptr_g ns (d ++ repeat 0x2b (len - b_off b)) f) as P. rewrite <- N in P. unfold enc_of in O. rewrite <- O in P.
    destruct (b_nch b); exact P. }
  assert (PUT : forall f x, put (last_with f ns ++ d ++ repeat 0x2b (len - b_off b)) (b_off b) x
      = last_with f ns ++ (d ++ x) ++ repeat 0x2b (len - b_off b - length x)).
  { intros f x. rewrite F. rewrite <- (last_with_length f ns). apply put_pad. }
  destruct (Nat.ltb_spec (len - b_off b) (chunk_size (s_llc s))) as [LT1|GE].
  { left. rewrite PTR. cbn [consume]. unfold app_post. fold c. cbn [l_frame]. split; [reflexivity|]. cbn [b_fbi]. split; [exact FB|].
    eexists. split.
    - unfold sb_of. cbn [b_e b_fbi b_oct]. rewrite PUT, FB, E, <- app_assoc.
      pose proof (rx_block_g ns d (firstn (len - b_off b) c ++ repeat 43 (len - b_off b - length (firstn (len - b_off b) c))) r0 false true K L) as P.
      cbn iota in P. rewrite P. replace (match ns with [] | _ => more (rx_chunks ns d r0) (firstn (len - b_off b) c ++ repeat 43 (len - b_off b - length (firstn (len - b_off b) c))) end)
       with (more (rx_chunks ns d r0) (firstn (len - b_off b) c ++ repeat 43 (len - b_off b - length (firstn (len - b_off b) c)))) by (destruct ns; reflexivity). reflexivity.
    - unfold rx_end. rewrite RC. unfold agree, more. cbn [fst snd s_done s_llc l_idx l_frame s_queue].
      rewrite firstn_length, CL. replace (Nat.min (len - b_off b) (chunk_size (s_llc s))) with (len - b_off b)%nat by lia.
      rewrite Nat.sub_diag. cbn [repeat]. rewrite app_nil_r. splits; auto.
      + rewrite A2, firstn_more. reflexivity.
      + right. cbn [l_frame l_idx]. unfold chunk_size in *. splits; auto; intros; lia. }
  destruct (Nat.eqb_spec (chunk_size (s_llc s)) (len - b_off b)) as [EQ|NEQ]; cbn [andb].
  { destruct fin.
    - (* final, fits exactly *)
      rewrite PTR. cbn [consume]. unfold app_post_g, app_post. fold c. cbn [l_frame].
      assert (FC : firstn (len - b_off b) c = c) by (apply firstn_all2; lia). rewrite !FC.
      unfold sb_of. cbn [b_e b_fbi b_oct]. rewrite PUT, E, CL, EQ, Nat.sub_diag. cbn [repeat]. rewrite app_nil_r.
      destruct ns as [|x y] eqn:EN.
      + left. split; [reflexivity|]. pose proof (rx_block_g [] d c r0 true false K L) as P. cbn iota in P.
        change (last_with set_e1 []) with (last_with (fun x : Z => x) []). rewrite P. rewrite RC. unfold rx_end. cbn [snd more]. rewrite A2, CAT. unfold more. cbn [fst snd].
        destruct (l_frame (s_llc s)); [congruence|reflexivity].
      + rewrite <- EN in *. right. splits; auto; [|rewrite <- RC; apply rx_chunks_end; congruence].
        assert (SE : last_with set_e1 ns = last_with (fun x => x) ns).
        { assert (NE1 : ns <> []) by congruence. destruct (exists_last NE1) as (ms & l & EL). rewrite EL, !last_with_snoc.
          assert (Kl : (0 < l < 64)%nat) by (apply (K l); rewrite EL; apply in_app_iff; right; left; reflexivity).
          destruct (li_bits l) as (_ & _ & B); [lia|]. rewrite B. reflexivity. }
        rewrite SE. pose proof (rx_block_g ns d c r0 true false K L) as P. cbn iota in P.
        replace (match ns with [] => true | _ :: _ => false end) with false in P by (rewrite EN; reflexivity). rewrite P.
        rewrite EN at 1. rewrite RC. unfold rx_end.
        assert (SR : snd R = []) by (rewrite <- RC; apply rx_chunks_end; congruence). rewrite SR. reflexivity.
    - (* length 0 *)
      left. rewrite PTR, last_m by exact K. cbn [consume].
      assert (INS : insert_li (map fg ns ++ d ++ repeat 43 (len - b_off b)) (b_nch b) (b_off b) (li_octet 0 0 1)
         = (map fg ns ++ [1]) ++ d ++ repeat 43 (len - b_off b - 1)).
      { rewrite F, N. rewrite <- (map_length fg ns). apply insert_pad. rewrite map_length. lia. }
      rewrite INS.
      assert (P2 : put ((map fg ns ++ [1]) ++ d ++ repeat 43 (len - b_off b - 1)) (S (b_off b)) (firstn (len - b_off b - 1) c)
         = (map fg ns ++ [1]) ++ (d ++ firstn (len - b_off b - 1) c)).
      { rewrite F at 2. replace (S (length ns + length d)) with (length (map fg ns ++ [1%Z]) + length d)%nat
          by (rewrite app_length, map_length; cbn [length]; lia).
        rewrite put_pad. rewrite firstn_length, CL. replace (len - b_off b - 1 - Nat.min (len - b_off b - 1) (chunk_size (s_llc s)))%nat with 0%nat by lia.
        cbn [repeat]. rewrite app_nil_r. reflexivity. }
      unfold app_post. fold c. rewrite P2. cbn [l_frame]. split; [reflexivity|]. cbn [b_fbi]. split; [exact FB|].
      eexists. split.
      + unfold sb_of. cbn [b_e b_fbi b_oct]. rewrite FB. rewrite rx_block_zero by auto. reflexivity.
      + rewrite RC. unfold agree, more. cbn [fst snd s_done s_llc l_idx l_frame s_queue]. splits; auto.
        * rewrite A2, firstn_more. reflexivity.
        * right. cbn [l_frame l_idx]. unfold chunk_size in *. splits; auto; intros; lia. }
  (* length octet *)
  left. rewrite PTR, last_m by exact K. cbn [consume]. rewrite skipn_chunk. fold c.
  set (n := chunk_size (s_llc s)) in *.
  assert (NB : (0 < n < 64)%nat) by lia.
  assert (LIO : li_octet (Z.of_nat n) 0 1 = Z.of_nat n * 4 + 1) by (unfold li_octet; rewrite Z.mod_small by lia; lia).
  assert (INS : insert_li (map fg ns ++ d ++ repeat 43 (len - b_off b)) (b_nch b) (b_off b) (li_octet (Z.of_nat n) 0 1)
     = encs 4 2 1 (ns ++ [n]) ++ d ++ repeat 43 (len - b_off b - 1)).
  { rewrite F, N, LIO, encs_snoc. rewrite <- (map_length fg ns). apply insert_pad. rewrite map_length. lia. }
  rewrite INS.
  assert (EL1 : length (encs 4 2 1 (ns ++ [n])) = S (length ns)) by (rewrite encs_length, app_length; cbn [length]; lia).
  assert (K1 : ns_ok false (ns ++ [n])).
  { intros m I. apply in_app_iff in I as [I|[<-|[]]]; [apply K; exact I|exact NB]. }
  assert (L1 : length (d ++ c) = sum (ns ++ [n])).
  { rewrite app_length, sum_app, CL, L. unfold sum; cbn [fold_right]. lia. }
  assert (RC1 : rx_chunks (ns ++ [n]) (d ++ c) r0 = finish (more R c)).
  { rewrite <- CL, rx_chunks_snoc by exact L. rewrite RC. reflexivity. }
  assert (P2 : put (encs 4 2 1 (ns ++ [n]) ++ d ++ repeat 43 (len - b_off b - 1)) (S (b_off b)) c
     = encs 4 2 1 (ns ++ [n]) ++ (d ++ c) ++ repeat 43 (len - (S (b_off b) + n))).
  { rewrite F. replace (S (length ns + length d)) with (length (encs 4 2 1 (ns ++ [n])) + length d)%nat by lia.
    rewrite put_pad. rewrite CL. do 3 f_equal. lia. }
  rewrite P2.
  assert (NSB : forall A (x y : A), match ns ++ [n] with [] => x | _ => y end = y) by (intros; destruct ns; reflexivity).
  assert (FILLED : forall fbi, rx_block false (mk_sb false fbi (encs 4 2 1 (ns ++ [n]) ++ (d ++ c) ++ repeat 43 (len - (S (b_off b) + n)))) r0
      = Some (finish (more R c))).
  { intros fbi. pose proof (rx_block_g (ns ++ [n]) (d ++ c) (repeat 43 (len - (S (b_off b) + n))) r0 fbi false K1 L1) as P.
    cbn iota in P. rewrite !NSB, last_with_id in P. rewrite P, RC1, rx_end_finish. reflexivity. }
  destruct (Nat.ltb_spec 0 (len - b_off b - 1 - n)) as [LL|LL]; destruct fin; cbn [andb negb orb]; unfold app_post; fold c; cbn [l_frame];
    (split; [reflexivity|]); try apply FILLED.
  exists (ns ++ [n]), (d ++ c). splits; auto; [|apply snoc_ne|cbn [b_off]; lia].
  unfold binv, enc_of. cbn [b_oct b_off b_nch b_e b_fbi]. rewrite NSB, (app_length ns), (app_length d c). cbn [length].
  splits; auto; try lia; rewrite <- (app_length d c); exact L1.
Qed.

(** ** The block *)
Definition good_end (edge : bool) (b : blk) (r0 : rx) (s : sender) : Prop :=
  exists R, rx_block edge (sb_of b) r0 = Some R /\ agree edge s R.
(** The last frame completed is missing at the receiver. *)
Definition lost_end (b : blk) (r0 : rx) (s : sender) : Prop :=
  b_e b = false /\ b_fbi b = true /\ exists R x done0, rx_block false (sb_of b) r0 = Some R /\
    s_done s = done0 ++ [x] /\ fst R = map fst done0 /\ snd R = [] /\ exists R2, agree false s R2.

Lemma next_done s : s_done (next_frame s) = s_done s.
Proof. unfold next_frame. destruct (l_frame (s_llc s)); [|reflexivity]. destruct (s_queue s); reflexivity. Qed.

Lemma round_ok (rec : blk -> sender -> option (blk * sender)) edge len b ns d s R r0 fin :
  len_ok edge len -> binv edge len b ns d -> rx_chunks ns d r0 = R -> agree edge s R -> l_frame (s_llc s) <> [] ->
  (forall b1 s1 ns1 d1 R1, binv edge len b1 ns1 d1 -> ns1 <> [] -> rx_chunks ns1 d1 r0 = R1 -> agree edge s1 R1 ->
     (b_off b < b_off b1)%nat ->
     exists b' s', rec b1 s1 = Some (b', s') /\ all_of s' = all_of s1 /\
       (good_end edge b' r0 s' \/ edge = false /\ lost_end b' r0 s')) ->
  exists b' s',
    (let '(r, b', l') := append edge len b (s_llc s) fin in
      match r with
      | AR_NEED_MORE_BLOCKS => Some (b', mk_snd l' (s_dummy s) (s_queue s) (s_done s))
      | _ =>
        let s' := next_frame (mk_snd no_llc false (s_queue s) (s_done s ++ [(l_frame l', s_dummy s)])) in
        match r with
        | AR_COMPLETED_SPACE_LEFT => rec b' s'
        | _ => Some (b', s')
        end
      end) = Some (b', s') /\ all_of s' = all_of s /\
    (good_end edge b' r0 s' \/ edge = false /\ lost_end b' r0 s').
Proof.
  intros LEN BI RC AG NE REC.
  assert (P : app_post edge len s R r0 b (append edge len b (s_llc s) fin) \/
     edge = false /\ let '(r, b', l') := append edge len b (s_llc s) fin in
       l_frame l' = l_frame (s_llc s) /\ r = AR_COMPLETED_BLOCK_FILLED /\ b_e b' = false /\ b_fbi b' = true /\
       rx_block false (sb_of b') r0 = Some R /\ snd R = []).
  { destruct edge.
    - left. apply (append_e_ok len b ns d s R r0 fin); auto. apply LEN.
    - destruct (append_g_ok len b ns d s R r0 fin (proj2 LEN) BI RC AG NE) as [P|P]; [left; exact P|]. right. split; [reflexivity|].
      exact P. }
  destruct (append edge len b (s_llc s) fin) as [[r b'] l'] eqn:EA.
  destruct P as [P|[-> P]].
  - destruct P as [PL P]. destruct r.
    + destruct P as (_ & R' & P1 & P2). do 2 eexists. split; [reflexivity|]. split.
      * unfold all_of, under_way. cbn [s_done s_dummy s_llc s_queue]. rewrite PL. reflexivity.
      * left. exists R'. auto.
    + destruct P as (ns' & d' & P1 & P2 & P3 & P4). cbv zeta.
      destruct (complete_ok edge s R _ l' AG NE PL eq_refl) as [Q1 Q2].
      destruct (REC b' _ ns' d' _ P1 P2 P3 Q1 P4) as (b2 & s2 & X1 & X2 & X3).
      exists b2, s2. split; [exact X1|]. split; [congruence|exact X3].
    + cbv zeta. destruct (complete_ok edge s R _ l' AG NE PL eq_refl) as [Q1 Q2].
      do 2 eexists. split; [reflexivity|]. split; [exact Q2|]. left. eexists. split; [exact P|exact Q1].
  - destruct P as (PL & -> & P3 & P4 & P5 & P6). cbv zeta.
    destruct (complete_ok false s R _ l' AG NE PL eq_refl) as [Q1 Q2].
    do 2 eexists. split; [reflexivity|]. split; [exact Q2|]. right. split; [reflexivity|].
    split; [exact P3|]. split; [exact P4|]. exists R, (l_frame l', s_dummy s), (s_done s).
    rewrite next_done. cbn [s_done]. splits; auto; [apply AG|eexists; exact Q1].
Qed.

Lemma dummy_nonempty n : dummy_frame n <> [].
Proof. unfold dummy_frame. discriminate. Qed.

Lemma fill_ok edge len fin r0 : len_ok edge len -> forall fuel b s ns d R,
  (len - b_off b < fuel)%nat -> binv edge len b ns d -> rx_chunks ns d r0 = R -> agree edge s R ->
  exists b' s', fill fuel edge len fin b s = Some (b', s') /\ all_of s' = all_of s /\
    (good_end edge b' r0 s' \/ edge = false /\ lost_end b' r0 s').
Proof.
  intros LEN. induction fuel as [|fuel IH]; intros b s ns d R FU BI RC AG; [lia|].
  cbn [fill].
  assert (REC : forall b1 s1 ns1 d1 R1, binv edge len b1 ns1 d1 -> ns1 <> [] -> rx_chunks ns1 d1 r0 = R1 -> agree edge s1 R1 ->
     (b_off b < b_off b1)%nat ->
     exists b' s', fill fuel edge len fin b1 s1 = Some (b', s') /\ all_of s' = all_of s1 /\
       (good_end edge b' r0 s' \/ edge = false /\ lost_end b' r0 s')).
  { intros b1 s1 ns1 d1 R1 B1 N1 RC1 A1 O1. apply (IH b1 s1 ns1 d1 R1); auto.
    destruct BI as (_ & _ & _ & LT & _). lia. }
  destruct (l_frame (s_llc s)) as [|x y] eqn:F.
  - destruct (b_nch b) as [|k] eqn:NC.
    + set (s1 := mk_snd (mk_llc (dummy_frame (len - b_off b - 1)) 0) true (s_queue s) (s_done s)).
      assert (AG1 : agree edge s1 R).
      { destruct AG as (A1 & A2 & A3 & A4). unfold agree, s1, llc_ok in *. cbn [s_llc s_done s_queue s_dummy l_frame l_idx] in *. rewrite F in *.
        rewrite firstn_nil in A2. cbn [firstn]. splits; auto. right. pose proof (dummy_nonempty (len - b_off b - 1)) as DN.
        destruct (dummy_frame (len - b_off b - 1)); [congruence|]. splits; [discriminate|lia|]. intros _. cbn [length]. lia. }
      assert (AL : all_of s1 = all_of s).
      { unfold all_of, under_way, s1. cbn [s_llc s_done s_queue s_dummy l_frame]. rewrite F. destruct (s_dummy s); reflexivity. }
      destruct (round_ok (fill fuel edge len fin) edge len b ns d s1 R r0 (fin 0%nat) LEN BI RC AG1) as (b' & s' & X1 & X2 & X3);
        [unfold s1; cbn [s_llc l_frame]; apply dummy_nonempty|exact REC|].
      exists b', s'. split; [exact X1|]. split; [congruence|exact X3].
    + do 2 eexists. split; [reflexivity|]. split; [reflexivity|]. left.
      assert (NE : ns <> []). { destruct BI as (_ & N & _). intros ->. cbn [length] in N. congruence. }
      assert (SR : snd R = []) by (rewrite <- RC; apply rx_chunks_end; exact NE).
      exists R. split; [|exact AG].
      assert (FE : forall fbi, rx_end fbi R = R). { intros fbi. unfold rx_end. rewrite SR. destruct fbi; reflexivity. }
      destruct edge.
      * pose proof (li_padding_ok len b ns d r0 BI NE) as P.
        destruct (fin (S k)).
        -- rewrite <- NC, P, RC, FE. reflexivity.
        -- specialize (P (b_fbi b)). destruct b as [oct off nch e fb]. cbn [b_oct b_off b_nch b_e b_fbi] in *.
           rewrite P, RC, FE. reflexivity.
      * destruct BI as (O & N & F' & LT & FB & E & L & K).
        assert (P : forall fbi, rx_block false (mk_sb (b_e b) fbi (b_oct b)) r0 = Some R).
        { intros fbi. rewrite E, O. unfold enc_of. rewrite <- last_with_id.
          pose proof (rx_block_g ns d (repeat 0x2b (len - b_off b)) r0 fbi false K L) as P. cbn iota in P. rewrite P.
          destruct ns; [congruence|]. rewrite RC, FE. reflexivity. }
        destruct (fin (S k)); unfold sb_of; cbn [b_oct b_off b_nch b_e b_fbi]; apply P.
  - destruct (round_ok (fill fuel edge len fin) edge len b ns d s R r0 (fin (b_nch b)) LEN BI RC AG) as (b' & s' & X1 & X2 & X3);
      [congruence|exact REC|].
    exists b', s'. split; [exact X1|]. split; [exact X2|exact X3].
Qed.
