From Coq Require Import ZArith Ascii String List Bool Lia.
From Verif Require Import Base.Arith Model.T4 Spec.T4Spec.
Import ListNotations.
Local Open Scope Z_scope.

(** ** The code *)
Fixpoint is_prefix (a b : list bool) : bool :=
  match a, b with
  | [], _ => true
  | x :: a', y :: b' => Bool.eqb x y && is_prefix a' b'
  | _, [] => false
  end.
Lemma is_prefix_ok a : forall b, prefix a b -> is_prefix a b = true.
Proof.
  induction a as [|x a IH]; intros b [c ->]; cbn [is_prefix app]; [reflexivity|].
  rewrite eqb_reflx. apply IH. exists c. reflexivity.
Qed.
Definition pf_check (s : bool) : bool :=
  forallb (fun i => forallb (fun j => (i =? j)%nat || negb (is_prefix (word s i) (word s j))) (seq 0 79)) (seq 0 79).
Lemma pf_ok s : pf_check s = true.
Proof. destruct s; vm_compute; reflexivity. Qed.
Lemma prefix_free : forall s i j, (i < 79)%nat -> (j < 79)%nat -> i <> j -> ~ prefix (word s i) (word s j).
Proof.
  intros s i j I J N P. pose proof (pf_ok s) as C. unfold pf_check in C. rewrite forallb_forall in C.
  specialize (C i). rewrite forallb_forall in C. specialize (C ltac:(apply in_seq; lia) j ltac:(apply in_seq; lia)).
  apply is_prefix_ok in P. rewrite P in C. apply orb_true_iff in C. destruct C as [C|C]; [apply Nat.eqb_eq in C; contradiction|discriminate].
Qed.

Definition enc_bits (s : bool) (r : Z) : list bool :=
  word_bits (if 64 <=? r then t4_word s (r / 64 * 64) else (0, 0)) ++ word_bits (t4_word s (r mod 64)).
Definition lb_eqb (a b : list bool) : bool := (length a =? length b)%nat && is_prefix a b.
Lemma is_prefix_eq a : forall b, length a = length b -> is_prefix a b = true -> a = b.
Proof.
  induction a as [|x a IH]; intros [|y b] L P; try discriminate; [reflexivity|]. cbn [is_prefix] in P. apply andb_prop in P.
  destruct P as [P1 P2]. apply eqb_prop in P1. subst. f_equal. apply IH; auto.
Qed.
Lemma lb_eqb_ok a b : lb_eqb a b = true -> a = b.
Proof. intros E. apply andb_prop in E. destruct E as [E1 E2]. apply is_prefix_eq; [apply Nat.eqb_eq, E1|exact E2]. Qed.
Definition enc_check (s : bool) : bool :=
  forallb (fun r =>
    let z := Z.of_nat r in
    let mk := if 64 <=? z then t4_word s (z / 64 * 64) else (0, 0) in
    let tm := t4_word s (z mod 64) in
    lb_eqb (word_bits mk) (makeup s r) && lb_eqb (word_bits tm) (word s (r mod 64)) && (0 <=? snd mk) && (0 <=? snd tm))
    (seq 0 1024).
Lemma enc_ok s : enc_check s = true.
Proof. destruct s; vm_compute; reflexivity. Qed.
Lemma word_bits_len w : 0 <= snd w -> Z.of_nat (length (word_bits w)) = snd w.
Proof. intros H. unfold word_bits, bits_of. rewrite map_length, seq_length. lia. Qed.
Lemma enc_word s r : (r <= 1023)%nat ->
  let z := Z.of_nat r in
  let mk := if 64 <=? z then t4_word s (z / 64 * 64) else (0, 0) in
  let tm := t4_word s (z mod 64) in
  word_bits mk = makeup s r /\ word_bits tm = word s (r mod 64) /\
  snd mk = Z.of_nat (length (makeup s r)) /\ snd tm = Z.of_nat (length (word s (r mod 64))).
Proof.
  intros R z mk tm. pose proof (enc_ok s) as C. unfold enc_check in C. rewrite forallb_forall in C.
  specialize (C r ltac:(apply in_seq; lia)). cbv beta zeta in C. fold z mk tm in C.
  apply andb_prop in C. destruct C as [C C4]. apply andb_prop in C. destruct C as [C C3]. apply andb_prop in C. destruct C as [C1 C2].
  apply lb_eqb_ok in C1, C2. apply Z.leb_le in C3, C4. rewrite <- C1, <- C2. rewrite !word_bits_len by assumption. auto.
Qed.

Lemma word_pos s i : (i < 79)%nat -> (2 <= length (word s i) <= 13)%nat.
Proof.
  intros I. assert (C : forallb (fun i => (2 <=? length (word s i))%nat && (length (word s i) <=? 13)%nat) (seq 0 79) = true) by (destruct s; vm_compute; reflexivity).
  rewrite forallb_forall in C. specialize (C i ltac:(apply in_seq; lia)). apply andb_prop in C. destruct C as [C1 C2].
  apply Nat.leb_le in C1, C2. lia.
Qed.

(** ** Decoding *)
Lemma search_app t : forall bits rest x, search_runlen t bits = Some x -> search_runlen t (bits ++ rest) = Some x.
Proof.
  induction t as [|l IL r IR run]; intros bits rest x E; cbn [search_runlen] in *; [discriminate|].
  destruct (run =? -1); [|exact E]. destruct bits as [|b bs]; [discriminate|]. cbn [app].
  destruct b.
  - destruct (search_runlen r bs) as [[y n]|] eqn:Q; [|discriminate]. rewrite (IR _ rest _ Q). exact E.
  - destruct (search_runlen l bs) as [[y n]|] eqn:Q; [|discriminate]. rewrite (IL _ rest _ Q). exact E.
Qed.
Definition dec_check (s : bool) : bool :=
  forallb (fun i => match search_runlen (code_tree s) (word s i) with
                    | Some (x, n) => (x =? run_of_idx i) && (n =? length (word s i))%nat
                    | None => false end) (seq 0 79).
Lemma dec_ok s : dec_check s = true.
Proof. destruct s; vm_compute; reflexivity. Qed.
Lemma search_word s i rest : (i < 79)%nat ->
  search_runlen (code_tree s) (word s i ++ rest) = Some (run_of_idx i, length (word s i)).
Proof.
  intros I. apply search_app. pose proof (dec_ok s) as C. unfold dec_check in C. rewrite forallb_forall in C.
  specialize (C i ltac:(apply in_seq; lia)). destruct (search_runlen (code_tree s) (word s i)) as [[x n]|]; [|discriminate].
  apply andb_prop in C. destruct C as [C1 C2]. apply Z.eqb_eq in C1. apply Nat.eqb_eq in C2. subst. reflexivity.
Qed.

Lemma write_run_ok b cap : forall fuel run l, (run <= fuel)%nat -> (length l + run <= cap)%nat ->
  write_run fuel cap b run (l, length l) = (l ++ repeat b run, (length l + run)%nat).
Proof.
  induction fuel as [|k IH]; intros run l F C; cbn [write_run].
  { replace run with 0%nat by lia. cbn [repeat]. rewrite app_nil_r. f_equal. lia. }
  destruct (run =? 0)%nat eqn:Z0.
  { apply Nat.eqb_eq in Z0. subst. cbn [repeat]. rewrite app_nil_r. f_equal. lia. }
  apply Nat.eqb_neq in Z0. destruct (8 <? run)%nat eqn:G.
  - apply Nat.ltb_lt in G. cbn [write_field]. replace (length l + 8 <=? cap)%nat with true by (symmetry; apply Nat.leb_le; lia).
    rewrite firstn_all. replace (length l + 8)%nat with (length (l ++ repeat b 8)) by (rewrite app_length, repeat_length; lia).
    rewrite IH; [|lia|rewrite app_length, repeat_length; lia]. rewrite <- app_assoc, <- repeat_app.
    rewrite app_length, repeat_length. f_equal; [|lia]. f_equal. f_equal. lia.
  - cbn [write_field]. replace (length l + run <=? cap)%nat with true by (symmetry; apply Nat.leb_le; lia).
    rewrite firstn_all. reflexivity.
Qed.

Lemma decompress_unfold k cap start crbb v : crbb <> [] -> decompress_loop (S k) cap start crbb v =
  match search_runlen (code_tree start) crbb with
  | None => (false, v)
  | Some (run, n) =>
    decompress_loop k cap (if run <? 64 then negb start else start) (skipn n crbb)
      (write_run (Z.to_nat run) cap start (Z.to_nat run) v)
  end.
Proof. intros N. destruct crbb; [contradiction|]. reflexivity. Qed.

Lemma decompress_word s i rest k cap l : (i < 79)%nat -> (length l + Z.to_nat (run_of_idx i) <= cap)%nat ->
  decompress_loop (S k) cap s (word s i ++ rest) (l, length l)
  = decompress_loop k cap (if (i <? 64)%nat then negb s else s) rest
      (l ++ repeat s (Z.to_nat (run_of_idx i)), length (l ++ repeat s (Z.to_nat (run_of_idx i)))).
Proof.
  intros I C. rewrite decompress_unfold. 2:{ pose proof (word_pos s i I). destruct (word s i); [cbn [length] in *; lia|discriminate]. }
  rewrite search_word by exact I. rewrite skipn_app, skipn_all, Nat.sub_diag. cbn [app skipn].
  rewrite write_run_ok by lia. rewrite app_length, repeat_length.
  replace (run_of_idx i <? 64) with (i <? 64)%nat; [reflexivity|].
  unfold run_of_idx. destruct (i <? 64)%nat eqn:L; symmetry.
  - apply Nat.ltb_lt in L. apply Z.ltb_lt. lia.
  - apply Nat.ltb_ge in L. apply Z.ltb_ge. lia.
Qed.

Lemma decompress_runs : forall rs s fuel cap l, runs_ok rs -> (length l + length (paint s rs) <= cap)%nat ->
  (length (code_runs s rs) <= fuel)%nat ->
  decompress_loop fuel cap s (code_runs s rs) (l, length l) = (true, (l ++ paint s rs, length (l ++ paint s rs))).
Proof.
  induction rs as [|r rs IH]; intros s fuel cap l R C F.
  { cbn [code_runs paint]. rewrite app_nil_r. destruct fuel; reflexivity. }
  inversion R as [|? ? R1 RR]; subst. cbn [paint code_runs] in *. rewrite app_length, repeat_length in C.
  unfold run_code, makeup in *. rewrite !app_length in F.
  assert (M : (r mod 64 < 64)%nat) by (apply Nat.mod_upper_bound; lia).
  pose proof (word_pos s (r mod 64) ltac:(lia)) as WT.
  assert (TERM : forall l k, (length l + r mod 64 + length (paint (negb s) rs) <= cap)%nat -> (length (code_runs (negb s) rs) <= k)%nat ->
    decompress_loop (S k) cap s (word s (r mod 64) ++ code_runs (negb s) rs) (l, length l)
    = (true, (l ++ repeat s (r mod 64) ++ paint (negb s) rs, length (l ++ repeat s (r mod 64) ++ paint (negb s) rs)))).
  { intros l0 k C0 F0. assert (RI : Z.to_nat (run_of_idx (r mod 64)) = (r mod 64)%nat).
    { unfold run_of_idx. replace (r mod 64 <? 64)%nat with true by (symmetry; apply Nat.ltb_lt; lia). lia. }
    rewrite decompress_word by (rewrite ?RI; lia). rewrite RI. replace (r mod 64 <? 64)%nat with true by (symmetry; apply Nat.ltb_lt; lia).
    rewrite IH; auto; [rewrite <- app_assoc; reflexivity|]. rewrite app_length, repeat_length. lia. }
  destruct (64 <=? r)%nat eqn:G.
  - apply Nat.leb_le in G.
    assert (D : (r / 64 <= 15)%nat) by (apply Nat.lt_succ_r; apply Nat.div_lt_upper_bound; lia).
    assert (D1 : (1 <= r / 64)%nat) by (apply Nat.div_le_lower_bound; lia).
    pose proof (Nat.div_mod r 64 ltac:(lia)) as DM.
    pose proof (word_pos s (63 + r / 64) ltac:(lia)) as WM.
    assert (RI : Z.to_nat (run_of_idx (63 + r / 64)) = (64 * (r / 64))%nat).
    { unfold run_of_idx. replace (63 + r / 64 <? 64)%nat with false by (symmetry; apply Nat.ltb_ge; lia). lia. }
    destruct fuel as [|[|k]]; [lia|lia|]. rewrite <- !app_assoc.
    rewrite decompress_word by (rewrite ?RI; lia). rewrite RI. replace (63 + r / 64 <? 64)%nat with false by (symmetry; apply Nat.ltb_ge; lia).
    rewrite TERM; [|rewrite app_length, repeat_length; lia|lia].
    f_equal. replace (repeat s r) with (repeat s (64 * (r / 64)) ++ repeat s (r mod 64)) by (rewrite <- repeat_app; f_equal; lia).
    rewrite <- !app_assoc. reflexivity.
  - apply Nat.leb_gt in G. cbn [app] in *. rewrite (Nat.mod_small r 64) in * by lia.
    destruct fuel as [|k]; [lia|]. cbn [app]. apply TERM; lia.
Qed.

Lemma decompress_ok rs s cap l : runs_ok rs -> (length l + length (paint s rs) <= cap)%nat ->
  decompress_crbb cap s (code_runs s rs) l = (true, l ++ paint s rs).
Proof. intros R C. unfold decompress_crbb. rewrite decompress_runs; auto. Qed.

(** ** Encoding *)
Lemma run_len_repeat c r l : run_len c l = 0%nat -> run_len c (repeat c r ++ l) = r.
Proof. intros Z0. induction r as [|r IH]; cbn [repeat app run_len]; [exact Z0|]. rewrite eqb_reflx, IH. reflexivity. Qed.
Lemma run_len_paint c rs : proper rs -> run_len c (paint (negb c) rs) = 0%nat.
Proof.
  intros P. destruct rs as [|r rs]; [reflexivity|]. inversion P as [|? ? P1 _]; subst. destruct r as [|r]; [lia|].
  cbn [paint repeat app run_len]. destruct c; reflexivity.
Qed.
Lemma compress_unfold k m rem colour out clen uclen : rem <> [] -> compress_loop (S k) m rem colour out clen uclen =
    let n := run_len colour rem in
    let rlen := Z.of_nat n in
    let mk := if 64 <=? rlen then t4_word colour (rlen / 64 * 64) else (0, 0) in
    let tm := t4_word colour (rlen mod 64) in
    let out' := out ++ word_bits mk ++ word_bits tm in
    let clen' := clen + snd mk + snd tm in
    let uclen' := uclen + rlen in
    if m <? clen' then (out', clen' - snd tm, uclen' - rlen)
    else compress_loop k m (skipn n rem) (negb colour) out' clen' uclen'.
Proof. intros N. destruct rem; [contradiction|]. reflexivity. Qed.

(** What the loop does to the runs [rs]: it takes [k] of them. *)
Definition taken (m : Z) (c : bool) (base : Z) (rs : list nat) (k : nat) : Prop :=
  (k <= length rs)%nat /\
  (k = 0%nat \/ base + Z.of_nat (length (code_runs c (firstn k rs))) <= m) /\
  ((k < length rs)%nat -> m < base + Z.of_nat (length (code_runs c (firstn (S k) rs)))).
Definition orphan (c : bool) (rs : list nat) (k : nat) : list bool :=
  match nth_error rs k with
  | Some r => makeup (if Nat.even k then c else negb c) r
  | None => []
  end.
Lemma orphan_S c r rs k : orphan c (r :: rs) (S k) = orphan (negb c) rs k.
Proof.
  unfold orphan. cbn [nth_error]. destruct (nth_error rs k) as [x|]; [|reflexivity]. rewrite Nat.even_succ, <- Nat.negb_even, negb_involutive.
  destruct (Nat.even k); reflexivity.
Qed.

Lemma compress_runs m : forall rs c fuel out clen uclen, proper rs -> (length (paint c rs) <= fuel)%nat ->
  clen = Z.of_nat (length out) ->
  exists k tail, taken m c clen rs k /\
    compress_loop fuel m (paint c rs) c out clen uclen
    = (out ++ code_runs c (firstn k rs) ++ orphan c rs k ++ tail,
       clen + Z.of_nat (length (code_runs c (firstn k rs) ++ orphan c rs k)),
       uclen + Z.of_nat (length (paint c (firstn k rs)))) /\
    (length (orphan c rs k ++ tail) <= 26)%nat.
Proof.
  induction rs as [|r rs IH]; intros c fuel out clen uclen P F CL.
  { exists 0%nat, []. split; [|split; [|cbn; lia]].
    - unfold taken. cbn [length code_runs firstn]. repeat split; auto; lia.
    - destruct fuel; cbn [paint compress_loop firstn code_runs orphan nth_error app length]; rewrite ?app_nil_r; repeat f_equal; lia. }
  inversion P as [|? ? P1 PR]; subst.
  assert (N : paint c (r :: rs) <> []). { cbn [paint]. destruct r; [lia|]. discriminate. }
  assert (LP : length (paint c (r :: rs)) = (r + length (paint (negb c) rs))%nat) by (cbn [paint]; rewrite app_length, repeat_length; reflexivity).
  destruct fuel as [|fuel]; [lia|]. rewrite compress_unfold by exact N. cbv zeta.
  replace (run_len c (paint c (r :: rs))) with r by (cbn [paint]; rewrite run_len_repeat; [reflexivity|apply run_len_paint; exact PR]).
  replace (skipn r (paint c (r :: rs))) with (paint (negb c) rs).
  2:{ cbn [paint]. rewrite skipn_app, repeat_length, Nat.sub_diag, skipn_all2 by (rewrite repeat_length; lia). reflexivity. }
  destruct (enc_word c r ltac:(lia)) as (E1 & E2 & E3 & E4). cbv zeta in E1, E2, E3, E4.
  rewrite E1, E2, E3, E4. clear E1 E2 E3 E4.
  assert (CR : code_runs c [r] = makeup c r ++ word c (r mod 64)) by (cbn [code_runs]; unfold run_code; rewrite app_nil_r; reflexivity).
  assert (M : (r mod 64 < 64)%nat) by (apply Nat.mod_upper_bound; lia).
  assert (D : (r / 64 <= 15)%nat) by (apply Nat.lt_succ_r; apply Nat.div_lt_upper_bound; lia).
  destruct (m <? _) eqn:OV.
  - apply Z.ltb_lt in OV. exists 0%nat, (word c (r mod 64)). split; [|split].
    + unfold taken. split; [lia|]. split; [cbn [length]; lia|]. intros _. cbn [firstn]. rewrite CR, app_length. lia.
    + cbn [firstn code_runs paint app orphan nth_error Nat.even length]. f_equal; [f_equal|]; lia.
    + cbn [orphan nth_error Nat.even]. rewrite app_length. pose proof (word_pos c (r mod 64) ltac:(lia)).
      unfold makeup. destruct (64 <=? r)%nat eqn:G; [|cbn [length]; lia]. pose proof (word_pos c (63 + r / 64) ltac:(lia)). lia.
  - apply Z.ltb_ge in OV.
    destruct (IH (negb c) fuel (out ++ makeup c r ++ word c (r mod 64)) (Z.of_nat (length out) + Z.of_nat (length (makeup c r)) + Z.of_nat (length (word c (r mod 64))))
      (uclen + Z.of_nat r) PR) as (k & tail & T & E & B); [lia|rewrite !app_length; lia|].
    exists (S k), tail. destruct T as (T1 & T2 & T3). split; [|split].
    + unfold taken. cbn [length]. split; [lia|]. split.
      * right. change (firstn (S k) (r :: rs)) with (r :: firstn k rs). cbn [code_runs]. unfold run_code. rewrite !app_length.
        destruct T2 as [K0|K0]; [|lia]. subst k. cbn [firstn code_runs length]. lia.
      * intros LK. specialize (T3 ltac:(lia)). change (firstn (S (S k)) (r :: rs)) with (r :: firstn (S k) rs).
        cbn [code_runs]. unfold run_code. rewrite !app_length. lia.
    + rewrite E. rewrite orphan_S. change (firstn (S k) (r :: rs)) with (r :: firstn k rs). cbn [code_runs paint]. unfold run_code.
      rewrite <- !app_assoc. rewrite !app_length, repeat_length. f_equal; [f_equal|]; lia.
    + rewrite orphan_S. exact B.
Qed.

Lemma compress_ok m c rs : proper rs -> rs <> [] ->
  exists k tail, taken m c 0 rs k /\ (length (orphan c rs k ++ tail) <= 26)%nat /\
    compress_rbb (paint c rs) m
    = (code_runs c (firstn k rs) ++ orphan c rs k ++ tail, code_runs c (firstn k rs) ++ orphan c rs k,
       Z.of_nat (length (paint c (firstn k rs))) mod 256,
       negb (Z.of_nat (length (paint c (firstn k rs))) <=? Z.of_nat (length (code_runs c (firstn k rs) ++ orphan c rs k)))).
Proof.
  intros P N. assert (HD : hd false (paint c rs) = c).
  { destruct rs as [|r rs]; [contradiction|]. inversion P as [|? ? P1 _]; subst. destruct r; [lia|]. reflexivity. }
  unfold compress_rbb. rewrite HD.
  destruct (compress_runs m rs c (length (paint c rs)) [] 0 0 P (le_n _) eq_refl) as (k & tail & T & E & B).
  exists k, tail. split; [exact T|]. split; [exact B|]. rewrite E. cbn [app]. rewrite !Z.add_0_l. rewrite Nat2Z.id.
  rewrite app_assoc, firstn_app, Nat.sub_diag, firstn_O, app_nil_r, firstn_all. reflexivity.
Qed.
Lemma runs_exist : forall l c, exists rs, Forall (fun r => (1 <= r)%nat) rs /\ l = paint (hd c l) rs.
Proof.
  induction l as [|b l IH]; intros c; [exists []; split; [constructor|reflexivity]|].
  destruct (IH b) as (rs & R1 & R2). cbn [hd].
  destruct l as [|b' l'].
  - exists [1%nat]. split; [repeat constructor|reflexivity].
  - cbn [hd] in R2. destruct rs as [|r rs]; [discriminate|]. inversion R1; subst.
    destruct (Bool.bool_dec b' b) as [->|NE].
    + exists (S r :: rs). split; [constructor; [lia|assumption]|]. cbn [paint repeat app] in *. rewrite R2. reflexivity.
    + exists (1%nat :: r :: rs). split; [constructor; [lia|constructor; assumption]|]. cbn [paint repeat app] in *.
      replace (negb b) with b' by (destruct b, b'; try reflexivity; contradiction). rewrite R2. reflexivity.
Qed.
Lemma code_runs_firstn c rs k : (length (code_runs c (firstn k rs)) <= length (code_runs c rs))%nat.
Proof.
  revert c k. induction rs as [|r rs IH]; intros c [|k]; cbn [firstn code_runs length]; try lia.
  rewrite !app_length. specialize (IH (negb c) k). lia.
Qed.
Lemma paint_firstn c rs k : exists t, paint c rs = paint c (firstn k rs) ++ t.
Proof.
  revert c k. induction rs as [|r rs IH]; intros c [|k].
  - exists []. reflexivity.
  - exists []. reflexivity.
  - eexists. reflexivity.
  - destruct (IH (negb c) k) as [t E]. exists t. cbn [firstn paint]. rewrite E, app_assoc. reflexivity.
Qed.
Lemma paint_length_le c rs : Forall (fun r => (1 <= r)%nat) rs -> forall r, In r rs -> (r <= length (paint c rs))%nat.
Proof.
  revert c. induction rs as [|x rs IH]; intros c F r I; [contradiction|]. inversion F; subst. cbn [paint]. rewrite app_length, repeat_length.
  destruct I as [->|I]; [lia|]. specialize (IH (negb c) ltac:(assumption) r I). lia.
Qed.
Lemma proper_runs c rs : Forall (fun r => (1 <= r)%nat) rs -> (length (paint c rs) <= 1023)%nat -> proper rs.
Proof.
  intros F L. apply Forall_forall. intros r I. rewrite Forall_forall in F. specialize (F r I) as F1. split; [exact F1|].
  pose proof (paint_length_le c rs ltac:(apply Forall_forall; exact F) r I). lia.
Qed.
Lemma proper_ok rs : proper rs -> runs_ok rs.
Proof. apply Forall_impl. intros; lia. Qed.
Lemma Forall_firstn {A} (P : A -> Prop) k l : Forall P l -> Forall P (firstn k l).
Proof. intros F. rewrite <- (firstn_skipn k l) in F. apply Forall_app in F. apply F. Qed.

(** No make-up word is left over if no run needs one or everything fits. *)
Lemma compress_clean m c rs : proper rs -> rs <> [] ->
  Forall (fun r => (r < 64)%nat) rs \/ Z.of_nat (length (code_runs c rs)) <= m ->
  exists k out, (k <= length rs)%nat /\ (Z.of_nat (length (code_runs c rs)) <= m -> k = length rs) /\
    (length out <= length (code_runs c (firstn k rs)) + 26)%nat /\
    (k = 0%nat \/ Z.of_nat (length (code_runs c (firstn k rs))) <= m) /\
    compress_rbb (paint c rs) m
    = (out, code_runs c (firstn k rs), Z.of_nat (length (paint c (firstn k rs))) mod 256,
       negb (Z.of_nat (length (paint c (firstn k rs))) <=? Z.of_nat (length (code_runs c (firstn k rs))))).
Proof.
  intros P N O. destruct (compress_ok m c rs P N) as (k & tail & (T1 & T2 & T3) & B & E).
  assert (W : Z.of_nat (length (code_runs c rs)) <= m -> k = length rs).
  { intros LE. destruct (Nat.eq_dec k (length rs)) as [|NE]; [assumption|]. specialize (T3 ltac:(lia)).
    pose proof (code_runs_firstn c rs (S k)). lia. }
  assert (OR : orphan c rs k = []).
  { unfold orphan. destruct (nth_error rs k) as [r|] eqn:NT; [|reflexivity]. destruct O as [O|O].
    - rewrite Forall_forall in O. specialize (O r (nth_error_In _ _ NT)). unfold makeup.
      replace (64 <=? r)%nat with false by (symmetry; apply Nat.leb_gt; exact O). destruct (Nat.even k); reflexivity.
    - specialize (W O). subst k. assert (X : nth_error rs (length rs) <> None) by congruence. apply nth_error_Some in X. lia. }
  rewrite OR in *. cbn [app] in *. rewrite app_nil_r in E. exists k, (code_runs c (firstn k rs) ++ tail).
  split; [exact T1|]. split; [exact W|]. split; [rewrite app_length; lia|]. split; [exact T2|exact E].
Qed.
Lemma lossless m c rs cap : proper rs -> rs <> [] -> (length (paint c rs) <= cap)%nat ->
  Forall (fun r => (r < 64)%nat) rs \/ Z.of_nat (length (code_runs c rs)) <= m ->
  exists k out crbb ok, (Z.of_nat (length (code_runs c rs)) <= m -> k = length (paint c rs)) /\
    compress_rbb (paint c rs) m = (out, crbb, Z.of_nat k mod 256, ok) /\ (k <= length (paint c rs))%nat /\
    decompress_crbb cap c crbb [] = (true, firstn k (paint c rs)).
Proof.
  intros P N C O. destruct (compress_clean m c rs P N O) as (k & out & K1 & K2 & K3 & K4 & E).
  destruct (paint_firstn c rs k) as [t PT].
  exists (length (paint c (firstn k rs))), out, (code_runs c (firstn k rs)). eexists. split; [|split; [exact E|split]].
  - intros LE. rewrite (K2 LE), firstn_all. reflexivity.
  - rewrite PT, app_length. lia.
  - rewrite decompress_ok.
    + cbn [app]. f_equal. rewrite PT, firstn_app, Nat.sub_diag, firstn_O, app_nil_r, firstn_all. reflexivity.
    + apply Forall_firstn, proper_ok, P.
    + cbn [length]. rewrite PT, app_length in C. lia.
Qed.

Lemma run_len_paint' c rs : Forall (fun r => (1 <= r)%nat) rs -> run_len c (paint (negb c) rs) = 0%nat.
Proof.
  intros P. destruct rs as [|r rs]; [reflexivity|]. inversion P as [|? ? P1 _]; subst. destruct r as [|r]; [lia|].
  cbn [paint repeat app run_len]. destruct c; reflexivity.
Qed.
Lemma paint_unique : forall rs c rs' c', Forall (fun r => (1 <= r)%nat) rs -> Forall (fun r => (1 <= r)%nat) rs' ->
  paint c rs = paint c' rs' -> rs = rs' /\ (rs <> [] -> c = c').
Proof.
  induction rs as [|r rs IH]; intros c rs' c' F F' E.
  - destruct rs' as [|r' rs']; [split; [reflexivity|contradiction]|]. inversion F'; subst. destruct r'; [lia|]. discriminate.
  - inversion F as [|? ? P1 PR]; subst. destruct rs' as [|r' rs']; [destruct r; [lia|]; discriminate|]. inversion F' as [|? ? P1' PR']; subst.
    assert (c = c'). { destruct r; [lia|]. destruct r'; [lia|]. cbn [paint repeat app] in E. congruence. } subst c'.
    assert (r = r').
    { pose proof (run_len_repeat c r (paint (negb c) rs) (run_len_paint' c rs PR)) as X1.
      pose proof (run_len_repeat c r' (paint (negb c) rs') (run_len_paint' c rs' PR')) as X2. cbn [paint] in E. rewrite E in X1. congruence. }
    subst r'. cbn [paint] in E. apply app_inv_head in E. destruct (IH _ _ _ PR PR' E) as [-> _]. auto.
Qed.
