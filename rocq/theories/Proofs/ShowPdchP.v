(** Lemmas about the display of the timeslots and about the argument of "show ms tlli". *)
From Coq Require Import ZArith List Bool Lia.
From Verif Require Import Base.Arith Model.Mslot Model.Alloc Model.Cell Model.ShowPdch Spec.AllocSpec Spec.ShowPdchSpec Proofs.CellI.
Import ListNotations.
Local Open Scope Z_scope.

(** * Timeslots *)
Lemma count_split (P Q : tbf -> bool) l :
  (length (filter (fun t => P t && Bool.eqb (Q t) false) l) + length (filter (fun t => P t && Bool.eqb (Q t) true) l))%nat =
  length (filter P l).
Proof.
  induction l as [|x l IH]; [reflexivity|]. cbn [filter]. destruct (P x), (Q x); cbn [andb Bool.eqb length]; rewrite <- IH; lia.
Qed.
Lemma num_is ids c n ts d : described ids c n ts -> num_tbfs (c_bts c n ts) d = tbfs_on c n ts d.
Proof.
  intros D. unfold num_tbfs, tbfs_on. rewrite (e_gprs _ _ _ _ D), (e_egprs _ _ _ _ D). unfold tbf_count.
  rewrite <- Nat2Z.inj_add, count_split. reflexivity.
Qed.
Lemma in8 (ts : Z) : In ts [0; 1; 2; 3; 4; 5; 6; 7] <-> 0 <= ts < 8.
Proof. cbn [In]. lia. Qed.
Lemma show_pdch_in b n l : In (n, l) (show_pdch b) <->
  0 <= n < 8 /\ (exists ts, 0 <= ts < 8 /\ pd_enabled (b n ts) = true) /\ l = pdch_lines (b n).
Proof.
  unfold show_pdch. rewrite in_flat_map. split.
  - intros (k & K & I). destruct (existsb _ _) eqn:E; [|destruct I]. destruct I as [I|[]]. injection I as <- <-.
    apply existsb_exists in E. destruct E as (ts & T & E). rewrite in8 in K, T. repeat split; try lia. exists ts. auto.
  - intros (K & (ts & T & E) & ->). exists n. split; [now apply in8|].
    replace (existsb (fun ts => pd_enabled (b n ts)) [0; 1; 2; 3; 4; 5; 6; 7]) with true; [now left|].
    symmetry. apply existsb_exists. exists ts. split; [now apply in8|exact E].
Qed.
Lemma fst_some {A} (p : Z -> bool) (g : Z -> A) l : map fst (flat_map (fun n => if p n then [(n, g n)] else []) l) = filter p l.
Proof. induction l as [|n l IH]; [reflexivity|]. cbn [flat_map filter]. rewrite map_app, IH. destruct (p n); reflexivity. Qed.
Lemma show_pdch_fst b : exists p, map fst (show_pdch b) = filter p [0; 1; 2; 3; 4; 5; 6; 7].
Proof. eexists. apply fst_some. Qed.
Lemma pdch_history : forall def ids os, NoDup ids -> (length ids < 256)%nat ->
  exists c, crun def ids os init_cell = Some c /\
    NoDup (map fst (show_pdch (c_bts c))) /\
    (forall n l, In (n, l) (show_pdch (c_bts c)) ->
       map pl_ts l = [0; 1; 2; 3; 4; 5; 6; 7] /\
       forall x, In x l -> pl_on x = pd_enabled (c_bts c n (pl_ts x)) /\
         pl_dl x = tbfs_on c n (pl_ts x) DL /\ pl_ul x = tbfs_on c n (pl_ts x) UL) /\
    (forall n, In n (map fst (show_pdch (c_bts c))) <-> 0 <= n < 8 /\ exists ts, 0 <= ts < 8 /\ pd_enabled (c_bts c n ts) = true) /\
    (forall t n ts, In t (c_tbfs c) -> uses t n ts -> exists l x, In (n, l) (show_pdch (c_bts c)) /\ In x l /\
       pl_ts x = ts /\ pl_on x = true /\ 1 <= match t_dir t with DL => pl_dl x | UL => pl_ul x end).
Proof.
  intros def ids os ND LEN. destruct (cell_history def ids os ND LEN) as (c & E & _ & T & _ & _ & D).
  exists c. split; [exact E|]. split; [|split; [|split]].
  - destruct (show_pdch_fst (c_bts c)) as (p & ->). apply NoDup_filter. repeat constructor; cbn [In]; lia.
  - intros n l I. apply show_pdch_in in I. destruct I as (_ & _ & ->). split; [reflexivity|].
    intros x I. unfold pdch_lines in I. apply in_map_iff in I. destruct I as (ts & <- & I). apply in8 in I. cbn [pl_ts pl_on pl_dl pl_ul].
    split; [reflexivity|]. split; apply (num_is ids); now apply D.
  - intros n. rewrite in_map_iff. split.
    + intros ((k & l) & <- & I). apply show_pdch_in in I. cbn [fst]. tauto.
    + intros (A & B). exists (n, pdch_lines (c_bts c n)). split; [reflexivity|]. apply show_pdch_in. auto.
  - intros t n ts I U. destruct (T t I n ts U) as (N & P & _). pose proof (proj1 (proj2 U)) as R.
    exists (pdch_lines (c_bts c n)), (mk_pl ts (pd_enabled (c_bts c n ts)) (num_tbfs (c_bts c n ts) DL) (num_tbfs (c_bts c n ts) UL)).
    split; [apply show_pdch_in; repeat split; try lia; now exists ts|].
    split; [unfold pdch_lines; apply in_map_iff; exists ts; split; [reflexivity|now apply in8]|].
    split; [reflexivity|]. split; [exact P|]. cbn [pl_dl pl_ul].
    assert (G : 1 <= tbfs_on c n ts (t_dir t)).
    { unfold tbfs_on. set (g := fun t0 : tbf => usesb n ts t0 && dir_eqb (t_dir t0) (t_dir t)).
      assert (J : In t (filter g (c_tbfs c))).
      { apply filter_In. split; [exact I|]. unfold g, usesb. destruct U as [<- U]. rewrite Z.eqb_refl, (proj2 U). destruct (t_dir t); reflexivity. }
      destruct (filter g (c_tbfs c)); [destruct J|]. cbn [length]. lia. }
    destruct (t_dir t); rewrite (num_is ids); auto.
Qed.

(** * Numerals *)
Lemma digit_iff c d : hx_digit c = Some d <-> hexchar c d.
Proof.
  unfold hx_digit, hexchar. destruct ((48 <=? c) && (c <=? 57)) eqn:A.
  { apply andb_true_iff in A. rewrite !Z.leb_le in A. split; [intros X; injection X as <-; lia|intros X; f_equal; lia]. }
  destruct ((97 <=? c) && (c <=? 102)) eqn:B.
  { apply andb_true_iff in B. rewrite !Z.leb_le in B. split; [intros X; injection X as <-; lia|intros X; f_equal; lia]. }
  destruct ((65 <=? c) && (c <=? 70)) eqn:C.
  { apply andb_true_iff in C. rewrite !Z.leb_le in C. split; [intros X; injection X as <-; lia|intros X; f_equal; lia]. }
  apply andb_false_iff in A, B, C. rewrite !Z.leb_gt in A, B, C. split; [discriminate|lia].
Qed.
Lemma digits_split s : forall ds e, hx_digits s = (ds, e) -> exists cs, s = cs ++ e /\ Forall2 hexchar cs ds.
Proof.
  induction s as [|c s IH]; cbn [hx_digits]; intros ds e X.
  - injection X as <- <-. exists []. split; [reflexivity|constructor].
  - destruct (hx_digit c) as [d|] eqn:D.
    + destruct (hx_digits s) as [ds' e'] eqn:Y. injection X as <- <-. destruct (IH _ _ eq_refl) as (cs & -> & F).
      exists (c :: cs). split; [reflexivity|]. constructor; [now apply digit_iff|exact F].
    + injection X as <- <-. exists []. split; [reflexivity|constructor].
Qed.
Lemma digits_all cs ds : Forall2 hexchar cs ds -> hx_digits cs = (ds, []).
Proof.
  induction 1 as [|c d cs ds A F IH]; [reflexivity|]. cbn [hx_digits]. rewrite (proj2 (digit_iff c d) A), IH. reflexivity.
Qed.
Lemma horner ds : forall a, fold_left (fun a d => 16 * a + d) ds a = a * 16 ^ Z.of_nat (length ds) + weigh ds.
Proof.
  induction ds as [|d ds IH]; intros a; cbn [fold_left weigh length]; [change (16 ^ Z.of_nat 0) with 1; lia|].
  rewrite IH, Nat2Z.inj_succ, Z.pow_succ_r by lia. ring.
Qed.
Lemma weigh_pos cs ds : Forall2 hexchar cs ds -> 0 <= weigh ds.
Proof.
  induction 1 as [|c d cs ds A F IH]; cbn [weigh]; [lia|]. assert (0 <= d) by (unfold hexchar in A; lia).
  pose proof (Z.pow_nonneg 16 (Z.of_nat (length ds))). nia.
Qed.
Lemma space_iff c : hx_space c = true <-> blank c.
Proof. unfold hx_space, blank. rewrite orb_true_iff, andb_true_iff, Z.eqb_eq, !Z.leb_le. lia. Qed.
Lemma skip_split s : exists sp, s = sp ++ hx_skip s /\ Forall blank sp.
Proof.
  induction s as [|c s (sp & E & F)]; cbn [hx_skip]; [now exists []|]. destruct (hx_space c) eqn:B.
  - exists (c :: sp). cbn [app]. rewrite <- E. split; [reflexivity|]. constructor; [now apply space_iff|exact F].
  - now exists [].
Qed.
Lemma skip_to sp c r : Forall blank sp -> ~ blank c -> hx_skip (sp ++ c :: r) = c :: r.
Proof.
  intros F N. induction F as [|x sp B F IH]; cbn [app hx_skip].
  - destruct (hx_space c) eqn:E; [|reflexivity]. elim N. now apply space_iff.
  - now rewrite (proj2 (space_iff x) B).
Qed.
Lemma prefix_split s : exists pre, s = pre ++ hx_prefix s /\ (pre = [] \/ pre = [48; 120] \/ pre = [48; 88]).
Proof.
  destruct s as [|z [|x [|c r]]]; cbn [hx_prefix]; try (exists []; split; [reflexivity|now left]).
  destruct ((z =? 48) && ((x =? 120) || (x =? 88)) && _) eqn:E; [|exists []; split; [reflexivity|now left]].
  apply andb_true_iff in E. destruct E as [E _]. apply andb_true_iff in E. rewrite orb_true_iff, !Z.eqb_eq in E. destruct E as [-> [-> | ->]].
  - exists [48; 120]. auto.
  - exists [48; 88]. auto.
Qed.
Lemma prefix_to pre cs ds : pre = [] \/ pre = [48; 120] \/ pre = [48; 88] -> Forall2 hexchar cs ds -> ds <> [] -> hx_prefix (pre ++ cs) = cs.
Proof.
  intros P F N. destruct F as [|c d cs ds A F]; [now elim N|]. destruct P as [-> | [-> | ->]].
  - cbn [app]. destruct F as [|c2 d2 cs ds A2 F]; [reflexivity|]. destruct F as [|c3 d3 cs ds A3 F]; [reflexivity|]. cbn [hx_prefix].
    replace ((c2 =? 120) || (c2 =? 88)) with false by (symmetry; apply orb_false_iff; rewrite !Z.eqb_neq; unfold hexchar in A2; lia).
    rewrite andb_false_r. reflexivity.
  - cbn [app hx_prefix]. rewrite (proj2 (digit_iff c d) A). reflexivity.
  - cbn [app hx_prefix]. rewrite (proj2 (digit_iff c d) A). reflexivity.
Qed.
Lemma sign_split s : exists sg, s = sg ++ snd (hx_sign s) /\
  ((fst (hx_sign s) = false /\ (sg = [] \/ sg = [43])) \/ (fst (hx_sign s) = true /\ sg = [45])).
Proof.
  destruct s as [|c r]; cbn [hx_sign]; [exists []; auto|].
  destruct (Z.eqb_spec c 45) as [-> |A]; [exists [45]; auto|]. destruct (Z.eqb_spec c 43) as [-> |B]; [exists [43]; auto|]. exists []; auto.
Qed.
Lemma first_digit pre cs ds : pre = [] \/ pre = [48; 120] \/ pre = [48; 88] -> Forall2 hexchar cs ds -> ds <> [] ->
  exists c r, pre ++ cs = c :: r /\ 48 <= c.
Proof.
  intros P F N. destruct F as [|c d cs ds A F]; [now elim N|]. destruct P as [-> | [-> | ->]]; cbn [app]; eexists; eexists; (split; [reflexivity|]);
    unfold hexchar in A; lia.
Qed.
Lemma some_same {A} (x y : A) : Some x = Some y -> x = y.
Proof. now intros [= ->]. Qed.
Lemma tlli_arg_iff : forall s v, s <> [] -> (tlli_arg s = Some v <-> numeral_of s v /\ v <= 0xffffffff).
Proof.
  intros s v NE. unfold tlli_arg, strtoll16. split.
  - destruct (skip_split s) as (sp & E1 & F1). destruct (sign_split (hx_skip s)) as (sg & E2 & S2).
    destruct (hx_sign (hx_skip s)) as [neg s1]. cbn [fst snd] in E2, S2. destruct (prefix_split s1) as (pre & E3 & P3).
    destruct (hx_digits (hx_prefix s1)) as [ds e] eqn:D. destruct (digits_split _ _ _ D) as (cs & E4 & F4).
    pose proof (weigh_pos _ _ F4) as W.
    destruct ds as [|d0 ds0]; [destruct s; [now elim NE|discriminate]|]. set (ds := d0 :: ds0) in *.
    assert (Nds : ds <> []) by discriminate. clearbody ds. rewrite horner, Z.mul_0_l, Z.add_0_l.
    destruct e; [|discriminate]. rewrite app_nil_r in E4.
    destruct (0xffffffff <? _) eqn:L; [discriminate|]. apply Z.ltb_ge in L. intros X. apply some_same in X.
    assert (V : weigh ds = v /\ v <= 0xffffffff /\ (neg = true -> v = 0)).
    { destruct neg; cbv beta iota zeta in X, L.
      - destruct (Z.eq_dec (weigh ds) 0) as [Z0|Z0].
        + rewrite Z0 in X. replace (Z.max (- 2 ^ 63) (- 0) mod 2 ^ 64) with 0 in X by reflexivity. split; [lia|]. split; [lia|intros _; lia].
        + exfalso. assert (Q : - 2 ^ 63 <= Z.max (- 2 ^ 63) (- weigh ds) < 0) by lia.
          set (y := Z.max (- 2 ^ 63) (- weigh ds)) in *. clearbody y.
          assert (R : y mod 2 ^ 64 = y + 2 ^ 64) by (symmetry; apply (Z.mod_unique_pos _ _ (-1)); lia). lia.
      - rewrite Z.mod_small in X, L by lia. split; [|split; [|discriminate]]; lia. }
    destruct V as (V1 & V2 & V3). split; [|exact V2]. exists sp, sg, pre, cs, ds. split; [rewrite E1, E2, E3, E4; reflexivity|].
    split; [exact F1|]. split; [|split; [exact P3|split; [exact F4|split; [exact Nds|exact V1]]]].
    destruct S2 as [[_ [S2|S2]]|[S2 S3]]; auto.
  - intros [(sp & sg & pre & cs & ds & -> & F1 & S2 & P3 & F4 & Nds & V) B]. pose proof (weigh_pos _ _ F4) as W.
    destruct (first_digit pre cs ds P3 F4 Nds) as (c & r & E & C).
    assert (K : hx_skip (sp ++ sg ++ pre ++ cs) = sg ++ pre ++ cs).
    { destruct S2 as [-> |[-> |[-> _]]]; cbn [app]; [rewrite E|..]; apply skip_to; auto; unfold blank; lia. }
    assert (G : hx_sign (sg ++ pre ++ cs) = (match sg with [45] => true | _ => false end, pre ++ cs)).
    { destruct S2 as [-> |[-> |[-> _]]]; cbn [app]; [|reflexivity|reflexivity]. rewrite E. cbn [hx_sign].
      destruct (Z.eqb_spec c 45); [lia|]. destruct (Z.eqb_spec c 43); [lia|reflexivity]. }
    rewrite K, G, (prefix_to pre cs ds P3 F4 Nds), (digits_all cs ds F4), horner, Z.mul_0_l, Z.add_0_l, V.
    destruct ds as [|d0 ds0]; [now elim Nds|].
    assert (U : (if match sg with [45] => true | _ => false end then Z.max (- 2 ^ 63) (- v) else Z.min (2 ^ 63 - 1) v) mod 2 ^ 64 = v).
    { destruct S2 as [-> |[-> |[-> Z0]]]; [..|rewrite Z0; reflexivity]; rewrite Z.min_r, Z.mod_small; lia. }
    rewrite U. destruct (Z.ltb_spec 0xffffffff v); [lia|reflexivity].
Qed.
Lemma char_digit d : 0 <= d < 16 -> hexchar (hx_char d) d.
Proof. intros R. unfold hx_char, hexchar. destruct (Z.ltb_spec d 10); lia. Qed.
Lemma text_weigh v : 0 <= v < 2 ^ 32 -> weigh (map (fun k => v / 16 ^ k mod 16) [7; 6; 5; 4; 3; 2; 1; 0]) = v.
Proof.
  intros R. cbn [map weigh length].
  change (Z.of_nat 7) with 7; change (Z.of_nat 6) with 6; change (Z.of_nat 5) with 5; change (Z.of_nat 4) with 4;
  change (Z.of_nat 3) with 3; change (Z.of_nat 2) with 2; change (Z.of_nat 1) with 1; change (Z.of_nat 0) with 0.
  change (16 ^ 7) with 268435456; change (16 ^ 6) with 16777216; change (16 ^ 5) with 1048576; change (16 ^ 4) with 65536;
  change (16 ^ 3) with 4096; change (16 ^ 2) with 256; change (16 ^ 1) with 16; change (16 ^ 0) with 1. change (2 ^ 32) with 4294967296 in R.
  Z.div_mod_to_equations. lia.
Qed.
Lemma text_numeral v : 0 <= v < 2 ^ 32 -> numeral_of (tlli_text v) v.
Proof.
  intros R. exists [], [], [], (tlli_text v), (map (fun k => v / 16 ^ k mod 16) [7; 6; 5; 4; 3; 2; 1; 0]).
  split; [reflexivity|]. split; [constructor|]. split; [now left|]. split; [now left|].
  split; [|split; [discriminate|now apply text_weigh]]. unfold tlli_text.
  generalize [7; 6; 5; 4; 3; 2; 1; 0] as l. induction l as [|k l IH]; constructor; [|exact IH].
  apply char_digit. apply Z.mod_pos_bound. lia.
Qed.
Lemma text_read : forall v, 0 <= v < 2 ^ 32 -> tlli_arg (tlli_text v) = Some v.
Proof. intros v R. apply tlli_arg_iff; [discriminate|]. split; [now apply text_numeral|lia]. Qed.
