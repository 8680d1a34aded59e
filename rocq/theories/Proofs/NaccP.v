(** The containers of a network assisted cell change. *)
From Coq Require Import ZArith List Bool Lia.
From Verif Require Import Base.Arith Model.NeighCache Model.Paging Model.Nacc Spec.PagingSpec Spec.NaccSpec Proofs.PagingP.
Import ListNotations.
Open Scope Z_scope.

Definition octet (x : Z) : Prop := 0 <= x < 256.

Lemma read_head : forall rrbp sp mt c r, 0 <= rrbp < 4 -> 0 <= sp < 2 -> 0 <= mt < 64 -> 0 <= cr_tfi c < 32 ->
  r_head (ctrl_head rrbp sp mt c ++ r) = Some (if sp =? 1 then Some rrbp else None, mt, cr_dl c, cr_tfi c, r).
Proof.
  intros rrbp sp mt c r A B C D. unfold ctrl_head, r_head. rewrite <- !app_assoc.
  rewrite !uint_exact by (cbn; lia). rewrite uint_exact by (cbn; unfold b2z; destruct (cr_dl c); lia).
  rewrite uint_exact by (cbn; lia). destruct (cr_dl c); reflexivity.
Qed.

Lemma first_octet : forall psi v r, 0 <= v < 32 ->
  uint 3 0 (fldb 8 (Z.lor (Z.shiftl (b2z psi) 5) v) ++ r) = Some (b2z psi, fldb 5 v ++ r).
Proof.
  intros psi v r H.
  assert (E : fldb 8 (Z.lor (Z.shiftl (b2z psi) 5) v) = fldb 3 (b2z psi) ++ fldb 5 v).
  { assert (G : forallb (fun v => forallb (fun p => if list_eq_dec bool_dec (fldb 8 (Z.lor (Z.shiftl (b2z p) 5) v)) (fldb 3 (b2z p) ++ fldb 5 v) then true else false) [true; false])
        (map Z.of_nat (seq 0 32)) = true) by (vm_compute; reflexivity).
    rewrite forallb_forall in G. assert (I : In v (map Z.of_nat (seq 0 32))).
    { apply in_map_iff. exists (Z.to_nat v). split; [lia|]. apply in_seq. lia. }
    specialize (G v I). rewrite forallb_forall in G. specialize (G psi). destruct (list_eq_dec _ _ _) in G; [assumption|].
    exfalso. assert (X : false = true) by (apply G; destruct psi; cbn; auto). discriminate. }
  rewrite E, <- app_assoc. apply uint_exact. destruct psi; cbn; lia.
Qed.

Lemma pad_len n l : (length l <= n)%nat -> length (pad_to n l) = n.
Proof. intro H. unfold pad_to. rewrite app_length, repeat_length. lia. Qed.
Lemma pad_oct n l : Forall octet l -> Forall octet (pad_to n l).
Proof. intro H. apply Forall_app. split; [exact H|]. apply Forall_forall. intros x I. apply repeat_spec in I. subst. unfold octet; lia. Qed.

Lemma read_container : forall c n psi v data, 0 <= cr_tfi c < 32 -> good_key (n_key n) -> 0 <= v < 32 ->
  Forall octet data -> (Z.of_nat (length data) <= (if n_idx n =? 0 then 16 else 18)) ->
  let mx := if n_idx n =? 0 then 16%nat else 18%nat in
  r_container (ctrl_head 0 0 0x0c c ++ fldb 2 0 ++ fldb 1 0 ++ fldb 5 (n_idx n mod 256) ++
     (if n_idx n =? 0 then fldb 1 1 ++ fldb 10 (k_arfcn (n_key n)) ++ fldb 6 (k_bsic (n_key n)) else fldb 1 0) ++
     flat_map (fldb 8) (pad_to (Z.to_nat (if n_idx n =? 0 then 17 else 19)) (Z.lor (Z.shiftl (b2z psi) 5) v :: data))) =
  Some (Co ((n_idx n mod 256) mod 32) (if n_idx n =? 0 then Some (k_arfcn (n_key n), k_bsic (n_key n)) else None) (b2z psi) v (pad_to mx data)).
Proof.
  intros c n psi v data T [Ka Kb] V O L mx. unfold r_container.
  rewrite read_head by lia. cbv beta iota. change (0 =? 1) with false. cbv beta iota.
  rewrite uint_exact by (cbn; lia). rewrite uint_exact by (cbn; lia). rewrite uint_fldb. cbv beta iota.
  change (0 * 2 ^ Z.of_nat 5) with 0. rewrite Z.add_0_l. change (2 ^ Z.of_nat 5) with 32.
  assert (P : forall m, (length data <= m)%nat -> pad_to (S m) (Z.lor (Z.shiftl (b2z psi) 5) v :: data) = Z.lor (Z.shiftl (b2z psi) 5) v :: pad_to m data).
  { intros m Hm. unfold pad_to. cbn [length app]. reflexivity. }
  destruct (n_idx n =? 0).
  - change (Z.to_nat 17) with 17%nat. rewrite P by lia. cbn [flat_map].
    rewrite <- !app_assoc. rewrite uint_exact by (cbn; lia). cbv beta iota.
    rewrite uint_exact by (cbn; lia). rewrite uint_exact by (cbn; lia).
    rewrite first_octet by exact V. cbv beta iota. rewrite uint_exact by (cbn; lia).
    pose proof (octs_fldb (pad_to 16 data) [] (pad_oct 16 data O)) as E. rewrite pad_len in E by lia. rewrite app_nil_r in E. rewrite E. reflexivity.
  - change (Z.to_nat 19) with 19%nat. rewrite P by lia. cbn [flat_map].
    rewrite uint_exact by (cbn; lia). cbv beta iota.
    rewrite first_octet by exact V. cbv beta iota. rewrite uint_exact by (cbn; lia).
    pose proof (octs_fldb (pad_to 18 data) [] (pad_oct 18 data O)) as E. rewrite pad_len in E by lia. rewrite app_nil_r in E. rewrite E. reflexivity.
Qed.

(** The state of the transfer: what is left of the system information. *)
Record sending (n : nacc) (rest : list Z) : Prop := {
  s_st : n_st n = TX_DATA;
  s_key : good_key (n_key n);
  s_oct : Forall octet (n_si n);
  s_len : Z.of_nat (length (n_si n)) < 2 ^ 64;
  s_pos : 0 <= n_sent n <= Z.of_nat (length (n_si n));
  s_idx : 0 <= n_idx n;
  s_rest : rest = skipn (Z.to_nat (n_sent n)) (n_si n) }.

Definition room (n : nacc) : Z := if n_idx n =? 0 then 16 else 18.

Lemma rest_len n rest : sending n rest -> Z.of_nat (length rest) = Z.of_nat (length (n_si n)) - n_sent n.
Proof. intros S. rewrite (s_rest _ _ S), skipn_length. pose proof (s_pos _ _ S). lia. Qed.
Lemma rest_oct n rest : sending n rest -> Forall octet rest.
Proof.
  intros S. rewrite (s_rest _ _ S). pose proof (s_oct _ _ S) as O. rewrite <- (firstn_skipn (Z.to_nat (n_sent n)) (n_si n)) in O.
  now apply Forall_app in O.
Qed.

Lemma skip_skip {A} a b (l : list A) : skipn a (skipn b l) = skipn (b + a) l.
Proof. revert l. induction b as [|b IH]; intro l; [reflexivity|]. destruct l; [now rewrite !skipn_nil|]. cbn [skipn Nat.add]. apply IH. Qed.

Lemma data_step c n rest : sending n rest -> 0 <= cr_tfi c < 32 ->
  exists m n', create_data c n = (m, negb (room n <=? Z.of_nat (length rest)), n') /\
    let mx := Z.to_nat (room n) in
    (room n <= Z.of_nat (length rest) ->
       r_container m = Some (Co ((n_idx n mod 256) mod 32) (if n_idx n =? 0 then Some (k_arfcn (n_key n), k_bsic (n_key n)) else None) (b2z (n_psi n)) 31 (firstn mx rest)) /\
       sending n' (skipn mx rest) /\ n_idx n' = n_idx n + 1 /\ n_psi n' = n_psi n /\ n_key n' = n_key n) /\
    (Z.of_nat (length rest) < room n ->
       r_container m = Some (Co ((n_idx n mod 256) mod 32) (if n_idx n =? 0 then Some (k_arfcn (n_key n), k_bsic (n_key n)) else None) (b2z (n_psi n)) (Z.of_nat (length rest)) (pad_to mx rest)) /\
       n_st n' = TX_DATA) /\ length m = 184%nat.
Proof.
  intros S T. pose proof (rest_len _ _ S) as RL. pose proof (rest_oct _ _ S) as RO. pose proof (s_pos _ _ S) as P. pose proof (s_len _ _ S) as Ln.
  unfold create_data. assert (E : sz (Z.of_nat (length (n_si n)) - n_sent n) = Z.of_nat (length rest)).
  { unfold sz. rewrite Z.mod_small by lia. lia. }
  rewrite E. assert (Rm : room n = (if n_idx n =? 0 then 17 else 19) - 1) by (unfold room; destruct (n_idx n =? 0); reflexivity).
  assert (Rb : 16 <= room n <= 18) by (unfold room; destruct (n_idx n =? 0); lia).
  assert (Mx : (if n_idx n =? 0 then 16%nat else 18%nat) = Z.to_nat (room n)) by (unfold room; destruct (n_idx n =? 0); reflexivity).
  assert (Lm : forall x data, (length data <= Z.to_nat (room n))%nat -> length (ctrl_head 0 0 12 c ++ fldb 2 0 ++ fldb 1 0 ++ fldb 5 (n_idx n mod 256) ++
      (if n_idx n =? 0 then fldb 1 1 ++ fldb 10 (k_arfcn (n_key n)) ++ fldb 6 (k_bsic (n_key n)) else fldb 1 0) ++
      flat_map (fldb 8) (pad_to (Z.to_nat (if n_idx n =? 0 then 17 else 19)) (x :: data))) = 184%nat).
  { intros x data D. apply Nat2Z.inj. unfold ctrl_head. rewrite !app_length, !Nat2Z.inj_add. rewrite flat8_length, !fldb_length.
    rewrite pad_len by (cbn [length]; unfold room in D; destruct (n_idx n =? 0); lia).
    destruct (n_idx n =? 0); rewrite ?app_length, !fldb_length; reflexivity. }
  rewrite <- Rm. rewrite Z.geb_leb.
  assert (F0 : forall k, 0 <= k < 32 -> Z.land k 31 = k).
  { intros k Hk. change 31 with (Z.ones 5). rewrite Z.land_ones by lia. now apply Z.mod_small. }
  rewrite <- (s_rest _ _ S).
  destruct (Z.eqb_spec (Z.of_nat (length rest)) 0) as [Z0|Z0].
  - eexists. eexists. split; [rewrite (proj2 (Z.leb_gt _ _)) by lia; reflexivity|]. cbv zeta. split; [intros; lia|]. split; [|apply Lm; cbn [length]; lia].
    intros _. assert (R0 : rest = []) by (destruct rest; [reflexivity|cbn in Z0; lia]). subst rest. split; [|apply (s_st _ _ S)].
    rewrite <- Mx. cbn [length]. change (Z.of_nat 0) with 0.
    apply (read_container c n (n_psi n) 0 []); [exact T|apply (s_key _ _ S)|lia|constructor|cbn [length]; destruct (n_idx n =? 0); lia].
  - destruct (Z.leb_spec (room n) (Z.of_nat (length rest))) as [L|L].
    + assert (FL : length (firstn (Z.to_nat (room n)) rest) = Z.to_nat (room n)) by (rewrite firstn_length; lia).
      eexists. eexists. split; [reflexivity|]. cbv zeta. split; [|split; [intros; lia|apply Lm; lia]].
      intros _. split.
      * rewrite read_container; [| exact T | apply (s_key _ _ S) | lia | | ].
        -- rewrite Mx. f_equal. f_equal. unfold pad_to. rewrite FL, Nat.sub_diag. cbn [repeat]. apply app_nil_r.
        -- rewrite <- (firstn_skipn (Z.to_nat (room n)) rest) in RO. now apply Forall_app in RO.
        -- rewrite FL. unfold room. destruct (n_idx n =? 0); lia.
      * split; [|split; [reflexivity|split; reflexivity]]. destruct S as [S1 S2 S3 S4 S5 S6 S7].
        constructor; cbn [n_st n_key n_si n_sent n_idx set_prog]; auto; try lia. rewrite S7, skip_skip. f_equal. lia.
    + eexists. eexists. split; [reflexivity|]. cbv zeta. split; [intros; lia|]. split; [|apply Lm; rewrite firstn_length; lia].
      intros _. rewrite F0 by lia. rewrite Nat2Z.id, firstn_all. rewrite <- Mx. split; [|apply (s_st _ _ S)].
      apply read_container; [exact T|apply (s_key _ _ S)|lia|exact RO|unfold room in L; destruct (n_idx n =? 0); lia].
Qed.

(** The blocks needed for what is left. *)
Definition needed (n : nacc) (rest : list Z) : Z :=
  if Z.of_nat (length rest) <? room n then 1 else (Z.of_nat (length rest) - room n) / 18 + 2.

Definition asked (l : list (world * create)) : list (world * mev) := map (fun p => (fst p, MRts (snd p))) l.

Lemma n_run_app : forall h1 h2 o out, n_run o out (h1 ++ h2) = match n_run o out h1 with Some (o, out) => n_run o out h2 | None => None end.
Proof.
  induction h1 as [|[w e] h1 IH]; intros h2 o out; cbn [app n_run]; [reflexivity|].
  destruct (n_step w o e); auto.
Qed.

Lemma send_all : forall cs n rest out, sending n rest -> Forall (fun p => good_create (snd p)) cs ->
  Z.of_nat (length cs) = needed n rest ->
  exists n' bs cos, n_run (Some n) out (asked cs) = Some (Some n', out ++ map Data bs) /\ n_st n' = TX_CONT /\
    length bs = length cs /\ Forall (fun b => length b = 184%nat) bs /\
    all_some (map r_container bs) = Some cos /\
    map co_idx cos = map (fun k => ((n_idx n + Z.of_nat k) mod 256) mod 32) (seq 0 (length cs)) /\
    (exists c0 r0, cos = c0 :: r0 /\ co_cell c0 = (if n_idx n =? 0 then Some (k_arfcn (n_key n), k_bsic (n_key n)) else None) /\ co_kind c0 = b2z (n_psi n)) /\
    (exists pre last, cos = pre ++ [last] /\ Forall (fun c => full c = true) pre /\ full last = false) /\
    (n_idx n + needed n rest <= 32 -> collect (n_idx n) (b2z (n_psi n)) cos = Some rest).
Proof.
  induction cs as [|[w c] cs IH]; intros n rest out S G L.
  - exfalso. unfold needed in L. cbn [length] in L. change (Z.of_nat 0) with 0 in L. destruct (Z.ltb_spec (Z.of_nat (length rest)) (room n)); [lia|].
    pose proof (Z.div_pos (Z.of_nat (length rest) - room n) 18). lia.
  - inversion G as [|? ? Gc Gl]; subst. cbn [snd] in Gc. destruct Gc as (Ga & Ge & Gt & _).
    destruct (data_step c n rest S Gt) as (m & n' & E & HF & HL & Lm).
    cbn [asked map fst snd n_run]. unfold n_step at 1. unfold rts. rewrite Ga, (s_st _ _ S). cbn [andb].
    unfold dispatch. rewrite (s_st _ _ S). cbn [permits]. unfold action. rewrite (s_st _ _ S), Ga, E. cbn [negb]. rewrite Ge. cbn [negb].
    pose proof (s_idx _ _ S) as I0.
    assert (Rb : 16 <= room n <= 18) by (unfold room; destruct (n_idx n =? 0); lia).
    destruct (Z.leb_spec (room n) (Z.of_nat (length rest))) as [Q|Q]; cbn [negb].
    + destruct (HF Q) as (Rd & S' & Ei & Ep & Ek). clear HF HL.
      assert (R' : room n' = 18) by (unfold room; rewrite Ei; rewrite (proj2 (Z.eqb_neq _ _)) by lia; reflexivity).
      assert (Lr : Z.of_nat (length (skipn (Z.to_nat (room n)) rest)) = Z.of_nat (length rest) - room n) by (rewrite skipn_length; lia).
      assert (Nd : needed n rest = needed n' (skipn (Z.to_nat (room n)) rest) + 1).
      { unfold needed. rewrite R', Lr. rewrite (proj2 (Z.ltb_ge _ _)) by lia.
        destruct (Z.ltb_spec (Z.of_nat (length rest) - room n) 18) as [X|X].
        - rewrite Z.div_small by lia. lia.
        - replace (Z.of_nat (length rest) - room n) with (Z.of_nat (length rest) - room n - 18 + 1 * 18) at 1 by lia. rewrite Z.div_add by lia. lia. }
      assert (Lc : Z.of_nat (length cs) = needed n' (skipn (Z.to_nat (room n)) rest)) by (cbn [length] in L; lia).
      destruct (IH n' _ (out ++ [Data m]) S' Gl Lc) as (n2 & bs & cos & Run & St & Lb & Fb & As & Ix & (c0 & r0 & Ec & _ & _) & (pre & last & El & Fp & Fl) & Cl).
      fold asked. exists n2, (m :: bs), (Co ((n_idx n mod 256) mod 32) (if n_idx n =? 0 then Some (k_arfcn (n_key n), k_bsic (n_key n)) else None) (b2z (n_psi n)) 31 (firstn (Z.to_nat (room n)) rest) :: cos).
      split; [unfold asked in Run; rewrite Run; rewrite <- app_assoc; reflexivity|]. split; [exact St|].
      split; [cbn [length]; now rewrite Lb|]. split; [now constructor|]. split; [cbn [map all_some]; rewrite Rd, As; reflexivity|].
      split. { cbn [map co_idx length seq]. rewrite Z.add_0_r. f_equal. rewrite Ix. rewrite <- seq_shift, map_map. apply map_ext. intro k. rewrite Ei. do 2 f_equal. lia. }
      split; [eexists; eexists; split; [reflexivity|split; reflexivity]|].
      split. { eexists (_ :: pre), last. rewrite El. split; [reflexivity|]. split; [constructor; [reflexivity|exact Fp]|exact Fl]. }
      intro B. cbn [collect co_idx co_kind]. rewrite (Z.mod_small (n_idx n) 256), (Z.mod_small (n_idx n) 32) by (pose proof (Nat2Z.is_nonneg (length cs)); lia).
      rewrite !Z.eqb_refl. cbn [andb negb]. change (full _) with true. cbv beta iota. cbn [co_room].
      rewrite <- Ei, <- Ep. rewrite Cl by lia. cbn [option_map]. f_equal. apply firstn_skipn.
    + destruct (HL Q) as (Rd & St). clear HF HL.
      assert (N1 : needed n rest = 1) by (unfold needed; rewrite (proj2 (Z.ltb_lt _ _)) by exact Q; reflexivity).
      assert (cs = []) by (destruct cs; [reflexivity|cbn [length] in L; lia]). subst cs.
      exists (chg_cont n'), [m], [Co ((n_idx n mod 256) mod 32) (if n_idx n =? 0 then Some (k_arfcn (n_key n), k_bsic (n_key n)) else None) (b2z (n_psi n)) (Z.of_nat (length rest)) (pad_to (Z.to_nat (room n)) rest)].
      split; [reflexivity|]. split; [unfold chg_cont; rewrite St; reflexivity|]. split; [reflexivity|]. split; [now constructor|].
      split; [cbn [map all_some]; rewrite Rd; reflexivity|]. split; [cbn; now rewrite Z.add_0_r|].
      split; [eexists; eexists; split; [reflexivity|split; reflexivity]|].
      assert (Fl : (Z.of_nat (length rest) =? 31) = false) by (apply Z.eqb_neq; lia).
      split. { eexists [], _. split; [reflexivity|]. split; [constructor|]. unfold full. cbn [co_len]. exact Fl. }
      intro B. cbn [collect co_idx co_kind]. rewrite (Z.mod_small (n_idx n) 256), (Z.mod_small (n_idx n) 32) by lia.
      rewrite !Z.eqb_refl. cbn [andb negb]. unfold full. cbn [co_len co_room]. rewrite Fl. f_equal. rewrite Nat2Z.id. unfold pad_to.
      rewrite firstn_app, firstn_all, Nat.sub_diag. cbn [firstn]. apply app_nil_r.
Qed.

(** A transfer just begun. *)
Definition begun (n : nacc) (psi : bool) (si : list Z) : Prop :=
  n_st n = TX_DATA /\ n_sent n = 0 /\ n_idx n = 0 /\ n_psi n = psi /\ n_si n = si.
Lemma begun_sending n psi si : begun n psi si -> good_key (n_key n) -> Forall octet si -> Z.of_nat (length si) < 2 ^ 64 -> sending n si.
Proof. intros (A & B & C & D & E) K O L. constructor; auto; rewrite ?E, ?B, ?C; auto; lia. Qed.
Lemma begun_needed n psi si : begun n psi si -> needed n si = containers (Z.of_nat (length si)).
Proof. intros (A & B & C & D & E). unfold needed, containers, room. rewrite C. reflexivity. Qed.
Lemma chg_data_begun n psi l : n_st n = WAIT_SI -> begun (chg_data (set_si psi l n)) psi l.
Proof. intro H. unfold chg_data. cbn [set_si n_st]. rewrite H. cbn. repeat split. Qed.

Theorem transfer : forall n psi si cs, begun n psi si -> good_key (n_key n) -> Forall (fun x => 0 <= x < 256) si ->
  containers (Z.of_nat (length si)) <= 32 -> Forall (fun p => good_create (snd p)) cs ->
  Z.of_nat (length cs) = containers (Z.of_nat (length si)) ->
  exists n' bs, n_run (Some n) [] (map (fun p => (fst p, MRts (snd p))) cs) = Some (Some n', map Data bs) /\ n_st n' = TX_CONT /\
    Forall (fun b => length b = 184%nat) bs /\
    mobile_collects bs = Some (k_arfcn (n_key n), k_bsic (n_key n), if psi then 1 else 0, si).
Proof.
  intros n psi si cs B K O C G L.
  assert (Ln : Z.of_nat (length si) < 2 ^ 64).
  { unfold containers in C. destruct (Z.ltb_spec (Z.of_nat (length si)) 16); [lia|]. Z.div_mod_to_equations; lia. }
  pose proof (begun_sending _ _ _ B K O Ln) as S. pose proof (begun_needed _ _ _ B) as Nd.
  destruct (send_all cs n si [] S G) as (n' & bs & cos & Run & St & Lb & Fb & As & Ix & (c0 & r0 & Ec & Cc & Kc) & _ & Cl); [congruence|].
  destruct B as (B1 & B2 & B3 & B4 & B5). exists n', bs. split; [exact Run|]. split; [exact St|]. split; [exact Fb|].
  unfold mobile_collects. rewrite As. rewrite B3 in *. rewrite Ec. cbn [reassemble]. rewrite Cc. cbn [Z.eqb].
  rewrite <- Ec, Kc, Cl by lia. cbn [option_map]. rewrite B4. reflexivity.
Qed.

Theorem terminates : forall n psi si cs, begun n psi si -> good_key (n_key n) -> Forall (fun x => 0 <= x < 256) si ->
  Z.of_nat (length si) < 2 ^ 64 -> Forall (fun p => good_create (snd p)) cs ->
  Z.of_nat (length cs) = containers (Z.of_nat (length si)) ->
  exists n' bs pre last, n_run (Some n) [] (map (fun p => (fst p, MRts (snd p))) cs) = Some (Some n', map Data bs) /\ n_st n' = TX_CONT /\
    all_some (map r_container bs) = Some (pre ++ [last]) /\ Forall (fun c => full c = true) pre /\ full last = false.
Proof.
  intros n psi si cs B K O Ln G L. pose proof (begun_sending _ _ _ B K O Ln) as S. pose proof (begun_needed _ _ _ B) as Nd.
  destruct (send_all cs n si [] S G) as (n' & bs & cos & Run & St & Lb & Fb & As & Ix & _ & (pre & last & El & Fp & Fl) & _); [congruence|].
  exists n', bs, pre, last. rewrite <- El. auto.
Qed.

(** Longer system information: the index starts again at 0. *)
Theorem index_repeats : forall n psi si cs, begun n psi si -> good_key (n_key n) -> Forall (fun x => 0 <= x < 256) si ->
  Z.of_nat (length si) < 2 ^ 64 -> Forall (fun p => good_create (snd p)) cs -> 32 < Z.of_nat (length cs) ->
  Z.of_nat (length cs) = containers (Z.of_nat (length si)) ->
  exists n' bs cos, n_run (Some n) [] (map (fun p => (fst p, MRts (snd p))) cs) = Some (Some n', map Data bs) /\
    all_some (map r_container bs) = Some cos /\ nth 0 (map co_idx cos) (-1) = 0 /\ nth 32 (map co_idx cos) (-1) = 0.
Proof.
  intros n psi si cs B K O Ln G H32 L. pose proof (begun_sending _ _ _ B K O Ln) as S. pose proof (begun_needed _ _ _ B) as Nd.
  destruct (send_all cs n si [] S G) as (n' & bs & cos & Run & St & Lb & Fb & As & Ix & _); [congruence|].
  destruct B as (B1 & B2 & B3 & B4 & B5). exists n', bs, cos. split; [exact Run|]. split; [exact As|]. rewrite Ix, B3.
  set (f := fun k : nat => ((0 + Z.of_nat k) mod 256) mod 32).
  split.
  - rewrite (nth_indep _ (-1) (f 0%nat)) by (rewrite map_length, seq_length; lia). rewrite map_nth, seq_nth by lia. reflexivity.
  - rewrite (nth_indep _ (-1) (f 0%nat)) by (rewrite map_length, seq_length; lia). rewrite map_nth, seq_nth by lia. reflexivity.
Qed.

(** The Continue message. *)
Lemma read_continue : forall rrbp c n, 0 <= rrbp < 4 -> 0 <= cr_tfi c < 32 -> (n_present n = true -> good_key (n_key n)) ->
  r_continue (create_continue rrbp c n) =
    Some (Some rrbp, cr_dl c, cr_tfi c, if n_present n then Some (k_arfcn (n_key n), k_bsic (n_key n)) else None).
Proof.
  intros rrbp c n A T K. unfold create_continue, r_continue. rewrite read_head by lia. cbv beta iota. change (1 =? 1) with true. cbv beta iota.
  destruct (n_present n).
  - destruct (K eq_refl) as [Ka Kb]. rewrite uint_exact by (cbn; lia). cbv beta iota.
    rewrite uint_exact by (cbn; lia). rewrite uint_exact by (cbn; lia). reflexivity.
  - rewrite <- (app_nil_r (fldb 1 0)). rewrite uint_exact by (cbn; lia). reflexivity.
Qed.
