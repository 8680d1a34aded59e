(** Parsing uplink data blocks. *)
From Coq Require Import ZArith List Bool Lia Sorted.
From Verif Require Import Base.Arith Model.Segment Model.UlParse Spec.SegSpec Spec.UlParseSpec.
Import ListNotations.
Local Open Scope Z_scope.

Lemma num_app {A} (a b : list A) : num (a ++ b) = num a + num b.
Proof. unfold num. rewrite app_length. lia. Qed.
Lemma num_cons {A} (a : A) b : num (a :: b) = 1 + num b.
Proof. unfold num. cbn [length]. lia. Qed.
Lemma num_nil {A} : num (@nil A) = 0.
Proof. reflexivity. Qed.
Lemma num_pos {A} (a : list A) : 0 <= num a.
Proof. unfold num. lia. Qed.

Definition xoob (x : xres) : option Z := match x with XOob i => Some i | _ => None end.

(** ** Only [n + 1] octets are read when there is room for [n] chunks *)
Lemma ext_e_few n : forall rest k dlen offs last acc, num acc <= n -> n - num acc < Z.of_nat k ->
  (k <= length rest)%nat ->
  ext_egprs (firstn k rest) dlen offs last (Some n) acc = ext_egprs rest dlen offs last (Some n) acc /\
  xoob (ext_egprs rest dlen offs last (Some n) acc) = None.
Proof.
  induction rest as [|x rest IH]; intros k dlen offs last acc A B C.
  - cbn [length] in C. lia.
  - destruct k as [|k]; [lia|]. cbn [firstn ext_egprs length] in *.
    destruct (offs >? dlen); [split; reflexivity|].
    destruct (num acc =? n) eqn:E; [split; reflexivity|]. apply Z.eqb_neq in E.
    assert (R : forall c, ext_egprs (firstn k rest) dlen (offs + 1) last (Some n) (acc ++ [c])
                 = ext_egprs rest dlen (offs + 1) last (Some n) (acc ++ [c]) /\
                 xoob (ext_egprs rest dlen (offs + 1) last (Some n) (acc ++ [c])) = None).
    { intros c. apply IH; [rewrite num_app, num_cons, num_nil; lia| |lia]. rewrite num_app, num_cons, num_nil; lia. }
    repeat match goal with |- context [if ?b then _ else _] => destruct b end; try (split; reflexivity); apply R.
Qed.
Lemma ext_g_few n : forall rest k dlen offs last acc, num acc <= n -> n - num acc < Z.of_nat k ->
  (k <= length rest)%nat ->
  ext_gprs (firstn k rest) dlen offs last (Some n) acc = ext_gprs rest dlen offs last (Some n) acc /\
  xoob (ext_gprs rest dlen offs last (Some n) acc) = None.
Proof.
  induction rest as [|x rest IH]; intros k dlen offs last acc A B C.
  - cbn [length] in C. lia.
  - destruct k as [|k]; [lia|]. cbn [firstn ext_gprs length] in *.
    destruct (offs >? dlen); [split; reflexivity|].
    destruct (negb _ && negb _); [split; reflexivity|].
    destruct (num acc =? n) eqn:E; [split; reflexivity|]. apply Z.eqb_neq in E.
    match goal with |- context [acc ++ [?c]] => 
    assert (R : ext_gprs (firstn k rest) dlen (offs + 1) last (Some n) (acc ++ [c])
                 = ext_gprs rest dlen (offs + 1) last (Some n) (acc ++ [c]) /\
                 xoob (ext_gprs rest dlen (offs + 1) last (Some n) (acc ++ [c])) = None);
      [apply IH; [rewrite num_app, num_cons, num_nil; lia| |lia]; rewrite num_app, num_cons, num_nil; lia|] end.
    revert R. generalize ((x / 4) mod 64 =? 0) ((x / 2) mod 2 =? 1) (x mod 2 =? 1). intros z m e R.
    repeat match goal with |- context [if ?b then _ else _] => lazymatch b with z => fail | _ => destruct b end end; try (split; reflexivity); apply R.
Qed.

(** ** What the length indicators yield *)
(** All chunks but a last one to the end have a length from the block. *)
Definition lens (l : list chunk) : Prop := Forall (fun c => 0 <= c_len c < 128 /\ c_done c = true) l.
Definition xgood (last : bool) (l : list chunk) : Prop :=
  lens l \/ exists a, l = a ++ [mk_chunk 0 LENGTH_TO_END last] /\ lens a.

Lemma lens_snoc a c : lens a -> 0 <= c_len c < 128 -> c_done c = true -> lens (a ++ [c]).
Proof. intros A B D. apply Forall_app. split; [exact A|]. repeat constructor; auto; lia. Qed.

Lemma ext_e_good n last : forall rest dlen offs acc l o, lens acc -> num acc <= n ->
  ext_egprs rest dlen offs last (Some n) acc = XOk l o ->
  xgood last l /\ num l <= n /\ offs < o <= dlen + 1 /\ o <= offs + num rest.
Proof.
  induction rest as [|x rest IH]; intros dlen offs acc l o A N E; cbn [ext_egprs] in E; destruct (offs >? dlen) eqn:O; try discriminate.
  rewrite Z.gtb_ltb in O. apply Z.ltb_ge in O. pose proof (num_pos rest) as NP. rewrite num_cons.
  destruct (num acc =? n) eqn:E1; [discriminate|]. apply Z.eqb_neq in E1.
  pose proof (Z.mod_pos_bound (x / 2) 128 ltac:(lia)) as LI. set (li := (x / 2) mod 128) in *. clearbody li.
  assert (NX : forall c, 0 <= c_len c < 128 -> c_done c = true ->
    (if x mod 2 =? 1 then (if num (acc ++ [c]) =? n then XErr ENOSPC else XOk ((acc ++ [c]) ++ [mk_chunk 0 LENGTH_TO_END last]) (offs + 1))
     else ext_egprs rest dlen (offs + 1) last (Some n) (acc ++ [c])) = XOk l o ->
    xgood last l /\ num l <= n /\ offs < o <= dlen + 1 /\ o <= offs + (1 + num rest)).
  { intros c B1 B2 B3. assert (NA : num (acc ++ [c]) = num acc + 1) by (rewrite num_app; reflexivity).
    destruct (x mod 2 =? 1).
    - destruct (num (acc ++ [c]) =? n) eqn:E2; [discriminate|]. apply Z.eqb_neq in E2. injection B3 as <- <-. splits; try lia.
      + right. exists (acc ++ [c]). split; [reflexivity|]. apply lens_snoc; auto.
      + rewrite num_app, num_cons, num_nil. lia.
    - apply IH in B3; [|apply lens_snoc; auto|lia]. destruct B3 as (? & ? & ? & ?). splits; auto; lia. }
  destruct ((li =? 0) && (num acc =? 0)).
  { apply (NX (mk_chunk 0 0 true)); cbn [c_len c_done]; auto; lia. }
  destruct ((li =? 127) && (x mod 2 =? 1)).
  { injection E as <- <-. splits; try lia. left. exact A. }
  destruct (0 <? li); [|discriminate].
  apply (NX (mk_chunk 0 li true)); cbn [c_len c_done]; auto; lia.
Qed.
Lemma ext_g_good n last : 0 <= n -> forall rest dlen offs acc l o, lens acc -> num acc <= n ->
  ext_gprs rest dlen offs last (Some n) acc = XOk l o ->
  xgood last l /\ num l <= n /\ offs < o <= dlen + 1 /\ o <= offs + num rest.
Proof.
  intros N0. induction rest as [|x rest IH]; intros dlen offs acc l o A N E; cbn [ext_gprs] in E; destruct (offs >? dlen) eqn:O; try discriminate.
  rewrite Z.gtb_ltb in O. apply Z.ltb_ge in O. pose proof (num_pos rest) as NP. rewrite num_cons.
  pose proof (Z.mod_pos_bound (x / 4) 64 ltac:(lia)) as LI. set (li := (x / 4) mod 64) in *. clearbody li.
  destruct (negb _ && negb _).
  { injection E as <- <-. splits; try lia; [left; constructor|rewrite num_nil; lia]. }
  destruct (num acc =? n) eqn:E1; [discriminate|]. apply Z.eqb_neq in E1.
  destruct (li =? 0) eqn:Z0.
  - cbn [negb orb andb] in E. injection E as <- <-. splits; try lia.
    + right. exists acc. auto.
    + rewrite num_app, num_cons, num_nil. lia.
  - apply Z.eqb_neq in Z0. cbn [negb orb andb] in E. set (c := mk_chunk 0 li true) in *.
    assert (NA : num (acc ++ [c]) = num acc + 1) by (rewrite num_app; reflexivity).
    assert (LA : lens (acc ++ [c])) by (apply lens_snoc; unfold c; cbn [c_len c_done]; auto; lia).
    destruct (x mod 2 =? 1); cbn [andb] in E.
    + destruct ((x / 2) mod 2 =? 1).
      * destruct (num (acc ++ [c]) =? n) eqn:E2; [discriminate|]. apply Z.eqb_neq in E2. injection E as <- <-. splits; try lia.
        -- right. exists (acc ++ [c]). auto.
        -- rewrite num_app, num_cons, num_nil. lia.
      * injection E as <- <-. splits; try lia. left. exact LA.
    + apply IH in E; [|exact LA|lia]. destruct E as (? & ? & ? & ?). splits; auto; lia.
Qed.

(** ** Placing the chunks *)
(** The chunks lie one after the other from [o] on. *)
Fixpoint tiles (o dlen : Z) (l : list chunk) : Prop :=
  match l with
  | [] => o <= dlen
  | c :: r => c_off c = o /\ 0 <= c_len c /\ tiles (o + c_len c) dlen r
  end.
Lemma tiles_le l : forall o dlen, tiles o dlen l -> o <= dlen.
Proof. induction l as [|c l IH]; intros o dlen T; cbn [tiles] in T; [exact T|]. destruct T as (A & B & C). apply IH in C. lia. Qed.
Lemma tiles_placed l : forall o dlen, 0 <= o -> tiles o dlen l -> well_placed dlen l /\ Forall (fun c => o <= c_off c) l.
Proof.
  induction l as [|c l IH]; intros o dlen O T; cbn [tiles] in T.
  - split; [split|]; constructor.
  - destruct T as (A & B & C). destruct (IH (o + c_len c) dlen ltac:(lia) C) as [[I1 I2] I3]. pose proof (tiles_le _ _ _ C) as LE.
    split; [split|].
    + constructor; [|exact I1]. unfold inside. lia.
    + constructor; [exact I2|]. eapply Forall_impl; [|exact I3]. cbv beta. intros a X. unfold before. lia.
    + constructor; [lia|]. eapply Forall_impl; [|exact I3]. cbv beta. intros a X. lia.
Qed.

Lemma firstn_In_local {A} n (l : list A) y : In y (firstn n l) -> In y l.
Proof. intros I. rewrite <- (firstn_skipn n l). apply in_app_iff. left. exact I. Qed.
Lemma skipn_plus {A} a : forall b (l : list A), skipn (a + b) l = skipn a (skipn b l).
Proof.
  intros b. revert a. induction b as [|b IH]; intros a l; [rewrite Nat.add_0_r; reflexivity|].
  replace (a + S b)%nat with (S (a + b)) by lia. destruct l as [|x l]; [rewrite !skipn_nil; reflexivity|]. cbn [skipn]. apply IH.
Qed.

Fixpoint eat (l : list chunk) (d : list Z) (r : rx) : rx :=
  match l with
  | [] => r
  | c :: l' =>
    if c_len c =? LENGTH_TO_END then
      match d with [] => r | _ => let r1 := more r d in if c_done c then finish r1 else r1 end
    else
      let n := Z.to_nat (c_len c) in
      let r1 := more r (firstn n d) in
      eat l' (skipn n d) (if c_done c then finish r1 else r1)
  end.

Lemma xgood_cons last c l : xgood last (c :: l) ->
  c = mk_chunk 0 LENGTH_TO_END last /\ l = [] \/ 0 <= c_len c < 128 /\ c_done c = true /\ xgood last l.
Proof.
  intros [A|(a & E & A)].
  - inversion A as [|? ? [L D] F]; subst. right. split; [exact L|]. split; [exact D|]. left. exact F.
  - destruct a as [|x a]; cbn [app] in E; injection E as <- ->; [left; auto|].
    inversion A as [|? ? [L D] F]; subst. right. split; [exact L|]. split; [exact D|]. right. exists a. auto.
Qed.

Lemma place_ok last block : num block <= 255 -> forall l offs acc l', xgood last l -> 0 <= offs <= num block ->
  place l offs (num block) acc = inr l' ->
  exists new, l' = acc ++ new /\ tiles offs (num block) new /\ num new <= num l /\
    Forall (fun c => c_len c = LENGTH_TO_END \/ c_len c <= num block - offs) l /\
    forall r, take_chunks block new r = eat l (skipn (Z.to_nat offs) block) r.
Proof.
  intros LB. induction l as [|c l IH]; intros offs acc l' G O P; cbn [place] in P.
  - injection P as <-. exists []. cbn [tiles take_chunks eat]. rewrite app_nil_r, !num_nil. splits; auto; lia.
  - assert (LSK : length (skipn (Z.to_nat offs) block) = Z.to_nat (num block - offs)).
    { rewrite skipn_length. unfold num. lia. }
    destruct (xgood_cons _ _ _ G) as [[-> ->]|(C1 & C2 & G')]; cbn [c_len c_done] in P.
    + change (LENGTH_TO_END =? LENGTH_TO_END) with true in P. cbn [andb] in P. cbv iota in P.
      destruct (offs =? num block) eqn:E.
      * apply Z.eqb_eq in E. injection P as <-. exists [].
        rewrite app_length. cbn [length]. replace (length acc + 1 - 1)%nat with (length acc) by lia.
        rewrite firstn_app, firstn_all, Nat.sub_diag, firstn_O. split; [rewrite app_nil_r; reflexivity|]. split; [cbn [tiles]; lia|]. split; [rewrite num_cons, !num_nil; lia|]. split; [constructor; [left; reflexivity|constructor]|].
        intros r. cbn [take_chunks eat c_len]. change (LENGTH_TO_END =? LENGTH_TO_END) with true. cbv iota.
        destruct (skipn (Z.to_nat offs) block); [reflexivity|cbn [length] in LSK; lia].
      * apply Z.eqb_neq in E. cbn [place] in P. rewrite (Z.mod_small (num block - offs)) in P by lia. rewrite (Z.mod_small offs) in P by lia.
        destruct (_ >? _) eqn:GT; [discriminate|]. injection P as <-. eexists. split; [reflexivity|].
        cbn [tiles c_off c_len]. split; [splits; lia|]. split; [rewrite !num_cons, num_nil; lia|]. split; [constructor; [left; reflexivity|constructor]|].
        intros r. cbn [take_chunks eat c_len c_done c_off]. change (LENGTH_TO_END =? LENGTH_TO_END) with true. cbv iota zeta.
        unfold slice. rewrite firstn_all2 by lia. destruct (skipn (Z.to_nat offs) block) eqn:SK; [cbn [length] in LSK; lia|]. reflexivity.
    + assert (NE : (c_len c =? LENGTH_TO_END) = false) by (apply Z.eqb_neq; unfold LENGTH_TO_END; lia).
      rewrite NE in P. cbn [andb] in P. cbv iota zeta in P. rewrite (Z.mod_small (c_len c)) in P by lia. rewrite (Z.mod_small offs) in P by lia.
      destruct (_ >? _) eqn:GT; [discriminate|]. rewrite Z.gtb_ltb in GT. apply Z.ltb_ge in GT.
      apply IH in P; [|exact G'|lia]. destruct P as (new & -> & T & N & FL & TK).
      exists (mk_chunk offs (c_len c) (c_done c) :: new). rewrite <- app_assoc. cbn [app tiles c_off c_len].
      splits; auto; [lia|rewrite !num_cons; lia|constructor; [right; lia|eapply Forall_impl; [|exact FL]; cbv beta; intros a [Q|Q]; [left; exact Q|right; lia]]|].
      intros r. cbn [take_chunks eat c_off c_len c_done]. rewrite NE. cbv iota zeta. rewrite TK. unfold slice.
      replace (Z.to_nat (offs + c_len c)) with (Z.to_nat (c_len c) + Z.to_nat offs)%nat by lia.
      rewrite skipn_plus. reflexivity.
Qed.

(** ** The whole parser with room for 16 chunks *)
Lemma octet_firstn mem k i : (Z.to_nat i < k)%nat -> octet (firstn k mem) i = octet mem i.
Proof.
  intros L. unfold octet. revert k mem L. generalize (Z.to_nat i). clear i. intros n. induction n as [|n IH]; intros k mem L.
  - destruct k; [lia|]. destruct mem; reflexivity.
  - destruct k; [lia|]. destruct mem; [reflexivity|]. cbn [firstn nth_error]. apply IH. lia.
Qed.
Lemma tlli_firstn edge mem dlen offs : 0 <= offs -> offs + 4 <= dlen ->
  read_tlli edge (firstn (Z.to_nat dlen) mem) offs = read_tlli edge mem offs.
Proof. intros A B. unfold read_tlli. rewrite !octet_firstn by lia. reflexivity. Qed.
Lemma octet_some mem i : 0 <= i < num mem -> exists x, octet mem i = Some x.
Proof. intros A. unfold octet. destruct (nth_error mem (Z.to_nat i)) eqn:E; [eauto|]. apply nth_error_None in E. unfold num in A. lia. Qed.
Lemma tlli_some edge mem offs : 0 <= offs -> offs + 4 <= num mem -> exists t, read_tlli edge mem offs = Some t.
Proof.
  intros A B. unfold read_tlli.
  destruct (octet_some mem offs ltac:(lia)) as [a ->]. destruct (octet_some mem (offs + 1) ltac:(lia)) as [b ->].
  destruct (octet_some mem (offs + 2) ltac:(lia)) as [c ->]. destruct (octet_some mem (offs + 3) ltac:(lia)) as [d ->]. eauto.
Qed.

Definition ext_of (edge : bool) (r : rdbi) (mem : list Z) : xres :=
  if d_e r then XOk [mk_chunk 0 LENGTH_TO_END (d_cv r =? 0)] 0
  else (if edge then ext_egprs else ext_gprs) mem (d_len r) 0 (d_cv r =? 0) (Some 16) [].
Lemma ext_block edge r mem : block_ok r mem ->
  ext_of edge r (the_block r mem) = ext_of edge r mem /\ xoob (ext_of edge r mem) = None.
Proof.
  intros (A & B & C). unfold ext_of, the_block. destruct (d_e r); [split; reflexivity|].
  unfold num in B. destruct edge; [apply ext_e_few|apply ext_g_few]; change (@num chunk []) with 0; lia.
Qed.
Lemma ext_good edge r mem l o : block_ok r mem -> ext_of edge r mem = XOk l o ->
  xgood (d_cv r =? 0) l /\ num l <= 16 /\ 0 <= o <= d_len r.
Proof.
  intros OK E. pose proof (ext_block edge r mem OK) as [F _]. rewrite <- F in E.
  assert (NB : num (the_block r mem) = d_len r). { destruct OK as (A & B & _). unfold the_block, num in *. rewrite firstn_length. lia. }
  unfold ext_of in E. destruct (d_e r).
  - injection E as <- <-. destruct OK as (A & _). splits; try lia; [|unfold num; cbn [length]; lia]. right. exists []. split; [reflexivity|constructor].
  - assert (L0 : lens []) by constructor. assert (N0 : @num chunk [] <= 16) by (unfold num; cbn; lia).
    destruct edge; [apply (ext_e_good 16 _ _ _ _ _ _ _ L0 N0) in E|apply (ext_g_good 16 _ ltac:(lia) _ _ _ _ _ _ L0 N0) in E];
    destruct E as (E1 & E2 & E3 & E4); splits; auto; lia.
Qed.

Definition after16 (edge : bool) (r : rdbi) (mem : list Z) (x : xres) : pres :=
  match x with
  | XOob i => POob i
  | XErr e => PErr e
  | XOk l offs =>
    let after (offs tlli : Z) :=
      if d_pi r then PErr ENOTSUP
      else match place l offs (d_len r) [] with inl e => PErr e | inr l' => POk l' tlli end in
    if d_ti r then
      if offs + 4 >? d_len r then PErr EINVAL
      else match read_tlli edge mem offs with None => POob (offs + 3) | Some t => after (offs + 4) t end
    else after offs 0
  end.
Lemma from16 edge r mem : from_ul_data edge r mem (Some 16) = after16 edge r mem (ext_of edge r mem).
Proof. unfold from_ul_data, ext_of, after16. destruct (d_e r); reflexivity. Qed.

Lemma block_only edge r mem : block_ok r mem ->
  from_ul_data edge r mem (Some 16) = from_ul_data edge r (the_block r mem) (Some 16) /\
  forall i, from_ul_data edge r mem (Some 16) <> POob i.
Proof.
  intros OK. rewrite !from16. destruct (ext_block edge r mem OK) as [E1 E2]. rewrite E1.
  pose proof (ext_good edge r mem) as G.
  destruct (ext_of edge r mem) as [i|e|l o]; [discriminate|split; [reflexivity|discriminate]|].
  destruct (G l o OK eq_refl) as (_ & _ & O). unfold after16. destruct OK as (A & B & _).
  destruct (d_ti r).
  - destruct (o + 4 >? d_len r) eqn:T; [split; [reflexivity|discriminate]|]. rewrite Z.gtb_ltb in T. apply Z.ltb_ge in T.
    unfold the_block. rewrite tlli_firstn by lia. destruct (tlli_some edge mem o) as [t ->]; [lia|lia|].
    split; [reflexivity|]. destruct (d_pi r); [discriminate|]. destruct (place _ _ _ _); discriminate.
  - split; [reflexivity|]. destruct (d_pi r); [discriminate|]. destruct (place _ _ _ _); discriminate.
Qed.

(** *** What an accepted block yields *)
Lemma accepted edge r mem l t : block_ok r mem -> from_ul_data edge r mem (Some 16) = POk l t ->
  exists x o, ext_of edge r (the_block r mem) = XOk x o /\ xgood (d_cv r =? 0) x /\ num x <= 16 /\ num l <= num x /\
    0 <= o /\ o + Z.of_nat (tlli_len r) <= d_len r /\
    tiles (o + Z.of_nat (tlli_len r)) (d_len r) l /\ (d_ti r = true -> read_tlli edge (the_block r mem) o = Some t) /\
    (d_ti r = false -> t = 0) /\
    Forall (fun c => c_len c = LENGTH_TO_END \/ c_len c <= d_len r - o) x /\
    forall rx0, take_chunks (the_block r mem) l rx0 = eat x (skipn (Z.to_nat o + tlli_len r) (the_block r mem)) rx0.
Proof.
  intros OK E. destruct (block_only edge r mem OK) as [F _]. rewrite F in E. clear F. rewrite from16 in E.
  destruct (ext_block edge r mem OK) as [F _].
  destruct (ext_of edge r (the_block r mem)) as [i|e|x o] eqn:X; [discriminate|discriminate|].
  exists x, o. destruct (ext_good edge r mem x o OK) as (G1 & G2 & G3); [congruence|].
  assert (NB : num (the_block r mem) = d_len r). { destruct OK as (A & B & _). unfold the_block, num in *. rewrite firstn_length. lia. }
  assert (L255 : num (the_block r mem) <= 255) by (destruct OK; lia).
  unfold after16 in E. unfold tlli_len. split; [reflexivity|].
  destruct (d_ti r).
  - destruct (o + 4 >? d_len r) eqn:T; [discriminate|]. rewrite Z.gtb_ltb in T. apply Z.ltb_ge in T.
    destruct (read_tlli edge (the_block r mem) o) as [t'|] eqn:RT; [|discriminate].
    destruct (d_pi r); [discriminate|]. rewrite <- NB in E.
    destruct (place x (o + 4) (num (the_block r mem)) []) as [e|l'] eqn:P; [discriminate|]. injection E as -> ->.
    apply (place_ok _ _ L255 x _ _ _ G1) in P; [|lia]. destruct P as (new & -> & T1 & T2 & T4 & T3). cbn [app] in *.
    rewrite NB in *. splits; auto; try lia; try discriminate.
    { eapply Forall_impl; [|exact T4]. cbv beta. intros a [Q|Q]; [left; exact Q|right; lia]. }
    intros rx0. rewrite T3. f_equal. f_equal. lia.
  - destruct (d_pi r); [discriminate|]. rewrite <- NB in E.
    destruct (place x o (num (the_block r mem)) []) as [e|l'] eqn:P; [discriminate|]. injection E as -> <-.
    apply (place_ok _ _ L255 x _ _ _ G1) in P; [|lia]. destruct P as (new & -> & T1 & T2 & T4 & T3). cbn [app] in *.
    rewrite NB in *. change (Z.of_nat 0) with 0. rewrite Z.add_0_r, Nat.add_0_r. splits; auto; try lia; try discriminate.
Qed.

Lemma placed edge r mem l t : block_ok r mem -> from_ul_data edge r mem (Some 16) = POk l t ->
  well_placed (d_len r) l /\ num l <= 16.
Proof.
  intros OK E. destruct (accepted edge r mem l t OK E) as (x & o & X1 & X2 & X3 & X4 & X5 & X6 & X7 & _).
  split; [|lia]. apply tiles_placed in X7; [apply X7|lia].
Qed.


(** ** Looking only for the TLLI (no chunks wanted) *)
Definition null_post (dlen : Z) (a b : xres) : Prop :=
  a = XOob dlen /\ (b = XErr EINVAL \/ b = XOk [] (dlen + 1)) \/
  a = b /\ exists o, a = XOk [] o /\ 0 <= o <= dlen.
Lemma null_e last dlen : forall rest offs, 0 <= offs <= dlen -> dlen - offs < num rest ->
  null_post dlen (ext_egprs (firstn (Z.to_nat (dlen - offs)) rest) dlen offs last None [])
    (ext_egprs rest dlen offs last None []).
Proof.
  induction rest as [|x rest IH]; intros offs O L; [rewrite num_nil in L; lia|]. rewrite num_cons in L.
  assert (G : (offs >? dlen) = false) by (rewrite Z.gtb_ltb; apply Z.ltb_ge; lia).
  destruct (Z.eq_dec offs dlen) as [->|NE].
  - rewrite Z.sub_diag. cbn [Z.to_nat firstn ext_egprs]. rewrite G. left. split; [reflexivity|].
    destruct (x mod 2 =? 1); [right; reflexivity|]. left.
    destruct rest; cbn [ext_egprs]; replace (dlen + 1 >? dlen) with true by (symmetry; rewrite Z.gtb_ltb; apply Z.ltb_lt; lia); reflexivity.
  - replace (Z.to_nat (dlen - offs)) with (S (Z.to_nat (dlen - (offs + 1)))) by lia. cbn [firstn ext_egprs]. rewrite G.
    destruct (x mod 2 =? 1).
    + right. split; [reflexivity|]. exists (offs + 1). split; [reflexivity|lia].
    + apply IH; lia.
Qed.
Lemma null_g last dlen : forall rest offs, 0 <= offs <= dlen -> dlen - offs < num rest ->
  null_post dlen (ext_gprs (firstn (Z.to_nat (dlen - offs)) rest) dlen offs last None [])
    (ext_gprs rest dlen offs last None []).
Proof.
  induction rest as [|x rest IH]; intros offs O L; [rewrite num_nil in L; lia|]. rewrite num_cons in L.
  assert (G : (offs >? dlen) = false) by (rewrite Z.gtb_ltb; apply Z.ltb_ge; lia).
  destruct (Z.eq_dec offs dlen) as [->|NE].
  - rewrite Z.sub_diag. cbn [Z.to_nat firstn ext_gprs]. rewrite G. left. split; [reflexivity|].
    destruct (negb _ && negb _); [right; reflexivity|].
    destruct (_ || _); [right; reflexivity|]. left.
    destruct rest; cbn [ext_gprs]; replace (dlen + 1 >? dlen) with true by (symmetry; rewrite Z.gtb_ltb; apply Z.ltb_lt; lia); reflexivity.
  - replace (Z.to_nat (dlen - offs)) with (S (Z.to_nat (dlen - (offs + 1)))) by lia. cbn [firstn ext_gprs]. rewrite G.
    destruct (negb _ && negb _).
    { right. split; [reflexivity|]. exists (offs + 1). split; [reflexivity|lia]. }
    destruct (_ || _).
    + right. split; [reflexivity|]. exists (offs + 1). split; [reflexivity|lia].
    + apply IH; lia.
Qed.

Lemma tlli_only edge r mem : 0 <= d_len r < num mem -> d_ti r = true ->
  from_ul_data edge r mem None =
    match from_ul_data edge r (the_block r mem) None with
    | POob i => PErr EINVAL
    | x => x
    end /\
  forall i, from_ul_data edge r (the_block r mem) None = POob i -> i = d_len r.
Proof.
  intros L TI. unfold from_ul_data. rewrite TI.
  set (x := if d_e r then XOk [] 0 else (if edge then ext_egprs else ext_gprs) mem (d_len r) 0 (d_cv r =? 0) None []).
  set (y := if d_e r then XOk [] 0 else (if edge then ext_egprs else ext_gprs) (the_block r mem) (d_len r) 0 (d_cv r =? 0) None []).
  assert (P : null_post (d_len r) y x).
  { subst x y. destruct (d_e r); [right; split; [reflexivity|exists 0; split; [reflexivity|lia]]|].
    unfold the_block. rewrite <- (Z.sub_0_r (d_len r)) at 2. destruct edge; [apply null_e|apply null_g]; lia. }
  clearbody x y.
  destruct P as [[-> [-> | ->]]|[-> (o & -> & O)]].
  - split; [reflexivity|]. intros i E. injection E as <-. reflexivity.
  - replace (d_len r + 1 + 4 >? d_len r) with true by (symmetry; rewrite Z.gtb_ltb; apply Z.ltb_lt; lia).
    split; [reflexivity|]. intros i E. injection E as <-. reflexivity.
  - destruct (o + 4 >? d_len r) eqn:T; [split; [reflexivity|discriminate]|]. 
    rewrite Z.gtb_ltb in T. apply Z.ltb_ge in T. unfold the_block. rewrite tlli_firstn by lia.
    destruct (tlli_some edge mem o) as [t ->]; [lia|lia|]. destruct (d_pi r); split; try reflexivity; discriminate.
Qed.

(** ** The meaning of the length indicators *)
Lemma split_ext_app l : forall a b, split_ext l = Some (a, b) -> l = a ++ b /\ a <> [].
Proof.
  induction l as [|x l IH]; intros a b E; cbn [split_ext] in E; [discriminate|].
  destruct (ext_e x); [injection E as <- <-; split; [reflexivity|discriminate]|].
  destruct (split_ext l) as [[a' b']|]; [|discriminate]. injection E as <- <-. destruct (IH a' b' eq_refl) as [-> _].
  split; [reflexivity|discriminate].
Qed.
Lemma rx_end_none fbi r : snd r = [] -> rx_end fbi r = r.
Proof. intros E. unfold rx_end. rewrite E. destruct fbi; reflexivity. Qed.
Lemma more_nil r : more r [] = r.
Proof. unfold more. rewrite app_nil_r. destruct r; reflexivity. Qed.
Lemma to_end (fbi : bool) r D : (D = [] -> snd r = []) ->
  match D with [] => r | _ => let r1 := more r D in if fbi then finish r1 else r1 end = rx_end fbi (more r D).
Proof.
  intros E. destruct D as [|x D]; [rewrite more_nil, rx_end_none; auto|]. cbv zeta. unfold rx_end, more. cbn [snd].
  destruct fbi; [|reflexivity]. destruct (snd r ++ x :: D) eqn:Q; [destruct (snd r); discriminate|reflexivity].
Qed.
Lemma egprs_li_of x : 0 <= x < 256 -> egprs_li x = Z.to_nat ((x / 2) mod 128).
Proof. intros R. unfold egprs_li. rewrite Z.mod_small; [reflexivity|]. split; [apply Z.div_pos; lia|apply Z.div_lt_upper_bound; lia]. Qed.
Lemma gprs_li_of x : 0 <= x < 256 -> gprs_li x = Z.to_nat ((x / 4) mod 64).
Proof. intros R. unfold gprs_li. rewrite Z.mod_small; [reflexivity|]. split; [apply Z.div_pos; lia|apply Z.div_lt_upper_bound; lia]. Qed.

Lemma rx_egprs_cons x lis d r : rx_egprs (x :: lis) d r =
  if Nat.eqb (egprs_li x) 127 then r
  else let n := egprs_li x in let r1 := finish (more r (firstn n d)) in
       if ext_e x then more r1 (skipn n d) else rx_egprs lis (skipn n d) r1.
Proof. reflexivity. Qed.
Lemma rx_gprs_cons' x lis d r : rx_gprs (x :: lis) d r =
  if Nat.eqb (gprs_li x) 0 then more r d
  else let n := gprs_li x in let r1 := finish (more r (firstn n d)) in
       if negb (gprs_m x) then r1 else if ext_e x then more r1 (skipn n d) else rx_gprs lis (skipn n d) r1.
Proof. reflexivity. Qed.
Lemma eat_cons c l d r : c_len c <> LENGTH_TO_END -> c_done c = true ->
  eat (c :: l) d r = eat l (skipn (Z.to_nat (c_len c)) d) (finish (more r (firstn (Z.to_nat (c_len c)) d))).
Proof. intros A B. cbn [eat]. apply Z.eqb_neq in A. rewrite A, B. reflexivity. Qed.
Lemma eat_end fbi d r : (d = [] -> snd r = []) -> eat [mk_chunk 0 LENGTH_TO_END fbi] d r = rx_end fbi (more r d).
Proof. intros E. rewrite <- to_end by exact E. reflexivity. Qed.

Lemma std_e n last : forall rest dlen offs acc l o lis d, octets rest ->
  ext_egprs rest dlen offs last (Some n) acc = XOk l o -> split_ext rest = Some (lis, d) ->
  Forall (fun c => c_len c = LENGTH_TO_END \/ c_len c < 127) l ->
  exists new, l = acc ++ new /\ o = offs + num lis /\
    forall D r, (acc <> [] -> snd r = []) -> l <> [] -> eat new D r = rx_end last (rx_egprs lis D r).
Proof.
  induction rest as [|x rest IH]; intros dlen offs acc l o lis d OC E S F; cbn [ext_egprs] in E; [destruct (_ >? _); discriminate|].
  destruct (_ >? _); [discriminate|]. inversion OC as [|? ? OX OR]; subst.
  destruct (num acc =? n); [discriminate|].
  cbn [split_ext] in S. change (x mod 2 =? 1) with (ext_e x) in E.
  pose proof (Z.mod_pos_bound (x / 2) 128 ltac:(lia)) as LB.
  pose proof (egprs_li_of x OX) as LI. set (li := (x / 2) mod 128) in *. clearbody li.
  assert (NX : forall c, c_len c = li -> c_done c = true -> 
    (if ext_e x then (if num (acc ++ [c]) =? n then XErr ENOSPC else XOk ((acc ++ [c]) ++ [mk_chunk 0 LENGTH_TO_END last]) (offs + 1))
     else ext_egprs rest dlen (offs + 1) last (Some n) (acc ++ [c])) = XOk l o ->
    exists new, l = acc ++ new /\ o = offs + num lis /\
      forall D r, (acc <> [] -> snd r = []) -> l <> [] -> eat new D r = rx_end last (rx_egprs lis D r)).
  { intros c C1 C2 C3.
    assert (L127 : In c l -> li < 127).
    { intros I. rewrite Forall_forall in F. destruct (F c I) as [Q|Q]; unfold LENGTH_TO_END in *; lia. }
    destruct (ext_e x) eqn:EX.
    - destruct (num (acc ++ [c]) =? n); [discriminate|]. injection C3 as <- <-. injection S as <- <-.
      exists [c; mk_chunk 0 LENGTH_TO_END last]. rewrite <- app_assoc. split; [reflexivity|]. split; [reflexivity|].
      intros D r _ _. rewrite eat_cons; [|unfold LENGTH_TO_END; lia|exact C2]. rewrite eat_end by reflexivity.
      rewrite rx_egprs_cons, LI, EX, C1.
      replace (Nat.eqb (Z.to_nat li) 127) with false; [reflexivity|]. symmetry. apply Nat.eqb_neq.
      assert (li < 127) by (apply L127; apply in_app_iff; left; apply in_app_iff; right; left; reflexivity). lia.
    - destruct (split_ext rest) as [[lis' d']|] eqn:S2; [|discriminate]. injection S as <- <-.
      destruct (IH dlen (offs + 1) (acc ++ [c]) l o lis' d' OR C3 eq_refl F) as (new & L & O & M).
      exists (c :: new). split; [rewrite L, <- app_assoc; reflexivity|]. split; [rewrite num_cons; lia|].
      intros D r _ NE. rewrite eat_cons; [|unfold LENGTH_TO_END; lia|exact C2]. rewrite M; [|reflexivity|exact NE].
      rewrite rx_egprs_cons, LI, EX, C1.
      replace (Nat.eqb (Z.to_nat li) 127) with false; [reflexivity|]. symmetry. apply Nat.eqb_neq.
      assert (li < 127) by (apply L127; rewrite L; apply in_app_iff; left; apply in_app_iff; right; left; reflexivity). lia. }
  destruct ((li =? 0) && (num acc =? 0)) eqn:Z0.
  { apply andb_prop in Z0. destruct Z0 as [Z0 _]. apply Z.eqb_eq in Z0. apply (NX (mk_chunk 0 0 true)); cbn [c_len c_done]; auto. }
  destruct ((li =? 127) && ext_e x) eqn:E127.
  { apply andb_prop in E127. destruct E127 as [E1 E2]. apply Z.eqb_eq in E1. injection E as <- <-. rewrite E2 in S. injection S as <- <-.
    exists []. rewrite app_nil_r. split; [reflexivity|]. split; [reflexivity|]. intros D r A NE. rewrite rx_egprs_cons, LI, E1.
    cbn [eat]. change (Nat.eqb (Z.to_nat 127) 127) with true. cbv iota. rewrite rx_end_none; auto. }
  destruct (0 <? li); [|discriminate].
  apply (NX (mk_chunk 0 li true)); cbn [c_len c_done]; auto.
Qed.

Lemma std_g n last : forall rest dlen offs acc l o lis d, octets rest ->
  ext_gprs rest dlen offs last (Some n) acc = XOk l o -> split_ext rest = Some (lis, d) ->
  Forall (fun x => gprs_li x = 0%nat -> ext_e x = true) lis -> l <> [] ->
  exists new, l = acc ++ new /\ o = offs + num lis /\
    forall D r, (D = [] -> snd r = []) -> eat new D r = rx_end last (rx_gprs lis D r).
Proof.
  induction rest as [|x rest IH]; intros dlen offs acc l o lis d OC E S F NE; cbn [ext_gprs] in E; [destruct (_ >? _); discriminate|].
  destruct (_ >? _); [discriminate|]. inversion OC as [|? ? OX OR]; subst.
  cbn [split_ext] in S. change (x mod 2 =? 1) with (ext_e x) in E. change ((x / 2) mod 2 =? 1) with (gprs_m x) in E.
  pose proof (Z.mod_pos_bound (x / 4) 64 ltac:(lia)) as LB.
  pose proof (gprs_li_of x OX) as LI. set (li := (x / 4) mod 64) in *. clearbody li.
  assert (FX : gprs_li x = 0%nat -> ext_e x = true).
  { destruct (ext_e x) eqn:EX; [reflexivity|]. destruct (split_ext rest) as [[lis' d']|]; [|discriminate].
    injection S as <- <-. inversion F; subst. rewrite EX in *. assumption. }
  destruct (li =? 0) eqn:Z0; cbn [negb andb orb] in E.
  - apply Z.eqb_eq in Z0. rewrite LI, Z0 in FX. rewrite (FX eq_refl) in S. injection S as <- <-.
    destruct (num acc =? n); [discriminate|]. injection E as <- <-. eexists. split; [reflexivity|]. split; [reflexivity|].
    intros D r Q. rewrite eat_end by exact Q. rewrite rx_gprs_cons', LI, Z0. reflexivity.
  - apply Z.eqb_neq in Z0. 
    assert (N0 : Nat.eqb (Z.to_nat li) 0 = false) by (apply Nat.eqb_neq; lia).
    destruct (negb (gprs_m x) && negb (ext_e x)) eqn:ME.
    { injection E as <- <-. congruence. }
    destruct (num acc =? n); [discriminate|]. set (c := mk_chunk 0 li true) in *.
    assert (C1 : c_len c <> LENGTH_TO_END) by (unfold c, LENGTH_TO_END; cbn [c_len]; lia).
    destruct (ext_e x) eqn:EX; cbn [andb] in E.
    + injection S as <- <-. destruct (gprs_m x) eqn:MX.
      * destruct (num (acc ++ [c]) =? n); [discriminate|]. injection E as <- <-.
        exists [c; mk_chunk 0 LENGTH_TO_END last]. rewrite <- app_assoc. split; [reflexivity|]. split; [reflexivity|].
        intros D r _. rewrite eat_cons by auto. rewrite eat_end by reflexivity. rewrite rx_gprs_cons', LI, N0, MX, EX. reflexivity.
      * injection E as <- <-. exists [c]. split; [reflexivity|]. split; [reflexivity|].
        intros D r _. rewrite eat_cons by auto. rewrite rx_gprs_cons', LI, N0, MX. cbn [eat negb]. cbv iota zeta. rewrite rx_end_none; reflexivity.
    + destruct (gprs_m x) eqn:MX; [|discriminate]. destruct (split_ext rest) as [[lis' d']|] eqn:S2; [|discriminate]. injection S as <- <-.
      inversion F; subst.
      destruct (IH dlen (offs + 1) (acc ++ [c]) l o lis' d' OR E eq_refl) as (new & L & O & M); auto.
      exists (c :: new). split; [rewrite L, <- app_assoc; reflexivity|]. split; [rewrite num_cons; lia|].
      intros D r _. rewrite eat_cons by auto. rewrite M by reflexivity. rewrite rx_gprs_cons', LI, N0, MX, EX. reflexivity.
Qed.

Lemma standard edge r mem l t rx0 lis d : block_ok r mem -> d_len r <= 127 ->
  from_ul_data edge r mem (Some 16) = POk l t -> l <> [] ->
  d_e r = false -> split_ext (the_block r mem) = Some (lis, d) ->
  (edge = false -> Forall (fun x => gprs_li x = 0%nat -> ext_e x = true) lis /\ skipn (tlli_len r) d <> []) ->
  take_chunks (the_block r mem) l rx0
  = rx_end (d_cv r =? 0) ((if edge then rx_egprs else rx_gprs) lis (skipn (tlli_len r) d) rx0).
Proof.
  intros OK L127 E NE DE SP G. destruct (accepted edge r mem l t OK E) as (x & o & X1 & X2 & X3 & X4 & X5 & X6 & X7 & _ & _ & X8 & X9).
  rewrite X9. unfold ext_of in X1. rewrite DE in X1.
  assert (OB : octets (the_block r mem)).
  { destruct OK as (_ & _ & OC). unfold octets, the_block in *. rewrite Forall_forall in OC. apply Forall_forall. intros y I. apply OC. eapply firstn_In_local; exact I. }
  assert (XN : x <> []). { intros ->. cbn in X4. destruct l; [congruence|]. unfold num in X4. cbn [length] in X4. lia. }
  destruct (split_ext_app _ _ _ SP) as [AP LN].
  assert (NL : 1 <= num lis) by (destruct lis; [congruence|rewrite num_cons; pose proof (num_pos lis); lia]).
  assert (SK : o = num lis -> skipn (Z.to_nat o + tlli_len r) (the_block r mem) = skipn (tlli_len r) d).
  { intros ->. rewrite AP. unfold num. rewrite Nat2Z.id, Nat.add_comm, skipn_plus. rewrite skipn_app, skipn_all, Nat.sub_diag. reflexivity. }
  destruct edge.
  - assert (O1 : 1 <= o). { destruct (ext_e_good 16 _ _ _ _ _ _ _ ltac:(constructor) ltac:(unfold num; cbn; lia) X1) as (_ & _ & O & _). lia. }
    destruct (std_e 16 _ _ _ _ _ _ _ _ _ OB X1 SP) as (new & N1 & N2 & N3).
    { eapply Forall_impl; [|exact X8]. cbv beta. intros a [Q|Q]; [left; exact Q|right; lia]. }
    cbn [app] in N1. subst new. rewrite N3; [|congruence|exact XN]. rewrite SK by lia. reflexivity.
  - destruct (G eq_refl) as [G1 G2].
    destruct (std_g 16 _ _ _ _ _ _ _ _ _ OB X1 SP G1 XN) as (new & N1 & N2 & N3).
    cbn [app] in N1. subst new. rewrite SK by lia. rewrite N3; [reflexivity|congruence].
Qed.
Lemma standard_e1 edge r mem l t rx0 : block_ok r mem ->
  from_ul_data edge r mem (Some 16) = POk l t -> d_e r = true ->
  take_chunks (the_block r mem) l rx0 = rx_end (d_cv r =? 0) (more rx0 (skipn (tlli_len r) (the_block r mem))).
Proof.
  intros OK E DE. destruct (accepted edge r mem l t OK E) as (x & o & X1 & X2 & X3 & X4 & X5 & X6 & X7 & _ & _ & X8 & X9).
  rewrite X9. unfold ext_of in X1. rewrite DE in X1. injection X1 as <- <-. rewrite eat_end; [reflexivity|].
  intros Q. apply (f_equal (@length Z)) in Q. rewrite skipn_length in Q. unfold the_block in Q. rewrite firstn_length in Q. cbn [length] in Q.
  destruct OK as (A & B & _). unfold num in *. unfold tlli_len in *. destruct (d_ti r); lia.
Qed.

(** ** Assembling *)
Lemma slice_num mem off len : 0 <= off -> 0 <= len -> off + len <= num mem -> num (slice mem off len) = len.
Proof. intros A B C. unfold slice, num in *. rewrite firstn_length, skipn_length. lia. Qed.
Lemma slice_block r mem off len : d_len r <= num mem -> 0 <= off -> 0 <= len -> off + len <= d_len r ->
  slice (the_block r mem) off len = slice mem off len.
Proof.
  intros A B C D. unfold slice, the_block. rewrite skipn_firstn_comm, firstn_firstn. f_equal. lia.
Qed.
Lemma take_block r mem l : d_len r <= num mem -> well_placed (d_len r) l -> forall rx0,
  take_chunks (the_block r mem) l rx0 = take_chunks mem l rx0.
Proof.
  intros A [B _]. induction B as [|c l (C1 & C2 & C3) B IH]; intros rx0; [reflexivity|]. cbn [take_chunks].
  rewrite slice_block by lia. apply IH.
Qed.

Lemma forward_ok mem l : Forall (inside (num mem)) l -> forall st F, num (u_data st) <= LLC_MAX_LEN ->
  (fits mem l (F, u_data st) ->
    exists out st', forward mem l st = Some (out, st') /\
      (F ++ out, u_data st') = take_chunks mem l (F, u_data st) /\ num (u_data st') <= LLC_MAX_LEN) /\
  (~ fits mem l (F, u_data st) -> forward mem l st = None).
Proof.
  induction 1 as [|c l (C1 & C2 & C3) FA IH]; intros st F L; cbn [fits forward take_chunks].
  - split; [|tauto]. intros _. exists [], st. rewrite app_nil_r. auto.
  - pose proof (slice_num mem (c_off c) (c_len c) C1 C2 C3) as SN.
    assert (ST : forall st1, (if c_len c =? 0 then Some st
       else match llc_append_frame st (slice mem (c_off c) (c_len c)) with None => None | Some st' => Some (llc_consume st' (c_len c)) end) = Some st1 ->
       more (F, u_data st) (slice mem (c_off c) (c_len c)) = (F, u_data st1) /\ num (u_data st1) <= LLC_MAX_LEN).
    { intros st1 Q. destruct (c_len c =? 0) eqn:Z0.
      - apply Z.eqb_eq in Z0. injection Q as <-. destruct (slice mem (c_off c) (c_len c)) as [|x y]; [|rewrite num_cons in SN; pose proof (num_pos y); lia].
        unfold more. cbn [fst snd]. rewrite app_nil_r. auto.
      - unfold llc_append_frame in Q. destruct (_ <? _) eqn:LT; [discriminate|]. apply Z.ltb_ge in LT. injection Q as <-.
        unfold more. cbn [fst snd u_data llc_consume]. rewrite num_app. auto. }
    assert (OV : (if c_len c =? 0 then Some st
       else match llc_append_frame st (slice mem (c_off c) (c_len c)) with None => None | Some st' => Some (llc_consume st' (c_len c)) end) = None ->
       ~ num (snd (more (F, u_data st) (slice mem (c_off c) (c_len c)))) <= LLC_MAX_LEN).
    { intros Q. destruct (c_len c =? 0); [discriminate|]. unfold llc_append_frame in Q.
      destruct (_ <? _) eqn:LT; [|discriminate]. apply Z.ltb_lt in LT. unfold more. cbn [snd]. rewrite num_app. lia. }
    destruct (if c_len c =? 0 then Some st
       else match llc_append_frame st (slice mem (c_off c) (c_len c)) with None => None | Some st' => Some (llc_consume st' (c_len c)) end) as [st1|].
    2: { split; [|reflexivity]. intros [Q _]. exfalso. exact (OV eq_refl Q). }
    destruct (ST st1 eq_refl) as [M L1]. rewrite M. cbn [snd]. clear ST OV.
    destruct (c_done c).
    + destruct (IH ullc_reset (F ++ [u_data st1])) as [I1 I2]; [cbn; unfold LLC_MAX_LEN; lia|].
      change (finish (F, u_data st1)) with (F ++ [u_data st1], u_data ullc_reset). split.
      * intros [_ Q]. destruct (I1 Q) as (out & st' & X1 & X2 & X3). rewrite X1. do 2 eexists. split; [reflexivity|].
        rewrite <- X2, <- app_assoc. auto.
      * intros Q. rewrite I2; [reflexivity|]. tauto.
    + destruct (IH st1 F L1) as [I1 I2]. split.
      * intros [_ Q]. destruct (I1 Q) as (out & st' & X1 & X2 & X3). rewrite X1. do 2 eexists. split; [reflexivity|].
        rewrite <- X2. auto.
      * intros Q. rewrite I2; [reflexivity|]. tauto.
Qed.

Lemma placed_mem b : block_ok (ub_rdbi b) (ub_mem b) -> Forall (inside (num (ub_mem b))) (chunks_of b).
Proof.
  intros OK. unfold chunks_of. destruct (from_ul_data _ _ _ _) as [i|e|l t] eqn:E; try constructor.
  destruct (placed _ _ _ _ _ OK E) as [[P _] _]. destruct OK as (_ & B & _).
  eapply Forall_impl; [|exact P]. unfold inside. intros c (X & Y & Z). splits; lia.
Qed.
Lemma assemble_forward b st : block_ok (ub_rdbi b) (ub_mem b) -> assemble b st = forward (ub_mem b) (chunks_of b) st.
Proof.
  intros OK. unfold assemble, chunks_of. destruct (block_only (ub_edge b) _ _ OK) as [_ N].
  destruct (from_ul_data _ _ _ _) as [i|e|l t]; [exfalso; exact (N i eq_refl)|reflexivity|reflexivity].
Qed.
Lemma assemble_all_ok bs : Forall (fun b => block_ok (ub_rdbi b) (ub_mem b)) bs -> forall st F, num (u_data st) <= LLC_MAX_LEN ->
  (fit_all bs (F, u_data st) ->
    exists out st', assemble_all bs st = Some (out, st') /\
      (F ++ out, u_data st') = take_blocks bs (F, u_data st) /\ num (u_data st') <= LLC_MAX_LEN) /\
  (~ fit_all bs (F, u_data st) -> assemble_all bs st = None).
Proof.
  induction 1 as [|b bs OK FA IH]; intros st F L; cbn [fit_all assemble_all take_blocks].
  - split; [|tauto]. intros _. exists [], st. rewrite app_nil_r. auto.
  - rewrite (assemble_forward b st OK).
    destruct (forward_ok (ub_mem b) (chunks_of b) (placed_mem b OK) st F L) as [A1 A2]. split.
    + intros [Q1 Q2]. destruct (A1 Q1) as (o1 & st1 & X1 & X2 & X3). rewrite X1, <- X2.
      destruct (IH st1 (F ++ o1) X3) as [B1 _]. rewrite <- X2 in Q2. destruct (B1 Q2) as (o2 & st2 & Y1 & Y2 & Y3).
      rewrite Y1. do 2 eexists. split; [reflexivity|]. rewrite <- Y2, <- app_assoc. auto.
    + intros Q. destruct (forward (ub_mem b) (chunks_of b) st) as [[o1 st1]|] eqn:X1; [|reflexivity].
      assert (D : fits (ub_mem b) (chunks_of b) (F, u_data st) \/ ~ fits (ub_mem b) (chunks_of b) (F, u_data st)).
      { clear. generalize (chunks_of b) (F, u_data st). intros l. induction l as [|c l IH]; intros r; cbn [fits]; [left; exact I|].
        destruct (IH (if c_done c then finish (more r (slice (ub_mem b) (c_off c) (c_len c))) else more r (slice (ub_mem b) (c_off c) (c_len c)))); [|right; tauto].
        destruct (Z_le_dec (num (snd (more r (slice (ub_mem b) (c_off c) (c_len c))))) LLC_MAX_LEN); [left|right]; tauto. }
      destruct D as [D|D]; [|specialize (A2 D); congruence].
      destruct (A1 D) as (o1' & st1' & Y1 & Y2 & Y3). assert (Q1 : Some (o1, st1) = Some (o1', st1')) by congruence. injection Q1 as <- <-.
      destruct (IH st1 (F ++ o1) Y3) as [_ B2]. rewrite B2; [reflexivity|]. rewrite Y2. tauto.
Qed.
