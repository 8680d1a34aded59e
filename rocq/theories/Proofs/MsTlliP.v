(** TLLIs of contexts. *)
From Coq Require Import ZArith List Bool Lia.
From Verif Require Import Base.Arith Model.MsTlli Spec.MsTlliSpec.
Import ListNotations.
Open Scope Z_scope.

Lemma check_iff : forall t x, check_tlli t x = true <->
  x <> RES /\ (x = tlli t \/ x = new_ul t \/ x = new_dl t).
Proof.
  intros t x. unfold check_tlli. rewrite andb_true_iff, negb_true_iff, !orb_true_iff, !Z.eqb_eq, Z.eqb_neq. tauto.
Qed.

Ltac zb := repeat match goal with
  | H : (_ =? _) = true |- _ => apply Z.eqb_eq in H
  | H : (_ =? _) = false |- _ => apply Z.eqb_neq in H
  end.
Ltac tl_cases :=
  repeat match goal with |- context[?a =? ?b] => destruct (a =? b) eqn:?; cbn [orb negb andb] end; zb.

Lemma set_cases : forall x t,
  ((x = tlli t \/ x = new_ul t) /\ set_tlli x t = t) \/
  (x <> tlli t /\ x <> new_ul t /\ x <> new_dl t /\ set_tlli x t = Tl (tlli t) x (new_dl t)) \/
  (x <> tlli t /\ x <> new_ul t /\ x = new_dl t /\ set_tlli x t = Tl x RES RES).
Proof. intros. unfold set_tlli, tl_apply. tl_cases; auto 10. Qed.
Lemma confirm_cases : forall x t,
  ((x = tlli t \/ x = new_dl t) /\ confirm_tlli x t = t) \/
  (x <> tlli t /\ x <> new_dl t /\ x <> new_ul t /\ confirm_tlli x t = Tl (tlli t) (new_ul t) x) \/
  (x <> tlli t /\ x <> new_dl t /\ x = new_ul t /\ confirm_tlli x t = Tl x RES RES).
Proof. intros. unfold confirm_tlli, tl_apply. tl_cases; auto 10. Qed.

(** A use makes the TLLI known, and nothing else. *)
Lemma use_found : forall u t, of_use u <> RES -> check_tlli (tl_use t u) (of_use u) = true.
Proof.
  intros u t V. apply check_iff. split; [exact V|]. destruct u as [x|x]; cbn [tl_use of_use] in *.
  - destruct (set_cases x t) as [(E & ->)|[(_ & _ & _ & ->)|(_ & _ & _ & ->)]]; cbn [tlli new_ul new_dl]; tauto.
  - destruct (confirm_cases x t) as [(E & ->)|[(_ & _ & _ & ->)|(_ & _ & _ & ->)]]; cbn [tlli new_ul new_dl]; tauto.
Qed.
Lemma use_only : forall u t y, check_tlli (tl_use t u) y = true -> check_tlli t y = true \/ y = of_use u.
Proof.
  intros u t y C. apply check_iff in C. destruct C as (V & C). rewrite check_iff. destruct u as [x|x]; cbn [tl_use of_use] in *.
  - destruct (set_cases x t) as [(E & K)|[(_ & _ & _ & K)|(_ & _ & _ & K)]]; rewrite K in C;
      cbn [tlli new_ul new_dl] in C; intuition congruence.
  - destruct (confirm_cases x t) as [(E & K)|[(_ & _ & _ & K)|(_ & _ & _ & K)]]; rewrite K in C;
      cbn [tlli new_ul new_dl] in C; intuition congruence.
Qed.

(** The old TLLI stays until some new one has been used by both. *)
Lemma uses_snoc : forall t l u, tl_uses t (l ++ [u]) = tl_use (tl_uses t l) u.
Proof. intros. unfold tl_uses. rewrite fold_left_app. reflexivity. Qed.

Lemma old_inv : forall a t l, agreed a t -> Forall (fun u => of_use u <> RES) l ->
  (forall x, x <> a -> ~ by_both x l) ->
  tlli (tl_uses t l) = a /\
  (new_ul (tl_uses t l) = RES \/ by_mobile (new_ul (tl_uses t l)) l) /\
  (new_dl (tl_uses t l) = RES \/ by_sgsn (new_dl (tl_uses t l)) l).
Proof.
  intros a t l A. unfold by_both, by_mobile, by_sgsn. induction l as [|u l IH] using rev_ind; intros V N.
  - destruct A as (A1 & A2 & A3). unfold tl_uses. cbn [fold_left In]. tauto.
  - apply Forall_app in V. destruct V as (V & Vu). inversion Vu as [|? ? Vu1 _]; subst.
    destruct IH as (I1 & I2 & I3); [exact V| |].
    { intros x Hx (B1 & B2). apply (N x Hx). rewrite !in_app_iff. auto. }
    rewrite uses_snoc. rewrite !in_app_iff. set (s := tl_uses t l) in *. cbn [In].
    destruct u as [x|x]; cbn [tl_use of_use] in *.
    + destruct (set_cases x s) as [(_ & ->)|[(K1 & K2 & K3 & ->)|(K1 & K2 & K3 & ->)]]; cbn [tlli new_ul new_dl].
      * tauto.
      * tauto.
      * exfalso. apply (N x); [congruence|]. rewrite !in_app_iff. cbn. rewrite K3 in *. tauto.
    + destruct (confirm_cases x s) as [(_ & ->)|[(K1 & K2 & K3 & ->)|(K1 & K2 & K3 & ->)]]; cbn [tlli new_ul new_dl].
      * tauto.
      * tauto.
      * exfalso. apply (N x); [congruence|]. rewrite !in_app_iff. cbn. rewrite K3 in *. tauto.
Qed.

Lemma old_found : forall a t l, a <> RES -> agreed a t -> Forall (fun u => of_use u <> RES) l ->
  (forall x, x <> a -> ~ by_both x l) -> check_tlli (tl_uses t l) a = true.
Proof.
  intros a t l Va A V N. apply check_iff. destruct (old_inv a t l A V N) as (E & _). auto.
Qed.

(** A change from [a] to [b]. *)
Lemma change_inv : forall a b t l, a <> b -> b <> RES -> agreed a t -> change a b l -> ~ by_both b l ->
  tlli (tl_uses t l) = a /\
  (new_ul (tl_uses t l) = b /\ by_mobile b l \/ new_ul (tl_uses t l) = RES /\ ~ by_mobile b l) /\
  (new_dl (tl_uses t l) = b /\ by_sgsn b l \/ new_dl (tl_uses t l) = RES /\ ~ by_sgsn b l).
Proof.
  intros a b t l NE Vb A. unfold by_both, by_mobile, by_sgsn. induction l as [|u l IH] using rev_ind; intros C N.
  - destruct A as (A1 & A2 & A3). unfold tl_uses. cbn [fold_left In]. tauto.
  - assert (C' : change a b l) by (intros v Hv; apply C; rewrite in_app_iff; auto).
    destruct (C u) as (Vu & Cu); [rewrite in_app_iff; cbn; auto|].
    destruct IH as (I1 & I2 & I3); [exact C'| |].
    { intros (B1 & B2). apply N. rewrite !in_app_iff. auto. }
    rewrite uses_snoc. rewrite !in_app_iff in *. set (s := tl_uses t l) in *. cbn [In] in *.
    destruct u as [x|x]; cbn [tl_use of_use] in *.
    + destruct (set_cases x s) as [(K & ->)|[(K1 & K2 & K3 & ->)|(K1 & K2 & K3 & ->)]]; cbn [tlli new_ul new_dl].
      * splits; [exact I1| |].
        -- destruct Cu as [Cu|Cu]; subst x.
           ++ destruct I2 as [I2|I2]; [tauto|]. right. split; [tauto|]. intros [X|[X|[]]]; [tauto|congruence].
           ++ left. destruct K as [K|K]; [congruence|]. split; [congruence|]. right; left; reflexivity.
        -- destruct I3 as [I3|I3]; [tauto|]. right. split; [tauto|]. intros [X|[X|[]]]; [tauto|congruence].
      * assert (x = b) by (destruct Cu; congruence). subst x.
        splits; [exact I1|left; split; [reflexivity|right; left; reflexivity]|]. destruct I3 as [I3|I3]; [exfalso; apply K3; symmetry; tauto|].
        right. split; [tauto|]. intros [X|[X|[]]]; [tauto|congruence].
      * assert (Ex : x = b) by (destruct Cu; congruence).
        exfalso. apply N. destruct I3 as [(_ & X)|(X & _)]; [|congruence]. rewrite Ex. split; auto.
    + destruct (confirm_cases x s) as [(K & ->)|[(K1 & K2 & K3 & ->)|(K1 & K2 & K3 & ->)]]; cbn [tlli new_ul new_dl].
      * splits; [exact I1| |].
        -- destruct I2 as [I2|I2]; [tauto|]. right. split; [tauto|]. intros [X|[X|[]]]; [tauto|congruence].
        -- destruct Cu as [Cu|Cu]; subst x.
           ++ destruct I3 as [I3|I3]; [tauto|]. right. split; [tauto|]. intros [X|[X|[]]]; [tauto|congruence].
           ++ left. destruct K as [K|K]; [congruence|]. split; [congruence|]. right; left; reflexivity.
      * assert (x = b) by (destruct Cu; congruence). subst x.
        splits; [exact I1| |left; split; [reflexivity|right; left; reflexivity]]. destruct I2 as [I2|I2]; [exfalso; apply K3; symmetry; tauto|].
        right. split; [tauto|]. intros [X|[X|[]]]; [tauto|congruence].
      * assert (Ex : x = b) by (destruct Cu; congruence).
        exfalso. apply N. destruct I2 as [(_ & X)|(X & _)]; [|congruence]. rewrite Ex. split; auto.
Qed.

Lemma during : forall a b t l, a <> b -> b <> RES -> agreed a t -> change a b l -> ~ by_both b l ->
  forall y, check_tlli (tl_uses t l) y = true <->
    (y = a /\ a <> RES) \/ (y = b /\ (by_mobile b l \/ by_sgsn b l)).
Proof.
  intros a b t l NE Vb A C N y. destruct (change_inv a b t l NE Vb A C N) as (I1 & I2 & I3).
  rewrite check_iff, I1. unfold by_both in N. split.
  - intros (V & [E|[E|E]]); [left; split; congruence| |]; right.
    + destruct I2 as [(I2 & X)|(I2 & X)]; [split; [congruence|tauto]|congruence].
    + destruct I3 as [(I3 & X)|(I3 & X)]; [split; [congruence|tauto]|congruence].
  - intros [(-> & V)|(-> & B)]; [tauto|]. split; [exact Vb|]. right.
    destruct B as [B|B]; [left; destruct I2 as [I2|I2]|right; destruct I3 as [I3|I3]]; intuition congruence.
Qed.

Lemma completed : forall a b t l u, a <> b -> b <> RES -> agreed a t -> change a b (l ++ [u]) ->
  ~ by_both b l -> by_both b (l ++ [u]) -> agreed b (tl_uses t (l ++ [u])).
Proof.
  intros a b t l u NE Vb A C N B.
  assert (C' : change a b l) by (intros v Hv; apply C; rewrite in_app_iff; auto).
  destruct (change_inv a b t l NE Vb A C' N) as (I1 & I2 & I3).
  rewrite uses_snoc. set (s := tl_uses t l) in *.
  unfold by_both, by_mobile, by_sgsn in *. rewrite !in_app_iff in B. cbn [In] in B.
  destruct u as [x|x]; cbn [tl_use].
  - assert (Bd : In (Dl b) l) by (destruct B as (_ & [B|[B|[]]]); [exact B|discriminate]).
    assert (x = b) by (destruct B as ([B|[B|[]]] & _); [tauto|congruence]). subst x.
    destruct I3 as [(I3 & _)|(_ & X)]; [|contradiction].
    assert (E2 : new_ul s = RES) by tauto.
    destruct (set_cases b s) as [([K|K] & _)|[(K1 & K2 & K3 & _)|(K1 & K2 & K3 & ->)]];
      [congruence|congruence|congruence|]. unfold agreed. cbn. auto.
  - assert (Bu : In (Ul b) l) by (destruct B as ([B|[B|[]]] & _); [exact B|discriminate]).
    assert (x = b) by (destruct B as (_ & [B|[B|[]]]); [tauto|congruence]). subst x.
    destruct I2 as [(I2 & _)|(_ & X)]; [|contradiction].
    assert (E2 : new_dl s = RES) by tauto.
    destruct (confirm_cases b s) as [([K|K] & _)|[(K1 & K2 & K3 & _)|(K1 & K2 & K3 & ->)]];
      [congruence|congruence|congruence|]. unfold agreed. cbn. auto.
Qed.

Lemma agreed_only : forall b t, b <> RES -> agreed b t -> forall y, check_tlli t y = true <-> y = b.
Proof. intros b t V (E1 & E2 & E3) y. rewrite check_iff, E1, E2, E3. intuition congruence. Qed.

(** ** The store *)

Record inv (s : store) : Prop := Inv {
  i_ids : forall c d, In c (st_list s) -> In d (st_list s) -> c_id c = c_id d -> c = d;
  i_next : forall c, In c (st_list s) -> c_id c < st_next s;
  i_tlli : forall c d x, In c (st_list s) -> In d (st_list s) ->
             check_tlli (c_tl c) x = true -> check_tlli (c_tl d) x = true -> c_id c = c_id d;
  i_imsi : forall c d, In c (st_list s) -> In d (st_list s) -> c_imsi c <> 0 -> c_imsi c = c_imsi d ->
             c_id c = c_id d;
  i_real : forall c x, In c (st_list s) -> check_tlli (c_tl c) x = true -> real x }.

Lemma in_modify : forall i f s d, In d (st_list (modify i f s)) <->
  exists c, In c (st_list s) /\ d = (if c_id c =? i then f c else c).
Proof.
  intros. cbn [modify st_list]. rewrite in_map_iff. split; intros (c & A & B); exists c; auto.
Qed.

Lemma modify_inv : forall i f s, inv s ->
  (forall c, c_id (f c) = c_id c) ->
  (forall c d x, In c (st_list s) -> c_id c = i -> check_tlli (c_tl (f c)) x = true ->
     check_tlli (c_tl c) x = true \/
     (real x /\ (In d (st_list s) -> c_id d <> i -> check_tlli (c_tl d) x = false))) ->
  (forall c d, In c (st_list s) -> c_id c = i -> c_imsi (f c) <> 0 ->
     c_imsi (f c) = c_imsi c \/ (In d (st_list s) -> c_id d <> i -> c_imsi d <> c_imsi (f c))) ->
  inv (modify i f s).
Proof.
  intros i f s I Fi Ft Fm. destruct I as [I1 I2 I3 I4 I5]. split.
  - intros c d Hc Hd E. apply in_modify in Hc. apply in_modify in Hd.
    destruct Hc as (c0 & Hc & ->). destruct Hd as (d0 & Hd & ->).
    assert (c_id c0 = c_id d0) by (destruct (c_id c0 =? i), (c_id d0 =? i); rewrite ?Fi in E; exact E).
    rewrite (I1 c0 d0 Hc Hd H). reflexivity.
  - intros c Hc. apply in_modify in Hc. destruct Hc as (c0 & Hc & ->). cbn [modify st_next].
    destruct (c_id c0 =? i); rewrite ?Fi; auto.
  - intros c d x Hc Hd. apply in_modify in Hc. apply in_modify in Hd.
    destruct Hc as (c0 & Hc & ->). destruct Hd as (d0 & Hd & ->).
    destruct (c_id c0 =? i) eqn:Ec, (c_id d0 =? i) eqn:Ed; zb; rewrite ?Fi; intros Kc Kd.
    + congruence.
    + destruct (Ft c0 d0 x Hc Ec Kc) as [K|(_ & K)]; [exact (I3 c0 d0 x Hc Hd K Kd)|].
      rewrite (K Hd Ed) in Kd. discriminate.
    + destruct (Ft d0 c0 x Hd Ed Kd) as [K|(_ & K)]; [exact (I3 c0 d0 x Hc Hd Kc K)|].
      rewrite (K Hc Ec) in Kc. discriminate.
    + exact (I3 c0 d0 x Hc Hd Kc Kd).
  - intros c d Hc Hd. apply in_modify in Hc. apply in_modify in Hd.
    destruct Hc as (c0 & Hc & ->). destruct Hd as (d0 & Hd & ->).
    destruct (c_id c0 =? i) eqn:Ec, (c_id d0 =? i) eqn:Ed; zb; rewrite ?Fi; intros V E.
    + congruence.
    + destruct (Fm c0 d0 Hc Ec V) as [K|K]; [apply (I4 c0 d0 Hc Hd); congruence|].
      exfalso. apply (K Hd Ed). congruence.
    + assert (V' : c_imsi (f d0) <> 0) by congruence.
      destruct (Fm d0 c0 Hd Ed V') as [K|K]; [apply (I4 c0 d0 Hc Hd); congruence|].
      exfalso. apply (K Hc Ec). congruence.
    + exact (I4 c0 d0 Hc Hd V E).
  - intros c x Hc K. apply in_modify in Hc. destruct Hc as (c0 & Hc & ->).
    destruct (c_id c0 =? i) eqn:Ec; [|exact (I5 c0 x Hc K)]. zb.
    destruct (Ft c0 c0 x Hc Ec K) as [K'|(R & _)]; [exact (I5 c0 x Hc K')|exact R].
Qed.

Lemma modify_comm : forall i j f g s, i <> j -> (forall c, c_id (f c) = c_id c) -> (forall c, c_id (g c) = c_id c) ->
  modify i f (modify j g s) = modify j g (modify i f s).
Proof.
  intros i j f g s N Fi Gi. unfold modify. cbn [st_list st_next]. f_equal. rewrite !map_map. apply map_ext. intros c.
  destruct (c_id c =? i) eqn:Ei, (c_id c =? j) eqn:Ej; rewrite ?Fi, ?Gi, ?Ei, ?Ej; zb; congruence.
Qed.

Definition clear (c : ctx) : ctx := Ctx (c_id c) tl_new 0.
Lemma clear_inv : forall i s, inv s -> inv (modify i clear s).
Proof.
  intros i s I. apply modify_inv; [exact I|reflexivity| |].
  - intros c d x _ _ K. apply check_iff in K. cbn in K. intuition congruence.
  - intros c d _ _ K. cbn in K. congruence.
Qed.

Lemma find_id_some : forall i s c, find_id i s = Some c -> In c (st_list s) /\ c_id c = i.
Proof. intros i s c F. apply find_some in F. destruct F as (F1 & F2). zb. auto. Qed.

(** Taking over the IMSI [m] that nobody else has. *)
Definition take (m : Z) (x : ctx) : ctx :=
  if (c_imsi x =? 0) && negb (m =? 0) then with_imsi m x else x.
Lemma take_inv : forall i m s, inv s ->
  (m <> 0 -> forall d, In d (st_list s) -> c_id d <> i -> c_imsi d <> m) -> inv (modify i (take m) s).
Proof.
  intros i m s I N. apply modify_inv; [exact I| | |]; unfold take.
  - intros c. destruct (_ && _); reflexivity.
  - intros c d x Hc E K. left. destruct (_ && _); exact K.
  - intros c d Hc E K. destruct (c_imsi c =? 0) eqn:Z0, (m =? 0) eqn:M; cbn [andb negb with_imsi c_imsi] in *; auto.
Qed.

Lemma merge_eq : forall c o s, c <> o ->
  merge c o s = Some (modify c (take (match find_id o s with Some x => c_imsi x | None => 0 end)) (modify o clear s)).
Proof.
  intros c o s N. unfold merge. destruct (c =? o) eqn:E; [zb; contradiction|]. f_equal.
  rewrite (modify_comm c o); [reflexivity|exact N| |reflexivity].
  intros x. unfold take. destruct (_ && _); reflexivity.
Qed.

Lemma merge_inv : forall c o s s', inv s -> c <> o -> merge c o s = Some s' -> inv s'.
Proof.
  intros c o s s' I N E. rewrite merge_eq in E by exact N. injection E as <-.
  apply take_inv; [apply clear_inv; exact I|].
  destruct (find_id o s) as [x|] eqn:F; [|congruence]. intros V d Hd Nd. apply find_id_some in F. destruct F as (Fx & Fi).
  apply in_modify in Hd. destruct Hd as (d0 & Hd & ->). destruct (c_id d0 =? o) eqn:Eo; zb.
  - cbn. congruence.
  - intros K. apply Eo. rewrite <- Fi. symmetry. apply (i_imsi _ I x d0); congruence.
Qed.

Lemma get_ms_tlli : forall x s c, get_ms x RES 0 s = Some c -> x <> RES /\ In c (st_list s) /\ check_tlli (c_tl c) x = true.
Proof.
  intros x s c G. unfold get_ms in G. rewrite Z.eqb_refl in G. cbn [negb orb get_by_imsi Z.eqb] in G.
  destruct (negb (x =? RES) || false) eqn:V.
  - destruct (find _ (st_list s)) as [c0|] eqn:F; [|discriminate]. injection G as ->.
    apply find_some in F. destruct F as (F1 & F2).
    assert (X : x <> RES) by (apply orb_prop in V; destruct V as [V|V]; [apply negb_true_iff in V; zb; exact V|discriminate]).
    splits; [exact X|exact F1|]. apply orb_prop in F2. destruct F2 as [F2|F2]; [exact F2|].
    apply check_iff in F2. destruct F2. congruence.
  - discriminate.
Qed.
Lemma get_ms_none : forall x s, x <> RES -> get_ms x RES 0 s = None -> forall c, In c (st_list s) -> check_tlli (c_tl c) x = false.
Proof.
  intros x s V G c Hc. unfold get_ms in G. destruct (x =? RES) eqn:E; [zb; contradiction|]. cbn [negb orb] in G.
  destruct (find _ (st_list s)) as [c0|] eqn:F; [discriminate|].
  pose proof (find_none _ _ F c Hc) as K. cbn beta in K. apply orb_false_iff in K. tauto.
Qed.

Lemma found_iff : forall s x c, inv s -> In c (st_list s) -> (found s x (c_id c) <-> check_tlli (c_tl c) x = true).
Proof.
  intros s x c I Hc. split.
  - intros (d & G & E). apply get_ms_tlli in G. destruct G as (_ & Hd & K).
    rewrite (i_ids _ I c d Hc Hd); auto.
  - intros K. pose proof K as K0. apply check_iff in K0. destruct K0 as (V & _).
    destruct (get_ms x RES 0 s) as [d|] eqn:G.
    + exists d. split; [exact G|]. apply get_ms_tlli in G. destruct G as (_ & Hd & Kd).
      exact (i_tlli _ I d c x Hd Hc Kd K).
    + rewrite (get_ms_none x s V G c Hc) in K. discriminate.
Qed.

Lemma set_inv : forall i x u s, inv s -> of_use u = x -> real x ->
  (forall d, In d (st_list s) -> c_id d <> i -> check_tlli (c_tl d) x = false) ->
  inv (modify i (fun c => with_tl (tl_use (c_tl c) u) c) s).
Proof.
  intros i x u s I U R N. apply modify_inv; [exact I|reflexivity| |].
  - intros c d y Hc E K. cbn [c_tl with_tl] in K. destruct (use_only _ _ _ K) as [K'|K']; [left; exact K'|].
    right. rewrite K', U. split; [exact R|]. intros Hd Nd. exact (N d Hd Nd).
  - intros c d Hc E K. left. reflexivity.
Qed.

Lemma real_res : forall x, real x -> x <> RES.
Proof. unfold real. lia. Qed.

Lemma announce_inv : forall i x s, inv s -> x = RES \/ real x -> exists s', announce i x s = Some s' /\ inv s'.
Proof.
  intros i x s I R. unfold announce. destruct (x =? RES) eqn:E; [eauto|]. zb.
  destruct R as [R|R]; [contradiction|].
  destruct (find_id i s) as [c|] eqn:F; [|eauto]. apply find_id_some in F. destruct F as (Hc & Fi).
  destruct (check_tlli (c_tl c) x) eqn:K.
  - exists (modify i (fun c => with_tl (set_tlli x (c_tl c)) c) s). split; [reflexivity|].
    apply (set_inv i x (Ul x) s I eq_refl R). intros d Hd Nd.
    destruct (check_tlli (c_tl d) x) eqn:Kd; [|reflexivity]. exfalso. apply Nd. rewrite <- Fi.
    exact (i_tlli _ I d c x Hd Hc Kd K).
  - destruct (get_ms x RES 0 s) as [o|] eqn:G.
    + apply get_ms_tlli in G. destruct G as (_ & Ho & Ko).
      assert (N : i <> c_id o).
      { intros X. rewrite (i_ids _ I c o Hc Ho) in K; [congruence|congruence]. }
      assert (E1 : find_id (c_id o) (modify i (fun c => with_tl (set_tlli x (c_tl c)) c) s) = find_id (c_id o) s).
      { unfold find_id, modify. cbn [st_list]. clear - N. induction (st_list s) as [|a l IH]; [reflexivity|].
        cbn [map find]. destruct (c_id a =? i) eqn:Ea; cbn [with_tl c_id];
          destruct (c_id a =? c_id o) eqn:Eo; zb; try congruence; auto. }
      rewrite merge_eq by exact N. eexists. split; [reflexivity|]. rewrite E1.
      assert (I1 : inv (modify i (fun c => with_tl (tl_use (c_tl c) (Ul x)) c) (modify (c_id o) clear s))).
      { apply (set_inv i x (Ul x)); [apply clear_inv; exact I|reflexivity|exact R|].
        intros d Hd Nd. apply in_modify in Hd. destruct Hd as (d0 & Hd & ->).
        destruct (c_id d0 =? c_id o) eqn:Ed.
        - destruct (check_tlli (c_tl (clear d0)) x) eqn:X; [|reflexivity]. apply check_iff in X. cbn in X. intuition congruence.
        - zb. destruct (check_tlli (c_tl d0) x) eqn:Kd; [|reflexivity].
          exfalso. apply Ed. exact (i_tlli _ I d0 o x Hd Ho Kd Ko). }
      cbn [tl_use] in I1. rewrite modify_comm in I1 by (auto; intros; reflexivity).
      apply take_inv; [exact I1|].
      destruct (find_id (c_id o) s) as [o'|] eqn:Fo; [|congruence]. apply find_id_some in Fo. destruct Fo as (Ho' & Fo).
      intros V d Hd Nd. apply in_modify in Hd. destruct Hd as (d1 & Hd & ->).
      apply in_modify in Hd. destruct Hd as (d0 & Hd & ->).
      replace (c_id (if c_id d0 =? i then with_tl (set_tlli x (c_tl d0)) d0 else d0)) with (c_id d0) in *
        by (destruct (c_id d0 =? i); reflexivity).
      destruct (c_id d0 =? c_id o) eqn:Ed.
      * cbn [clear c_imsi]. congruence.
      * rewrite <- Fo in Ed. assert (Z1 : c_imsi d0 <> c_imsi o').
        { intros X. zb. apply Ed. symmetry. apply (i_imsi _ I o' d0); congruence. }
        destruct (c_id d0 =? i); exact Z1.
    + exists (modify i (fun c => with_tl (set_tlli x (c_tl c)) c) s). split; [reflexivity|].
      apply (set_inv i x (Ul x) s I eq_refl R). intros d Hd Nd. exact (get_ms_none x s E G d Hd).
Qed.

Lemma get_by_imsi_some : forall m s c, get_by_imsi m s = Some c -> m <> 0 /\ In c (st_list s) /\ c_imsi c = m.
Proof.
  intros m s c G. unfold get_by_imsi in G. destruct (m =? 0) eqn:E; [discriminate|].
  apply find_some in G. destruct G as (G1 & G2). apply andb_prop in G2. destruct G2 as (_ & G2). zb. auto.
Qed.
Lemma get_by_imsi_none : forall m s, m <> 0 -> get_by_imsi m s = None -> forall c, In c (st_list s) -> c_imsi c <> m.
Proof.
  intros m s V G c Hc X. unfold get_by_imsi in G. destruct (m =? 0) eqn:E; [zb; contradiction|].
  pose proof (find_none _ _ G c Hc) as K. cbn beta in K. rewrite X, E, Z.eqb_refl in K. discriminate.
Qed.

(** TLLIs are not gained by merging or setting an IMSI. *)
Definition nogain (i x : Z) (s s' : store) : Prop :=
  (forall d, In d (st_list s) -> c_id d <> i -> check_tlli (c_tl d) x = false) ->
  (forall d, In d (st_list s') -> c_id d <> i -> check_tlli (c_tl d) x = false).
Lemma merge_nogain : forall i x c o s s', c <> o -> merge c o s = Some s' -> nogain i x s s'.
Proof.
  intros i x c o s s' N E. rewrite merge_eq in E by exact N. injection E as <-. intros Nx d Hd Nd.
  apply in_modify in Hd. destruct Hd as (d1 & Hd & ->). apply in_modify in Hd. destruct Hd as (d0 & Hd & ->).
  assert (T : forall m y, c_tl (take m y) = c_tl y) by (intros; unfold take; destruct (_ && _); reflexivity).
  assert (Ti : forall m y, c_id (take m y) = c_id y) by (intros; unfold take; destruct (_ && _); reflexivity).
  destruct (c_id d0 =? o).
  - assert (X : check_tlli tl_new x = false)
      by (destruct (check_tlli tl_new x) eqn:X; [apply check_iff in X; cbn in X; intuition congruence|reflexivity]).
    destruct (c_id (clear d0) =? c); rewrite ?T; exact X.
  - destruct (c_id d0 =? c); rewrite ?T, ?Ti in *; apply Nx; auto.
Qed.

Lemma set_imsi_inv : forall i m s, inv s -> m <> 0 ->
  exists s', set_imsi i m s = Some s' /\ inv s' /\ (forall j x, nogain j x s s').
Proof.
  intros i m s I V. unfold set_imsi. destruct (find_id i s) as [c|] eqn:F; [|exists s; split; [reflexivity|split; [exact I|intros j x H; exact H]]].
  apply find_id_some in F. destruct F as (Hc & Fi).
  destruct (c_imsi c =? m) eqn:E; [exists s; split; [reflexivity|split; [exact I|intros j x H; exact H]]|]. zb.
  assert (W : forall s1, inv s1 -> (forall d, In d (st_list s1) -> c_id d <> i -> c_imsi d <> m) ->
    (forall j x, nogain j x s s1) ->
    inv (modify i (with_imsi m) s1) /\ (forall j x, nogain j x s (modify i (with_imsi m) s1))).
  { intros s1 I1 N1 G1. split.
    - apply modify_inv; [exact I1|reflexivity|intros; left; assumption|].
      intros c1 d _ _ _. right. intros Hd Nd. exact (N1 d Hd Nd).
    - intros j x Nx d Hd Nd. apply in_modify in Hd. destruct Hd as (d0 & Hd & ->).
      destruct (c_id d0 =? i); cbn in *; apply (G1 j x Nx d0 Hd); exact Nd. }
  destruct (get_by_imsi m s) as [o|] eqn:G.
  - apply get_by_imsi_some in G. destruct G as (_ & Ho & Eo).
    assert (N : i <> c_id o) by (intros X; rewrite (i_ids _ I c o Hc Ho) in E; congruence).
    destruct (merge i (c_id o) s) as [s1|] eqn:M; [|rewrite merge_eq in M by exact N; discriminate].
    exists (modify i (with_imsi m) s1). split; [reflexivity|]. apply W.
    + exact (merge_inv i (c_id o) s s1 I N M).
    + intros d Hd Nd. rewrite merge_eq in M by exact N. injection M as <-.
      apply in_modify in Hd. destruct Hd as (d1 & Hd & ->). apply in_modify in Hd. destruct Hd as (d0 & Hd & ->).
      destruct (c_id d0 =? c_id o) eqn:Ed.
      * cbn [clear c_id] in *. destruct (c_id d0 =? i) eqn:Ei; zb; [|cbn; congruence]. congruence.
      * assert (X : c_imsi d0 <> m) by (intros X; zb; apply Ed; apply (i_imsi _ I d0 o); congruence).
        destruct (c_id d0 =? i) eqn:Ei; [|exact X]. zb. exfalso. apply Nd. unfold take. destruct (_ && _); exact Ei.
    + intros j x. exact (merge_nogain j x i (c_id o) s s1 N M).
  - exists (modify i (with_imsi m) s). split; [reflexivity|]. apply W; [exact I| |intros j x H; exact H].
    intros d Hd _. exact (get_by_imsi_none m s V G d Hd).
Qed.

Lemma alloc_inv : forall s, inv s -> inv (fst (alloc s)).
Proof.
  intros s I. unfold alloc. cbn [fst]. destruct I as [I1 I2 I3 I4 I5].
  assert (K : forall x, check_tlli tl_new x = false)
    by (intros x; destruct (check_tlli tl_new x) eqn:X; [apply check_iff in X; cbn in X; intuition congruence|reflexivity]).
  split; cbn [st_list st_next In].
  - intros c d [<-|Hc] [<-|Hd] E; auto; cbn in E; [pose proof (I2 d Hd)|pose proof (I2 c Hc)]; lia.
  - intros c [<-|Hc]; [cbn; lia|]. pose proof (I2 c Hc). lia.
  - intros c d x [<-|Hc] [<-|Hd] Kc Kd; auto; cbn [c_tl] in *; try rewrite K in *; try discriminate. eauto.
  - intros c d [<-|Hc] [<-|Hd] V E; auto; cbn [c_imsi] in *; try congruence.
  - intros c x [<-|Hc] Kc; [cbn [c_tl] in Kc; rewrite K in Kc; discriminate|eauto].
Qed.

Lemma alloc_none : forall s x, (forall d, In d (st_list s) -> check_tlli (c_tl d) x = false) ->
  forall i d, In d (st_list (fst (alloc s))) -> c_id d <> i -> check_tlli (c_tl d) x = false.
Proof.
  intros s x N i d [<-|Hd] _; [|auto]. cbn [c_tl].
  destruct (check_tlli tl_new x) eqn:X; [apply check_iff in X; cbn in X; intuition congruence|reflexivity].
Qed.

Lemma old_unreal : forall two ie, (forall t, ie = Some t -> real t) -> ~ real (old_tlli two ie).
Proof.
  intros two ie R. unfold old_tlli. destruct ie as [t|]; [|unfold real; lia]. destruct two; [|unfold real; lia].
  pose proof (R t eq_refl) as (A & B). unfold real, RES in *. intros (C & D).
  Z.div_mod_to_equations. lia.
Qed.

Lemma dl_inv : forall x old m s, inv s -> real x -> ~ real old ->
  exists s' i, dl_handle x old m s = Some (s', i) /\ inv s'.
Proof.
  intros x old m s I R NR. unfold dl_handle.
  set (fnd := match get_ms x old m s with Some c => _ | None => _ end).
  assert (W : exists s1 i, fnd = Some (s1, i) /\ inv s1 /\
     (forall d, In d (st_list s1) -> c_id d <> i -> check_tlli (c_tl d) x = false)).
  { unfold fnd. clear fnd. destruct (get_ms x old m s) as [c|] eqn:G.
    - assert (Hc : In c (st_list s) /\ forall d, In d (st_list s) -> c_id d <> c_id c -> check_tlli (c_tl d) x = false).
      { unfold get_ms in G. assert (V : (x =? RES) = false) by (apply Z.eqb_neq; apply real_res; exact R).
        rewrite V in G. cbn [negb orb] in G. destruct (find _ (st_list s)) as [c0|] eqn:F.
        - injection G as ->. apply find_some in F. destruct F as (F1 & F2). split; [exact F1|].
          assert (K : check_tlli (c_tl c) x = true).
          { apply orb_prop in F2. destruct F2 as [F2|F2]; [exact F2|]. exfalso. apply NR. exact (i_real _ I c old F1 F2). }
          intros d Hd Nd. destruct (check_tlli (c_tl d) x) eqn:Kd; [|reflexivity]. exfalso. apply Nd.
          exact (i_tlli _ I d c x Hd F1 Kd K).
        - apply get_by_imsi_some in G. destruct G as (_ & Hc & _). split; [exact Hc|]. intros d Hd _.
          pose proof (find_none _ _ F d Hd) as K. cbn beta in K. apply orb_false_iff in K. tauto. }
      destruct Hc as (Hc & Nc).
      destruct ((c_imsi c =? 0) && negb (m =? 0)); [|exists s, (c_id c); auto].
      destruct (get_by_imsi m s) as [o|]; [|exists s, (c_id c); auto].
      destruct (c_id o =? c_id c) eqn:E; [exists s, (c_id c); auto|]. zb.
      destruct (merge (c_id c) (c_id o) s) as [s1|] eqn:M; [|rewrite merge_eq in M by congruence; discriminate].
      exists s1, (c_id c). splits; [reflexivity|apply (merge_inv (c_id c) (c_id o) s s1 I); congruence|].
      apply (merge_nogain (c_id c) x (c_id c) (c_id o) s s1); [congruence|exact M|exact Nc].
    - exists (fst (alloc s)), (snd (alloc s)). splits; [reflexivity|apply alloc_inv; exact I|].
      apply alloc_none. unfold get_ms in G.
      assert (V : (x =? RES) = false) by (apply Z.eqb_neq; apply real_res; exact R).
      rewrite V in G. cbn [negb orb] in G. destruct (find _ (st_list s)) as [c0|] eqn:F; [discriminate|].
      intros d Hd. pose proof (find_none _ _ F d Hd) as K. cbn beta in K. apply orb_false_iff in K. tauto. }
  destruct W as (s1 & i & -> & I1 & N1).
  assert (W2 : exists s2, (if m =? 0 then Some s1 else set_imsi i m s1) = Some s2 /\ inv s2 /\
     (forall d, In d (st_list s2) -> c_id d <> i -> check_tlli (c_tl d) x = false)).
  { destruct (m =? 0) eqn:E; [exists s1; auto|]. zb. destruct (set_imsi_inv i m s1 I1 E) as (s2 & E2 & I2 & G2).
    exists s2. splits; [exact E2|exact I2|]. exact (G2 i x N1). }
  destruct W2 as (s2 & -> & I2 & N2). eexists _, _. split; [reflexivity|].
  exact (set_inv i x (Dl x) s2 I2 eq_refl R N2).
Qed.

Lemma step_inv : forall s o, inv s -> real_op o -> exists s', m_step s o = Some s' /\ inv s'.
Proof.
  intros s o I R. destruct o as [i x|x two ie m|x| |i]; cbn [m_step real_op] in *.
  - apply announce_inv; assumption.
  - destruct R as (R & Ri). destruct (dl_inv x (old_tlli two ie) m s I R (old_unreal two ie Ri)) as (s' & i & -> & I').
    exists s'. split; [reflexivity|exact I'].
  - exists (ul_named x s). split; [reflexivity|]. unfold ul_named.
    destruct (get_ms x RES 0 s) as [c|] eqn:G; [exact I|].
    change (alloc s) with (fst (alloc s), snd (alloc s)).
    apply (set_inv _ x (Ul x)); [apply alloc_inv; exact I|reflexivity|exact R|].
    apply alloc_none. exact (get_ms_none x s (real_res x R) G).
  - eexists. split; [reflexivity|apply alloc_inv; exact I].
  - eexists. split; [reflexivity|]. destruct I as [I1 I2 I3 I4 I5].
    split; cbn [st_list st_next]; intros; repeat match goal with H : In _ (filter _ _) |- _ => apply filter_In in H; destruct H end; eauto.
Qed.

Lemma empty_inv : inv m_empty.
Proof. split; cbn; intros; contradiction. Qed.

Lemma run_inv : forall ops s, inv s -> Forall real_op ops -> exists s', m_run s ops = Some s' /\ inv s'.
Proof.
  induction ops as [|o ops IH]; intros s I F; [exists s; auto|]. inversion F; subst. cbn [m_run].
  destruct (step_inv s o I H1) as (s' & -> & I'). auto.
Qed.

Lemma unique : forall ops, Forall real_op ops -> exists s, m_run m_empty ops = Some s /\
  (forall c d x, In c (st_list s) -> In d (st_list s) ->
     check_tlli (c_tl c) x = true -> check_tlli (c_tl d) x = true -> c = d) /\
  (forall c d, In c (st_list s) -> In d (st_list s) -> c_imsi c <> 0 -> c_imsi c = c_imsi d -> c = d) /\
  (forall c x, In c (st_list s) -> (found s x (c_id c) <-> check_tlli (c_tl c) x = true)).
Proof.
  intros ops F. destruct (run_inv ops m_empty empty_inv F) as (s & E & I). exists s. splits; [exact E| | |].
  - intros c d x Hc Hd Kc Kd. apply (i_ids _ I c d Hc Hd). exact (i_tlli _ I c d x Hc Hd Kc Kd).
  - intros c d Hc Hd V E2. apply (i_ids _ I c d Hc Hd). exact (i_imsi _ I c d Hc Hd V E2).
  - intros c x Hc. exact (found_iff s x c I Hc).
Qed.
