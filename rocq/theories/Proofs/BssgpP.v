(** Proofs about the messages of the SGSN. *)
From Coq Require Import ZArith Lia List Bool.
From Verif Require Import Model.Bssgp Spec.BssgpSpec.
Import ListNotations.
Local Open Scope Z_scope.

(** ** Elements *)
Fixpoint ies_of (l : list elem) : list ie :=
  match l with
  | [] => []
  | e :: l => Ie (e_tag e) (Z.of_nat (length (e_val e))) (e_val e ++ enc l) :: ies_of l
  end.

Lemma skip_app : forall (a b : list Z), skipn (length a) (a ++ b) = b.
Proof. intros a b. rewrite skipn_app, skipn_all, Nat.sub_diag. reflexivity. Qed.

Lemma one_enc : forall e r, elem_ok e -> one_ie (enc_elem e ++ r) = Some (Ie (e_tag e) (Z.of_nat (length (e_val e))) (e_val e ++ r), r).
Proof.
  intros e r (T & V & L). unfold enc_elem. set (n := Z.of_nat (length (e_val e))) in *.
  assert (N : 0 <= n) by (subst n; lia).
  assert (F : (n <=? Z.of_nat (length (e_val e ++ r))) = true) by (apply Z.leb_le; rewrite app_length; subst n; lia).
  assert (K : skipn (Z.to_nat n) (e_val e ++ r) = r) by (subst n; rewrite Nat2Z.id; apply skip_app).
  destruct (e_long e); cbn [app one_ie].
  - assert (D : (128 <=? n / 256) = false) by (apply Z.leb_gt; Z.div_mod_to_equations; lia). rewrite D.
    replace (256 * (n / 256) + n mod 256) with n by (pose proof (Z.div_mod n 256); lia). rewrite F, K. reflexivity.
  - assert (D : (128 <=? 128 + n) = true) by (apply Z.leb_le; lia). rewrite D.
    replace (128 + n - 128) with n by lia. rewrite F, K. reflexivity.
Qed.

Lemma enc_nil : forall e r, enc_elem e ++ r <> [].
Proof. intros e r. unfold enc_elem. destruct (e_long e); discriminate. Qed.
Lemma enc_length : forall e, (2 <= length (enc_elem e))%nat.
Proof. intros e. unfold enc_elem. destruct (e_long e); cbn [length]; lia. Qed.

Lemma parse_n_enc : forall l n, Forall elem_ok l -> (length (enc l) <= n)%nat -> parse_n n (enc l) = Some (ies_of l).
Proof.
  induction l as [|e l IH]; intros n F L; [destruct n; reflexivity|]. inversion F as [|? ? OK F']; subst.
  cbn [enc flat_map ies_of] in *. fold (enc l) in *. rewrite app_length in L. pose proof (enc_length e).
  destruct n as [|n]; [lia|]. cbn [parse_n].
  destruct (enc_elem e ++ enc l) eqn:E; [destruct (enc_nil _ _ E)|]. rewrite <- E, (one_enc _ _ OK), IH; [reflexivity | exact F' | lia].
Qed.
Lemma parse_enc : forall l, Forall elem_ok l -> parse (enc l) = Some (ies_of l).
Proof. intros l F. apply parse_n_enc; [exact F | lia]. Qed.

Lemma look_first : forall tag l,
  match first tag l with
  | None => look tag (ies_of l) = None
  | Some v => exists r, look tag (ies_of l) = Some (Ie tag (Z.of_nat (length v)) (v ++ r)) /\ (Forall elem_ok l -> Forall oct v)
  end.
Proof.
  intros tag l. unfold first. induction l as [|e l IH]; [reflexivity|]. cbn [find ies_of look i_tag]. unfold look. cbn [find i_tag].
  destruct (Z.eqb_spec (e_tag e) tag) as [<-|N].
  - cbn [option_map]. exists (enc l). split; [reflexivity|]. intros F. inversion F as [|? ? OK F']; subst. apply OK.
  - destruct (find (fun x => e_tag x =? tag) l) as [x|]; cbn [option_map] in *; [|exact IH].
    destruct IH as (r & A & B). exists r. split; [exact A|]. intros F. inversion F; subst. auto.
Qed.

Lemma value_ie : forall tag v r, value (Ie tag (Z.of_nat (length v)) (v ++ r)) = v.
Proof. intros. unfold value. cbn. rewrite Nat2Z.id, firstn_app, Nat.sub_diag, firstn_all. cbn. apply app_nil_r. Qed.
Lemma load_app : forall n v r, length v = n -> load n (v ++ r) = Some (number v).
Proof.
  intros n v r L. unfold load. rewrite app_length. destruct (Nat.leb_spec n (length v + length r)); [|lia].
  rewrite <- L, firstn_app, Nat.sub_diag, firstn_all. cbn. rewrite app_nil_r. reflexivity.
Qed.

Lemma oct4_number : forall x, 0 <= x < 4294967296 -> number (oct4 x) = x.
Proof. intros x H. unfold number, oct4. cbn [fold_left]. Z.div_mod_to_equations. lia. Qed.
Lemma oct2_number : forall x, 0 <= x < 65536 -> number (oct2 x) = x.
Proof. intros x H. unfold number, oct2. cbn [fold_left]. Z.div_mod_to_equations. lia. Qed.

(** ** Downlink data *)
Section Rx.
Variables (c : cfg) (k : link) (nsei : Z).
Hypothesis NS : nsei = c_nsei c.
Hypothesis B0 : c_bvci c <> 0.
Hypothesis B1 : c_bvci c <> 1.

Lemma rcv_dl : forall tlli qos l, length qos = 3%nat -> Forall elem_ok l ->
  rcvmsg c k false (c_bvci c) nsei (dl_unitdata tlli qos l) = rx_dl_ud c k (dl_unitdata tlli qos l) (ies_of l).
Proof.
  intros tlli qos l Q F. unfold rcvmsg. unfold dl_unitdata at 1.
  replace (has [STATUS; 112; 113; 114; 115; 116] DL_UNITDATA) with false by reflexivity. cbv iota.
  replace ((DL_UNITDATA =? UL_UNITDATA) || (DL_UNITDATA =? DL_UNITDATA)) with true by reflexivity. cbv iota zeta.
  assert (S8 : skipn 8 (dl_unitdata tlli qos l) = enc l) by (destruct qos as [|a [|b [|d [|]]]]; try discriminate; reflexivity).
  rewrite S8, (parse_enc l F). change (DL_UNITDATA =? BVC_RESET) with false. cbv iota.
  apply Z.eqb_neq in B0. apply Z.eqb_neq in B1. rewrite B0, Z.eqb_refl, NS, Z.eqb_refl, B1. reflexivity.
Qed.

Lemma dl_tlli : forall tlli qos l, 0 <= tlli < 4294967296 -> load 4 (skipn 1 (dl_unitdata tlli qos l)) = Some tlli.
Proof.
  intros tlli qos l H. unfold dl_unitdata. cbn [skipn]. rewrite (load_app 4); [|reflexivity]. rewrite oct4_number; [reflexivity | exact H].
Qed.

Lemma dl_ud : forall tlli qos l old v0, 0 <= tlli < 4294967296 -> length qos = 3%nat -> Forall elem_ok l ->
  (forall v, first IE_LIFETIME l = Some v -> (length v < 256)%nat) -> (forall v, first IE_RAC l = Some v -> (length v < 256)%nat) ->
  (first IE_TLLI l = None /\ old = RESERVED \/
   first IE_TLLI l = Some v0 /\ (2 <= length v0)%nat /\
   old = match first IE_LIFETIME l with Some v => if Nat.eqb (length v) 2 then number (firstn 2 v0) else RESERVED | None => RESERVED end) ->
  rcvmsg c k false (c_bvci c) nsei (dl_unitdata tlli qos l) = Done k [down c tlli old l].
Proof.
  intros tlli qos l old v0 T Q F LT RC O. rewrite (rcv_dl _ _ _ Q F). unfold rx_dl_ud. rewrite (dl_tlli _ _ _ T). unfold down.
  pose proof (look_first IE_LLC l) as LL. destruct (first IE_LLC l) as [llc|]; [destruct LL as (r1 & LL & _)|]; rewrite LL; [|reflexivity].
  cbn [i_len]. unfold LLC_MAX. destruct (1543 <? Z.of_nat (length llc)); [reflexivity|].
  rewrite value_ie.
  assert (G : forall imsi,
    match (match look IE_LIFETIME (ies_of l) with
           | Some e => if (match look IE_LIFETIME (ies_of l) with Some e => i_len e mod 256 | None => 0 end) =? 2 then load 2 (i_at e) else Some 65535
           | None => Some 65535
           end),
          (match look IE_TLLI (ies_of l) with
           | Some e => if (match look IE_LIFETIME (ies_of l) with Some e => i_len e mod 256 | None => 0 end) =? 2 then load 2 (i_at e) else Some RESERVED
           | None => Some RESERVED
           end) with
    | Some life, Some old => Done k [ADown tlli old imsi
         match look IE_RAC (ies_of l) with None => (0, 0) | Some e => c_cls c (firstn (Z.to_nat (i_len e mod 256)) (i_at e)) end life llc]
    | _, _ => Fault
    end = Done k [ADown tlli old imsi (match first IE_RAC l with Some v => c_cls c v | None => (0, 0) end)
            (match first IE_LIFETIME l with Some v => if Nat.eqb (length v) 2 then number v else 65535 | None => 65535 end) llc]).
  { intros imsi.
    assert (RA : match look IE_RAC (ies_of l) with None => (0, 0) | Some e => c_cls c (firstn (Z.to_nat (i_len e mod 256)) (i_at e)) end =
                 match first IE_RAC l with Some v => c_cls c v | None => (0, 0) end).
    { pose proof (look_first IE_RAC l) as X. destruct (first IE_RAC l) as [v|]; [destruct X as (r & X & _)|]; rewrite X; [|reflexivity].
      cbn [i_len i_at]. rewrite Z.mod_small; [|specialize (RC v eq_refl); lia]. f_equal.
      apply (value_ie IE_RAC v r). }
    rewrite RA.
    pose proof (look_first IE_LIFETIME l) as X. pose proof (look_first IE_TLLI l) as Y.
    destruct (first IE_LIFETIME l) as [v|]; [destruct X as (r & X & _)|]; rewrite X.
    - cbn [i_len i_at]. rewrite Z.mod_small; [|specialize (LT v eq_refl); lia].
      assert (E : (Z.of_nat (length v) =? 2) = Nat.eqb (length v) 2).
      { destruct (Nat.eqb_spec (length v) 2) as [->|N]; [reflexivity|]. apply Z.eqb_neq. lia. }
      rewrite E. destruct (Nat.eqb_spec (length v) 2) as [L2|N2].
      + rewrite (load_app 2 v r L2). destruct O as [(FT & ->)|(FT & L0 & ->)]; rewrite FT in Y.
        * rewrite Y. reflexivity.
        * destruct Y as (r' & Y & _). rewrite Y. cbn [i_at].
          rewrite <- (firstn_skipn 2 v0) at 1. rewrite <- app_assoc, (load_app 2); [reflexivity|]. rewrite firstn_length. lia.
      + destruct O as [(FT & ->)|(FT & L0 & ->)]; rewrite FT in Y; [rewrite Y; reflexivity|]. destruct Y as (r' & Y & _). rewrite Y. reflexivity.
    - destruct O as [(FT & ->)|(FT & L0 & ->)]; rewrite FT in Y; [rewrite Y; reflexivity|]. destruct Y as (r' & Y & _). rewrite Y. reflexivity. }
  pose proof (look_first IE_IMSI l) as X. destruct (first IE_IMSI l) as [v|]; [destruct X as (r & X & _)|]; rewrite X.
  - rewrite value_ie. destruct (c_mi c v) as [[n|n|]|]; try reflexivity. exact (G (Some n)).
  - exact (G None).
Qed.

(** ** Paging *)
Lemma rcv_page : forall bvci ty l, Forall elem_ok l -> ty = PAGING_CS \/ ty = PAGING_PS -> bvci = 0 \/ bvci = c_bvci c ->
  rcvmsg c k false bvci nsei (message ty l) = (if ty =? PAGING_CS then rx_paging_cs c k (ies_of l) else rx_paging_ps c k (ies_of l)).
Proof.
  intros bvci ty l F T B. unfold rcvmsg, message. cbv zeta.
  assert (E : (if (ty =? UL_UNITDATA) || (ty =? DL_UNITDATA) then skipn 8 (ty :: enc l) else skipn 1 (ty :: enc l)) = enc l)
    by (destruct T as [-> | ->]; reflexivity).
  rewrite E, (parse_enc l F). clear E. apply Z.eqb_neq in B0. apply Z.eqb_neq in B1.
  destruct T as [-> | ->], B as [-> | ->]; cbn; rewrite ?B0, ?B1, ?NS, ?Z.eqb_refl; reflexivity.
Qed.

Lemma page_cs : forall bvci l imsi v, Forall elem_ok l -> bvci = 0 \/ bvci = c_bvci c ->
  first IE_IMSI l = Some v -> c_mi c v = Some (MImsi imsi) ->
  (forall t, first IE_TMSI l = Some t -> length t = 4%nat) -> (forall t, first IE_TLLI l = Some t -> length t = 4%nat) ->
  (forall t, first IE_CHAN l = Some t -> length t = 1%nat) ->
  rcvmsg c k false bvci nsei (message PAGING_CS l) =
    Done k (map (fun b => APageCs b (match first IE_CHAN l with Some t => number t | None => 0 end) imsi
                           (option_map number (first IE_TMSI l))
                           (match first IE_TLLI l with Some t => number t | None => RESERVED end)) (c_bts c)).
Proof.
  intros bvci l imsi v F B FI MI LT LL LC. rewrite (rcv_page bvci PAGING_CS l F (or_introl eq_refl) B). cbn [Z.eqb PAGING_CS Pos.eqb].
  unfold rx_paging_cs. pose proof (look_first IE_IMSI l) as X. rewrite FI in X. destruct X as (r & X & _). rewrite X, value_ie, MI.
  assert (CH : match look IE_CHAN (ies_of l) with Some e => if 1 <=? i_len e then hd 0 (i_at e) else 0 | None => 0 end =
               match first IE_CHAN l with Some t => number t | None => 0 end).
  { pose proof (look_first IE_CHAN l) as Y. destruct (first IE_CHAN l) as [t|]; [destruct Y as (r2 & Y & _)|]; rewrite Y; [|reflexivity].
    specialize (LC t eq_refl). destruct t as [|x [|]]; try discriminate. reflexivity. }
  rewrite CH. pose proof (look_first IE_TMSI l) as Y. pose proof (look_first IE_TLLI l) as W.
  destruct (first IE_TMSI l) as [t|]; [destruct Y as (r2 & Y & _)|]; rewrite Y.
  - rewrite value_ie. cbn [i_len]. specialize (LT t eq_refl). rewrite LT. cbn [Z.of_nat Pos.of_succ_nat Pos.succ Z.eqb Pos.eqb].
    destruct (first IE_TLLI l) as [w|]; [destruct W as (r3 & W & _)|]; rewrite W; [|reflexivity].
    cbn [i_at]. rewrite (load_app 4 w r3 (LL w eq_refl)). reflexivity.
  - destruct (first IE_TLLI l) as [w|]; [destruct W as (r3 & W & _)|]; rewrite W; [|reflexivity].
    cbn [i_at]. rewrite (load_app 4 w r3 (LL w eq_refl)). reflexivity.
Qed.

Lemma page_ps : forall bvci l imsi v, Forall elem_ok l -> bvci = 0 \/ bvci = c_bvci c ->
  first IE_IMSI l = Some v -> c_mi c v = Some (MImsi imsi) -> (forall t, first IE_TMSI l = Some t -> length t = 4%nat) ->
  rcvmsg c k false bvci nsei (message PAGING_PS l) =
    Done k (map (fun b => APagePs b imsi (match first IE_TMSI l with Some t => MTmsi (number t) | None => MImsi imsi end)) (c_bts c)).
Proof.
  intros bvci l imsi v F B FI MI LT. rewrite (rcv_page bvci PAGING_PS l F (or_intror eq_refl) B). cbn [Z.eqb PAGING_CS PAGING_PS Pos.eqb].
  unfold rx_paging_ps. pose proof (look_first IE_IMSI l) as X. rewrite FI in X. destruct X as (r & X & _). rewrite X, value_ie, MI.
  pose proof (look_first IE_TMSI l) as Y. destruct (first IE_TMSI l) as [t|]; [destruct Y as (r2 & Y & _)|]; rewrite Y; [|reflexivity].
  rewrite value_ie. cbn [i_len]. specialize (LT t eq_refl). rewrite LT. cbn [Z.of_nat Pos.of_succ_nat Pos.succ Z.eqb Pos.eqb].
  reflexivity.
Qed.
End Rx.
