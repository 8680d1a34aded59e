(** Proofs about the routing of uplink blocks: every step keeps the books. *)
From Coq Require Import ZArith Lia List Bool.
From Verif Require Import Base.Arith Model.TbfFsm Spec.TbfFsmSpec Proofs.TbfFsmP Proofs.TbfFsmQ
  Model.TbfSub Spec.TbfSubSpec Proofs.TbfSubP Proofs.TbfSubQ Proofs.TbfSubR Model.Route Spec.RouteSpec
  Proofs.RouteP Proofs.RouteQ.
Import ListNotations.
Open Scope Z_scope.

Lemma K_inj : forall t u, K t = K u -> t_dir t = t_dir u /\ t_p t = t_p u /\ t_usf t = t_usf u.
Proof. intros t u E. unfold K in E. injection E. auto. Qed.
Lemma out_p : forall t u r, t_p t = t_p u -> outstanding r t = outstanding r u.
Proof. intros t u r E. unfold outstanding. rewrite E. reflexivity. Qed.
Lemma out_less : forall t r q, outstanding q (less_polls r t) = if reason_eqb r q then pred (outstanding q t) else outstanding q t.
Proof. intros t r q. destruct r, q; reflexivity. Qed.
Lemma out_more : forall t r q, outstanding q (more_polls r t) = if reason_eqb r q then S (outstanding q t) else outstanding q t.
Proof. intros t r q. destruct r, q; reflexivity. Qed.
Lemma less_usf : forall r t, t_usf (less_polls r t) = t_usf t. Proof. intros [] t; reflexivity. Qed.
Lemma more_usf : forall r t, t_usf (more_polls r t) = t_usf t. Proof. intros [] t; reflexivity. Qed.

Definition okay (c : tconf) (b : bool) e g (r : res) : Prop := match r with Ok s => sound c b e g s | _ => False end.

(** ** One operation of one TBF *)
Section Act.
Variables (c : tconf) (b : bool) (s : rst) (id : Z) (x : rtbf).
Hypothesis G : get id s = Some x.

Lemma act_gen : forall e g e' g' o, sound c b e g s ->
  (forall t l, sub_step c (r_t x) o = Some (t, l) ->
    (forall r, outstanding r t + e id r = outstanding r (r_t x) + e' id r)%nat /\
    (t_usf t + g id = t_usf (r_t x) + g' id)%nat) ->
  (forall i, i <> id -> (forall r, e' i r = e i r) /\ g' i = g i) ->
  okay c b e' g' (act c id o s).
Proof.
  intros e g e' g' o SO H N. destruct (get_in _ _ _ G) as [I E]. unfold act. rewrite G.
  destruct SO as (A & B & C & D). destruct (D x I) as (D1 & D2 & _).
  destruct (born_goes c (r_t x) o D1 D2) as (t & l & S). rewrite S. destruct (H t l S) as (H1 & H2).
  cbn [okay]. rewrite <- E in *. eapply store_sound; try eassumption. cut; assumption.
Qed.

Lemma x_alive : forall e g, sound c b e g s -> alive (r_t x).
Proof. intros e g (A & B & C & D). destruct (get_in _ _ _ G) as [I E]. apply (D x I). Qed.

Lemma act_quiet : forall e g o, sound c b e g s -> after o (r_t x) = K (r_t x) -> polling o = None ->
  okay c b e g (act c id o s).
Proof.
  intros e g o SO AF PO. apply (act_gen e g); auto. intros t l S.
  destruct (step_K c (r_t x) o t l (x_alive _ _ SO) S) as [E|(r & P & _)]; [|congruence].
  rewrite AF in E. apply K_inj in E. destruct E as (_ & E1 & E2). split; [intros r; rewrite (out_p _ _ r E1); lia | lia].
Qed.

Lemma act_less : forall r o, sound c b (e1 id r) g0 s -> (after o (r_t x) = K (less_polls r (r_t x))) -> polling o = None ->
  okay c b e0 g0 (act c id o s).
Proof.
  intros r o SO AF PO. apply (act_gen (e1 id r) g0); auto.
  - intros t l S.
    destruct (step_K c (r_t x) o t l (x_alive _ _ SO) S) as [E|(q & P & _)]; [|congruence].
    rewrite AF in E. apply K_inj in E. destruct E as (_ & E1 & E2). rewrite less_usf in E2. split; [|lia].
    intros q. rewrite (out_p _ _ q E1), out_less. unfold e1, e0. rewrite Z.eqb_refl. cbn [andb].
    destruct (reason_eqb r q) eqn:RQ; [|lia]. apply reason_eqb_eq in RQ. subst q.
    destruct SO as (_ & _ & _ & D). destruct (get_in _ _ _ G) as [I EI]. destruct (D x I) as (_ & _ & D3 & _).
    specialize (D3 r). unfold e1 in D3. rewrite EI, Z.eqb_refl in D3. replace (reason_eqb r r) with true in D3 by (destruct r; reflexivity).
    cbn [andb] in D3. unfold leq in D3. destruct b; lia.
  - intros i NE. unfold e1, e0. apply Z.eqb_neq in NE. rewrite NE. split; reflexivity.
Qed.

Lemma debt_out : forall r, sound c b (e1 id r) g0 s -> exists k, outstanding r (r_t x) = S k.
Proof.
  intros r (_ & _ & _ & D). destruct (get_in _ _ _ G) as [I EI]. destruct (D x I) as (_ & _ & D3 & _).
  specialize (D3 r). unfold e1 in D3. rewrite EI, Z.eqb_refl in D3. replace (reason_eqb r r) with true in D3 by (destruct r; reflexivity).
  cbn [andb] in D3. destruct (outstanding r (r_t x)); [unfold leq in D3; destruct b; lia | eauto].
Qed.
Lemma debt_usf : sound c b e0 (g1 id) s -> exists k, t_usf (r_t x) = S k.
Proof.
  intros (_ & _ & _ & D). destruct (get_in _ _ _ G) as [I EI]. destruct (D x I) as (_ & _ & _ & D4).
  unfold g1 in D4. rewrite EI, Z.eqb_refl in D4. destruct (t_usf (r_t x)); [lia | eauto].
Qed.

Lemma act_answer : forall r nw, sound c b (e1 id r) g0 s -> awaits r (r_t x) = true ->
  okay c b e0 g0 (act c id (SAnswer r nw) s).
Proof.
  intros r nw SO A. destruct (debt_out r SO) as (k & E).
  apply (act_less r); auto. cbn [after]. rewrite E, A. reflexivity.
Qed.
Lemma act_unanswered : forall r, sound c b (e1 id r) g0 s -> okay c b e0 g0 (act c id (SUnanswered r) s).
Proof. intros r SO. destruct (debt_out r SO) as (k & E). apply (act_less r); auto. cbn [after]. rewrite E. reflexivity. Qed.
Lemma act_dl_ack : forall f, sound c b (e1 id P_DL_ACK) g0 s -> r_dir x = DL -> okay c b e0 g0 (act c id (SDlAck f) s).
Proof. intros f SO D. apply (act_less P_DL_ACK); auto. cbn [after]. unfold r_dir in D. rewrite D. reflexivity. Qed.
Lemma act_resreq : sound c b (e1 id P_UL_ACK) g0 s -> r_dir x = UL -> okay c b e0 g0 (act c id SResReq s).
Proof.
  intros SO D. destruct (debt_out _ SO) as (k & E). apply (act_less P_UL_ACK); auto. cbn [after]. unfold r_dir in D. rewrite D, E. reflexivity.
Qed.

Lemma act_used : forall o, sound c b e0 (g1 id) s -> after o (r_t x) = K (set_usf (pred (t_usf (r_t x))) (r_t x)) -> polling o = None ->
  okay c b e0 g0 (act c id o s).
Proof.
  intros o SO AF PO. destruct (debt_usf SO) as (k & EK). apply (act_gen e0 (g1 id)); auto.
  - intros t l S.
    destruct (step_K c (r_t x) o t l (x_alive _ _ SO) S) as [E|(q & P & _)]; [|congruence].
    rewrite AF in E. apply K_inj in E. destruct E as (_ & E1 & E2). cbn [set_usf t_p t_usf] in *.
    split; [intros q; rewrite (out_p _ _ q E1); lia|]. unfold g1, g0. rewrite Z.eqb_refl. lia.
  - intros i NE. unfold g1, g0. apply Z.eqb_neq in NE. rewrite NE. split; reflexivity.
Qed.
Lemma act_usf : sound c b e0 g0 s -> r_dir x = UL -> f_st (t_f (r_t x)) = FLOW -> okay c b e0 (g1 id) (act c id SUsf s).
Proof.
  intros SO D F. apply (act_gen e0 g0); auto.
  - intros t l S.
    destruct (step_K c (r_t x) _ t l (x_alive _ _ SO) S) as [E|(q & P & _)]; [|discriminate].
    unfold r_dir in D. cbn [after] in E. rewrite D, F in E.
    apply K_inj in E. destruct E as (_ & E1 & E2). cbn [set_usf t_p t_usf] in *.
    split; [intros q; rewrite (out_p _ _ q E1); lia|]. unfold g1, g0. rewrite Z.eqb_refl. lia.
  - intros i NE. unfold g1, g0. apply Z.eqb_neq in NE. rewrite NE. split; reflexivity.
Qed.
End Act.

Lemma current_in : forall d m s y, current d m s = Some y -> In y (s_tbfs s) /\ is_cur d m y = true.
Proof. intros d m s y H. apply find_some in H. exact H. Qed.
Lemma current_get : forall c b e g d m s y, sound c b e g s -> current d m s = Some y -> get (r_id y) s = Some y.
Proof. intros c b e g d m s y SO C. apply in_get; [apply SO | apply (current_in _ _ _ _ C)]. Qed.
Lemma by_tfi_get : forall c b e g d m s y, sound c b e g s -> by_tfi d m s = Some y -> get (r_id y) s = Some y.
Proof. intros c b e g d m s y SO C. apply in_get; [apply SO | apply (find_some _ _ C)]. Qed.

Definition quiet (o : sop) : Prop := polling o = None /\ forall t, after o t = K t.

Lemma tell_sound : forall c b e g d m o s, sound c b e g s -> quiet o -> okay c b e g (tell c d m o s).
Proof.
  intros c b e g d m o s SO (Q1 & Q2). unfold tell. destruct (current d m s) as [y|] eqn:C; [|exact SO].
  exact (act_quiet c b s (r_id y) y (current_get _ _ _ _ _ _ _ _ SO C) e g o SO (Q2 _) Q1).
Qed.
Lemma ack_quiet : forall d, quiet (ack_pacch d). Proof. intros []; split; reflexivity. Qed.
Lemma life_quiet : forall o, quiet (SLife o). Proof. split; reflexivity. Qed.

Lemma andthen_okay : forall c b e g e' g' r k, okay c b e g r ->
  (forall s, r = Ok s -> sound c b e g s -> okay c b e' g' (k s)) -> okay c b e' g' (andthen r k).
Proof. intros c b e g e' g' [s| |] k X H; [exact (H s eq_refl X) | destruct X | destruct X]. Qed.

Lemma owner_get : forall c b e g s fn n id, sound c b e g s -> node_at fn s = Some n -> owner n = Some id ->
  exists x, get id s = Some x.
Proof.
  intros c b e g s fn n id SO N O. apply node_at_in in N. destruct SO as (A & B & C & D).
  destruct (C fn n id N O) as (x & I & <-). exists x. apply in_get; [apply A | exact I].
Qed.
Lemma release_get : forall id fn s, get id (release fn s) = get id s. Proof. reflexivity. Qed.
Lemma release_cur : forall d m fn s, current d m (release fn s) = current d m s. Proof. reflexivity. Qed.

Lemma poll_dir : forall c b s fn id r x, sound c b e0 g0 s -> node_at fn s = Some (NPoll id r) -> get id s = Some x ->
  match r with P_UL_ACK => r_dir x = UL | P_DL_ACK => r_dir x = DL | _ => True end.
Proof.
  intros c b s fn id r x SO N G. pose proof (release_poll _ _ _ _ _ _ SO N) as S1.
  rewrite <- (release_get id fn) in G. destruct (debt_out c b _ id x G r S1) as (k & E).
  destruct (get_in _ _ _ G) as [I EI]. destruct S1 as (_ & _ & _ & D). destruct (D x I) as (D1 & D2 & _).
  destruct (born_inv _ _ D1 D2) as (_ & (CO & _)). destruct CO as (_ & _ & _ & C4 & _ & C6 & C7 & C8 & _).
  unfold outstanding in E. unfold r_dir. destruct r; auto.
  - apply C7, C6. lia.
  - apply C8. lia.
Qed.

(** A TBF that is its mobile's current downlink TBF, that waits for the answer to an
    assignment of itself, and that the answer ends. *)
Definition self (s : rst) (o : rop) : Prop :=
  exists fn nacc id x, o = RBlock fn (MAck nacc) /\ node_at fn s = Some (NPoll id P_DL_ASS) /\ get id s = Some x /\
    r_dir x = DL /\ r_cur x = true /\ t_da (r_t x) = DA_WAIT /\
    (state (r_t x) = WAIT_RELEASE \/ state (r_t x) = WAIT_REUSE).

Definition kept (c : tconf) (b : bool) (s : rst) (o : rop) (r : res) : Prop :=
  match r with Ok s' => sound c b e0 g0 s' | Halt => False | Fault => self s o end.
Lemma okay_kept : forall c b s o r, okay c b e0 g0 r -> kept c b s o r.
Proof. intros c b s o [s'| |] H; [exact H | destruct H | destruct H]. Qed.

Lemma store_get : forall x t s i y, get i s = Some y -> i <> r_id x -> get i (store x t s) = Some y.
Proof.
  intros x t s i y G NE. unfold get, store in *. destruct (f_dead (t_f t)); cbn [remove set_tbfs s_tbfs].
  - revert G. induction (s_tbfs s) as [|a l IH]; [discriminate|]. cbn [find filter]. intros G.
    destruct (is_id i a) eqn:IA.
    + injection G as <-. unfold is_id in *. apply Z.eqb_eq in IA. rewrite IA.
      destruct (i =? r_id x) eqn:E; [apply Z.eqb_eq in E; contradiction|]. cbn [negb find]. unfold is_id. rewrite IA, Z.eqb_refl. reflexivity.
    + destruct (is_id (r_id x) a); cbn [negb]; [exact (IH G)|]. cbn [find]. rewrite IA. exact (IH G).
  - revert G. induction (s_tbfs s) as [|a l IH]; [discriminate|]. cbn [find map]. intros G.
    replace (is_id i (if is_id (r_id x) a then with_t t a else a)) with (is_id i a) by (destruct (is_id (r_id x) a); reflexivity).
    destruct (is_id i a) eqn:IA.
    + injection G as <-. unfold is_id in *. apply Z.eqb_eq in IA. rewrite IA.
      destruct (i =? r_id x) eqn:E; [apply Z.eqb_eq in E; contradiction | reflexivity].
    + exact (IH G).
Qed.
Lemma store_get_self : forall x t s, get (r_id x) s = Some x -> f_dead (t_f t) = None -> get (r_id x) (store x t s) = Some (with_t t x).
Proof.
  intros x t s G D. unfold get, store in *. rewrite D. cbn [set_tbfs s_tbfs].
  revert G. induction (s_tbfs s) as [|a l IH]; [discriminate|]. cbn [find map]. intros G.
  destruct (is_id (r_id x) a) eqn:IA.
  - injection G as ->. unfold is_id. cbn. rewrite Z.eqb_refl. reflexivity.
  - rewrite IA. exact (IH G).
Qed.

Lemma cur_prop : forall d m y, is_cur d m y = true -> r_dir y = d /\ r_ms y = m /\ r_cur y = true.
Proof.
  intros d m y H. unfold is_cur in H. apply andb_true_iff in H. destruct H as [H H3]. apply andb_true_iff in H. destruct H as [H1 H2].
  apply Z.eqb_eq in H2. destruct (r_dir y), d; try discriminate; auto.
Qed.

(** The answer to an assignment ends a TBF only in its last states. *)
Lemma answer_dead : forall c t nw t' l, alive t -> sub_step c t (SAnswer P_DL_ASS nw) = Some (t', l) -> f_dead (t_f t') <> None ->
  state t = WAIT_RELEASE \/ state t = WAIT_REUSE.
Proof.
  intros c t nw t' l A S D. unfold sub_step in S. unfold alive in A. rewrite A in S. cbn [sop_step] in S.
  destruct (outstanding P_DL_ASS t); [injection S as <- <-; congruence|].
  unfold poll_answer in S. destruct (t_da t) eqn:DA; try (injection S as <- <-; congruence).
  destruct (n_reset_dl (less_polls P_DL_ASS t)) as [t1|] eqn:N; [|discriminate]. cbn [option_map] in S.
  assert (E1 : t_f t1 = t_f t /\ t_da t1 = t_da t).
  { unfold n_reset_dl, n_reset in N. destruct (t_dir _); [destruct (right_dir _ _); [|discriminate]|]; injection N as <-; split; reflexivity. }
  destruct E1 as (E1 & E2).
  assert (E3 : t_f (da_ack t1) = t_f t) by (unfold da_ack; rewrite E2, DA; exact E1).
  unfold state. rewrite E3 in S. destruct (f_st (t_f t)), nw; auto; injection S as <- <-; rewrite E3 in D; congruence.
Qed.

Lemma rcv_ack_kept : forall c b fn nacc s, sound c b e0 g0 s -> kept c b s (RBlock fn (MAck nacc)) (rcv_ack c fn nacc s).
Proof.
  intros c b fn nacc s SO. unfold rcv_ack. destruct (node_at fn s) as [n|] eqn:N; [|exact SO].
  destruct n as [id r | id | id | ]; try exact SO.
  2:{ destruct (owner_get _ _ _ _ _ _ _ id SO N eq_refl) as (x & G). rewrite G.
      destruct nacc; [exact (release_other _ _ _ _ _ SO N Logic.I) | exact SO]. }
  destruct (owner_get _ _ _ _ _ _ _ id SO N eq_refl) as (x & G). rewrite G.
  pose proof (poll_dir _ _ _ _ _ _ _ SO N G) as PD. pose proof (release_poll _ _ _ _ _ _ SO N) as S1.
  assert (X : kept c b s (RBlock fn (MAck nacc))
    (if negb (awaits r (r_t x)) then Ok s
     else let s := release fn s in
       match r with
       | P_UL_ACK => act c id (SAnswer r false) s
       | P_UL_ASS => andthen (act c id (SAnswer r false) s) (tell c UL (r_ms x) (ack_pacch UL))
       | P_DL_ASS =>
          match current DL (r_ms x) s with
          | None => act c id (SAnswer r false) s
          | Some y => andthen (act c id (SAnswer r (dir_eqb (r_dir x) DL)) s) (act c (r_id y) (ack_pacch DL))
          end
       | P_DL_ACK => Ok s
       end)).
  2:{ destruct r; try exact X. cbn in PD. rewrite PD. exact X. }
  clear PD. destruct (awaits r (r_t x)) eqn:AW; cbn [negb]; [|exact SO]. cbv zeta.
  assert (G1 : get id (release fn s) = Some x) by exact G.
  destruct r.
  - apply okay_kept. eapply andthen_okay; [exact (act_answer c b _ id x G1 _ _ S1 AW)|].
    intros s' _ S2. apply tell_sound; [exact S2 | apply ack_quiet].
  - rewrite release_cur. destruct (current DL (r_ms x) s) as [y|] eqn:CU.
    2:{ apply okay_kept. exact (act_answer c b _ id x G1 _ _ S1 AW). }
    pose proof (current_get _ _ _ _ _ _ _ _ SO CU) as GY. destruct (current_in _ _ _ _ CU) as [IY CY].
    pose proof (act_answer c b _ id x G1 P_DL_ASS (dir_eqb (r_dir x) DL) S1 AW) as OK.
    destruct (get_in _ _ _ G1) as [IX EX].
    unfold act at 1. unfold act in OK. rewrite G1 in *.
    destruct (sub_step c (r_t x) (SAnswer P_DL_ASS (dir_eqb (r_dir x) DL))) as [[t l]|] eqn:ST; [|destruct OK].
    cbn [andthen okay] in *. cbn in EX.
    assert (Y : (exists z, get (r_id y) (store x t (release fn s)) = Some z) \/ (r_id y = id /\ f_dead (t_f t) <> None)).
    { destruct (Z.eq_dec (r_id y) (r_id x)) as [EQ|NE].
      - destruct (f_dead (t_f t)) eqn:FD; [right; split; congruence|]. left. rewrite EQ. exists (with_t t x).
        apply store_get_self; [rewrite EX; exact G1 | exact FD].
      - left. exists y. apply store_get; [exact GY | exact NE]. }
    destruct Y as [(z & GZ)|(EQ & FD)].
    + apply okay_kept. destruct (ack_quiet DL) as (Q1 & Q2). exact (act_quiet c b _ _ _ GZ e0 g0 _ OK (Q2 _) Q1).
    + assert (y = x) by congruence. subst y.
      pose proof (x_alive c b _ _ _ G1 _ _ S1) as AL.
      pose proof (answer_dead _ _ _ _ _ AL ST FD) as AD.
      assert (Z : self s (RBlock fn (MAck nacc))).
      { destruct (cur_prop _ _ _ CY) as (C1 & C2 & C3). exists fn, nacc, id, x. cut; auto.
        unfold awaits in AW. destruct (t_da (r_t x)); congruence. }
      rewrite EQ. unfold act. destruct (get id (store x t (release fn s))) as [z|] eqn:GZ; [|exact Z].
      exfalso. apply get_in in GZ. destruct GZ as [I E]. unfold store in I. destruct (f_dead (t_f t)); [|congruence].
      cbn in I. apply filter_In in I. destruct I as [_ I]. unfold is_id in I. rewrite E, EX, Z.eqb_refl in I. discriminate.
  - apply okay_kept. exact (act_answer c b _ id x G1 _ _ S1 AW).
  - discriminate.
Qed.

Lemma rcv_dl_ack_kept : forall c b fn tfi f s, sound c b e0 g0 s -> okay c b e0 g0 (rcv_dl_ack c fn tfi f s).
Proof.
  intros c b fn tfi f s SO. unfold rcv_dl_ack. destruct (node_at fn s) as [n|] eqn:N; [|exact SO].
  destruct n as [id r | id | id | ]; try exact SO. destruct r; try exact SO.
  destruct (owner_get _ _ _ _ _ _ _ id SO N eq_refl) as (x & G). rewrite G.
  pose proof (poll_dir _ _ _ _ _ _ _ SO N G) as PD. cbn in PD. rewrite PD.
  destruct (r_tfi x =? tfi); [|exact SO].
  exact (act_dl_ack c b (release fn s) id x G f (release_poll _ _ _ _ _ _ SO N) PD).
Qed.

Lemma remove_none : forall c b e g e' g' id s, sound c b e g s ->
  (forall i, i <> id -> (forall r, e' i r = e i r) /\ g' i = g i) -> sound c b e' g' (remove id s).
Proof.
  intros c b e g e' g' id s SO H. apply (sound_debt c b e g); [|apply remove_sound; exact SO].
  intros x I. cbn in I. apply filter_In in I. destruct I as [_ I]. unfold is_id in I. apply negb_true_iff, Z.eqb_neq in I. apply H. exact I.
Qed.
Lemma remove_cur_sound : forall c b e g d m s, sound c b e g s -> sound c b e g (remove_cur d m s).
Proof. intros c b e g d m s SO. unfold remove_cur. destruct (current d m s); [apply remove_sound|]; exact SO. Qed.

Lemma rcv_request_kept : forall c b fn w s, sound c b e0 g0 s -> okay c b e0 g0 (rcv_request c fn w s).
Proof.
  intros c b fn w s SO. unfold rcv_request. destruct (node_at fn s) as [n|] eqn:N; [|exact SO].
  destruct (ms_of w s) as [m|]; [|exact SO]. destruct n as [id r | id | id | ].
  - destruct (owner_get _ _ _ _ _ _ _ id SO N eq_refl) as (x & G). rewrite G.
    destruct r; try exact SO. destruct (r_dir x) eqn:D; [exact SO|]. destruct (r_ms x =? m); [|exact SO].
    exact (act_resreq c b (release fn s) id x G (release_poll _ _ _ _ _ _ SO N) D).
  - destruct (owner_get _ _ _ _ _ _ _ id SO N eq_refl) as (x & G). rewrite G.
    destruct (r_ms x =? m); [|exact SO]. cbn [okay].
    apply (remove_none c b e0 (g1 id)); [exact (release_usf _ _ _ _ _ SO N)|].
    intros i NE. unfold g1, g0. apply Z.eqb_neq in NE. rewrite NE. split; reflexivity.
  - destruct (owner_get _ _ _ _ _ _ _ id SO N eq_refl) as (x & G). rewrite G. exact SO.
  - cbn [okay]. apply remove_cur_sound, remove_cur_sound.
    apply (sound_eq c b e0 g0 (release fn s)); [reflexivity | reflexivity |]. exact (release_other _ _ _ _ _ SO N Logic.I).
Qed.

Lemma rcv_meas_kept : forall c b fn s, sound c b e0 g0 s -> (b = true -> taken s (RBlock fn MMeas) = false) ->
  okay c b e0 g0 (rcv_meas c fn s).
Proof.
  intros c b fn s SO T. unfold rcv_meas, taken in *. destruct (node_at fn s) as [n|] eqn:N; [|exact SO].
  destruct n as [id r | id | id | ].
  - cbn [okay]. apply (release_other _ _ _ _ _ SO N). destruct b; [specialize (T eq_refl); discriminate | reflexivity].
  - destruct (owner_get _ _ _ _ _ _ _ id SO N eq_refl) as (x & G).
    exact (act_used c b (release fn s) id x G SUsfUsed (release_usf _ _ _ _ _ SO N) eq_refl eq_refl).
  - exact (release_other _ _ _ _ _ SO N Logic.I).
  - cbn [okay]. apply (sound_eq c b e0 g0 (release fn s)); [reflexivity | reflexivity |]. exact (release_other _ _ _ _ _ SO N Logic.I).
Qed.

Lemma rcv_cell_change_kept : forall c b fn d tfi s, sound c b e0 g0 s ->
  (b = true -> taken s (RBlock fn (MCellChange d tfi)) = false) -> okay c b e0 g0 (rcv_cell_change c fn d tfi s).
Proof.
  intros c b fn d tfi s SO T. unfold rcv_cell_change, taken in *. destruct (by_tfi d tfi s) as [yy|]; [|exact SO].
  destruct (node_at fn s) as [n|] eqn:N; [|rewrite (release_nothing _ _ N); exact SO].
  destruct n as [id r | id | id | ].
  - cbn [okay]. apply (release_other _ _ _ _ _ SO N). destruct b; [specialize (T eq_refl); discriminate | reflexivity].
  - destruct (owner_get _ _ _ _ _ _ _ id SO N eq_refl) as (x & G).
    exact (act_used c b (release fn s) id x G SUsfUsed (release_usf _ _ _ _ _ SO N) eq_refl eq_refl).
  - exact (release_other _ _ _ _ _ SO N Logic.I).
  - exact (release_other _ _ _ _ _ SO N Logic.I).
Qed.

Lemma tfi_prop : forall d k y, is_tfi d k y = true -> r_dir y = d /\ r_tfi y = k.
Proof.
  intros d k y H. unfold is_tfi in H. apply andb_true_iff in H. destruct H as [H H3]. apply andb_true_iff in H. destruct H as [H1 H2].
  apply Z.eqb_eq in H2. destruct (r_dir y), d; try discriminate; auto.
Qed.

Lemma rcv_data_kept : forall c b fn tfi s, sound c b e0 g0 s -> okay c b e0 g0 (rcv_data c fn tfi s).
Proof.
  intros c b fn tfi s SO. unfold rcv_data. destruct (by_tfi UL tfi s) as [y|] eqn:BT; [|exact SO].
  pose proof (by_tfi_get _ _ _ _ _ _ _ _ SO BT) as G. apply find_some in BT. destruct BT as [_ BT].
  destruct (tfi_prop _ _ _ BT) as [D _].
  assert (X : okay c b e0 g0 (act c (r_id y) SUlStray s)) by exact (act_quiet c b s _ _ G _ _ SUlStray SO eq_refl eq_refl).
  destruct (node_at fn s) as [n|] eqn:N; [|exact X]. destruct n as [id r | id | id | ]; try exact X.
  destruct (id =? r_id y) eqn:E; [|exact X]. apply Z.eqb_eq in E. subst id.
  refine (act_used c b (release fn s) _ y G SUlData (release_usf _ _ _ _ _ SO N) _ eq_refl). cbn [after]. unfold r_dir in D. rewrite D. reflexivity.
Qed.

Lemma expire_kept : forall c b fn s, sound c b e0 g0 s -> okay c b e0 g0 (expire c fn s).
Proof.
  intros c b fn s SO. unfold expire. destruct (node_at fn s) as [n|] eqn:N; [|exact SO].
  destruct n as [id r | id | id | ].
  - destruct (owner_get _ _ _ _ _ _ _ id SO N eq_refl) as (x & G).
    exact (act_unanswered c b (release fn s) id x G r (release_poll _ _ _ _ _ _ SO N)).
  - destruct (owner_get _ _ _ _ _ _ _ id SO N eq_refl) as (x & G). pose proof (release_usf _ _ _ _ _ SO N) as S1.
    refine (act_used c b (release fn s) id x G SUsfTimeout S1 _ eq_refl). cbn [after].
    destruct (debt_usf c b (release fn s) id x G S1) as (k & E). rewrite E. reflexivity.
  - exact (release_other _ _ _ _ _ SO N Logic.I).
  - cbn [okay]. apply (sound_eq c b e0 g0 (release fn s)); [reflexivity | reflexivity |]. exact (release_other _ _ _ _ _ SO N Logic.I).
Qed.
