(** Proofs about the routing of uplink blocks: whom a block reaches. *)
From Coq Require Import ZArith Lia List Bool.
From Verif Require Import Base.Arith Model.TbfFsm Spec.TbfFsmSpec Proofs.TbfFsmP Proofs.TbfFsmQ
  Model.TbfSub Spec.TbfSubSpec Proofs.TbfSubP Proofs.TbfSubQ Proofs.TbfSubR Model.Route Spec.RouteSpec
  Proofs.RouteP Proofs.RouteQ Proofs.RouteR Proofs.RouteS.
Import ListNotations.
Open Scope Z_scope.

(** ** Locality *)
Lemma store_in : forall x t s y, In y (s_tbfs s) -> r_id y <> r_id x -> In y (s_tbfs (store x t s)).
Proof.
  intros x t s y I NE. unfold store. assert (E : is_id (r_id x) y = false) by (apply Z.eqb_neq; exact NE).
  destruct (f_dead (t_f t)); cbn [remove set_tbfs s_tbfs].
  - apply filter_In. rewrite E. auto.
  - apply in_map_iff. exists y. rewrite E. auto.
Qed.
Lemma act_in : forall c i o s s' y, act c i o s = Ok s' -> In y (s_tbfs s) -> r_id y <> i -> In y (s_tbfs s').
Proof.
  intros c i o s s' y A I NE. unfold act in A. destruct (get i s) as [x|] eqn:G; [|discriminate].
  destruct (sub_step c (r_t x) o) as [[t l]|]; [|discriminate]. injection A as <-.
  apply store_in; [exact I|]. destruct (get_in _ _ _ G) as [_ E]. congruence.
Qed.
Lemma remove_in : forall i s y, In y (s_tbfs s) -> r_id y <> i -> In y (s_tbfs (remove i s)).
Proof. intros i s y I NE. cbn. apply filter_In. split; [exact I|]. apply Z.eqb_neq in NE. unfold is_id. rewrite NE. reflexivity. Qed.
Lemma remove_cur_in : forall d m s y, In y (s_tbfs s) -> NoDup (map r_id (s_tbfs s)) -> r_ms y <> m -> In y (s_tbfs (remove_cur d m s)).
Proof.
  intros d m s y I N NE. unfold remove_cur. destruct (current d m s) as [z|] eqn:C; [|exact I].
  destruct (current_in _ _ _ _ C) as [J Z0]. destruct (cur_prop _ _ _ Z0) as (_ & E & _).
  apply remove_in; [exact I|]. intros EI. pose proof (in_get s y N I) as G1. pose proof (in_get s z N J) as G2. rewrite EI in G1. congruence.
Qed.

Lemma andthen_ok : forall r k s, andthen r k = Ok s -> exists u, r = Ok u /\ k u = Ok s.
Proof. intros [u| |] k s H; try discriminate. eauto. Qed.

(** A TBF keeps its number and its mobile. *)
Lemma store_ms : forall x t s z, In z (s_tbfs (store x t s)) -> exists y, In y (s_tbfs s) /\ r_id y = r_id z /\ r_ms y = r_ms z.
Proof.
  intros x t s z I. unfold store in I. destruct (f_dead (t_f t)); cbn [remove set_tbfs s_tbfs] in I.
  - apply filter_In in I. exists z. tauto.
  - apply in_map_iff in I. destruct I as (y & <- & I). exists y. split; [exact I|]. destruct (is_id (r_id x) y); auto.
Qed.
Lemma act_ms : forall c i o s s' z, act c i o s = Ok s' -> In z (s_tbfs s') -> exists y, In y (s_tbfs s) /\ r_id y = r_id z /\ r_ms y = r_ms z.
Proof.
  intros c i o s s' y A I. unfold act in A. destruct (get i s) as [x|] eqn:G; [|discriminate].
  destruct (sub_step c (r_t x) o) as [[t l]|]; [|discriminate]. injection A as <-. exact (store_ms _ _ _ _ I).
Qed.
Lemma same_ms : forall s y z, NoDup (map r_id (s_tbfs s)) -> In y (s_tbfs s) -> In z (s_tbfs s) -> r_id y = r_id z -> y = z.
Proof. intros s y z N I J E. pose proof (in_get s y N I) as G1. pose proof (in_get s z N J) as G2. rewrite E in G1. congruence. Qed.

Lemma tell_in : forall c d m o s s' y, NoDup (map r_id (s_tbfs s)) -> tell c d m o s = Ok s' -> In y (s_tbfs s) -> r_ms y <> m -> In y (s_tbfs s').
Proof.
  intros c d m o s s' y N T I NE. unfold tell in T. destruct (current d m s) as [z|] eqn:C; [|injection T as <-; exact I].
  destruct (current_in _ _ _ _ C) as [J Z0]. destruct (cur_prop _ _ _ Z0) as (_ & E & _).
  apply (act_in _ _ _ _ _ _ T I). intros EI. pose proof (same_ms _ _ _ N I J EI). congruence.
Qed.


Section Local.
Variables (c : tconf) (s : rst).
Hypothesis SO : sound c false e0 g0 s.
Variables (fn : Z) (y : rtbf).
Hypothesis IY : In y (s_tbfs s).
Hypothesis NX : ~ expected_from s fn (r_ms y).

Lemma nodup_ids : NoDup (map r_id (s_tbfs s)). Proof. apply SO. Qed.

Lemma not_owner : forall n id x, node_at fn s = Some n -> owner n = Some id -> get id s = Some x ->
  r_id y <> id /\ r_ms x <> r_ms y.
Proof.
  intros n id x N O G. destruct (get_in _ _ _ G) as [I E].
  assert (M : r_ms x <> r_ms y). { intros M. apply NX. exists n, id, x. splits; auto. apply node_at_in. exact N. }
  split; [|exact M]. intros EI. apply M. f_equal. apply (same_ms s); [apply nodup_ids | exact I | exact IY | congruence].
Qed.

Lemma expire_local : forall s', expire c fn s = Ok s' -> In y (s_tbfs s').
Proof.
  intros s' E. unfold expire in E. destruct (node_at fn s) as [n|] eqn:N; [|injection E as <-; exact IY].
  destruct n as [id r | id | id | ]; try (injection E as <-; exact IY).
  - destruct (owner_get _ _ _ _ _ _ _ id SO N eq_refl) as (x & G). destruct (not_owner _ id x N eq_refl G) as (X & _).
    exact (act_in _ _ _ _ _ _ E IY X).
  - destruct (owner_get _ _ _ _ _ _ _ id SO N eq_refl) as (x & G). destruct (not_owner _ id x N eq_refl G) as (X & _).
    exact (act_in _ _ _ _ _ _ E IY X).
Qed.

Lemma rcv_local : forall m s', ~ names s m (r_ms y) -> rcv c fn m s = Ok s' -> In y (s_tbfs s').
Proof.
  intros m s' NN E. destruct m; cbn [rcv names] in *.
  - (* Packet Control Acknowledgement *)
    unfold rcv_ack in E. destruct (node_at fn s) as [n|] eqn:N; [|injection E as <-; exact IY].
    destruct n as [id r | id | id | ]; try (injection E as <-; exact IY).
    2:{ destruct (get id s); [|discriminate]. destruct nacc; injection E as <-; exact IY. }
    destruct (owner_get _ _ _ _ _ _ _ id SO N eq_refl) as (x & G). rewrite G in E.
    destruct (not_owner _ id x N eq_refl G) as (X & M).
    assert (F : forall s', (if negb (awaits r (r_t x)) then Ok s
     else let s := release fn s in
       match r with
       | P_UL_ACK => act c id (SAnswer r false) s
       | P_UL_ASS => andthen (act c id (SAnswer r false) s) (tell c UL (r_ms x) (ack_pacch UL))
       | P_DL_ASS =>
          match current DL (r_ms x) s with
          | None => act c id (SAnswer r false) s
          | Some y => andthen (act c id (SAnswer r (dir_eqb (r_dir x) DL)) s) (act c (r_id y) (ack_pacch DL))
          end
       | P_DL_ACK => Ok s
       end) = Ok s' -> In y (s_tbfs s')).
    2:{ destruct r, (r_dir x); try (exact (F _ E)); discriminate. }
    clear E. intros s2 E. destruct (awaits r (r_t x)) eqn:AW; cbn [negb] in E; [|injection E as <-; exact IY]. cbv zeta in E.
    destruct r.
    + pose proof (act_answer c false (release fn s) id x G P_UL_ASS false (release_poll _ _ _ _ _ _ SO N) AW) as OK.
      apply andthen_ok in E. destruct E as (u & A & T). rewrite A in OK.
      pose proof (act_in _ _ _ _ _ _ A IY X) as IU. refine (tell_in _ _ _ _ _ _ _ _ T IU _); [apply OK | congruence].
    + destruct (current DL (r_ms x) (release fn s)) as [z|] eqn:C; [|exact (act_in _ _ _ _ _ _ E IY X)].
      apply andthen_ok in E. destruct E as (u & A & T). pose proof (act_in _ _ _ _ _ _ A IY X) as IU.
      apply (act_in _ _ _ _ _ _ T IU). rewrite release_cur in C. destruct (current_in _ _ _ _ C) as [J Z0]. destruct (cur_prop _ _ _ Z0) as (_ & E & _).
      intros EI. pose proof (same_ms s _ _ nodup_ids IY J EI). congruence.
    + exact (act_in _ _ _ _ _ _ E IY X).
    + discriminate.
  - unfold rcv_dl_ack in E. destruct (node_at fn s) as [n|] eqn:N; [|injection E as <-; exact IY].
    destruct n as [id r | id | id | ]; try (injection E as <-; exact IY). destruct r; try (injection E as <-; exact IY).
    destruct (owner_get _ _ _ _ _ _ _ id SO N eq_refl) as (x & G). rewrite G in E.
    destruct (not_owner _ id x N eq_refl G) as (X & M).
    destruct (r_dir x); [|discriminate]. destruct (r_tfi x =? tfi); [|injection E as <-; exact IY].
    exact (act_in _ _ _ _ _ _ E IY X).
  - unfold rcv_request in E. destruct (node_at fn s) as [n|] eqn:N; [|injection E as <-; exact IY].
    destruct (ms_of w s) as [k|] eqn:MS; [|injection E as <-; exact IY].
    assert (KY : r_ms y <> k).
    { intros EK. apply NN. unfold ms_of in MS. destruct w as [k'|k'|k'].
      - congruence.
      - destruct (by_tfi DL k' s) as [z|] eqn:B; [|discriminate]. cbn in MS. injection MS as MS.
        apply find_some in B. destruct B as [B1 B2]. destruct (tfi_prop _ _ _ B2). exists z. splits; congruence.
      - destruct (by_tfi UL k' s) as [z|] eqn:B; [|discriminate]. cbn in MS. injection MS as MS.
        apply find_some in B. destruct B as [B1 B2]. destruct (tfi_prop _ _ _ B2). exists z. splits; congruence. }
    destruct n as [id r | id | id | ].
    + destruct (owner_get _ _ _ _ _ _ _ id SO N eq_refl) as (x & G). rewrite G in E.
      destruct (not_owner _ id x N eq_refl G) as (X & M).
      destruct r; try (injection E as <-; exact IY). destruct (r_dir x); [injection E as <-; exact IY|].
      destruct (r_ms x =? k); [|injection E as <-; exact IY]. exact (act_in _ _ _ _ _ _ E IY X).
    + destruct (owner_get _ _ _ _ _ _ _ id SO N eq_refl) as (x & G). rewrite G in E.
      destruct (not_owner _ id x N eq_refl G) as (X & M).
      destruct (r_ms x =? k); injection E as <-; [|exact IY]. exact (remove_in id (release fn s) y IY X).
    + destruct (get id s); [|discriminate]. injection E as <-. exact IY.
    + injection E as <-. apply remove_cur_in; [apply remove_cur_in; [exact IY | exact nodup_ids | exact KY] | | exact KY].
      assert (S1 : sound c false e0 g0 (set_sba (pred (s_sba s)) (release fn s))).
      { apply (sound_eq c false e0 g0 (release fn s)); [reflexivity | reflexivity |]. exact (release_other _ _ _ _ _ SO N Logic.I). }
      pose proof (remove_cur_sound c false e0 g0 UL k _ S1) as S2. apply S2.
  - unfold rcv_meas in E. destruct (node_at fn s) as [n|] eqn:N; [|injection E as <-; exact IY].
    destruct n as [id r | id | id | ]; try (injection E as <-; exact IY).
    destruct (owner_get _ _ _ _ _ _ _ id SO N eq_refl) as (x & G). destruct (not_owner _ id x N eq_refl G) as (X & M).
    exact (act_in _ _ _ _ _ _ E IY X).
  - unfold rcv_cell_change in E. destruct (by_tfi d tfi s) as [z|]; [|injection E as <-; exact IY].
    destruct (node_at fn s) as [n|] eqn:N; [|injection E as <-; exact IY].
    destruct n as [id r | id | id | ]; try (injection E as <-; exact IY).
    destruct (owner_get _ _ _ _ _ _ _ id SO N eq_refl) as (x & G). destruct (not_owner _ id x N eq_refl G) as (X & M).
    exact (act_in _ _ _ _ _ _ E IY X).
  - unfold rcv_data in E. destruct (by_tfi UL tfi s) as [z|] eqn:B; [|injection E as <-; exact IY].
    apply find_some in B. destruct B as [B1 B2]. destruct (tfi_prop _ _ _ B2) as (T1 & T2).
    assert (X : r_id y <> r_id z).
    { intros EI. apply NN. exists z. pose proof (same_ms s _ _ nodup_ids IY B1 EI). subst z. splits; auto. }
    destruct (node_at fn s) as [[id r | id | id | ]|]; try exact (act_in _ _ _ _ _ _ E IY X).
    destruct (id =? r_id z); exact (act_in _ _ _ _ _ _ E IY X).
  - injection E as <-. exact IY.
Qed.
End Local.

(** ** An answer reaches its TBF *)
Lemma act_self : forall c id o s s' x, get id s = Some x -> act c id o s = Ok s' ->
  exists t l, sub_step c (r_t x) o = Some (t, l) /\ s' = store x t s.
Proof.
  intros c id o s s' x G A. unfold act in A. rewrite G in A. destruct (sub_step c (r_t x) o) as [[t l]|]; [|discriminate].
  injection A as <-. eauto.
Qed.
Lemma store_self_in : forall x t s z, In z (s_tbfs (store x t s)) -> r_id z = r_id x -> r_t z = t /\ f_dead (t_f t) = None.
Proof.
  intros x t s z I E. unfold store in I. destruct (f_dead (t_f t)); cbn [remove set_tbfs s_tbfs] in I.
  - apply filter_In in I. destruct I as [_ I]. unfold is_id in I. rewrite E, Z.eqb_refl in I. discriminate.
  - apply in_map_iff in I. destruct I as (y & <- & I). unfold is_id in *. destruct (r_id y =? r_id x) eqn:Q; [auto|].
    apply Z.eqb_neq in Q. contradiction.
Qed.
Lemma store_other_in : forall x t s z, In z (s_tbfs (store x t s)) -> r_id z <> r_id x -> In z (s_tbfs s).
Proof.
  intros x t s z I E. unfold store in I. destruct (f_dead (t_f t)); cbn [remove set_tbfs s_tbfs] in I.
  - apply filter_In in I. tauto.
  - apply in_map_iff in I. destruct I as (y & <- & I). unfold is_id in *. destruct (r_id y =? r_id x) eqn:Q; [|exact I].
    apply Z.eqb_eq in Q. cbn in E. contradiction.
Qed.

Lemma answer_waits : forall c t r nw t' l, alive t -> outstanding r t <> 0%nat -> awaits r t = true ->
  sub_step c t (SAnswer r nw) = Some (t', l) -> waits r t' = false.
Proof.
  intros c t r nw t' l A O W S. unfold sub_step in S. unfold alive in A. rewrite A in S. cbn [sop_step] in S.
  destruct (outstanding r t) as [|k] eqn:OS; [congruence|]. clear O. unfold poll_answer in S. destruct r; cbn [awaits] in W; try discriminate.
  - destruct (t_ua t) eqn:UA; try discriminate. destruct (n_reset_dl _) as [t1|] eqn:N; [|discriminate]. cbn in S. injection S as <- <-.
    assert (E : t_ua t1 = t_ua t).
    { unfold n_reset_dl, n_reset in N. destruct (t_dir _); [destruct (right_dir _ _); [|discriminate]|]; injection N as <-; reflexivity. }
    cbn. unfold ua_ack. rewrite E, UA. unfold ua_none. rewrite E, UA. destruct (t_dir t1); reflexivity.
  - destruct (t_da t) eqn:DA; try discriminate. destruct (n_reset_dl _) as [t1|] eqn:N; [|discriminate]. cbn [option_map] in S.
    assert (E : t_da t1 = t_da t).
    { unfold n_reset_dl, n_reset in N. destruct (t_dir _); [destruct (right_dir _ _); [|discriminate]|]; injection N as <-; reflexivity. }
    assert (E3 : t_da (da_ack t1) = DA_NONE) by (unfold da_ack; rewrite E, DA; reflexivity).
    cbn. destruct (f_st (t_f (da_ack t1))), nw; injection S as <- <-; cbn; rewrite E3; reflexivity.
  - destruct (t_dir t); [discriminate|]. destruct (t_uk t) eqn:UK; try discriminate.
    assert (E : t_uk (uk_ack (less_polls P_UL_ACK t)) = UK_NONE) by (unfold uk_ack; cbn [less_polls set_p t_uk]; rewrite UK; reflexivity).
    destruct (tst_eqb _ _).
    + destruct (life c _ _) as [t1|] eqn:L; [|discriminate]. cbn in S. injection S as <- <-.
      destruct (life_values _ _ _ _ L) as (_ & F & _). cbn. rewrite F, E. reflexivity.
    + injection S as <- <-. cbn. rewrite E. reflexivity.
Qed.
Lemma life_waits : forall c t o t' l r, alive t -> r <> P_DL_ACK -> sub_step c t (SLife o) = Some (t', l) -> waits r t = false -> waits r t' = false.
Proof.
  intros c t o t' l r A NR S W. unfold sub_step in S. unfold alive in A. rewrite A in S. cbn [sop_step] in S.
  destruct (life_ok o); [|injection S as <- <-; exact W].
  destruct (life c o t) as [t1|] eqn:L; [|discriminate]. cbn in S. injection S as <- <-.
  destruct (life_values _ _ _ _ L) as (_ & F & _ & _ & _ & _ & _ & _ & _ & _ & F11 & F12).
  destruct r; cbn in *; try congruence.
  - destruct F11 as [(E & _)|(E & _)]; rewrite E; [exact W | reflexivity].
  - destruct F12 as [E|(_ & E)]; rewrite E; [exact W | reflexivity].
  - rewrite F. exact W.
Qed.

Lemma act_life_waits : forall c i o s s' id r, act c i (SLife o) s = Ok s' -> r <> P_DL_ACK ->
  (forall z, In z (s_tbfs s) -> alive (r_t z)) ->
  (forall z, In z (s_tbfs s) -> r_id z = id -> waits r (r_t z) = false) ->
  (forall z, In z (s_tbfs s') -> r_id z = id -> waits r (r_t z) = false).
Proof.
  intros c i o s s' id r A NR AL H z I E. unfold act in A. destruct (get i s) as [x|] eqn:G; [|discriminate].
  destruct (sub_step c (r_t x) (SLife o)) as [[t l]|] eqn:S; [|discriminate]. injection A as <-.
  destruct (get_in _ _ _ G) as [IX EX]. destruct (Z.eq_dec (r_id z) (r_id x)) as [Q|Q].
  - destruct (store_self_in _ _ _ _ I Q) as (-> & _). apply (life_waits c (r_t x) o t l r); auto. apply H; [exact IX | congruence].
  - apply H; [|exact E]. exact (store_other_in _ _ _ _ I Q).
Qed.

Lemma answer_delivered : forall c s fn id r x nacc s', sound c false e0 g0 s -> polled s fn id r -> get id s = Some x ->
  r <> P_DL_ACK -> waits r (r_t x) = true -> rcv c fn (MAck nacc) s = Ok s' ->
  forall z, In z (s_tbfs s') -> r_id z = id -> waits r (r_t z) = false.
Proof.
  intros c s fn id r x nacc s' SO P G NR W E z I EZ. cbn [rcv] in E. unfold rcv_ack in E.
  assert (N : node_at fn s = Some (NPoll id r)) by (apply in_node_at; [apply SO | exact P]). rewrite N, G in E.
  assert (AW : awaits r (r_t x) = true) by (destruct r; try contradiction; exact W).
  rewrite AW in E. cbn [negb] in E. cbv zeta in E.
  pose proof (release_poll _ _ _ _ _ _ SO N) as S1. assert (G1 : get id (release fn s) = Some x) by exact G.
  pose proof (x_alive c false s id x G _ _ SO) as AL. destruct (debt_out c false _ id x G1 r S1) as (k & OS).
  destruct (get_in _ _ _ G) as [IX EX].
  assert (DONE : forall nw u, act c id (SAnswer r nw) (release fn s) = Ok u ->
    (forall z, In z (s_tbfs u) -> alive (r_t z)) /\ (forall z, In z (s_tbfs u) -> r_id z = id -> waits r (r_t z) = false)).
  { intros nw u A. pose proof (act_answer c false _ id x G1 r nw S1 AW) as OK. rewrite A in OK. split.
    - intros q J. destruct OK as (_ & _ & _ & D). apply (D q J).
    - intros q J EQ. destruct (act_self _ _ _ _ _ _ G1 A) as (t & l & ST & ->).
      destruct (store_self_in _ _ _ _ J) as (-> & _); [congruence|].
      apply (answer_waits c (r_t x) r nw t l AL); auto. rewrite OS. discriminate. }
  destruct r; try contradiction.
  - assert (E2 : andthen (act c id (SAnswer P_UL_ASS false) (release fn s)) (tell c UL (r_ms x) (ack_pacch UL)) = Ok s') by (destruct (r_dir x); exact E).
    apply andthen_ok in E2. destruct E2 as (u & A & T). destruct (DONE _ _ A) as (D1 & D2). unfold tell in T.
    destruct (current UL (r_ms x) u) as [v|]; [|injection T as <-; auto].
    exact (act_life_waits _ _ _ _ _ _ _ T NR D1 D2 z I EZ).
  - assert (E2 : match current DL (r_ms x) (release fn s) with
                 | None => act c id (SAnswer P_DL_ASS false) (release fn s)
                 | Some y => andthen (act c id (SAnswer P_DL_ASS (dir_eqb (r_dir x) DL)) (release fn s)) (act c (r_id y) (ack_pacch DL))
                 end = Ok s') by (destruct (r_dir x); exact E).
    destruct (current DL (r_ms x) (release fn s)) as [v|].
    + apply andthen_ok in E2. destruct E2 as (u & A & T). destruct (DONE _ _ A) as (D1 & D2).
      exact (act_life_waits _ _ _ _ _ _ _ T NR D1 D2 z I EZ).
    + destruct (DONE _ _ E2) as (_ & D2). auto.
  - destruct (r_dir x); [discriminate|]. destruct (DONE _ _ E) as (_ & D2). auto.
Qed.
