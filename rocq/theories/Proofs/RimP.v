(** RAN information management: single messages. *)
From Coq Require Import ZArith List Bool Lia.
From Verif Require Import Model.NeighCache Model.Nacc Model.Rim Spec.RimSpec Proofs.NeighCacheP.
Import ListNotations.
Open Scope Z_scope.

Lemma cgi_same a b : cgi_eq a b = true <-> a = b.
Proof.
  unfold cgi_eq. rewrite !andb_true_iff, !Z.eqb_eq, Bool.eqb_true_iff. destruct a, b; cbn. split.
  - intros [[[[[-> ->] ->] ->] ->] ->]. reflexivity.
  - intros [= -> -> -> -> -> ->]. repeat split.
Qed.
Lemma cgi_diff a b : cgi_eq a b = false <-> a <> b.
Proof. rewrite <- not_true_iff_false, cgi_same. tauto. Qed.

Lemma chop_one o : whole o -> Forall (fun x => length x = 21%nat) (one (chop o)) /\ concat (one (chop o)) = bare o.
Proof.
  destruct o as [l |]; cbn [chop option_map one whole bare]; intros H.
  - split. { constructor; [| constructor]. rewrite skipn_length. lia. }
    destruct l as [| a [| b l]]; cbn in H; try lia. cbn [skipn concat]. now rewrite app_nil_r.
  - now split.
Qed.
Lemma one_len o : (length (one o) <= 1)%nat. Proof. destruct o; cbn; lia. Qed.
Lemma app_si_good b : whole_cell b ->
  Forall (fun x => length x = 21%nat) (app_si b) /\ (length (app_si b) <= 3)%nat /\ concat (app_si b) = describes b.
Proof.
  intros (A & B & C). destruct (chop_one _ A) as [A1 A2], (chop_one _ B) as [B1 B2], (chop_one _ C) as [C1 C2].
  unfold app_si, describes. repeat split.
  - rewrite !Forall_app. auto.
  - rewrite !app_length. pose proof (one_len (chop (l_si1 b))). pose proof (one_len (chop (l_si3 b))). pose proof (one_len (chop (l_si13 b))). lia.
  - rewrite !concat_app. congruence.
Qed.

Lemma copy_good n : (n <= 22)%nat -> forall si buf, Forall (fun x => length x = n) si -> (length buf + n * length si <= SI_BUF)%nat ->
  copy_si n si buf = Some (buf ++ concat si).
Proof.
  intros Hn. induction si as [| x si IH]; intros buf F L; cbn [copy_si concat].
  - now rewrite app_nil_r.
  - inversion F as [| y k H1 H2 E]; subst y k. cbn [length] in L.
    destruct (Nat.ltb_spec (length x) n); [lia |]. destruct (Nat.ltb_spec SI_BUF (length buf + n)); [nia |].
    rewrite firstn_all2 by lia. rewrite IH; [| assumption |].
    + now rewrite app_assoc.
    + rewrite app_length. nia.
Qed.
Lemma copy_decoded psi si : (length si <= 127)%nat -> Forall (fun x => length x = if psi : bool then 22%nat else 21%nat) si ->
  copy_si (if psi then 22%nat else 21%nat) si [] = Some (concat si).
Proof.
  intros L F. rewrite copy_good with (buf := []); [reflexivity | destruct psi; lia | exact F |].
  unfold SI_BUF. cbn [length]. destruct psi; lia.
Qed.

Lemma cell_found g l : match cell_by_cgi g l with
  | Some b => In b l /\ l_cgi b = g
  | None => ~ exists b, In b l /\ l_cgi b = g
  end.
Proof.
  unfold cell_by_cgi. destruct (find _ l) eqn:E.
  - apply find_some in E. now rewrite cgi_same in E.
  - intros (b & H1 & H2). pose proof (find_none _ _ E b H1) as X. cbv beta in X. rewrite cgi_diff in X. contradiction.
Qed.

Theorem no_crash p r : decoded r -> exists out p', handle_rim p r = Done out p'.
Proof.
  unfold handle_rim, decoded. intros D. destruct (r_dst r); [| eauto]. destruct (cell_by_cgi g (p_cells p)) as [b |]; [| eauto].
  destruct (r_cont r) as [[app h | app err h psi si | | | app x |] |]; eauto.
  - unfold on_request. destruct (negb (app =? APP_NACC)); [eauto |]. destruct (negb (cgi_eq (l_cgi b) h)); eauto.
  - unfold on_info. destruct (negb (app =? APP_NACC)); [eauto |]. destruct err; [eauto |].
    destruct D as [D1 D2]. rewrite (copy_decoded psi si D1 D2). eauto.
  - contradiction.
Qed.

Theorem reactions : forall p r,
  (forall x, r_dst r = OtherNet x -> handle_rim p r = Done [Status UnknownRimApplication] p) /\
  (forall g, r_dst r = Geran g -> ~ serves p g -> handle_rim p r = Done [Status UnknownDestination] p) /\
  (forall g app h, r_dst r = Geran g -> serves p g -> r_cont r = Some (Req app h) -> app <> APP_NACC \/ h <> g ->
     handle_rim p r = Done [Tx (Pdu (r_src r) (r_dst r) (Some (Error APP_NACC (r_raw r))) [])] p) /\
  (forall g, r_dst r = Geran g -> serves p g -> r_cont r = Some (Req APP_NACC g) ->
     exists b si, In b (p_cells p) /\ l_cgi b = g /\
       handle_rim p r = Done [Tx (Pdu (r_src r) (r_dst r) (Some (Info APP_NACC false (p_ident p) false si)) [])] p /\
       (whole_cell b -> Forall (fun x => length x = 21%nat) si /\ concat si = describes b)) /\
  (forall g app err h psi si, r_dst r = Geran g -> serves p g -> r_cont r = Some (Info app err h psi si) ->
     app <> APP_NACC \/ err = true -> handle_rim p r = Done [] p) /\
  (forall g, r_dst r = Geran g -> serves p g ->
     r_cont r = Some AppError \/ r_cont r = Some Acknowledge \/ (exists app x, r_cont r = Some (Error app x)) ->
     handle_rim p r = Done [] p).
Proof.
  intros p r. unfold handle_rim, serves.
  repeat split; intros.
  - now rewrite H.
  - rewrite H. pose proof (cell_found g (p_cells p)) as F. destruct (cell_by_cgi g (p_cells p)); [| reflexivity].
    exfalso. apply H0. eauto.
  - rewrite H, H1. pose proof (cell_found g (p_cells p)) as F. destruct (cell_by_cgi g (p_cells p)) as [b |]; [| contradiction].
    destruct F as [F1 F2]. unfold on_request, error_pdu. destruct (Z.eqb_spec app APP_NACC) as [E | E]; cbn [negb]; [| now rewrite H].
    destruct (cgi_eq (l_cgi b) h) eqn:C; cbn [negb]; [| now rewrite H].
    apply cgi_same in C. exfalso. destruct H2; congruence.
  - rewrite H, H1. pose proof (cell_found g (p_cells p)) as F. destruct (cell_by_cgi g (p_cells p)) as [b |]; [| contradiction].
    destruct F as [F1 F2]. exists b, (app_si b). split; [assumption |]. split; [assumption |]. split.
    + unfold on_request. rewrite Z.eqb_refl, F2. rewrite (proj2 (cgi_same g g) eq_refl). cbn [negb]. unfold response. now rewrite H.
    + intros W. destruct (app_si_good b W) as (A & _ & B). now split.
  - rewrite H, H1. pose proof (cell_found g (p_cells p)) as F. destruct (cell_by_cgi g (p_cells p)) as [b |]; [| contradiction].
    unfold on_info. destruct (Z.eqb_spec app APP_NACC) as [E | E]; cbn [negb]; [| reflexivity].
    destruct H2 as [H2 | ->]; [contradiction | reflexivity].
  - rewrite H. pose proof (cell_found g (p_cells p)) as F. destruct (cell_by_cgi g (p_cells p)) as [b |]; [| contradiction].
    destruct H1 as [-> | [-> | (app & x & ->)]]; reflexivity.
Qed.
