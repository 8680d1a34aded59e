(** Frames of a mobile through the uplink window and the parser. *)
From Coq Require Import ZArith List Bool Lia.
From Verif Require Import Base.Arith Model.Segment Model.RlcWindow Model.RlcWindowUl Model.UlParse Model.TbfUlWindow Model.UlFrames
  Spec.SegSpec Spec.UlParseSpec Spec.UlWindowSpec Spec.UlFramesSpec Proofs.UlParseP Proofs.UlWindowP Proofs.UlWindowI Proofs.UlWindowProps.
Import ListNotations.
Local Open Scope Z_scope.

(** ** Length octets *)
Lemma gli_f n m e : 0 <= n < 64 -> (gli n m e / 4) mod 64 = n /\ (gli n m e mod 2 =? 1) = e /\ ((gli n m e / 2) mod 2 =? 1) = m.
Proof.
  intros R. unfold gli. destruct m, e; cbn [Z.b2z]; repeat split; try apply Z.eqb_eq; try apply Z.eqb_neq;
  Z.div_mod_to_equations; lia.
Qed.
Lemma eli_f n e : 0 <= n < 128 -> (eli n e / 2) mod 128 = n /\ (eli n e mod 2 =? 1) = e.
Proof.
  intros R. unfold eli. destruct e; cbn [Z.b2z]; repeat split; try apply Z.eqb_eq; try apply Z.eqb_neq;
  Z.div_mod_to_equations; lia.
Qed.

Definition chs (ends : list (list Z)) (e : ending) (last : bool) : list chunk :=
  map (fun p => mk_chunk 0 (num p) true) ends ++ match e with Open _ | Zero _ => [mk_chunk 0 LENGTH_TO_END last] | Fill _ => [] end.
Lemma chs_cons p r e last : chs (p :: r) e last = mk_chunk 0 (num p) true :: chs r e last.
Proof. reflexivity. Qed.
Lemma num1 {A} (acc : list A) c : num (acc ++ [c]) = num acc + 1.
Proof. rewrite num_app. reflexivity. Qed.

Lemma gprs_pos p r e : 1 <= num (gprs_lis (p :: r) e).
Proof. cbn [gprs_lis]. destruct r as [|q r]; [destruct e|]; rewrite num_cons; match goal with |- _ <= 1 + num ?l => pose proof (num_pos l) end; lia. Qed.
Lemma egprs_pos p r e : 1 <= num (egprs_lis (p :: r) e).
Proof. cbn [egprs_lis]. destruct r as [|q r]; [destruct e|]; rewrite num_cons; match goal with |- _ <= 1 + num ?l => pose proof (num_pos l) end; lia. Qed.
Lemma ext_g_enc last e dlen X : forall ends offs acc, ending_ok false ends e -> Forall (fun p => 1 <= num p < 64) ends ->
  num acc + num ends <= 15 -> offs + num (gprs_lis ends e) <= dlen ->
  ext_gprs (gprs_lis ends e ++ X) dlen offs last (Some 16) acc = XOk (acc ++ chs ends e last) (offs + num (gprs_lis ends e)).
Proof.
  induction ends as [|p r IH]; intros offs acc EO FA NA NL.
  - destruct e as [d|d|d]; cbn [ending_ok] in EO; try congruence. cbn [gprs_lis app ext_gprs] in *.
    change (num [gli 0 false true]) with 1 in *. destruct (offs >? dlen) eqn:G; [apply Z.gtb_lt in G; lia|].
    destruct (gli_f 0 false true ltac:(lia)) as (E1 & E2 & E3). rewrite E1, E2, E3. cbn [Z.eqb orb negb andb].
    rewrite num_nil in NA. destruct (num acc =? 16) eqn:A; [apply Z.eqb_eq in A; lia|]. reflexivity.
  - inversion FA as [|? ? FP FR]; subst. rewrite num_cons in NA. pose proof (num_pos r) as NR.
    assert (STEP : forall m ee, ext_gprs (gli (num p) m ee :: gprs_lis r e ++ X) dlen offs last (Some 16) acc =
      if negb m && negb ee then XOk [] (offs + 1) else
      if ee && m then XOk ((acc ++ [mk_chunk 0 (num p) true]) ++ [mk_chunk 0 LENGTH_TO_END last]) (offs + 1)
      else if ee then XOk (acc ++ [mk_chunk 0 (num p) true]) (offs + 1)
      else ext_gprs (gprs_lis r e ++ X) dlen (offs + 1) last (Some 16) (acc ++ [mk_chunk 0 (num p) true])).
    { intros m ee. cbn [ext_gprs]. destruct (gli_f (num p) m ee ltac:(lia)) as (E1 & E2 & E3). rewrite E1, E2, E3.
      destruct (offs >? dlen) eqn:G.
      { apply Z.gtb_lt in G. pose proof (gprs_pos p r e). lia. }
      destruct (num p =? 0) eqn:Z0; [apply Z.eqb_eq in Z0; lia|]. cbn [orb negb andb].
      destruct (negb m && negb ee); [reflexivity|].
      destruct (num acc =? 16) eqn:A; [apply Z.eqb_eq in A; lia|].
      destruct (num (acc ++ [mk_chunk 0 (num p) true]) =? 16) eqn:A2; [rewrite num1 in A2; apply Z.eqb_eq in A2; lia|]. reflexivity. }
    assert (REC : (r <> [] \/ exists d, e = Zero d) ->
      offs + num (gli (num p) true false :: gprs_lis r e) <= dlen ->
      ext_gprs ((gli (num p) true false :: gprs_lis r e) ++ X) dlen offs last (Some 16) acc =
      XOk (acc ++ chs (p :: r) e last) (offs + num (gli (num p) true false :: gprs_lis r e))).
    { intros C L. cbn [app]. rewrite STEP. cbn [negb andb]. rewrite num_cons in *. rewrite IH.
      - rewrite <- app_assoc, chs_cons. cbn [app]. f_equal. lia.
      - destruct e as [d|d|d]; cbn [ending_ok] in *; try reflexivity; destruct C as [C|(d' & C)]; congruence.
      - exact FR.
      - rewrite num1. lia.
      - lia. }
    cbn [gprs_lis] in *. destruct r as [|q r'].
    + destruct e as [d|d|d].
      * change (([gli (num p) true true]) ++ X) with (gli (num p) true true :: X). specialize (STEP true true). cbn [gprs_lis app] in STEP. rewrite STEP. cbn [negb andb]. rewrite <- app_assoc. reflexivity.
      * change (([gli (num p) false true]) ++ X) with (gli (num p) false true :: X). specialize (STEP false true). cbn [gprs_lis app] in STEP. rewrite STEP. cbn [negb andb]. reflexivity.
      * apply REC; [right; eauto|exact NL].
    + apply REC; [left; discriminate|exact NL].
Qed.

Definition e_lens (acc : list chunk) (ends : list (list Z)) : Prop :=
  match ends with
  | [] => True
  | p :: r => (acc = [] \/ 1 <= num p) /\ 0 <= num p < 127 /\ Forall (fun q => 1 <= num q < 127) r
  end.
Lemma ext_e_enc last e dlen X : forall ends offs acc, (forall d, e <> Zero d) -> (ends = [] -> acc <> [] /\ exists d, e = Fill d) ->
  e_lens acc ends ->
  num acc + num ends <= 15 -> offs + num (egprs_lis ends e) <= dlen ->
  ext_egprs (egprs_lis ends e ++ X) dlen offs last (Some 16) acc = XOk (acc ++ chs ends e last) (offs + num (egprs_lis ends e)).
Proof.
  induction ends as [|p r IH]; intros offs acc NZ EO FA NA NL.
  - destruct (EO eq_refl) as (AN & d & ->). cbn [egprs_lis app ext_egprs].
    change (num [eli 127 true]) with 1 in *. destruct (offs >? dlen) eqn:G; [apply Z.gtb_lt in G; change (num (egprs_lis [] (Fill d))) with 1 in NL; lia|].
    destruct (eli_f 127 true ltac:(lia)) as (E1 & E2). rewrite E1, E2. cbn [Z.eqb andb].
    rewrite num_nil in NA. destruct (num acc =? 16) eqn:A; [apply Z.eqb_eq in A; lia|].
    change (127 =? 0) with false. change (127 =? 127) with true. cbn [andb]. cbv iota. unfold chs. cbn [map app]. rewrite app_nil_r. reflexivity.
  - cbn [e_lens] in FA. destruct FA as (FP & FQ & FR). rewrite num_cons in NA. pose proof (num_pos r) as NR.
    assert (STEP : forall ee, ext_egprs (eli (num p) ee :: egprs_lis r e ++ X) dlen offs last (Some 16) acc =
      if ee then XOk ((acc ++ [mk_chunk 0 (num p) true]) ++ [mk_chunk 0 LENGTH_TO_END last]) (offs + 1)
      else ext_egprs (egprs_lis r e ++ X) dlen (offs + 1) last (Some 16) (acc ++ [mk_chunk 0 (num p) true])).
    { intros ee. cbn [ext_egprs]. destruct (eli_f (num p) ee ltac:(lia)) as (E1 & E2). rewrite E1, E2.
      destruct (offs >? dlen) eqn:G.
      { apply Z.gtb_lt in G. pose proof (egprs_pos p r e). lia. }
      destruct (num acc =? 16) eqn:A; [apply Z.eqb_eq in A; lia|].
      assert (N2 : forall c, num (acc ++ [c]) =? 16 = false) by (intros c; rewrite num1; apply Z.eqb_neq; lia).
      rewrite !N2.
      destruct ((num p =? 0) && (num acc =? 0)) eqn:Z0.
      { apply andb_prop in Z0. destruct Z0 as [Z0 _]. apply Z.eqb_eq in Z0. rewrite Z0. reflexivity. }
      destruct ((num p =? 127) && ee) eqn:Z1.
      { apply andb_prop in Z1. destruct Z1 as [Z1 _]. apply Z.eqb_eq in Z1. lia. }
      destruct (0 <? num p) eqn:Z2; [reflexivity|]. apply Z.ltb_ge in Z2. exfalso.
      assert (num p = 0) as Q by lia. rewrite Q in Z0. destruct FP as [->|FP]; [discriminate|lia]. }
    assert (REC : (r <> [] \/ exists d, e = Fill d) ->
      offs + num (eli (num p) false :: egprs_lis r e) <= dlen ->
      ext_egprs ((eli (num p) false :: egprs_lis r e) ++ X) dlen offs last (Some 16) acc =
      XOk (acc ++ chs (p :: r) e last) (offs + num (eli (num p) false :: egprs_lis r e))).
    { intros C L. cbn [app]. rewrite STEP. rewrite num_cons in *. rewrite IH.
      - rewrite <- app_assoc, chs_cons. cbn [app]. f_equal. lia.
      - exact NZ.
      - intros ->. split; [intros Q; apply app_eq_nil in Q; destruct Q; discriminate|]. destruct C as [C|C]; [congruence|exact C].
      - destruct r as [|q r']; [exact I|]. inversion FR; subst. cbn [e_lens]. split; [right; lia|]. split; [lia|assumption].
      - rewrite num1. lia.
      - lia. }
    cbn [egprs_lis] in *. destruct r as [|q r'].
    + destruct e as [d|d|d].
      * change (([eli (num p) true]) ++ X) with (eli (num p) true :: X). specialize (STEP true). cbn [egprs_lis app] in STEP. rewrite STEP. rewrite <- app_assoc. reflexivity.
      * apply REC; [right; eauto|exact NL].
      * exfalso. exact (NZ d eq_refl).
    + apply REC; [left; discriminate|exact NL].
Qed.

(** ** Placing and eating the chunks *)
Lemma place_enc last e dlen : forall ends offs acc, dlen <= 255 -> 0 <= offs -> Forall (fun p => num p < 127) ends ->
  offs + num (concat ends) + num (rest_of e) = dlen -> exists l, place (chs ends e last) offs dlen acc = inr l.
Proof.
  induction ends as [|p r IH]; intros offs acc D O F L.
  - cbn [concat] in L. rewrite num_nil in L. pose proof (num_pos (rest_of e)) as NP. unfold chs. cbn [map app].
    assert (P : exists l, place [mk_chunk 0 LENGTH_TO_END last] offs dlen acc = inr l).
    { cbn [place c_len c_done]. change (LENGTH_TO_END =? LENGTH_TO_END) with true. cbn [andb]. cbv iota.
      destruct (offs =? dlen) eqn:E; [eexists; reflexivity|]. apply Z.eqb_neq in E. rewrite Z.mod_small by lia.
      destruct (_ >? _) eqn:G; [apply Z.gtb_lt in G; lia|]. eexists; reflexivity. }
    destruct e; [exact P|cbn [place]; eexists; reflexivity|exact P].
  - inversion F as [|? ? F1 F2]; subst. cbn [concat] in *. rewrite num_app in *. rewrite chs_cons. cbn [place c_len c_done].
    pose proof (num_pos p). pose proof (num_pos (concat r)). pose proof (num_pos (rest_of e)).
    replace (num p =? LENGTH_TO_END) with false by (symmetry; apply Z.eqb_neq; unfold LENGTH_TO_END; lia). cbn [andb]. cbv iota zeta.
    rewrite (Z.mod_small (num p)) by lia. destruct (_ >? _) eqn:G; [apply Z.gtb_lt in G; lia|].
    apply IH; auto; lia.
Qed.
Definition pieces_of (last : bool) (ends : list (list Z)) (e : ending) : list (list Z * bool) :=
  map (fun p => (p, true)) ends ++ match e with Open d | Zero d => tail_piece last d | Fill _ => [] end.
Lemma eat_enc last e : forall ends r, Forall (fun p => num p < 127) ends ->
  eat (chs ends e last) (concat ends ++ rest_of e) r = join (pieces_of last ends e) r.
Proof.
  induction ends as [|p ends IH]; intros r F.
  - unfold chs, pieces_of. cbn [map app concat]. destruct e as [d|d|d]; cbn [rest_of]; [|reflexivity|];
    cbn [eat c_len c_done]; change (LENGTH_TO_END =? LENGTH_TO_END) with true; cbv iota zeta;
    destruct d as [|x d]; try reflexivity; cbn [tail_piece join]; destruct last; reflexivity.
  - inversion F as [|? ? F1 F2]; subst. rewrite chs_cons. cbn [eat c_len c_done concat].
    replace (num p =? LENGTH_TO_END) with false by (symmetry; apply Z.eqb_neq; unfold LENGTH_TO_END; lia). cbv iota zeta.
    unfold pieces_of. cbn [map app join]. fold (pieces_of last ends e).
    rewrite <- app_assoc. unfold num. rewrite Nat2Z.id. rewrite firstn_app, firstn_all, Nat.sub_diag, firstn_O, app_nil_r.
    rewrite skipn_app, skipn_all, Nat.sub_diag. cbn [app skipn]. rewrite IH by exact F2. reflexivity.
Qed.

(** ** One block *)
Lemma parts_lens edge b ends e : mblock_ok edge b -> b_body b = Parts ends e -> 
  Forall (fun p => num p < (if edge then 127 else 64)) ends /\ num ends <= 15 /\
  match ends with [] => True | p :: r => (if edge then 0 else 1) <= num p /\ Forall (fun q => 4 <= num q) r end.
Proof.
  intros (BO & _ & LE & _) EB. rewrite EB in BO. destruct BO as [EO PL]. unfold block_octets in LE. rewrite EB in LE.
  rewrite !num_app in LE.
  destruct ends as [|p r]; [split; [constructor|split; [unfold num; cbn; lia|exact I]]|]. destruct PL as [P1 P2].
  assert (SZ : forall l : list (list Z), Forall (fun q => part_len edge false (num q)) l -> 4 * num l <= num (concat l)).
  { induction 1 as [|q l Q _ IH]; [unfold num; cbn; lia|]. cbn [concat]. rewrite num_app, num_cons. unfold part_len in Q. destruct edge; lia. }
  assert (LL : num (p :: r) <= num ((if edge then egprs_lis else gprs_lis) (p :: r) e)).
  { clear. revert p. induction r as [|q r IH]; intros p.
    - destruct edge, e; unfold num; cbn; lia.
    - specialize (IH q). destruct edge; cbn [egprs_lis gprs_lis] in *; rewrite (num_cons p), (num_cons (_ : Z)); lia. }
  specialize (SZ r P2). cbn [concat] in LE. rewrite num_app in LE.
  pose proof (num_pos p). pose proof (num_pos (rest_of e)). pose proof (num_pos (tlli_of b)). rewrite num_cons in *.
  split; [|split].
  - constructor; [unfold part_len in P1; destruct edge; lia|]. eapply Forall_impl; [|exact P2]. cbv beta. intros q Q. unfold part_len in Q. destruct edge; lia.
  - lia.
  - split; [unfold part_len in P1; destruct edge; lia|]. eapply Forall_impl; [|exact P2]. cbv beta. intros q Q. unfold part_len in Q. destruct edge; lia.
Qed.

Definition mem_of (edge : bool) (b : mblock) : ublk := ublk_of (content edge b).
Lemma mb_block_ok edge b : mblock_ok edge b -> block_ok (ub_rdbi (mem_of edge b)) (ub_mem (mem_of edge b)).
Proof. intros (_ & _ & L & O). unfold block_ok, octets. cbn [mem_of ublk_of content ub_rdbi ub_mem uc_info uc_data d_len]. repeat split; try lia. exact O. Qed.

Definition exts (edge : bool) (b : mblock) : xres :=
  match b_body b with
  | Whole _ => XOk [mk_chunk 0 LENGTH_TO_END (b_cv b =? 0)] 0
  | Parts ends e => XOk (chs ends e (b_cv b =? 0)) (num ((if edge then egprs_lis else gprs_lis) ends e))
  end.
Lemma ext_of_mb edge b : mblock_ok edge b -> ext_of edge (ub_rdbi (mem_of edge b)) (ub_mem (mem_of edge b)) = exts edge b.
Proof.
  intros OK. unfold exts. cbn [mem_of ublk_of content ub_rdbi ub_mem uc_info uc_data]. unfold ext_of. cbn [d_e d_len d_cv].
  destruct (b_body b) as [d|ends e] eqn:EB; [reflexivity|].
  destruct (parts_lens edge b ends e OK EB) as (P1 & P2 & P3). pose proof OK as (BO & _ & LE & _). rewrite EB in BO. destruct BO as [EO _].
  unfold block_octets in LE |- *. rewrite EB in LE |- *.
  match goal with |- context [num ?l] => set (dl := num l) in * end.
  assert (DL : num ((if edge then egprs_lis else gprs_lis) ends e) <= dl).
  { unfold dl. rewrite (num_app (_ ends e)). match goal with |- _ <= _ + ?x => assert (0 <= x) by apply num_pos end. lia. }
  clearbody dl. destruct edge.
  - rewrite ext_e_enc; [cbn [app]; f_equal; lia| | | | |].
    + intros d ->. cbn in EO. discriminate.
    + intros ->. destruct e; cbn in EO; congruence.
    + destruct ends as [|p r]; [exact I|]. inversion P1 as [|? ? Q1 Q2]; subst. destruct P3 as [P3 P4]. cbn [e_lens]. split; [left; reflexivity|]. split; [lia|].
      apply Forall_forall. intros q Iq. rewrite Forall_forall in P4, Q2. specialize (P4 q Iq). specialize (Q2 q Iq). cbv beta in *. lia.
    + change (@num chunk []) with 0. lia.
    + lia.
  - rewrite ext_g_enc; [cbn [app]; f_equal; lia| | | |].
    + exact EO.
    + destruct ends as [|p r]; [constructor|]. inversion P1 as [|? ? Q1 Q2]; subst. destruct P3 as [P3 P4]. constructor; [lia|].
      apply Forall_forall. intros q Iq. rewrite Forall_forall in P4, Q2. specialize (P4 q Iq). specialize (Q2 q Iq). cbv beta in *. lia.
    + change (@num chunk []) with 0. lia.
    + lia.
Qed.

Lemma one_block edge b : mblock_ok edge b -> exists l t,
  from_ul_data edge (ub_rdbi (mem_of edge b)) (ub_mem (mem_of edge b)) (Some 16) = POk l t /\
  forall r, take_chunks (ub_mem (mem_of edge b)) l r = join (pieces b) r.
Proof.
  intros OK. pose proof (mb_block_ok edge b OK) as BK. pose proof (ext_of_mb edge b OK) as EX.
  assert (ACC : exists l t, from_ul_data edge (ub_rdbi (mem_of edge b)) (ub_mem (mem_of edge b)) (Some 16) = POk l t).
  { rewrite from16, EX. unfold exts. cbn [mem_of ublk_of content ub_rdbi ub_mem uc_info uc_data].
    pose proof OK as (_ & TL & LE & _).
    set (lis := match b_body b with Whole _ => [] | Parts ends e => (if edge then egprs_lis else gprs_lis) ends e end).
    set (ends0 := match b_body b with Whole _ => [] | Parts ends _ => ends end).
    set (e0 := match b_body b with Whole d => Open d | Parts _ e => e end).
    assert (OB : block_octets edge b = lis ++ tlli_of b ++ concat ends0 ++ rest_of e0).
    { unfold block_octets, lis, ends0, e0. destruct (b_body b); reflexivity. }
    assert (F0 : Forall (fun p => num p < 127) ends0).
    { unfold ends0. destruct (b_body b) as [d|ends e] eqn:EB; [constructor|]. destruct (parts_lens edge b ends e OK EB) as (P1 & _).
      eapply Forall_impl; [|exact P1]. cbv beta. intros q Q. destruct edge; lia. }
    replace (match b_body b with Whole _ => XOk [mk_chunk 0 LENGTH_TO_END (b_cv b =? 0)] 0
      | Parts ends e => XOk (chs ends e (b_cv b =? 0)) (num ((if edge then egprs_lis else gprs_lis) ends e)) end)
      with (XOk (chs ends0 e0 (b_cv b =? 0)) (num lis)) by (unfold ends0, e0, lis; destruct (b_body b); reflexivity).
    clearbody lis ends0 e0. unfold after16. cbn [d_ti d_len d_pi].
    assert (NB : num (block_octets edge b) = num lis + num (tlli_of b) + num (concat ends0) + num (rest_of e0)) by (rewrite OB, !num_app; lia).
    pose proof (num_pos lis). pose proof (num_pos (concat ends0)). pose proof (num_pos (rest_of e0)). 
    unfold tlli_of in *. destruct (b_tlli b) as [t|].
    - assert (NT : num t = 4) by (unfold num; rewrite TL; reflexivity).
      destruct (_ >? _) eqn:G; [apply Z.gtb_lt in G; lia|].
      destruct (tlli_some edge (block_octets edge b) (num lis)) as [tv ->]; [lia|lia|].
      destruct (place_enc (b_cv b =? 0) e0 (num (block_octets edge b)) ends0 (num lis + 4) []) as [l ->]; [lia|lia|exact F0|lia|]. eauto.
    - rewrite num_nil in NB.
      destruct (place_enc (b_cv b =? 0) e0 (num (block_octets edge b)) ends0 (num lis) []) as [l ->]; [lia|lia|exact F0|lia|]. eauto. }
  destruct ACC as (l & t & AC). exists l, t. split; [exact AC|]. intros r.
  destruct (accepted edge _ _ l t BK AC) as (x & o & X1 & _ & _ & _ & _ & _ & _ & _ & _ & _ & X9).
  assert (TB : the_block (ub_rdbi (mem_of edge b)) (ub_mem (mem_of edge b)) = block_octets edge b).
  { unfold the_block. cbn [mem_of ublk_of content ub_rdbi ub_mem uc_info uc_data d_len]. unfold num. rewrite Nat2Z.id. apply firstn_all. }
  rewrite TB in *. change (ub_mem (mem_of edge b)) with (block_octets edge b) in *. rewrite X9. rewrite EX in X1.
  pose proof OK as (_ & TL & _ & _).
  assert (TLN : tlli_len (ub_rdbi (mem_of edge b)) = length (tlli_of b)).
  { unfold tlli_len, tlli_of. cbn [mem_of ublk_of content ub_rdbi uc_info d_ti]. destruct (b_tlli b); [symmetry; exact TL|reflexivity]. }
  rewrite TLN. unfold exts in X1. unfold block_octets, pieces. destruct (b_body b) as [d|ends e] eqn:EB.
  - injection X1 as <- <-. cbn [Z.to_nat Nat.add]. rewrite skipn_app, skipn_all, Nat.sub_diag. cbn [app skipn eat c_len c_done].
    change (LENGTH_TO_END =? LENGTH_TO_END) with true. cbv iota zeta. destruct d as [|y d]; [reflexivity|]. cbn [tail_piece join].
    destruct (b_cv b =? 0); reflexivity.
  - injection X1 as <- <-. unfold num at 1. rewrite Nat2Z.id. rewrite Nat.add_comm, skipn_plus.
    rewrite skipn_app, skipn_all, Nat.sub_diag. cbn [app skipn]. rewrite skipn_app, skipn_all, Nat.sub_diag. cbn [app skipn].
    apply eat_enc. destruct (parts_lens edge b ends e OK EB) as (P1 & _).
    eapply Forall_impl; [|exact P1]. cbv beta. intros q Q. destruct edge; lia.
Qed.

(** ** All blocks *)
Lemma take_mbs edge : forall bs r, Forall (mblock_ok edge) bs ->
  take_blocks (map (mem_of edge) bs) r = join (concat (map pieces bs)) r.
Proof.
  assert (JA : forall a b r, join (a ++ b) r = join b (join a r)).
  { induction a as [|[d x] a IH]; intros b r; [reflexivity|]. cbn [app join]. apply IH. }
  induction bs as [|b bs IH]; intros r F; [reflexivity|]. inversion F as [|? ? F1 F2]; subst. cbn [map take_blocks concat].
  rewrite JA. destruct (one_block edge b F1) as (l & t & A & B).
  unfold chunks_of. change (ub_edge (mem_of edge b)) with edge. rewrite A, B. apply IH. exact F2.
Qed.
Definition bounded (r : rx) : Prop := Forall (fun f => num f <= LLC_MAX_LEN) (fst r ++ [snd r]).
Lemma fits_back mem : forall l r, bounded (take_chunks mem l r) -> fits mem l r /\ bounded r.
Proof.
  induction l as [|c l IH]; intros r B; [split; [exact I|exact B]|]. cbn [take_chunks fits] in *. destruct (IH _ B) as [A1 A2].
  set (r1 := more r (slice mem (c_off c) (c_len c))) in *.
  assert (N1 : num (snd r1) <= LLC_MAX_LEN /\ Forall (fun f => num f <= LLC_MAX_LEN) (fst r)).
  { unfold bounded in A2. destruct (c_done c); unfold finish in A2; cbn [fst snd] in A2; apply Forall_app in A2; destruct A2 as [Q1 Q2].
    - apply Forall_app in Q1. destruct Q1 as [Q1 Q3]. inversion Q3; subst. auto.
    - inversion Q2; subst. auto. }
  destruct N1 as [N1 N2]. split; [split; [exact N1|exact A1]|]. unfold bounded. apply Forall_app. split; [exact N2|].
  constructor; [|constructor]. unfold r1, more in N1. cbn [snd] in N1. rewrite num_app in N1.
  pose proof (num_pos (slice mem (c_off c) (c_len c))). lia.
Qed.
Lemma fit_all_back : forall bs r, bounded (take_blocks bs r) -> fit_all bs r /\ bounded r.
Proof.
  induction bs as [|b bs IH]; intros r B; [split; [exact I|exact B]|]. cbn [take_blocks fit_all] in *. destruct (IH _ B) as [A1 A2].
  destruct (fits_back _ _ _ A2) as [A3 A4]. auto.
Qed.
Lemma take_blocks_app : forall a b r, take_blocks (a ++ b) r = take_blocks b (take_blocks a r).
Proof. induction a as [|x a IH]; intros b r; [reflexivity|]. cbn [app take_blocks]. apply IH. Qed.
Lemma assemble_all_app : forall a b st, assemble_all (a ++ b) st =
  match assemble_all a st with
  | None => None
  | Some (o1, s1) => match assemble_all b s1 with None => None | Some (o2, s2) => Some (o1 ++ o2, s2) end
  end.
Proof.
  induction a as [|x a IH]; intros b st; cbn [app assemble_all].
  - destruct (assemble_all b st) as [[o2 s2]|]; reflexivity.
  - destruct (assemble x st) as [[o1 s1]|]; [|reflexivity]. rewrite IH. destruct (assemble_all a s1) as [[o3 s3]|]; [|reflexivity].
    destruct (assemble_all b s3) as [[o4 s4]|]; [|reflexivity]. rewrite app_assoc. reflexivity.
Qed.
Lemma join_grows : forall ps r, exists x, fst (join ps r) = fst r ++ x.
Proof.
  induction ps as [|[d e] ps IH]; intros r; [exists []; cbn [join]; rewrite app_nil_r; reflexivity|]. cbn [join].
  match goal with |- context [join ps ?q] => destruct (IH q) as [x E]; rewrite E end.
  destruct e; cbn [fst]; [rewrite <- app_assoc; eauto|eauto].
Qed.
Lemma join_app : forall a b r, join (a ++ b) r = join b (join a r).
Proof. induction a as [|[d x] a IH]; intros b r; [reflexivity|]. cbn [app join]. apply IH. Qed.

Section Mobile.
Context (edge : bool) (sns ws n : Z) (blk : Z -> mblock) (F : list (list Z)) (M : mobile edge n blk F).

Lemma blocks_split q : 0 <= q <= n -> exists more, blocks blk n = blocks blk q ++ more.
Proof.
  intros Q. unfold blocks. replace (Z.to_nat n) with (Z.to_nat q + (Z.to_nat n - Z.to_nat q))%nat by lia.
  rewrite seq_app, map_app. eauto.
Qed.
Lemma blocks_ok q : q <= n -> Forall (mblock_ok edge) (blocks blk q).
Proof.
  intros Q. unfold blocks. apply Forall_forall. intros b I. apply in_map_iff in I. destruct I as (k & <- & I). apply in_seq in I.
  apply (mo_ok _ _ _ _ M). lia.
Qed.
Lemma bounded_n : bounded (frames_in blk n).
Proof.
  rewrite (mo_frames _ _ _ _ M). unfold bounded. cbn [fst snd]. apply Forall_app. split; [exact (mo_len _ _ _ _ M)|].
  constructor; [unfold num, LLC_MAX_LEN; cbn; lia|constructor].
Qed.
Lemma frames_q q : q <= n -> frames_in blk q = take_blocks (map (mem_of edge) (blocks blk q)) ([], []).
Proof. intros Q. rewrite take_mbs by (apply blocks_ok; exact Q). reflexivity. Qed.
Lemma assembled q : 0 <= q <= n -> exists m, assemble_all (map (mem_of edge) (blocks blk q)) ullc_reset = Some (fst (frames_in blk q), m) /\
  u_data m = snd (frames_in blk q).
Proof.
  intros Q. destruct (blocks_split q Q) as [more E]. pose proof bounded_n as B. rewrite frames_q in B by lia. rewrite E, map_app, take_blocks_app in B.
  destruct (fit_all_back _ _ B) as [_ B2]. destruct (fit_all_back _ _ B2) as [FA _].
  assert (OK : Forall (fun b => block_ok (ub_rdbi b) (ub_mem b)) (map (mem_of edge) (blocks blk q))).
  { apply Forall_forall. intros b I. apply in_map_iff in I. destruct I as (c & <- & I). apply mb_block_ok.
    pose proof (blocks_ok q ltac:(lia)) as BO. rewrite Forall_forall in BO. auto. }
  assert (L0 : num (u_data ullc_reset) <= LLC_MAX_LEN) by (unfold num, LLC_MAX_LEN; cbn; lia).
  destruct (assemble_all_ok _ OK ullc_reset [] L0) as [A _]. destruct (A FA) as (out & m & X1 & X2 & _).
  rewrite X1. rewrite frames_q by lia. change ([], []) with (@nil (list Z), u_data ullc_reset). rewrite <- X2. exists m. split; reflexivity.
Qed.
Lemma prefix_n q : 0 <= q <= n -> exists rest, F = fst (frames_in blk q) ++ rest.
Proof.
  intros Q. destruct (blocks_split q Q) as [mo E]. pose proof (mo_frames _ _ _ _ M) as FR. unfold frames_in in *. rewrite E, map_app, concat_app, join_app in FR.
  match type of FR with join ?ps ?r = _ => destruct (join_grows ps r) as [x J] end. rewrite FR in J. cbn [fst] in J. eauto.
Qed.

(** Any contents that agree with the mobile's blocks. *)
Definition agrees (f : Z -> ul_content) : Prop := forall i, 0 <= i < n -> f i = content edge (blk i).
Definition fill (c : ul_content) : Z -> ul_content := fun i => if (0 <=? i) && (i <? n) then content edge (blk i) else c.
Lemma fill_agrees c : agrees (fill c).
Proof. intros i R. unfold fill. replace ((0 <=? i) && (i <? n)) with true by lia. reflexivity. Qed.

Lemma from_sent f w Q b : agrees f -> from_mobile edge sns w Q n blk b -> sent_block sns w Q f b.
Proof. intros A (i & R & W & B & C). exists i. split; [exact W|]. split; [exact B|]. intros H. rewrite A by exact R. apply C. exact H. Qed.

Lemma reach_of f o : ul_reach_from sns ws f o -> ul_reach sns ws o.
Proof.
  induction 1 as [P|o rel flow l o' R IH S E|o w o' R IH O E].
  - constructor. exact P.
  - eapply ureach_step; [exact IH| |exact E]. cbn [ul_op_ok]. eapply Forall_impl; [|exact S].
    intros b (i & _ & -> & _). apply Z.mod_pos_bound. pose proof (proj1 (from_inv _ _ _ _ R)) as U. exact (sns_pos sns (j_ok _ _ _ _ _ _ (ui_J _ _ _ U))).
  - eapply ureach_step; eauto.
Qed.
Lemma step_out rel flow l o t' out fin o' : ul_rcv rel flow (u_t o) l = Some (t', out, fin) ->
  uobs_step (URcv rel flow l) o = Some o' -> u_out o' = u_out o ++ out.
Proof.
  intros E U. cbn [uobs_step] in U. rewrite E in U. destruct rel.
  - unfold ul_rcv in E. injection E as <- <- <-. injection U as <-. cbn [u_out]. rewrite app_nil_r. reflexivity.
  - destruct (uobs_loop _ _ _ _ _) as [lg R']. injection U as <-. reflexivity.
Qed.

Lemma transfer_inv o m out : transfer edge sns ws n blk o m out ->
  (forall f, agrees f -> ul_reach_from sns ws f o) /\ assemble_all (map ublk_of (u_out o)) ullc_reset = Some (out, m).
Proof.
  induction 1 as [P|o m out rel flow l o' t' m' new fin T [IH1 IH2] FM RC US|o m out w o' T [IH1 IH2] OK US].
  - split; [intros f _; constructor; exact P|reflexivity].
  - split.
    + intros f A. eapply ufrom_rcv; [exact (IH1 f A)| |exact US]. eapply Forall_impl; [|exact FM]. intros b. apply from_sent. exact A.
    + unfold ul_rcv_llc in RC. destruct (ul_rcv rel flow (u_t o) l) as [[[t1 o1] f1]|] eqn:E; [|discriminate].
      rewrite (step_out _ _ _ _ _ _ _ _ E US), map_app, assemble_all_app, IH2.
      destruct (assemble_all (map ublk_of o1) m) as [[fr m1]|]; [|discriminate]. injection RC as <- <- <- <-. reflexivity.
  - split; [intros f A; eapply ufrom_ws; eauto|].
    cbn [uobs_step] in US. destruct (ul_set_ws (u_t o) w); [|discriminate]. injection US as <-. exact IH2.
Qed.

Definition c0 : ul_content := mk_ulc 0 false (mk_rdbi 0 false false 0 false) [].
Definition c1 : ul_content := mk_ulc 1 false (mk_rdbi 0 false false 0 false) [].
Lemma arrivals o : (forall f, agrees f -> ul_reach_from sns ws f o) -> forall i c far, In (Arr i c far) (u_log o) ->
  0 <= i < n /\ c = content edge (blk i).
Proof.
  intros A i c far I. destruct (from_inv _ _ _ _ (A _ (fill_agrees c0))) as [_ A0]. destruct (from_inv _ _ _ _ (A _ (fill_agrees c1))) as [_ A1].
  pose proof (A0 _ _ _ I) as E0. pose proof (A1 _ _ _ I) as E1. unfold fill in *.
  destruct ((0 <=? i) && (i <? n)) eqn:R; [|subst; discriminate]. split; [lia|exact E0].
Qed.
Lemma q_range o : (forall f, agrees f -> ul_reach_from sns ws f o) -> 0 <= u_Q o <= n.
Proof.
  intros A. pose proof (reach_of _ _ (A _ (fill_agrees c0))) as R. destruct (c05_window _ _ _ R) as (L & Q & _ & _ & _ & ARR).
  split; [lia|]. destruct (Z_le_gt_dec (u_Q o) n) as [Q1|Q1]; [exact Q1|exfalso].
  destruct (nth_error (u_out o) (Z.to_nat (u_Q o - 1))) as [c|] eqn:NE; [|apply nth_error_None in NE; pose proof (mo_n _ _ _ _ M); lia].
  destruct (ARR _ _ NE) as [far I]. destruct (arrivals o A _ _ _ I) as [B _]. pose proof (mo_n _ _ _ _ M). lia.
Qed.
Lemma out_is o : (forall f, agrees f -> ul_reach_from sns ws f o) -> map ublk_of (u_out o) = map (mem_of edge) (blocks blk (u_Q o)).
Proof.
  intros A. pose proof (q_range o A) as Q. rewrite (c05_sender _ _ _ _ (A _ (fill_agrees c0))). unfold blocks. rewrite !map_map.
  apply map_ext_in. intros k I. apply in_seq in I. rewrite (fill_agrees c0) by lia. reflexivity.
Qed.

Lemma frames_exact o m out : transfer edge sns ws n blk o m out ->
  0 <= u_Q o <= n /\ (out, u_data m) = frames_in blk (u_Q o).
Proof.
  intros T. destruct (transfer_inv o m out T) as [A B]. pose proof (q_range o A) as Q. split; [exact Q|].
  rewrite (out_is o A) in B. destruct (assembled (u_Q o) Q) as (m' & X & Y). rewrite X in B. injection B as <- <-. rewrite Y.
  destruct (frames_in blk (u_Q o)); reflexivity.
Qed.
Lemma frames_prefix o m out : transfer edge sns ws n blk o m out -> exists rest, F = out ++ rest.
Proof.
  intros T. destruct (frames_exact o m out T) as [Q E]. destruct (prefix_n _ Q) as [rest R]. exists rest. rewrite R, <- E. reflexivity.
Qed.
Lemma frames_all o m out : transfer edge sns ws n blk o m out -> u_Q o = n -> out = F /\ u_data m = [].
Proof.
  intros T Q. destruct (frames_exact o m out T) as [_ E]. rewrite Q, (mo_frames _ _ _ _ M) in E. injection E as -> ->. auto.
Qed.
Lemma frames_end o m out : transfer edge sns ws n blk o m out -> uws o < 1024 -> u_fin o = true -> u_Q o = n /\ out = F.
Proof.
  intros T W FI. destruct (transfer_inv o m out T) as [A B]. pose proof (reach_of _ _ (A _ (fill_agrees c0))) as R.
  destruct (c05_end _ _ _ R W FI) as (Q & c & far & I & CV). destruct (arrivals o A _ _ _ I) as [RG ->].
  apply (mo_cv _ _ _ _ M) in CV; [|exact RG]. assert (QN : u_Q o = n) by lia. split; [exact QN|]. apply (frames_all o m out T QN).
Qed.
Lemma frames_total o m out rel flow l : transfer edge sns ws n blk o m out ->
  Forall (from_mobile edge sns (uws o) (u_Q o) n blk) l ->
  exists t' m' new fin o', ul_rcv_llc rel flow (u_t o) m l = Some (t', m', new, fin) /\ uobs_step (URcv rel flow l) o = Some o'.
Proof.
  intros T FM. destruct (transfer_inv o m out T) as [A B]. pose proof (reach_of _ _ (A _ (fill_agrees c0))) as R.
  assert (OK : ul_op_ok sns (URcv rel flow l) o).
  { cbn [ul_op_ok]. eapply Forall_impl; [|exact FM]. intros b (i & _ & _ & -> & _). apply Z.mod_pos_bound.
    pose proof (proj1 (from_inv _ _ _ _ (A _ (fill_agrees c0)))) as U. exact (sns_pos sns (j_ok _ _ _ _ _ _ (ui_J _ _ _ U))). }
  destruct (c05_total _ _ _ _ R OK) as [o' US].
  assert (A' : forall f, agrees f -> ul_reach_from sns ws f o').
  { intros f G. eapply ufrom_rcv; [exact (A f G)| |exact US]. eapply Forall_impl; [|exact FM]. intros b. apply from_sent. exact G. }
  pose proof (q_range o' A') as Q'. destruct (assembled (u_Q o') Q') as (m' & X & _). rewrite <- (out_is o' A') in X.
  unfold ul_rcv_llc. pose proof US as US2. cbn [uobs_step] in US2. destruct (ul_rcv rel flow (u_t o) l) as [[[t1 o1] f1]|] eqn:E; [|discriminate].
  rewrite (step_out _ _ _ _ _ _ _ _ E US), map_app, assemble_all_app, B in X.
  destruct (assemble_all (map ublk_of o1) m) as [[fr m1]|]; [|discriminate]. do 5 eexists. split; [reflexivity|exact US].
Qed.
End Mobile.
