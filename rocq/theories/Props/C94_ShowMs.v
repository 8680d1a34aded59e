(** C94: the mobiles displayed are those present, and each is found by what is displayed of it. *)
From Coq Require Import ZArith List Bool Lia.
From Verif Require Import Base.Arith Model.MsTlli Model.ShowPdch Model.ShowMs Spec.MsTlliSpec Spec.ShowPdchSpec Spec.ShowMsSpec.
From Verif Require Import Proofs.ShowMsP.
Import ListNotations.
Local Open Scope Z_scope.

(** After any history with TLLIs that exist: no assertion has failed; the statistic of the mobiles
    present is the number of mobiles displayed, each once. The TLLI displayed of a mobile, typed in,
    gives this mobile, unless ffffffff is displayed, which is so if and only if it has no TLLI. Any
    argument gives a mobile if and only if it is a numeral of one of its TLLIs, and an IMSI if and
    only if it is its own. *)
Theorem C94_mobiles : forall ops, Forall real_op ops ->
  exists s k, present_run m_empty 0 ops = Some (s, k) /\ m_run m_empty ops = Some s /\
    k = Z.of_nat (length (show_all s)) /\ NoDup (map ml_id (show_all s)) /\
    (forall c, In c (st_list s) -> ml_tlli (show_one c) <> tlli_text RES -> show_by_tlli (ml_tlli (show_one c)) s = Shown (show_one c)) /\
    (forall c, In c (st_list s) -> (ml_tlli (show_one c) = tlli_text RES <-> forall x, ~ has_tlli c x)) /\
    (forall arg c, arg <> [] -> In c (st_list s) ->
       (show_by_tlli arg s = Shown (show_one c) <-> exists x, numeral_of arg x /\ has_tlli c x)) /\
    (forall i c, In c (st_list s) -> (show_by_imsi i s = Shown (show_one c) <-> c_imsi c = i /\ i <> 0)).
Proof. exact show_history. Qed.
Print Assumptions C94_mobiles.

(** Three mobiles: one that changes its TLLI, one of the SGSN, one that has only sent an access burst;
    and one that is gone. *)
Definition ex_ops : list mop :=
  [MNamed 0xc0ffee01; MDown 0xc0ffee01 true None 7; MDown 0xdeadbeef true None 9; MNamed 0x7fff0000; MFree 2; MAccess; MAnnounce 0 0xc0ffee02].
Example C94_ex_real : Forall real_op ex_ops.
Proof.
  unfold ex_ops. repeat apply Forall_cons; try apply Forall_nil; cbn [real_op]; unfold real, RES;
    try (split; [lia|intros t X; discriminate X]); try lia; exact Logic.I.
Qed.
Example C94_ex_mobiles : option_map (fun x => (snd x, map ml_id (show_all (fst x)), map ml_imsi (show_all (fst x)),
    map ml_tlli (show_all (fst x)),
    (match show_by_tlli [99; 48; 102; 102; 101; 101; 48; 49] (fst x) with Shown l => ml_id l | _ => -1 end,
     match show_by_imsi 9 (fst x) with Shown l => ml_id l | _ => -1 end,
     show_by_tlli (tlli_text RES) (fst x), show_by_tlli [45; 49] (fst x)))) (present_run m_empty 0 ex_ops) =
  Some (3, [3; 1; 0], [0; 9; 7], [tlli_text RES; tlli_text 0xdeadbeef; tlli_text 0xc0ffee02],
    (0, 1, Unknown, Refused)).
Proof. vm_compute. reflexivity. Qed.
