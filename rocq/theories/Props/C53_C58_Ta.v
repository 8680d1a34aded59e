(** C53 and C58: timing advance of mobiles, and PTCCH timing advance indices. *)
From Coq Require Import ZArith List Bool Lia.
From Verif Require Import Base.Arith Model.UlController Model.Ta Spec.TaSpec Proofs.TaP.
Import ListNotations.
Local Open Scope Z_scope.

(** * C53 *)
(** After any history of bursts and corrections every mobile's value is 0 to 63, or unknown. *)
Theorem C53_legal : forall os ms, ta_legal (ta_run os ms).
Proof. exact run_legal. Qed.
Print Assumptions C53_legal.
Definition ex_tree : tree := Node Leaf (mk_item 100 (OPoll 7 PollUlAck)) (Node Leaf (mk_item 104 (OPoll 8 PollDlAck)) Leaf).
Definition ex_tbfs : tbfs := fun b => if b =? 7 then Some (true, 1) else if b =? 8 then Some (false, 2) else None.
Example C53_ex_run : let f := ta_run [TaNew 1; TaNew 2; TaRach 1 200; TaSba 2 41; TaData true ex_tree ex_tbfs 100 90;
    TaData true ex_tree ex_tbfs 104 90; TaData true ex_tree ex_tbfs 108 90] in (f 1, f 2, f 3) = (63, 10, 220).
Proof. vm_compute. reflexivity. Qed.

(** A correction received with a block changes at most the mobile that was polled for that
    block with an uplink TBF, by the measured amount, within 0 to 63. *)
Theorem C53_polled : forall os en t tb fn bto ms,
  let tas := ta_run os in let tas' := ta_step (TaData en t tb fn bto) tas in
  (tas' ms <> tas ms -> en = true /\ polled t tb fn ms) /\
  (tas' ms = tas ms \/ tas' ms = clamp63 (tas ms + sign_qta2ta bto)).
Proof. exact (fun os en t tb fn bto ms => upd_effect en t tb fn (sign_qta2ta bto) false (ta_run os) ms (run_legal os)
  (fun H => False_ind _ (Bool.diff_false_true H))). Qed.
Print Assumptions C53_polled.
Example C53_ex_polled : polled ex_tree ex_tbfs 100 1.
Proof. exists 7, PollUlAck. split; [cbn; tauto|reflexivity]. Qed.
(** An access burst on the timeslot likewise sets the polled mobile to the measured value. *)
Theorem C53_polled_access : forall os en t tb fn qta ms,
  let tas := ta_run os in let tas' := ta_step (TaRa en t tb fn qta) tas in
  (tas' ms <> tas ms -> en = true /\ polled t tb fn ms) /\
  (tas' ms = tas ms \/ tas' ms = qta2ta qta) /\ qta2ta qta = clamp63 (qta / 4).
Proof. exact (fun os en t tb fn qta ms =>
  match upd_effect en t tb fn (qta2ta qta) true (ta_run os) ms (run_legal os) (fun _ => qta2ta_rng qta) with
  conj A B => conj A (conj B (qta2ta_eq qta)) end). Qed.
Print Assumptions C53_polled_access.
Example C53_ex_access : ta_step (TaRa true ex_tree ex_tbfs 100 77) (ta_run [TaRach 1 4]) 1 = 19.
Proof. vm_compute. reflexivity. Qed.
(** And the polled mobile does get its correction. *)
Theorem C53_corrected : forall os t fn it tb ms b r bto,
  get_node t fn = Some it -> i_own it = OPoll b r -> tb b = Some (true, ms) ->
  let tas := ta_run os in
  ta_step (TaData true t tb fn bto) tas ms = if sign_qta2ta bto =? 0 then tas ms else clamp63 (tas ms + sign_qta2ta bto).
Proof. exact (fun os t fn it tb ms b r bto G O B => found t fn it G tb ms b r O B (sign_qta2ta bto) (ta_run os) (run_legal os)). Qed.
Print Assumptions C53_corrected.
Example C53_ex_corrected : ta_step (TaData true ex_tree ex_tbfs 100 (-9)) (ta_run [TaRach 1 77]) 1 = 15.
Proof. vm_compute. reflexivity. Qed.
(** The corrected value is wrong if none was known: a mobile first heard when polled, one
    quarter symbol early, is taken to be at the far edge of the cell. *)
Theorem C53_unknown_refuted : exists t tb fn, polled t tb fn 1 /\
  ta_run [TaNew 1] 1 = TA_INVALID /\ ta_run [TaNew 1; TaData true t tb fn (-1)] 1 = 63.
Proof. exists ex_tree, ex_tbfs, 100. split; [exact C53_ex_polled|]. split; vm_compute; reflexivity. Qed.
Print Assumptions C53_unknown_refuted.
(** Full claim: [sign_qta2ta q = adjustment q] for every q. Proved for late bursts; and every
    value fits the 8 bits it is kept in. *)
Theorem C53_adjustment_partial : forall q, (0 <= q -> sign_qta2ta q = adjustment q) /\ -64 <= sign_qta2ta q <= 64.
Proof. exact (fun q => conj (adj_pos q) (adj_rng q)). Qed.
Print Assumptions C53_adjustment_partial.
Example C53_ex_adjustment : map sign_qta2ta [0; 1; 2; 3; 4; 300] = [0; 0; 0; 1; 2; 64].
Proof. vm_compute. reflexivity. Qed.
(** For early bursts it is one too many, and there is no dead band. *)
Theorem C53_adjustment_refuted : map sign_qta2ta [-1; -2; -3; -5] = [-1; -1; -2; -3] /\ map adjustment [-1; -2; -3; -5] = [0; 0; -1; -2].
Proof. split; vm_compute; reflexivity. Qed.
Print Assumptions C53_adjustment_refuted.

(** * C58 *)
(** Any history of requests, releases and bursts runs without a failed assertion; no index is
    held twice. *)
Theorem C58_history : forall os, (forall o, In o os -> tai_ok o) ->
  exists l h, tai_run os ptcch0 [] = Some (l, h) /\ NoDup h.
Proof. exact (fun os C => match tai_run_ok os ptcch0 [] tinv0 C with
  ex_intro _ l (ex_intro _ h (conj E V)) => ex_intro _ l (ex_intro _ h (conj E (ti_nodup _ _ V))) end). Qed.
Print Assumptions C58_history.
Example C58_ex_history : option_map snd (tai_run [Reserve 5; Reserve 6; Reserve 7; Release 1; Burst true 64 80; Reserve 9] ptcch0 []) =
  Some [1; 2; 0].
Proof. vm_compute. reflexivity. Qed.
(** One more step, in any such state: a request gets an index nobody holds and only its entry
    changes, or there is none free; a release frees exactly that index; a burst sets exactly
    the entry of its sub-slot. *)
Theorem C58_step : forall os l h o, (forall o, In o os -> tai_ok o) -> tai_run os ptcch0 [] = Some (l, h) -> tai_ok o ->
  exists l' a, tai_step o l = Some (l', a) /\
  match o with
  | Reserve ta => exists r, a = Some r /\
      ((0 <= r < 16 /\ ~ In r h /\ entry l' r = Some ta /\ (forall j, 0 <= j -> j <> r -> entry l' j = entry l j)) \/
       (r = TAI_FREE /\ l' = l /\ forall j, 0 <= j < 16 -> entry l j <> Some TAI_FREE))
  | Release i => entry l' i = Some TAI_FREE /\ forall j, 0 <= j -> j <> i -> entry l' j = entry l j
  | Burst en rfn qta => forall j, 0 <= j ->
      (en = true /\ subslot_of rfn j -> entry l' j = Some (clamp63 (qta / 4))) /\
      (~ (en = true /\ subslot_of rfn j) -> entry l' j = entry l j)
  end.
Proof. exact tai_one_step. Qed.
Print Assumptions C58_step.
Example C58_ex_step : option_map fst (tai_run [Reserve 5; Reserve 6; Burst true (42432 + 38) 82] ptcch0 []) =
  Some ([5; 20] ++ repeat 127 14).
Proof. vm_compute. reflexivity. Qed.
(** Full claim: an index that nobody holds is free to be given out. Proved when bursts come
    only from mobiles holding an index. *)
Theorem C58_available_partial : forall os l h, (forall o, In o os -> tai_ok o) -> no_stray os ptcch0 [] ->
  tai_run os ptcch0 [] = Some (l, h) -> forall i, 0 <= i < 16 -> ~ In i h -> entry l i = Some TAI_FREE.
Proof. exact tai_available. Qed.
Print Assumptions C58_available_partial.
Example C58_ex_available : no_stray [Reserve 5; Burst true 12 80; Release 0] ptcch0 [].
Proof. cbn. splits; try exact I. intros ss [R E]. left. change (12 mod 416) with 12 in E. lia. Qed.
(** Noise taken for bursts in all sub-slots uses up all indices for good. *)
Theorem C58_available_refuted : exists os l, (forall o, In o os -> tai_ok o) /\ tai_run os ptcch0 [] = Some (l, []) /\
  fst (reserve_tai 5 l) = TAI_FREE.
Proof.
  exists (map (fun k => Burst true (12 + 26 * k) 0) [0; 1; 2; 3; 4; 5; 6; 7; 8; 9; 10; 11; 12; 13; 14; 15]), (repeat 0 16).
  split; [intros o I; apply in_map_iff in I; destruct I as (k & <- & I); cbn [In] in I; cbn [tai_ok]; lia|].
  split; vm_compute; reflexivity.
Qed.
Print Assumptions C58_available_refuted.
