(** C92: what "show tbf" and "show ms" display of the transfers is what there is. *)
From Coq Require Import ZArith List Bool Lia.
From Verif Require Import Base.Arith Model.TbfFsm Model.Mslot Model.Alloc Model.Cell Model.ShowTbf Spec.AllocSpec Spec.ShowTbfSpec.
From Verif Require Import Proofs.TbfFsmQ Proofs.AllocEx Proofs.CellI Proofs.ShowTbfP.
Import ListNotations.
Local Open Scope Z_scope.

(** A downlink TBF assigned on the CCCH, up to the transfer of data and to its end; an uplink TBF
    assigned on the PACCH. *)
Definition ex_dl_ops : list dlop := [DEv ADD_CCCH; DEv PCUIF_CNF; DTime 200; DTimer NoUpgrade].
Definition ex_dl : fsm := Fsm FLOW 0 None true false None false 200 None.
Definition ex_ul_ops : list ulop := [UEv ADD_PACCH; UEv ACK_PACCH].
Definition ex_ul : fsm := Fsm FLOW 0 None false true None false 0 None.
Example C92_ex_runs : dl_run conf_default (fsm_new 0) ex_dl_ops = Some ex_dl /\ ul_run conf_default (fsm_new 0) ex_ul_ops = Some ex_ul.
Proof. split; vm_compute; reflexivity. Qed.

(** "show tbf all" prints every uplink TBF once, whatever happened to each of them. *)
Theorem C92_ul_all : forall l, Forall (fun t => Forall (fun x => ul_exists (snd x)) (tt_ul t)) l ->
  fst (show_tbf ShowAll l) = map fst (concat (map tt_ul l)).
Proof. exact ul_list. Qed.
Print Assumptions C92_ul_all.
Example C92_ex_ul : ul_exists ex_ul /\ fst (show_tbf ShowAll [mk_tt [(3, ex_ul)] []; mk_tt [(5, ex_ul)] []]) = [3; 5].
Proof. split; [|reflexivity]. exists conf_default, 0, ex_ul_ops. split; [vm_compute; reflexivity|]. split; [reflexivity|discriminate]. Qed.

(** And every downlink TBF whose data is not yet acknowledged as a whole. Missing (the full property
    is as for the uplink): those waiting to be released. *)
Theorem C92_dl_all_partial : forall l, Forall (fun t => Forall (fun x => dl_exists (snd x) /\ in_use (snd x)) (tt_dl t)) l ->
  snd (show_tbf ShowAll l) = map fst (concat (map tt_dl l)).
Proof. exact dl_list. Qed.
Print Assumptions C92_dl_all_partial.
Example C92_ex_dl : dl_exists ex_dl /\ in_use ex_dl /\ snd (show_tbf ShowAll [mk_tt [] [(3, ex_dl); (4, ex_dl)]]) = [3; 4].
Proof.
  split; [|split; [right; left; reflexivity|reflexivity]]. exists conf_default, 0, ex_dl_ops. split; [vm_compute; reflexivity|].
  split; [reflexivity|discriminate].
Qed.

(** The full property fails: a downlink TBF assigned on the CCCH whose data has been acknowledged
    still exists, but is printed by none of the three commands. *)
Theorem C92_dl_all_refuted : exists f, dl_exists f /\ f_st f = WAIT_RELEASE /\
  forall a, snd (show_tbf a [mk_tt [] [(1, f)]]) = [].
Proof.
  eexists. split; [|split].
  - exists conf_default, 0, (ex_dl_ops ++ [DEv LAST_DL_DATA; DAckNack true]). split; [vm_compute; reflexivity|]. split; [reflexivity|discriminate].
  - reflexivity.
  - intros []; reflexivity.
Qed.
Print Assumptions C92_dl_all_refuted.

(** "show tbf ccch" and "show tbf pacch": an uplink TBF assigned once is in exactly one of the two
    lists: in the second if it was assigned on the PACCH, and otherwise only if that was confirmed
    later. *)
Theorem C92_ul_way : forall c t w rest f, is_add w -> (forall e, In (UEv e) rest -> ~ is_add e) ->
  ul_run c (fsm_new t) (UEv w :: rest) = Some f ->
  listed ShowCcch f = negb (listed ShowPacch f) /\ (w = ADD_PACCH -> listed ShowPacch f = true) /\
  (listed ShowPacch f = true -> w = ADD_PACCH \/ In (UEv ACK_PACCH) rest).
Proof. exact ul_way_listed. Qed.
Print Assumptions C92_ul_way.
(** A downlink TBF likewise, until its data is acknowledged as a whole; it may also have been
    assigned again on the PACCH to get more timeslots. *)
Theorem C92_dl_way : forall c t w rest f, is_add w -> (forall e, In (DEv e) rest -> ~ is_add e) ->
  dl_run c (fsm_new t) (DEv w :: rest) = Some f -> f_dead f = None ->
  (in_use f -> listed ShowCcch f = negb (listed ShowPacch f)) /\ (w = ADD_PACCH -> listed ShowPacch f = true) /\
  (listed ShowPacch f = true -> w = ADD_PACCH \/ In (DEv ACK_PACCH) rest \/ In (DTimer UpgradeOk) rest).
Proof. exact dl_way_listed. Qed.
Print Assumptions C92_dl_way.
Example C92_ex_way : is_add ADD_CCCH /\ (forall e, In (DEv e) [DEv PCUIF_CNF; DTime 200; DTimer NoUpgrade] -> ~ is_add e) /\
  listed ShowCcch ex_dl = true /\ listed ShowPacch ex_dl = false /\ listed ShowPacch ex_ul = true.
Proof.
  split; [left; reflexivity|]. split; [|repeat split].
  intros e [E|[E|[E|[]]]]; try discriminate E. injection E as <-. intros [X|X]; discriminate X.
Qed.

(** "PACCH" of "show ms": the lowest timeslot that the established TBFs of the mobile share, or
    nothing if there is none. *)
Theorem C92_pacch_both : forall fd md fu mu, 0 <= md < 256 -> 0 <= mu < 256 ->
  established true fd -> established false fu ->
  (Z.land mu md = 0 /\ shown_pacch (Some (fd, md)) (Some (fu, mu)) = []) \/
  exists ts, lowest (Z.land mu md) ts /\ shown_pacch (Some (fd, md)) (Some (fu, mu)) = [ts].
Proof. exact pacch_both. Qed.
Print Assumptions C92_pacch_both.
Theorem C92_pacch_dl : forall fd md ul, 0 < md < 256 -> established true fd ->
  (forall f m, ul = Some (f, m) -> ~ established false f) ->
  exists ts, lowest md ts /\ shown_pacch (Some (fd, md)) ul = [ts].
Proof. exact pacch_dl. Qed.
Print Assumptions C92_pacch_dl.
Theorem C92_pacch_ul : forall dl fu mu, 0 < mu < 256 -> established false fu ->
  (forall f m, dl = Some (f, m) -> ~ established true f) ->
  exists ts, lowest mu ts /\ shown_pacch dl (Some (fu, mu)) = [ts].
Proof. exact pacch_ul. Qed.
Print Assumptions C92_pacch_ul.
Theorem C92_pacch_none : forall dl ul, (forall f m, dl = Some (f, m) -> ~ established true f) ->
  (forall f m, ul = Some (f, m) -> ~ established false f) -> shown_pacch dl ul = [].
Proof. exact pacch_none. Qed.
Print Assumptions C92_pacch_none.
Example C92_ex_pacch : shown_pacch (Some (ex_dl, 0x0f)) (Some (ex_ul, 0x04)) = [2] /\
  shown_pacch (Some (ex_dl, 0x0c)) None = [2] /\ shown_pacch None (Some (ex_ul, 0x30)) = [4] /\ established true ex_dl /\ established false ex_ul /\ ~ established false (fsm_new 0) /\ shown_pacch None (Some (fsm_new 0, 0x30)) = [].
Proof.
  repeat (split; [first [reflexivity | split; [discriminate | intros X; discriminate X]]|]).
  split; [intros [X _]; now apply X|reflexivity].
Qed.

(** The full property is that this is the timeslot of the mobile's control messages. It holds right
    after any allocation, when the mobile has an established TBF in both directions and the one
    allocated before uses all the timeslots reserved for it. *)
Theorem C92_pacch_partial : forall a def b dis q r fd fu, ms_ok b (q_ms q) -> counters_ok b ->
  fst (alloc a def b dis q) = Some r -> established true fd -> established false fu ->
  shown_pacch (Some (fd, match q_dir q with DL => r_mask r | UL => r_rdl r end))
              (Some (fu, match q_dir q with DL => r_rul r | UL => r_mask r end)) = [r_common r].
Proof. exact pacch_alloc. Qed.
Print Assumptions C92_pacch_partial.

(** It fails for a downlink TBF alone: a mobile of class 12 in a cell with eight timeslots has
    timeslots 0 to 3 downlink and its control messages on timeslot 2; shown is timeslot 0. *)
Definition ex_cell : option cell :=
  cell_of (en [0; 1; 2; 3; 4; 5; 6; 7] ++
    [SetClass 8 12; New AlgB 1 8 UL false (-1) false; New AlgB 2 8 DL false (-1) false; Free 1]).
Theorem C92_pacch_refuted : exists c t f, ex_cell = Some c /\ c_tbfs c = [t] /\ t_dir t = DL /\ t_ms t = 8 /\
  dl_exists f /\ f_st f = FLOW /\ v_common (c_ms c 8) = Some (t_trx t, 2) /\
  shown_pacch (Some (f, t_slots t)) None = [0].
Proof.
  eexists. eexists. exists ex_dl. split; [vm_compute; reflexivity|]. split; [reflexivity|]. split; [reflexivity|]. split; [reflexivity|].
  split; [|split; [reflexivity|split; vm_compute; reflexivity]].
  exists conf_default, 0, ex_dl_ops. split; [vm_compute; reflexivity|]. split; [reflexivity|discriminate].
Qed.
Print Assumptions C92_pacch_refuted.
Example C92_ex_alloc : option_map (fun c => (v_common (c_ms c 8),
    option_map (fun r => (r_mask r, r_rul r, r_common r)) (fst (alloc AlgB 12 (c_bts c) false (mk_req (c_ms c 8) DL false (-1)))))) ex_cell
  = Some (Some (0, 2), Some (15, 4, 2)).
Proof. vm_compute. reflexivity. Qed.
Example C92_ex_hyps : exists c, ex_cell = Some c /\ ms_ok (c_bts c) (c_ms c 8) /\ counters_ok (c_bts c).
Proof.
  destruct (cell_history 12 (rg 0 50) (en [0; 1; 2; 3; 4; 5; 6; 7] ++
    [SetClass 8 12; New AlgB 1 8 UL false (-1) false; New AlgB 2 8 DL false (-1) false; Free 1]) rg_nodup rg_short)
    as (c & E & _ & _ & M & C & _).
  exists c. split; [exact E|]. split; [apply M; vm_compute; tauto|exact C].
Qed.
