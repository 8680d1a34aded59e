(** C89: the counters of data blocks by coding scheme. *)
From Coq Require Import ZArith Ascii String List Bool.
From Verif Require Import Model.CodingScheme Model.DlBlockTx Model.SchemeCtr Spec.SchemeCtrSpec Proofs.SchemeCtrP.
Import ListNotations.
Local Open Scope Z_scope.

(** For every scheme and direction one counter of the cell and one of a TBF bears its name. *)
Theorem C89_names : forall w s, In s all_schemes ->
  (exists! i, nth_error cell_names i = Some (cell_title w s))
  /\ (exists! i, nth_error (tbf_names w (of_edge s)) i = Some (tbf_title w s)).
Proof. exact names_ok. Qed.
Print Assumptions C89_names.
Example C89_ex_names :
  cell_title Down MCS5 = "egprs:downlink_mcs5"%string /\ tbf_title Up CS2 = "gprs:uplink:cs2"%string
  /\ nth_error cell_names 84 = Some (cell_title Down MCS5).
Proof. vm_compute. repeat split; reflexivity. Qed.

(** A history with two downlink TBFs and an uplink TBF, used below. *)
Definition some_history : list cellop :=
  [StartDl true; StartDl false; StartUl; OnDl 0 (NewBlock MCS9); OnDl 0 (NewBlock MCS9); OnDl 0 (Radio 0 (Some 1%nat));
   OnDl 1 (NewBlock CS3); OnDl 1 (Radio 0 None); OnUl 0 MCS2; OnUl 0 CS1; OnDl 0 (Again 0 MCS3 true); OnDl 0 (Radio 0 None);
   OnDl 1 (Again 0 CS1 true); OnDl 1 (Radio 0 None); OnUl 0 MCS2].
Example C89_ex_suited : suited some_history (quiet_cell zeros).
Proof. 
  vm_compute. repeat split; try (match goal with E : Some _ = Some _ |- _ => injection E as <- end);
    repeat first [reflexivity | left; reflexivity | right].
Qed.
Example C89_ex_history : option_map (fun w =>
    (map (cell_gain Down zeros (w_cell w)) [CS1; CS3; MCS3; MCS9], map (cell_gain Up zeros (w_cell w)) [CS1; MCS2],
     map (fun t => (tbf_shown Down (d_groups t) CS3, tbf_shown Down (d_groups t) MCS9, d_air t)) (w_dl w)))
    (cell_run some_history (quiet_cell zeros)) =
  Some ([0; 2; 1; 1], [1; 2], [(0, 1, [MCS3; MCS9]); (2, 0, [CS3; CS3])]).
Proof. vm_compute. reflexivity. Qed.

(** Counting a block never meets a group of counters that the TBF does not have. *)
Theorem C89_group_present : forall c0 os w, suited os (quiet_cell c0) -> cell_run os (quiet_cell c0) = Some w ->
  (forall t b, In t (w_dl w) -> In b (d_blocks t) -> count_block Down (b_cur b) (w_cell w) (d_groups t) <> None)
  /\ (forall t c, In t (w_ul w) -> ul_step c (w_cell w) t <> None).
Proof. exact never_missing. Qed.
Print Assumptions C89_group_present.
Example C89_ex_missing : count_block Down MCS1 zeros (tbf_groups Down false) = None.
Proof. reflexivity. Qed.

(** Uplink: what the cell and each TBF show for a scheme is the number of radio blocks
    received with it. *)
Theorem C89_uplink : forall c0 os w, suited os (quiet_cell c0) -> cell_run os (quiet_cell c0) = Some w ->
  forall s, In s all_schemes ->
  cell_gain Up c0 (w_cell w) s = amount s (w_up w)
  /\ forall t, In t (w_ul w) -> tbf_shown Up (u_groups t) s = amount s (u_air t).
Proof. exact uplink_ok. Qed.
Print Assumptions C89_uplink.

(** Downlink, the cell and each TBF. The full statement would be that what is shown for a scheme
    is the number of radio blocks sent with it: [forall s, In s all_schemes -> cell_gain Down c0
    (w_cell w) s = amount s (w_down w)], and the same of a TBF. Proved: so it is for CS-1 to
    CS-4, MCS-1 to MCS-4 and MCS-8, for MCS-5 and MCS-7 together, for MCS-6 and MCS-9
    together, and in total, and MCS-7 and MCS-9 are never shown too low. Missing: MCS-5, MCS-6,
    MCS-7 and MCS-9 one by one, which is false (below). *)
Theorem C89_downlink_cell_partial : forall c0 os w, suited os (quiet_cell c0) -> cell_run os (quiet_cell c0) = Some w ->
  nearly (cell_gain Down c0 (w_cell w)) (fun s => amount s (w_down w))
  /\ sum_of (cell_gain Down c0 (w_cell w)) = Z.of_nat (length (w_down w)).
Proof. exact downlink_cell. Qed.
Print Assumptions C89_downlink_cell_partial.
Theorem C89_downlink_tbf_partial : forall c0 os w t,
  suited os (quiet_cell c0) -> cell_run os (quiet_cell c0) = Some w -> In t (w_dl w) ->
  nearly (tbf_shown Down (d_groups t)) (fun s => amount s (d_air t))
  /\ sum_of (tbf_shown Down (d_groups t)) = Z.of_nat (length (d_air t)).
Proof. exact downlink_tbf. Qed.
Print Assumptions C89_downlink_tbf_partial.

(** No other counter of the cell moves. *)
Theorem C89_others : forall c0 os w i name, suited os (quiet_cell c0) -> cell_run os (quiet_cell c0) = Some w ->
  nth_error cell_names i = Some name -> (forall u s, In s all_schemes -> name <> cell_title u s) ->
  w_cell w i = c0 i.
Proof. exact others_ok. Qed.
Print Assumptions C89_others.
Example C89_ex_others : nth_error cell_names 15 = Some "rlc:sent"%string.
Proof. reflexivity. Qed.

(** A block of MCS-9 sent alone goes out as MCS-6 and is counted as MCS-9. *)
Theorem C89_downlink_refuted : exists os w t,
  suited os (quiet_cell zeros) /\ cell_run os (quiet_cell zeros) = Some w /\ In t (w_dl w)
  /\ d_air t = [MCS6] /\ tbf_shown Down (d_groups t) MCS6 = 0 /\ tbf_shown Down (d_groups t) MCS9 = 1
  /\ cell_gain Down zeros (w_cell w) MCS6 = 0 /\ cell_gain Down zeros (w_cell w) MCS9 = 1.
Proof. exact downlink_refuted. Qed.
Print Assumptions C89_downlink_refuted.
