(** C79: a mobile that changes to a cell of another PCU is told the system information of that cell. *)
From Coq Require Import ZArith List Bool.
From Verif Require Import Model.NeighCache Model.Nacc Model.Rim Spec.RimSpec Proofs.RimP Proofs.RimQ Proofs.RimR Proofs.RimW.
Import ListNotations.
Open Scope Z_scope.

(** No decoded PDU leads to an assertion or outside a buffer; nor does any history of PCUs that answer
    each other, with PDUs lost, repeated and delivered in any order and to any of them. *)
Theorem C79_no_crash : forall p r, decoded r -> exists out p', handle_rim p r = Done out p'.
Proof. exact no_crash. Qed.
Print Assumptions C79_no_crash.
Theorem C79_runs_on : forall t ops, fresh t -> Forall whole_op ops -> t_run t ops <> None.
Proof. exact runs_on. Qed.
Print Assumptions C79_runs_on.

(** What is sent for a PDU: a status for one that is not for a cell of this PCU, one error PDU to the sender
    for a request that cannot be answered, one PDU with the system information for one that can; nothing for
    other containers. *)
Theorem C79_reactions : forall p r,
  (forall x, r_dst r = OtherNet x -> handle_rim p r = Done [Status UnknownRimApplication] p) /\
  (forall g, r_dst r = Geran g -> ~ serves p g -> handle_rim p r = Done [Status UnknownDestination] p) /\
  (forall g app h, r_dst r = Geran g -> serves p g -> r_cont r = Some (Req app h) -> app <> APP_NACC \/ h <> g ->
     handle_rim p r = Done [Tx (Pdu (r_src r) (r_dst r) (Some (Error APP_NACC (r_raw r))) [])] p) /\
  (forall g, r_dst r = Geran g -> serves p g -> r_cont r = Some (Req APP_NACC g) ->
     exists b si, In b (p_cells p) /\ l_cgi b = g /\
       handle_rim p r = Done [Tx (Pdu (r_src r) (r_dst r) (Some (Info APP_NACC false (p_ident p) false si)) [])] p /\
       (whole_cell b -> Forall (fun x => length x = 21%nat) si /\ concat si = describes b)) /\
  (forall g app err h psi si, r_dst r = Geran g -> serves p g -> r_cont r = Some (Info app err h psi si) ->
     app <> APP_NACC \/ err = true -> handle_rim p r = Done [] p) /\
  (forall g, r_dst r = Geran g -> serves p g ->
     r_cont r = Some AppError \/ r_cont r = Some Acknowledge \/ (exists app x, r_cont r = Some (Error app x)) ->
     handle_rim p r = Done [] p).
Proof. exact reactions. Qed.
Print Assumptions C79_reactions.

(** A machine that comes to wait for system information has sent a request for it, and none is sent otherwise. *)
Theorem C79_requests : forall w o e n' m, n_step w o e = Alive n' m ->
  (forall g, asks w o e = Some g -> n_st n' = WAIT_SI /\ n_cgi n' = g) /\
  (n_st n' = WAIT_SI -> asks w o e = Some (n_cgi n') \/ exists n, o = Some n /\ n_st n = WAIT_SI /\ n_cgi n' = n_cgi n /\ n_key n' = n_key n).
Proof. exact asks_when. Qed.
Print Assumptions C79_requests.

(** The request, its answer, and what the answer does.  Missing for the full property: the other PCU's link
    must bear the identity of the cell asked for ([p_ident]). *)
Theorem C79_exchange_partial : forall a A b B, cell_by_cgi (l_cgi a) (p_cells A) = Some a -> cell_by_cgi (l_cgi b) (p_cells B) = Some b ->
  p_ident B = l_cgi b -> whole_cell b -> NoDup (map e_key (c_list (p_cache A))) ->
  exists r A', handle_rim B (request a (l_cgi b)) = Done [Tx r] B /\
    handle_rim A r = Done [] A' /\ informed a (l_cgi b) (describes b) A A'.
Proof. exact exchange. Qed.
Print Assumptions C79_exchange_partial.

(** In every history, what a mobile is told of its target was true of it at some time.  Missing for the full
    property: PCUs with several cells, or known to the SGSN by another identity ([plain]). *)
Theorem C79_truth_partial : forall t ops, fresh t -> plain t -> Forall whole_op ops -> truthful t ops.
Proof. exact truth. Qed.
Print Assumptions C79_truth_partial.

(** With two cells in a PCU a mobile is told the system information of one for the other. *)
Theorem C79_other_cell_refuted : exists t ops, fresh t /\ Forall whole_op ops /\ ~ truthful t ops.
Proof. exact other_cell. Qed.
Print Assumptions C79_other_cell_refuted.

(** With another identity on the link to the SGSN the mobile goes on waiting, and nothing is remembered. *)
Theorem C79_identity_refuted : exists a A b B r A' m,
  cell_by_cgi (l_cgi a) (p_cells A) = Some a /\ cell_by_cgi (l_cgi b) (p_cells B) = Some b /\ whole_cell b /\
  NoDup (map e_key (c_list (p_cache A))) /\ awaits a (l_cgi b) m /\ In m (p_mobs A) /\
  handle_rim B (request a (l_cgi b)) = Done [Tx r] B /\ handle_rim A r = Done [] A' /\
  In m (p_mobs A') /\ lookup cgi_eq (l_cgi b) (p_cache A') = None.
Proof. exact spoofed. Qed.
Print Assumptions C79_identity_refuted.

(** A PDU that cannot be decoded is not reported to its sender (3GPP TS 48.018, 8c.3.4.2). *)
Theorem C79_undecoded_refuted : exists p r g, r_dst r = Geran g /\ serves p g /\ r_cont r = None /\ handle_rim p r = Done [] p.
Proof. exact undecoded. Qed.
Print Assumptions C79_undecoded_refuted.

(** The usual case: the mobile's announcement, the request, the answer, and the mobile is told. *)
Definition ex_net : net := Net [pcuA; pcuB] [].
Definition ex_ops : list nop := [Mobile 0 0 (sees 2) (MNotif (Gsm 20 2)); Deliver 0 1; Deliver 1 0].
Example C79_ex_fresh : fresh ex_net /\ plain ex_net /\ Forall whole_op ex_ops.
Proof.
  split; [| split; [| repeat constructor]].
  - split; [reflexivity |]. intros p [<- | [<- | []]]; (split; [reflexivity |]); split; try (repeat constructor; fail).
    + intros m [<- | [<- | []]]; reflexivity.
    + intros m [].
  - intros p [<- | [<- | []]]; [exists cellA | exists cellB]; split; reflexivity.
Qed.
Example C79_ex_told :
  option_map (fun t => map (fun p => map (fun m => option_map (fun n => (n_st n, n_si n)) (mo_nacc m)) (p_mobs p)) (t_pcus t)) (t_run ex_net ex_ops)
  = Some [[Some (TX_DATA, repeat 21 21 ++ repeat 23 21 ++ repeat 24 21); None]; []].
Proof. vm_compute. reflexivity. Qed.
(** Meets the hypotheses of [C79_exchange_partial]. *)
Example C79_ex_exchange : cell_by_cgi (l_cgi cellA) (p_cells pcuW) = Some cellA /\ cell_by_cgi (l_cgi cellB) (p_cells pcuB) = Some cellB /\
  p_ident pcuB = l_cgi cellB /\ whole_cell cellB /\ NoDup (map e_key (c_list (p_cache pcuW))).
Proof. repeat split; constructor. Qed.
Example C79_ex_decoded : decoded (Pdu (Geran (id 1)) (Geran (id 2)) (Some (Info 1 false (id 2) true (repeat (repeat 0 22) 127))) []).
Proof. split; [repeat constructor |]. apply Forall_forall. intros x H. apply repeat_spec in H. now subst. Qed.
