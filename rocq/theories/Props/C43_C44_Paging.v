(** C43, C44: paging on packet channels. *)
From Coq Require Import ZArith List Bool Permutation.
From Verif Require Import Model.Paging Spec.PagingSpec Proofs.PagingP.
Import ListNotations.
Open Scope Z_scope.

(** One request: 23 octets; the mobiles read from it a first part of the queue, at least one
    record, in the order of the queue; the rest stays queued, and its first record would not fit. *)
Theorem C43_request : forall q, Forall good q -> q <> [] ->
  exists m sent rest, pag_request q = (Some m, rest) /\ q = sent ++ rest /\ sent <> [] /\
    length m = 184%nat /\ mobile_reads m = Some (map asks sent) /\
    (rest = [] \/ exists p rest', rest = p :: rest' /\
       184 < 18 + Z.of_nat (length (flat_map pag_info sent)) + Z.of_nat (length (pag_info p))).
Proof. exact request_spec. Qed.
Print Assumptions C43_request.
Example C43_ex_request : exists m,
  pag_request [Page 1 [0xf4; 1; 2; 3; 4]; Page 0 [0x29; 0x26; 0x24; 0; 0; 0; 0; 0]; Page 2 [0xf4; 5; 6; 7; 8]; Page 0 [0x29; 1; 2; 3]] =
    (Some m, [Page 0 [0x29; 1; 2; 3]]) /\
  mobile_reads m = Some [Rpage (ByTmsi [1; 2; 3; 4]) 1; Rpage (ByMi [0x29; 0x26; 0x24; 0; 0; 0; 0; 0]) 0; Rpage (ByTmsi [5; 6; 7; 8]) 2].
Proof. eexists. split; vm_compute; reflexivity. Qed.

(** What is queued for a TMSI or an IMSI is such a record. *)
Theorem C43_queued : forall chan i q, 0 <= chan < 4 -> good_id i -> Forall good q -> Forall good (add_paging chan i q).
Proof. exact add_good. Qed.
Print Assumptions C43_queued.
Example C43_ex_queued : add_paging 2 (Imsi [2; 6; 2; 4; 2; 0; 0; 0; 0; 0; 0; 0; 0; 0; 1]) (add_paging 1 (Tmsi 0xc0ffee01) []) =
  [Page 2 [0x29; 0x26; 0x24; 0; 0; 0; 0; 0x10]; Page 1 [0xf4; 0xc0; 0xff; 0xee; 0x01]].
Proof. vm_compute. reflexivity. Qed.

(** Over every history: what was sent and what is still queued is what was added, once each. *)
Theorem C43_once : forall ops q sent, Forall good q -> Forall good (added ops) ->
  exists q' sent', q_run q sent ops = Some (q', sent ++ sent') /\ Forall good q' /\
    Permutation (sent' ++ map asks q') (map asks (q ++ added ops)).
Proof. exact q_run_spec. Qed.
Print Assumptions C43_once.

(** The newest record goes first: with two long identities per block an old record waits for ever. *)
Theorem C43_starves_refuted : forall n sent, q_run [old_page] sent (busy n) =
  Some ([old_page], sent ++ flat_map (fun _ => [asks imsi_page; asks imsi_page]) (seq 0 n)).
Proof. exact busy_starves. Qed.
Print Assumptions C43_starves_refuted.

(** A page for an unknown mobile reaches a timeslot of every current TBF of every mobile. *)
Theorem C44_reaches : forall l t, active l t -> In (pt_trx t) ts8 -> (exists ts, In ts ts8 /\ pt_has t ts = true) ->
  exists ts, pt_has t ts = true /\ In (pt_trx t, ts) (page_unknown l).
Proof. exact page_covers. Qed.
Print Assumptions C44_reaches.
(** It is sent only where a TBF is, and once per timeslot. *)
Theorem C44_only : forall l trx ts, In (trx, ts) (page_unknown l) -> exists t, active l t /\ pt_trx t = trx /\ pt_has t ts = true.
Proof. exact page_only. Qed.
Print Assumptions C44_only.
Theorem C44_once : forall l, NoDup (page_unknown l).
Proof. exact page_once. Qed.
Print Assumptions C44_once.
Example C44_ex : page_unknown [
    Pms (Some (Ptbf 0 (fun ts => ts =? 3))) (Some (Ptbf 0 (fun ts => (2 <=? ts) && (ts <=? 4))));
    Pms None (Some (Ptbf 0 (fun ts => 4 <=? ts)));
    Pms (Some (Ptbf 1 (fun ts => ts =? 7))) None] = [(0, 3); (0, 4); (1, 7)].
Proof. vm_compute. reflexivity. Qed.

(** A known mobile is paged on one timeslot of one of its current TBFs if it has any. *)
Theorem C44_known : forall x, match page_known x with
  | Some (trx, ts) => exists t, (pm_ul x = Some t \/ pm_dl x = Some t) /\ trx = pt_trx t /\ In ts ts8 /\ pt_has t ts = true
  | None => forall t, pm_ul x = Some t \/ pm_dl x = Some t -> forall ts, In ts ts8 -> pt_has t ts = false
  end.
Proof. exact known_spec. Qed.
Print Assumptions C44_known.
Example C44_ex_known : page_known (Pms None (Some (Ptbf 0 (fun ts => 4 <=? ts)))) = Some (0, 4).
Proof. vm_compute. reflexivity. Qed.
