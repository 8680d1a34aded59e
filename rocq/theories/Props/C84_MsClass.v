(** C84: the multislot classes the PCU takes for a mobile are those the mobile announced in its radio access capability. *)
From Coq Require Import ZArith List.
Import ListNotations.
From Verif Require Import Model.Csn1 Model.Csn1Tables Model.MsClass Spec.UlControlSpec Spec.MsClassSpec Spec.MeasSpec Proofs.MsClassR Proofs.MsClassX Proofs.L1MeasR
  Proofs.Csn1Ex Proofs.L1MeasX.
Open Scope Z_scope.

(** For every capability the decoder accepts and whose technologies have all the long form, whatever their number and
    their contents: the GPRS and the EGPRS class taken are those of the first technology that announces one, and none
    is taken if none does.  Missing: capabilities with a list in the short form, and those the decoder rejects. *)
Theorem C84_classes_partial : forall msg l s, octets msg -> decode_racap msg = Go s -> capability msg l -> Forall (long_form msg) l ->
  classes msg = (announced (map (gprs_class msg) l), announced (map (egprs_class msg) l)).
Proof. exact (fun msg l s O D => classes_announced msg O s l D). Qed.
Print Assumptions C84_classes_partial.
Example C84_classes_nonvacuous : octets TWO /\ (exists s, decode_racap TWO = Go s) /\ capability TWO TWO_TECHS /\ Forall (long_form TWO) TWO_TECHS /\
  map (gprs_class TWO) TWO_TECHS = [None; Some 10] /\ map (egprs_class TWO) TWO_TECHS = [None; Some 12] /\ classes TWO = (10, 12).
Proof. exact (conj two_octets (conj two_go (conj two_cap (conj two_long two_classes)))). Qed.

(** The same for the capability in a PACKET RESOURCE REQUEST: the mobile gets the classes announced there, and keeps
    the [old] ones where none is announced (class 0 stands for none) or where there is no capability ([l] empty). *)
Theorem C84_request_partial : forall msg l s old, octets msg -> length msg = 23%nat -> decode_ul msg = Go s -> message_type msg = RESOURCE_REQUEST ->
  request_techs msg l -> Forall (long_form msg) l ->
  let gprs := announced (map (gprs_class msg) l) in let egprs := announced (map (egprs_class msg) l) in
  request_classes s old = (if gprs =? 0 then fst old else gprs, if egprs =? 0 then snd old else egprs).
Proof. exact (fun msg l s old O L D => request_announced msg O L s D l old). Qed.
Print Assumptions C84_request_partial.
Example C84_request_nonvacuous : octets REQ /\ length REQ = 23%nat /\ decode_ul REQ = Go (end_state REQ) /\ message_type REQ = RESOURCE_REQUEST /\
  request_techs REQ REQ_TECHS /\ Forall (long_form REQ) REQ_TECHS /\ request_classes (end_state REQ) (3, 4) = (10, 4).
Proof. exact req_nonvacuous. Qed.

(** A list of additional technologies in the short form shares its memory with the access capabilities and is read as
    such: a mobile with GPRS class 10 that announces no EGPRS at all is taken for one of GPRS class 2 and EGPRS class 7. *)
Theorem C84_short_form_refuted : exists msg l s, octets msg /\ capability msg l /\ decode_racap msg = Go s /\
  announced (map (gprs_class msg) l) = 10 /\ Forall (fun t => egprs_class msg t = None) l /\ classes msg = (2, 7).
Proof. exact short_wrong. Qed.
Print Assumptions C84_short_form_refuted.

(** A technology of an unknown type, though its length tells where it ends, makes the PCU forget the classes announced
    before it. *)
Theorem C84_unknown_type_refuted : exists msg l, octets msg /\ capability msg l /\ Forall (long_form msg) l /\
  announced (map (gprs_class msg) l) = 10 /\ announced (map (egprs_class msg) l) = 12 /\ classes msg = (0, 0).
Proof. exact later_wrong. Qed.
Print Assumptions C84_unknown_type_refuted.
