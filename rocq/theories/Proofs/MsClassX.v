(** Capabilities whose classes are and are not taken right. *)
From Coq Require Import ZArith List Bool Lia.
Import ListNotations.
From Verif Require Import Model.Csn1 Model.Csn1Tables Model.MsClass Spec.UlControlSpec Spec.MsClassSpec.
Open Scope Z_scope.

(** Two technologies: E-GSM without multislot capability; 1800 with GPRS class 10 and EGPRS class 12. *)
Definition TWO : list Z := [17; 9; 243; 74; 117; 106; 170; 88; 0].
Definition TWO_TECHS : list tech := [mk_tech 1 11 19; mk_tech 3 31 68].
(** A list of eight additional technologies in the short form, then E-GSM with GPRS class 10 and no EGPRS. *)
Definition SHORT : list Z := [250; 49; 76; 147; 52; 209; 53; 77; 147; 116; 225; 40; 149; 42; 170; 128].
Definition SHORT_TECHS : list tech := [mk_tech 15 11 92; mk_tech 1 104 125].
(** E-GSM with GPRS class 10 and EGPRS class 12, then a technology of a later release. *)
Definition LATER : list Z := [20; 167; 86; 170; 165; 128; 240; 128; 0].
Definition LATER_TECHS : list tech := [mk_tech 1 11 48; mk_tech 14 60 68].

Lemma two_octets : octets TWO. Proof. unfold octets, TWO. repeat (apply Forall_cons; [lia|]). apply Forall_nil. Qed.
Lemma short_octets : octets SHORT. Proof. unfold octets, SHORT. repeat (apply Forall_cons; [lia|]). apply Forall_nil. Qed.
Lemma later_octets : octets LATER. Proof. unfold octets, LATER. repeat (apply Forall_cons; [lia|]). apply Forall_nil. Qed.

Lemma two_cap : capability TWO TWO_TECHS.
Proof. exact (techs_next TWO 0 [mk_tech 3 31 68] eq_refl eq_refl (techs_last TWO 20 eq_refl eq_refl)). Qed.
Lemma two_long : Forall (long_form TWO) TWO_TECHS.
Proof.
  apply Forall_cons; [|apply Forall_cons; [|apply Forall_nil]]; unfold long_form; cbn [t_type t_from t_to a5_at];
    (split; [discriminate|split; [lia|intro P; first [discriminate P | vm_compute; discriminate]]]).
Qed.
Lemma two_go : exists s, decode_racap TWO = Go s.
Proof. exists (parse_ra_cap TWO). vm_compute. reflexivity. Qed.
Lemma two_classes : map (gprs_class TWO) TWO_TECHS = [None; Some 10] /\ map (egprs_class TWO) TWO_TECHS = [None; Some 12] /\ classes TWO = (10, 12).
Proof. repeat split; vm_compute; reflexivity. Qed.

Lemma short_wrong : exists msg l s, octets msg /\ capability msg l /\ decode_racap msg = Go s /\
  announced (map (gprs_class msg) l) = 10 /\ Forall (fun t => egprs_class msg t = None) l /\ classes msg = (2, 7).
Proof.
  exists SHORT, SHORT_TECHS, (parse_ra_cap SHORT). split; [exact short_octets|].
  split; [exact (techs_next SHORT 0 [mk_tech 1 104 125] eq_refl eq_refl (techs_last SHORT 93 eq_refl eq_refl))|].
  split; [vm_compute; reflexivity|]. split; [vm_compute; reflexivity|].
  split; [apply Forall_cons; [vm_compute; reflexivity|apply Forall_cons; [vm_compute; reflexivity|apply Forall_nil]]|vm_compute; reflexivity].
Qed.

Lemma later_wrong : exists msg l, octets msg /\ capability msg l /\ Forall (long_form msg) l /\
  announced (map (gprs_class msg) l) = 10 /\ announced (map (egprs_class msg) l) = 12 /\ classes msg = (0, 0).
Proof.
  exists LATER, LATER_TECHS. split; [exact later_octets|].
  split; [exact (techs_next LATER 0 [mk_tech 14 60 68] eq_refl eq_refl (techs_last LATER 49 eq_refl eq_refl))|].
  split; [|repeat split; vm_compute; reflexivity].
  apply Forall_cons; [|apply Forall_cons; [|apply Forall_nil]]; unfold long_form; cbn [t_type t_from t_to a5_at];
    (split; [discriminate|split; [lia|intro P; first [discriminate P | vm_compute; discriminate]]]).
Qed.
