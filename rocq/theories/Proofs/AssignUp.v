(** The PACKET UPLINK ASSIGNMENT as a whole. *)
From Coq Require Import ZArith List Bool Lia.
From Verif.Model Require Import CodingScheme Csn1 Csn1Tables Csn1Enc BtsConf Assign.
From Verif.Spec Require Import AssignSpec AssignTold.
From Verif.Proofs Require Import Csn1Emit AssignRead AssignMem AssignFits Csn1Close.
Import ListNotations.
Open Scope Z_scope.

Lemma byte_false o x m a : byte_at (st false o x m) a = byte_at m a.
Proof. unfold byte_at, st. now rewrite andb_false_r. Qed.
Lemma first_ok t p : tbf_ok t p -> first_slot (t_slots t) = Some p.
Proof.
  intros (_ & _ & _ & _ & _ & _ & I & Q & _). revert I Q. induction (t_slots t) as [|x l IH]; intros I Q; [destruct I|].
  destruct x as [q|]; cbn [first_slot].
  - f_equal. apply Q. now left.
  - apply IH; [destruct I as [I|I]; [discriminate I|exact I]|]. intros q J. apply Q. now right.
Qed.

Lemma st_eq c o x m a : byte_at (st c o x m) a = if (a =? o) && c then x mod 256 else byte_at m a.
Proof. unfold byte_at, st. destruct ((a =? o) && c); [apply mod256_mod|reflexivity]. Qed.
Lemma skip c o x m a v : (a =? o) = false -> byte_at m a = v -> byte_at (st c o x m) a = v.
Proof. intros E <-. rewrite st_eq, E. reflexivity. Qed.
Lemma skip_f o x m a v : byte_at m a = v -> byte_at (st false o x m) a = v.
Proof. intros <-. apply byte_false. Qed.
Lemma hit o x m a v : (a =? o) = true -> x mod 256 = v -> byte_at (st true o x m) a = v.
Proof. intros E <-. rewrite st_eq, E. reflexivity. Qed.
Lemma skip_ul power gamma slots o usf m a v : a < o \/ o + step_of power * Z.of_nat (length slots) <= a -> byte_at m a = v ->
  byte_at (ul_slots power gamma o slots usf m) a = v.
Proof. intros R <-. now apply ul_slots_other. Qed.
Lemma skip_dl gamma slots o m a v : a < o \/ o + 2 * Z.of_nat (length slots) <= a -> byte_at m a = v ->
  byte_at (dl_slots gamma o slots m) a = v.
Proof. intros R <-. now apply dl_slots_other. Qed.
Lemma skip_freq junk o p m a v : slot_ok p -> a < o \/ o + 27 <= a -> byte_at m a = v -> byte_at (gen_freq_params junk o p m) a = v.
Proof. intros S R <-. now apply gen_freq_other. Qed.
(** The byte at a definite address. *)
Ltac peel E :=
  lazymatch goal with
  | |- byte_at (st false _ _ _) _ = _ => apply skip_f; peel E
  | |- byte_at (st _ _ _ _) _ = _ => first [apply hit; [reflexivity|reflexivity] | apply skip; [reflexivity|peel E]]
  | |- byte_at (ul_slots _ _ _ _ _ _) _ = _ => apply skip_ul; [rewrite E; cbn [step_of]; clear; lia|peel E]
  | |- byte_at (dl_slots _ _ _ _) _ = _ => apply skip_dl; [rewrite E; clear; lia|peel E]
  | |- byte_at (gen_freq_params _ _ _ _) _ = _ => apply skip_freq; [assumption|clear; lia|peel E]
  | |- _ => reflexivity
  end.
(** The byte at an address in a range. *)
Ltac avoid := repeat first [rewrite byte_other by lia | rewrite byte_false | rewrite gen_freq_other by (assumption || lia)].

Definition who_ul (d : sender) (tlli : Z) : addressee :=
  if tlli =? RESERVED_TLLI then ByTfi (d_down d) (d_tfi d) else ByTlli tlli.
Definition dynamic_of (t : tbf) (alpha gamma : Z) : dynamic :=
  let pw := powered_by alpha gamma in
  mk_dynamic (t_tfi t) (if pw then Some alpha else None) (shares pw gamma (t_slots t) (t_usf t)).
Lemma shares_len pw gamma t p : tbf_ok t p -> length (shares pw gamma (t_slots t) (t_usf t)) = 8%nat.
Proof. intros (_ & _ & _ & L & U & _). unfold shares. now rewrite map_length, combine_length, L, U. Qed.

Lemma uplink_memory junk d tlli t p alpha gamma m : tbf_ok t p ->
  write_packet_uplink_assignment junk (d_tfi d) (d_down d) tlli (negb (tlli =? RESERVED_TLLI)) t alpha gamma (-1) (d_egprs d) = Some m ->
  byte_at m 0 = 10 /\ byte_at m 1 = 0 /\ byte_at m 2 = 0 /\ who_at m 8 (who_ul d tlli) /\ byte_at m 16 = Z.b2z (d_egprs d) /\
  (if d_egprs d
   then byte_at m 20 = 0 /\ byte_at m 24 = 0 /\ byte_at m 32 = 0 /\ byte_at m 64 = mcs_chan_code (t_cs t) mod 256 /\
        byte_at m 65 = 1 /\ byte_at m 66 = t_window t mod 256 /\ byte_at m 67 = 0 /\ byte_at m 80 = 0 /\ byte_at m 81 = 1 /\
        byte_at m 84 = 0 /\ byte_at m 96 = 0 /\ byte_at m 104 = 1 /\ byte_at m 136 = 1 /\
        advance_at m 89 (advance_of t) /\ frequency_at m 108 p /\ dynamic_at m 140 (dynamic_of t alpha gamma)
   else byte_at m 20 = mcs_chan_code (t_cs t) mod 256 /\ byte_at m 21 = 1 /\ byte_at m 27 = 1 /\ byte_at m 56 = 1 /\ byte_at m 100 = 0 /\
        advance_at m 22 (advance_of t) /\ frequency_at m 28 p /\ dynamic_at m 58 (dynamic_of t alpha gamma)).
Proof.
  intros OK W. pose proof (shares_len (powered_by alpha gamma) gamma t p OK) as SL.
  pose proof OK as (_ & _ & _ & E & _ & _ & _ & _ & SO).
  unfold write_packet_uplink_assignment in W. rewrite (first_ok t p OK) in W.
  change ((0 <=? -1) && (-1 <? 16)) with false in W. fold (powered_by alpha gamma) in W.
  unfold advance_of, dynamic_of, who_ul, advance_at, dynamic_at. cbv zeta.
  destruct (powered_by alpha gamma); destruct (tlli =? RESERVED_TLLI); destruct (t_ta t <? 64); destruct (d_egprs d);
    cbv zeta in W; cbn [negb] in W; unfold stb, st32, st16 in W; apply (f_equal (fun o => match o with Some x => x | None => m end)) in W;
    cbv beta iota in W; cbn [who_at a_value a_index given Z.b2z y_tfi y_alpha y_slots];
    repeat match goal with |- _ /\ _ => split end;
    lazymatch goal with
    | |- byte_at _ _ = Z.b2z (d_down d) => destruct (d_down d); rewrite <- W; peel E
    | |- byte_at _ _ = _ => rewrite <- W; peel E
    | |- length _ = _ => exact SL
    | |- frequency_at _ _ _ =>
      match type of W with context [gen_freq_params junk ?o p ?x] => apply frequency_same with (m2 := gen_freq_params junk o p x) end;
                             [intros a A; rewrite <- W; rewrite ul_slots_other by (rewrite E; cbn [step_of]; lia); clear - A; avoid; reflexivity
                             |exact SO|apply gen_freq_at; exact SO]
    | |- shares_at _ _ _ _ => rewrite <- W; apply ul_slots_at; rewrite E; intros a A; cbn [step_of] in A; clear - A SO; avoid; reflexivity
    | |- forall _, _ => let V := fresh in intros ? V; first [discriminate V | injection V as <-; rewrite <- W; peel E]
    end.
Qed.
