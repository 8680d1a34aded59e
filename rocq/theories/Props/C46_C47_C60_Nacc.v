(** C46, C47, C60: network assisted cell change. *)
From Coq Require Import ZArith List Bool Lia.
From Verif Require Import Model.NeighCache Model.Nacc Spec.PagingSpec Spec.NaccSpec Proofs.NaccP Proofs.NaccP2 Proofs.NaccP3.
Import ListNotations.
Open Scope Z_scope.

(** C46.  System information that arrives while a mobile waits for it is sent in as many blocks as it
    takes, whatever else happens that does not concern the transfer.  Every block has 184 bits, every
    container but the last is full and the last one is not; what the mobile puts together is the
    system information, for the cell it announced.  Missing: more than 32 containers, see below. *)
Theorem C46_answer_partial : forall h n out w g psi si h2, good_history h -> n_run None [] h = Some (Some n, out) ->
  n_st n = WAIT_SI -> cgi_eq (n_cgi n) g = true -> good_si si ->
  Forall (fun p => quiet (n_key n) p \/ serves p) h2 -> requests h2 = containers (Z.of_nat (length si)) ->
  exists n' bs pre last, n_run (Some n) [] ((w, MRan g psi si) :: h2) = Some (Some n', map Data bs) /\ n_st n' = TX_CONT /\
    Forall (fun b => length b = 184%nat) bs /\
    all_some (map r_container bs) = Some (pre ++ [last]) /\ Forall (fun c => full c = true) pre /\ full last = false /\
    (requests h2 <= 32 -> mobile_collects bs = Some (k_arfcn (n_key n), k_bsic (n_key n), if psi then 1 else 0, si)) /\
    (32 < requests h2 -> nth 0 (map co_idx (pre ++ [last])) (-1) = 0 /\ nth 32 (map co_idx (pre ++ [last])) (-1) = 0).
Proof. exact answer_delivered. Qed.
Print Assumptions C46_answer_partial.

(** The same for system information that is found in the cache when the address arrives. *)
Theorem C46_cached_partial : forall h n out w g psi si h2, good_history h -> n_run None [] h = Some (Some n, out) ->
  n_st n = WAIT_RAC -> Forall (fun b => cgi_eq g (b_cgi b) = false) (w_cells w) -> w_si w g = Some (psi, si) -> good_si si ->
  Forall (fun p => quiet (n_key n) p \/ serves p) h2 -> requests h2 = containers (Z.of_nat (length si)) ->
  exists n' bs pre last, n_run (Some n) [] ((w, MAddr (n_key n) (Some g)) :: h2) = Some (Some n', map Data bs) /\ n_st n' = TX_CONT /\
    Forall (fun b => length b = 184%nat) bs /\
    all_some (map r_container bs) = Some (pre ++ [last]) /\ Forall (fun c => full c = true) pre /\ full last = false /\
    (requests h2 <= 32 -> mobile_collects bs = Some (k_arfcn (n_key n), k_bsic (n_key n), if psi then 1 else 0, si)) /\
    (32 < requests h2 -> nth 0 (map co_idx (pre ++ [last])) (-1) = 0 /\ nth 32 (map co_idx (pre ++ [last])) (-1) = 0).
Proof. exact cached_delivered. Qed.
Print Assumptions C46_cached_partial.

(** A cell, its neighbour, and a mobile that moves there. *)
Definition own : cgi := Cgi 262 1 false 5 1 100.
Definition far : cgi := Cgi 262 1 false 6 1 200.
Definition cell : bts := Bts 0 own (Some [1; 1; 1]) (Some [3; 3; 3]) None.
Definition world0 : world := W cell [cell] (fun _ => None) true (fun _ => None) true true true.
Definition key1 : nkey := Nkey 5 100 871 10.
Definition ask : world * mev := (world0, MRts (Cr true true 7 true (Some (1234, 2)) 4)).
Definition hist : list (world * mev) := [(world0, MNotif (Gsm 871 10)); (world0, MAddr key1 (Some far))].
Definition si_of (n : nat) : list Z := map (fun i => Z.of_nat i mod 251) (seq 0 n).

Example C46_ex_history : good_history hist.
Proof. unfold good_history, hist. repeat constructor; cbn; try discriminate; lia. Qed.
(** 34 octets: exactly the room of two containers, so a third empty one follows. *)
Example C46_ex :
  match n_run None [] (hist ++ [(world0, MRan far false (si_of 34)); ask; (world0, MNotif (Gsm 871 10)); ask; (world0, MTimer); ask]) with
  | Some (Some n, [Data a; Data b; Data c]) => n_st n = TX_CONT /\ mobile_collects [a; b; c] = Some (871, 10, 0, si_of 34) /\
      all_some (map r_container [a; b; c]) <> None /\ option_map full (r_container c) = Some false
  | _ => False
  end.
Proof. vm_compute. repeat split. discriminate. Qed.
Example C46_ex_count : containers 34 = 3 /\ containers 33 = 2 /\ containers 15 = 1 /\ containers 16 = 2 /\ containers 573 = 32 /\ containers 574 = 33.
Proof. vm_compute. repeat split. Qed.

(** The index of a container has five bits.  System information of 28 messages of 21 octets, which the
    answer of an SGSN may hold, takes 33 containers: the last one bears the index of the first, and
    the mobile cannot put them together. *)
Theorem C46_long_refuted : exists h si cs, good_history h /\ length si = 588%nat /\
  Forall (fun p => serves p) cs /\ requests cs = containers 588 /\
  match n_run None [] (h ++ (world0, MRan far false si) :: cs) with
  | Some (Some n, sent) => n_st n = TX_CONT /\
      mobile_collects (flat_map (fun m => match m with Data b => [b] | _ => [] end) sent) <> Some (871, 10, 0, si)
  | _ => False
  end.
Proof.
  exists hist, (si_of 588), (repeat ask 33). split; [exact C46_ex_history|]. split; [vm_compute; reflexivity|]. split.
  { apply Forall_forall. intros p I. apply repeat_spec in I. subst p. unfold serves, ask, good_create. cbn.
    split; [reflexivity|]. split; [reflexivity|]. split; [lia|]. exists 1234, 2. split; [reflexivity|lia]. }
  split; [vm_compute; reflexivity|]. vm_compute. split; [reflexivity|discriminate].
Qed.
Print Assumptions C46_long_refuted.

(** C47.  No history of events hits an assertion. *)
Theorem C47_no_assertion : forall h, n_run None [] h <> None.
Proof. exact (fun h => never_asserts h None []). Qed.
Print Assumptions C47_no_assertion.

(** Every live procedure is driven by something: a running timer, the scheduler, or the poll of the
    Continue it sent. *)
Theorem C47_driven : forall h n out, good_history h -> n_run None [] h = Some (Some n, out) ->
  match n_st n with
  | WAIT_RAC | WAIT_SI => n_timer n = true
  | TX_DATA | TX_CONT => forall c, cr_assigned c = true -> rts n c = true
  | WAIT_ACK => exists w n0 c fn rrbp h1 h2, h = h1 ++ (w, MRts c) :: h2 /\ cr_poll c = Some (fn, rrbp) /\ n_poll n = (fn, cr_ts c) /\
      n_step w (Some n0) (MRts c) = Alive n (Some (Continue (create_continue rrbp c n0)))
  | INITIAL | DONE => False
  end.
Proof. exact driven. Qed.
Print Assumptions C47_driven.

(** Whatever happened, once the timer of the state (or the wait for the acknowledgement) ends, a
    Continue is sent after a number of requests of the scheduler that depends on the machine only;
    repeated announcements and late answers do not matter. *)
Theorem C47_continues : forall h n out, good_history h -> n_run None [] h = Some (Some n, out) ->
  exists k, forall w h2, Forall (fun p => quiet (n_key n) p \/ serves p) h2 -> k <= requests h2 ->
    exists o sent, n_run (Some n) [] ((w, wakes n) :: h2) = Some (o, sent) /\ existsb is_continue sent = true.
Proof. exact progress. Qed.
Print Assumptions C47_continues.

(** The acknowledgement of the Continue ends the procedure. *)
Theorem C47_acknowledged : forall w n, n_st n = WAIT_ACK -> n_step w (Some n) (MAck (fst (n_poll n)) (snd (n_poll n))) = Ended.
Proof. exact acked. Qed.
Print Assumptions C47_acknowledged.

(** Failures lead to a Continue at once: an address that cannot be asked for or resolved, system
    information that cannot be asked for, a target that is not understood, a timer. *)
Theorem C47_failures : forall w n,
  (n_st n = WAIT_RAC -> n_step w (Some n) (MAddr (n_key n) None) = Alive (set_st TX_CONT false n) None) /\
  (n_st n = WAIT_RAC \/ n_st n = WAIT_SI -> n_timer n = true -> n_step w (Some n) MTimer = Alive (set_st TX_CONT false n) None) /\
  (n_st n = WAIT_RAC -> forall g, Forall (fun b => cgi_eq g (b_cgi b) = false) (w_cells w) -> w_si w g = None -> w_rim_ok w = false ->
     exists n', n_step w (Some n) (MAddr (n_key n) (Some g)) = Alive n' None /\ n_st n' = TX_CONT) /\
  (forall t, match n_st n with INITIAL | DONE => False | _ => True end -> fill_key (w_bts w) t = None \/ fill_key (w_bts w) t = Some None ->
     exists n', n_step w (Some n) (MNotif t) = Alive n' None /\ n_st n' = TX_CONT) /\
  (forall t k, match n_st n with INITIAL | DONE => False | _ => True end -> fill_key (w_bts w) t = Some (Some k) -> k <> n_key n ->
     w_neigh w k = None -> w_addr_ok w = false -> exists n', n_step w (Some n) (MNotif t) = Alive n' None /\ n_st n' = TX_CONT /\ n_key n' = k).
Proof. exact failures. Qed.
Print Assumptions C47_failures.

(** Announcing a cell, both answers, the transfer, the Continue, its loss, again, acknowledged. *)
Example C47_ex :
  match n_run None [] (hist ++ [(world0, MRan far false (si_of 3)); ask; ask; (world0, MLost 1234 4); ask]) with
  | Some (Some n, [Data _; Continue a; Continue b]) => n_st n = WAIT_ACK /\ a = b /\ n_step world0 (Some n) (MAck 1234 4) = Ended
  | _ => False
  end.
Proof. vm_compute. repeat split. Qed.
Example C47_ex_wakes : exists n out, n_run None [] hist = Some (Some n, out) /\ wakes n = MTimer /\ n_st n = WAIT_SI.
Proof. eexists. eexists. split; [vm_compute; reflexivity|]. vm_compute. split; reflexivity. Qed.

(** If the TBF with the poll is freed, neither the acknowledgement nor its loss is reported (C15),
    and no timer runs: the mobile may repeat its announcement for ever, it gets nothing. *)
Theorem C47_lost_poll_refuted : exists h n out, good_history h /\ n_run None [] h = Some (Some n, out) /\ n_st n = WAIT_ACK /\
  forall h2, Forall (no_answer n) h2 -> n_run (Some n) [] h2 = Some (Some n, []).
Proof. exact lost_poll. Qed.
Print Assumptions C47_lost_poll_refuted.
(** ... however often the mobile repeats it, and with the scheduler ready all the time. *)
Example C47_lost_poll_ex : forall n c, n_key n = key1 -> Forall (no_answer n) (concat (repeat [(world0, MNotif (Gsm 871 10)); (world0, MRts c); (world0, MTimer)] 100)).
Proof.
  intros n c E. apply Forall_forall. intros p I. apply in_concat in I as (l & I & J). apply repeat_spec in I. subst l.
  cbn in J. destruct J as [<-|[<-|[<-|[]]]]; unfold no_answer; cbn; rewrite ?E; reflexivity || exact Logic.I.
Qed.
(** With a timer configured to zero the wait for an answer has no end either. *)
Theorem C47_zero_timer_refuted : exists h n out, n_run None [] h = Some (Some n, out) /\ n_st n = WAIT_RAC /\
  forall h2, Forall (no_addr n) h2 -> n_run (Some n) [] h2 = Some (Some n, []).
Proof. exact zero_timer. Qed.
Print Assumptions C47_zero_timer_refuted.

(** C60.  With caches and answers that tell the truth, with GSM targets, and no other cell of this PCU
    among them: every Continue names the cell announced last ... *)
Theorem C60_continue_partial : forall T h n out w e n' m, good_history h -> true_history T h ->
  n_run None [] h = Some (Some n, out) -> good_event e -> match e with MRts c => forall fn rrbp, cr_poll c = Some (fn, rrbp) -> 0 <= rrbp < 4 | _ => True end ->
  n_step w (Some n) e = Alive n' (Some (Continue m)) ->
  exists k, announced None h = Some k /\ exists p dl tfi, r_continue m = Some (Some p, dl, tfi, Some (k_arfcn k, k_bsic k)).
Proof. exact continue_names. Qed.
Print Assumptions C60_continue_partial.
(** ... and the mobile reads the system information of that cell. *)
Theorem C60_data_partial : forall T h n out h2, good_history h -> true_history T h ->
  n_run None [] h = Some (Some n, out) -> n_st n = TX_DATA -> n_idx n = 0 ->
  exists k psi si, announced None h = Some k /\ tr_si T (tr_addr T k) = (psi, si) /\
   (Forall (fun p => quiet k p \/ serves p) h2 -> requests h2 = containers (Z.of_nat (length si)) -> requests h2 <= 32 ->
    exists n' bs, n_run (Some n) [] h2 = Some (Some n', map Data bs) /\ n_st n' = TX_CONT /\
      mobile_collects bs = Some (k_arfcn k, k_bsic k, if psi then 1 else 0, si)).
Proof. exact data_describes. Qed.
Print Assumptions C60_data_partial.

(** Two announcements; the first cell's information arrives late and is not taken for the second's. *)
Definition far2 : cgi := Cgi 262 1 false 7 1 300.
Definition key2 : nkey := Nkey 5 100 872 11.
Definition net : truth := Truth (fun k => if nkey_eq k key1 then far else far2)
  (fun g => if cgi_eq g far then (false, si_of 20) else if cgi_eq g far2 then (true, si_of 40) else (false, [1; 1; 1; 3; 3; 3])).
Definition hist2 : list (world * mev) :=
  hist ++ [(world0, MNotif (Gsm 872 11)); (world0, MRan far false (si_of 20)); (world0, MAddr key2 (Some far2)); (world0, MRan far2 true (si_of 40))].
Example C60_ex : true_history net hist2 /\ good_history hist2 /\ announced None hist2 = Some key2 /\
  match n_run None [] hist2 with
  | Some (Some n, []) => n_st n = TX_DATA /\ n_idx n = 0 /\
      match n_run (Some n) [] [ask; ask; ask; ask] with
      | Some (_, [Data a; Data b; Data c; Continue d]) =>
          mobile_collects [a; b; c] = Some (872, 11, 1, si_of 40) /\ r_continue d = Some (Some 2, true, 7, Some (872, 11))
      | _ => False
      end
  | _ => False
  end.
Proof.
  split; [|split; [|vm_compute; repeat split]].
  - unfold hist2, hist. split; [|split].
    + unfold gsm_only. repeat constructor.
    + unfold consistent. apply Forall_forall. intros p I. cbn [app In] in I.
      repeat (destruct I as [<-|I]; [cbn [fst snd world0 w_neigh w_si w_cells w_bts];
        split; [discriminate|split; [discriminate|split; [intros b [<-|[]]; vm_compute; reflexivity|split; [now left|vm_compute; repeat split]]]]|]). destruct I.
    + unfold foreign. apply Forall_forall. intros p I k b J. cbn [app In] in I.
      repeat (destruct I as [<-|I]; [cbn in J; destruct J as [<-|[]]; intro X; now destruct X|]). destruct I.
  - unfold good_history, hist2, hist. apply Forall_forall. intros p I. cbn [app In] in I.
    assert (S : forall n, (n < 100)%nat -> good_si (si_of n)).
    { intros n L. split; [|unfold si_of; rewrite map_length, seq_length; lia]. apply Forall_forall. intros x J. unfold si_of in J. apply in_map_iff in J as (i & <- & _).
      pose proof (Z.mod_pos_bound (Z.of_nat i) 251). lia. }
    assert (Wd : good_world world0) by (split; [split; [repeat constructor; cbn; lia|cbn; lia]|split; [discriminate|split; reflexivity]]).
    repeat (destruct I as [<-|I]; [split; [exact Wd|cbn [snd good_event good_target]; first [exact Logic.I | lia | apply S; lia]]|]). destruct I.
Qed.

(** A neighbour that belongs to this PCU: the mobile gets the system information of the cell it is in. *)
Definition near : bts := Bts 1 far (Some [2; 2]) (Some [4; 4]) None.
Definition world1 : world := W cell [cell; near] (fun _ => None) true (fun _ => None) true true true.
Definition hist3 : list (world * mev) := [(world1, MNotif (Gsm 871 10)); (world1, MAddr key1 (Some far))].
Theorem C60_local_refuted : exists T h, gsm_only h /\ consistent T h /\ announced None h = Some key1 /\
  tr_si T (tr_addr T key1) = (false, [2; 2; 4; 4]) /\
  match n_run None [] (h ++ [ask]) with
  | Some (_, [Data a]) => mobile_collects [a] = Some (871, 10, 0, [1; 1; 1; 3; 3; 3])
  | _ => False
  end.
Proof.
  exists (Truth (fun _ => far) (fun g => if cgi_eq g far then (false, [2; 2; 4; 4]) else (false, [1; 1; 1; 3; 3; 3]))), hist3.
  split; [unfold gsm_only, hist3; repeat constructor|]. split.
  { unfold consistent, hist3. apply Forall_forall. intros p I. cbn [In] in I.
    repeat (destruct I as [<-|I]; [cbn [fst snd world1 w_neigh w_si w_cells w_bts];
      split; [discriminate|split; [discriminate|split; [intros b [<-|[<-|[]]]; vm_compute; reflexivity|split; [now left|vm_compute; repeat split]]]]|]). destruct I. }
  vm_compute. repeat split.
Qed.
Print Assumptions C60_local_refuted.

(** A mobile that announced a GSM cell and then a UTRAN one is told to go on to the GSM cell. *)
Theorem C60_utran_refuted : exists h,
  match n_run None [] (hist ++ [(world0, MNotif Utran)] ++ h) with
  | Some (_, [Continue m]) => r_continue m = Some (Some 2, true, 7, Some (871, 10))
  | _ => False
  end.
Proof. exists [ask]. vm_compute. reflexivity. Qed.
Print Assumptions C60_utran_refuted.
