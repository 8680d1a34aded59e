(** C74: application information for the mobiles of a cell. *)
From Coq Require Import ZArith List Bool Lia.
From Verif Require Import Model.CodingScheme Model.Sched Model.Csn1Enc Model.AppInfo Spec.AppInfoSpec Proofs.AppInfoP.
Import ListNotations.
Local Open Scope Z_scope.

(** The full property: each mobile that has a downlink TBF when the BTS asks is sent the message, once. It is sent to
    nobody, in no history: the scheduler drops the copy it has made, for want of a TBF. *)
Theorem C74_sent_refuted : forall ops x m, In x (snd (arun ops acell0)) -> o_sent x = Some m -> m_kind m <> KApp.
Proof. exact (fun ops => never_sent ops acell0). Qed.
Print Assumptions C74_sent_refuted.
(** The block goes to no other control message either. *)
Theorem C74_block_lost_refuted : forall o s c, o_copy (snd (astep o s)) = Some c -> o_sent (snd (astep o s)) = None.
Proof. exact copy_silent. Qed.
Print Assumptions C74_block_lost_refuted.
Example C74_sent_example : map (fun x => is_some (o_copy x)) (snd (arun h_smooth acell0)) =
    [false; false; false; false; false; false; true; false; false; true; false; false; false; true] /\
  map (fun x => is_some (o_sent x)) (snd (arun h_smooth acell0)) =
    [false; false; false; false; false; false; false; true; true; false; false; false; true; false].
Proof. split; vm_compute; reflexivity. Qed.

(** What is right up to there, in histories where no mobile that is still due a message loses its downlink TBF before
    the next request or goes away: a copy is made at the right blocks for the right mobiles, of the right message; the
    counter is the number of mobiles still waiting; the message is kept exactly as long as one waits. *)
Theorem C74_copies_partial : forall ops, smooth_run ops [] ->
  map o_copy (snd (arun ops acell0)) = snd (gives ops []) /\
  c_left (fst (arun ops acell0)) = waiting (fst (arun ops acell0)) /\
  (c_msg (fst (arun ops acell0)) = None <-> waiting (fst (arun ops acell0)) = 0).
Proof. exact right_copies. Qed.
Print Assumptions C74_copies_partial.
Example C74_copies_example : smooth_run h_smooth [].
Proof. exact (proj1 h_smooth_ok). Qed.

(** In every history: after a request, at most one copy for each mobile until the next request, and only of the message
    that request brought. *)
Theorem C74_once : forall ops s m, Forall no_request ops -> (copies m (snd (arun ops s)) <= 1)%nat.
Proof. exact once. Qed.
Print Assumptions C74_once.
Theorem C74_newest : forall ops s ty data s1 c k x, Forall no_request ops -> app_request ty data s = (s1, 0) ->
  In c (snd (arun ops s1)) -> o_copy c = Some (k, x) -> app_msg ty data = Some x.
Proof. exact newest. Qed.
Print Assumptions C74_newest.
Example C74_once_example : copies 1 (snd (arun h_smooth acell0)) = 1%nat.
Proof. vm_compute. reflexivity. Qed.

(** In other histories a mobile that is due the message of an accepted request finds it gone, and the counter of the
    mobiles still to be told wraps around; a request that was refused does the same to the one before; a mobile that
    goes away leaves the message for ever; an empty request takes away the one before. *)
Theorem C74_copies_refuted :
  (exists m x, last (snd (gives h_stale [])) None = Some (m, x) /\ app_msg 1 [2] = Some x /\
     o_rc (nth 6 (snd (arun h_stale acell0)) (mk_aout 1 None None)) = 0 /\
     (forall c, In c (snd (arun h_stale acell0)) -> forall y, o_copy c <> Some (2, y)) /\
     c_left (fst (arun h_stale acell0)) = 4294967295) /\
  (map o_rc (snd (arun h_refused acell0)) = [0; 0; 0; 0; -1; 0] /\
     c_left (fst (arun h_refused acell0)) = 4294967295 /\ c_msg (fst (arun h_refused acell0)) <> None /\
     waiting (fst (arun h_refused acell0)) = 0) /\
  (c_left (fst (arun h_gone acell0)) = 1 /\ c_msg (fst (arun h_gone acell0)) <> None /\
     waiting (fst (arun h_gone acell0)) = 0) /\
  (map o_rc (snd (arun h_empty acell0)) = [0; 0; 0; 0; 0] /\
     map o_copy (snd (arun h_empty acell0)) = [None; None; None; None; None]).
Proof. exact (conj stale (conj refused (conj gone empty_accepted))). Qed.
Print Assumptions C74_copies_refuted.

(** The message carries page mode, type and octets. *)
Theorem C74_content : forall ty data b, 0 <= ty < 16 -> Forall (fun x => 0 <= x < 256) data -> app_msg ty data = Some b ->
  read_app b = Some (0, ty, data) /\ length b = (8 * (length data + 1))%nat.
Proof. exact app_read. Qed.
Print Assumptions C74_content.
Example C74_content_example : exists b, app_msg 1 [170; 85] = Some b /\ read_app b = Some (0, 1, [170; 85]).
Proof. eexists. split; [reflexivity|]. vm_compute. reflexivity. Qed.
(** But it is no control block: it lacks the MAC header and the message type, so that a mobile takes it for a data
    block; and the USF is written over its type and data, so that different messages become the same block. *)
Theorem C74_block_refuted :
  (forall ty data b u, app_msg ty data = Some b -> ~ control_block (set_usf u b)) /\
  (exists ty data data' b b' u, data <> data' /\ Forall (fun x => 0 <= x < 256) (data ++ data') /\
     app_msg ty data = Some b /\ app_msg ty data' = Some b' /\ set_usf u b = set_usf u b').
Proof. exact (conj app_first_usf same_block). Qed.
Print Assumptions C74_block_refuted.
