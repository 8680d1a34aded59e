(** What the scheduler should do, for C38-C42. *)
From Coq Require Import ZArith List Bool.
From Verif Require Import Model.FrameNo Model.UlController Model.CodingScheme Model.Sched Spec.FrameSpec.
Import ListNotations.
Local Open Scope Z_scope.

(** TFIs are 0..31. *)
Definition tfi_ok (t : Z) : Prop := 0 <= t < 32.
(** How far [t] comes after [from], going round. *)
Definition dist (from t : Z) : Z := (t - from) mod 32.

(** ** Uplink *)

(** A TFI whose TBF is in data transfer; when only GPRS mobiles may be invited, EGPRS TBFs
    do not count. *)
Definition invitable (ul : Z -> option ultbf) (gprs_only : bool) (t : Z) : Prop :=
  tfi_ok t /\ exists u, ul t = Some u /\ u_flow u = true /\ (gprs_only = true -> u_egprs u = false).

(** Rounds of uplink scheduling; each may find different TBFs. The result lists the TFIs
    invited. *)
Fixpoint ul_rounds (l : list ((Z -> option ultbf) * bool)) (next : Z) : list (option Z) :=
  match l with
  | [] => []
  | (ul, g) :: r =>
    let '(x, next') := select_uplink ul g next in
    option_map fst x :: ul_rounds r next'
  end.

(** ** One mobile per block *)

(** Those who may transmit in the uplink block: the owner of a single block allocation,
    the TBF polled, the TBFs whose USF is announced (7 announces nobody). *)
Inductive sender : Set := BySba (sba : Z) | ByTbf (tbf : Z).
Definition may_send (m : table) (e : senv) (pfn usf : Z) (x : sender) : Prop :=
  (exists s, m pfn = Some (OSba s) /\ x = BySba s) \/
  (exists b r, m pfn = Some (OPoll b r) /\ x = ByTbf b) \/
  (usf <> 7 /\ exists t u, tfi_ok t /\ e_ul e t = Some u /\ u_usf u = usf /\ x = ByTbf (u_id u)).

(** What allocation provides (C28, C30, C31): the USFs in use on a timeslot are 0..6 and
    differ, and an uplink TBF with a USF on this timeslot is attached to it. *)
Definition usf_ok (e : senv) : Prop :=
  (forall t u, tfi_ok t -> e_ul e t = Some u -> 0 <= u_usf u <= 6) /\
  (forall t t' u u', tfi_ok t -> tfi_ok t' -> e_ul e t = Some u -> e_ul e t' = Some u' ->
     u_usf u = u_usf u' -> t = t') /\
  (forall b u, e_by_id e b = Some u -> u_id u = b /\
     (u_usf u <> 255 -> exists t, tfi_ok t /\ e_ul e t = Some u)).

(** ** Downlink data *)

(** Frames from [last] to [fn] when [fn] is the later one by less than half a
    hyperframe. *)
Definition age_is (last fn a : Z) : Prop := 0 <= a < HYP / 2 /\ fn = (last + a) mod HYP.

(** The classes of urgency. *)
Definition must_poll (d : dltbf) : Prop :=
  d_ctrl_ts d = true /\ (d_lost d = true \/ 20 <= d_tx d \/ d_req d = true).
Definition long_unpolled (c : sconf) (d : dltbf) (age : Z) : Prop :=
  let limit := msecs_to_frames (Z.min (c_t3190 c / 2) (c_idle c)) in
  d_ctrl_ts d = true /\ 0 < limit < age.
Definition has_work (d : dltbf) : Prop := (d_state d = 0 /\ d_have_data d = true) \/ d_resend d = true.
Definition kept_alive (c : sconf) (d : dltbf) (fn age : Z) : Prop :=
  d_ctrl_ts d = true /\ msecs_to_frames 200 < age /\ keep_open c d fn = true.
Definition unacked (d : dltbf) : Prop := d_empty d = false.

(** The rank: the highest class the TBF belongs to. *)
Definition rank_is (c : sconf) (d : dltbf) (fn : Z) (r : Z) : Prop :=
  let age := frames_since_last (d_last_poll d) fn in
  (r = 5 /\ must_poll d) \/
  (r = 4 /\ ~ must_poll d /\ long_unpolled c d age) \/
  (r = 3 /\ ~ must_poll d /\ ~ long_unpolled c d age /\ has_work d) \/
  (r = 2 /\ ~ must_poll d /\ ~ long_unpolled c d age /\ ~ has_work d /\ kept_alive c d fn age) \/
  (r = 1 /\ ~ must_poll d /\ ~ long_unpolled c d age /\ ~ has_work d /\ ~ kept_alive c d fn age /\ unacked d) \/
  (r = 0 /\ ~ must_poll d /\ ~ long_unpolled c d age /\ ~ has_work d /\ ~ kept_alive c d fn age /\ ~ unacked d).

(** A TBF that can send under the restriction [req], with its rank. Under GPRS no EGPRS
    TBF; under EGPRS_GMSK an EGPRS TBF only to be polled or with nothing to resend. *)
Definition sendable (c : sconf) (dl : Z -> option dltbf) (fn : Z) (req : mkind) (t r : Z) : Prop :=
  tfi_ok t /\ exists d, dl t = Some d /\ (d_state d = 0 \/ d_state d = 1) /\
  rank_is c d fn r /\ r <> 0 /\
  (req = GPRS -> d_egprs d = false) /\
  (req = EGPRS_GMSK -> d_egprs d = true -> r = 5 \/ (r = 3 /\ d_resend d = false)).

(** One round of downlink scheduling. *)
Record dround := mk_dr { dr_conf : sconf; dr_dl : Z -> option dltbf; dr_fn : Z; dr_req : mkind }.
Fixpoint dl_rounds (l : list dround) (next : Z) : list (option Z) :=
  match l with
  | [] => []
  | r :: tl =>
    let '(x, next') := select_dl (dr_conf r) (dr_dl r) (dr_fn r) (dr_req r) next in
    option_map (fun y => fst (fst y)) x :: dl_rounds tl next'
  end.

(** TFI [t] is among those of the highest rank of all that can send. *)
Definition top (r : dround) (t : Z) : Prop :=
  exists p, sendable (dr_conf r) (dr_dl r) (dr_fn r) (dr_req r) t p /\
  forall t' p', sendable (dr_conf r) (dr_dl r) (dr_fn r) (dr_req r) t' p' -> p' <= p.

(** ** Control messages *)

Record cround := mk_cr { cr_make : ckind -> Z -> bool; cr_stored : bool; cr_paging : bool; cr_cands : cands }.
Definition cr_run (r : cround) (prio : Z) : cres :=
  select_ctrl (cr_make r) (cr_stored r) (cr_paging r) (cr_cands r) prio.
Fixpoint ctrl_rounds (l : list cround) (prio : Z) : list (option cmsg) :=
  match l with
  | [] => []
  | r :: tl => r_sent (cr_run r prio) :: ctrl_rounds tl (r_prio (cr_run r prio))
  end.

(** No Packet Application Information comes up. *)
Definition no_app (r : cround) : Prop :=
  forall t, k_dl_ass (cr_cands r) = Some t -> t_app t = false \/ cr_stored r = false.

(** A message of kind [kd] for TBF [t] is due in the rotation: assignments for the other
    direction, rejects, acknowledgements, neighbour cell messages. *)
Definition due (r : cround) (kd : ckind) (t : ctbf) : Prop :=
  cr_make r kd (t_id t) = true /\
  match kd with
  | KUlAss => k_ul_ass (cr_cands r) = Some t /\ (t_up t = false \/ t_reject t = true)
  | KDlAss => k_dl_ass (cr_cands r) = Some t /\ t_up t = true
  | KUlAck => k_ul_ack (cr_cands r) = Some t
  | KNacc => k_nacc (cr_cands r) = Some t
  | KApp | KPaging => False
  end.
(** The four kinds in the order in which they come first for one TBF. *)
Definition kind_no (kd : ckind) : Z :=
  match kd with KUlAss => 0 | KDlAss => 1 | KUlAck => 2 | KNacc => 3 | KApp => 4 | KPaging => 5 end.
(** Nothing else that comes first is pending for the same TBF. *)
Definition cand_of (k : cands) (kd : ckind) : option ctbf :=
  match kd with KUlAss => k_ul_ass k | KDlAss => k_dl_ass k | KUlAck => k_ul_ack k | KNacc => k_nacc k
  | _ => None end.
Definition first_for (r : cround) (kd : ckind) (t : ctbf) : Prop :=
  forall kd' t', kind_no kd' < kind_no kd -> cand_of (cr_cands r) kd' = Some t' -> t_id t' <> t_id t.

(** The last entry of a list with a property. *)
Fixpoint last_with {A} (f : A -> bool) (l : list A) : option A :=
  match l with
  | [] => None
  | x :: r => match last_with f r with Some y => Some y | None => if f x then Some x else None end
  end.

(** What happens to the list of TBFs of one direction between two messages: a new TBF at
    the front, one removed, changes of what is pending. *)
Inductive lev : Type :=
| LAdd (t : ctbf)
| LDel (id : Z)
| LChange (g : ctbf -> ctbf)
| LOther (id : Z).   (* a message for TBF [id], of whatever kind *)
Definition lev_do (l : list ctbf) (e : lev) : list ctbf :=
  match e with
  | LAdd t => t :: l
  | LDel id => filter (fun t => negb (t_id t =? id)) l
  | LChange g => map g l
  | LOther id => rotate_in_list id l
  end.

(** Nothing of this removes TBF [id], or what it waits for, or moves it. *)
Definition lev_keeps (f : ctbf -> bool) (id : Z) (e : lev) : Prop :=
  match e with
  | LAdd _ => True
  | LDel i => i <> id
  | LChange g => forall t, t_id (g t) = t_id t /\ (t_id t = id -> f t = true -> f (g t) = true)
  | LOther i => i <> id
  end.
(** Rounds of choosing the candidate of one kind ([f]: waiting for a message of this kind),
    each preceded by some events; the one chosen gets its message. *)
Fixpoint list_rounds (f : ctbf -> bool) (rounds : list (list lev)) (l : list ctbf) : list (option Z) :=
  match rounds with
  | [] => []
  | evs :: r =>
    let l1 := fold_left lev_do evs l in
    match last_with f l1 with
    | None => None :: list_rounds f r l1
    | Some t => Some (t_id t) :: list_rounds f r (rotate_in_list (t_id t) l1)
    end
  end.

(** ** Synchronisation *)

(** A block a GPRS-only mobile cannot decode: data of an EGPRS TBF. *)
Definition undecodable (o : sout) : Prop :=
  match o_block o with SbData _ true _ _ => True | _ => False end.
