(** An uplink transfer with the mobile at the other end: which blocks it may send, given the acknowledgements it has
    heard (3GPP TS 44.060 9.1.3, 9.1.8, 9.1.9).  Blocks can be lost; acknowledgements take time and can be lost, too.

    Blocks are numbered without wrap-around as in UlWindowSpec.v; the blocks and frames are those of UlFramesSpec.v. *)
From Coq Require Import ZArith List Bool.
From Verif Require Import Base.Arith Model.RlcWindow Model.RlcWindowUl Model.UlParse Model.TbfUlWindow Model.UlFrames
  Spec.UlWindowSpec Spec.UlFramesSpec.
Import ListNotations.
Local Open Scope Z_scope.

(** The received-block report of an acknowledgement: starting sequence number and bitmap in transmission order. The
    reports of EGPRS start at the beginning of the window. *)
Inductive report := RGprs (ssn : Z) (bits : list bool) | REgprs (ssn : Z) (bits : list bool).
(** What the PCU puts into an acknowledgement, with [rest] bits free in the message (EGPRS, no compression). *)
Definition pcu_report (edge : bool) (w : ul_window) (rest : Z) : report :=
  if edge then let '(ssn, _, bits) := ul_report_egprs_unc w rest in REgprs ssn bits
  else let '(ssn, bits) := ul_report_gprs w in RGprs ssn bits.

(** What the mobile knows to be acknowledged; V(A) is the first block that is not. *)
Definition known := Z -> bool.
Definition is_va (h : known) (a : Z) : Prop := 0 <= a /\ (forall i, 0 <= i < a -> h i = true) /\ h a = false.
(** What a report says about block [i] to a mobile whose V(A) is [a].
    GPRS: bit [64 - b] is about the block [b] numbers before SSN.
    EGPRS: SSN - 1 is the first block missing, all before it are received; the bits are about SSN, SSN + 1, ..., the
    last one first. *)
Definition says (a : Z) (r : report) (i : Z) : option bool :=
  match r with
  | RGprs ssn bits => let b := (ssn - i) mod 128 in if (1 <=? b) && (b <=? 64) then Some (nth (Z.to_nat (64 - b)) bits false) else None
  | REgprs ssn bits =>
    let q := a + (ssn - 1 - a) mod 2048 in
    let len := Z.of_nat (length bits) in
    if i <? q then Some true else if i =? q then Some false
    else if i <=? q + len then Some (nth (Z.to_nat (len - (i - q))) bits false) else None
  end.
(** The blocks in the mobile's window that a report acknowledges become known. *)
Definition hears (a ws n : Z) (r : report) (h : known) : known :=
  fun i => h i || ((a <=? i) && (i <? a + ws) && (i <? n) && match says a r i with Some b => b | None => false end).

(** The PCU (observer, frame buffer, frames sent); what the mobile knows; reports on their way, the oldest first, each
    with the state of the PCU when it sent it; and that of the report heard last. *)
Record uloop := mk_ul { l_o : uobs; l_m : ullc; l_out : list (list Z); l_known : known; l_air : list (uobs * report); l_last : uobs }.
Definition unknown : known := fun _ => false.

(** A half of a block comes alone in its radio block (MCS-1 to MCS-6). *)
Definition half_alone (l : list ul_blk) : Prop := (exists b, l = [b]) \/ Forall (fun b => ub_incomplete b = false) l.
(** The mobile sends blocks of its window: [a] is V(A), [ws] a window size the PCU has. *)
Definition sends (edge : bool) (sns a ws n : Z) (blk : Z -> mblock) (b : ul_blk) : Prop :=
  exists i, 0 <= i < n /\ a <= i < a + ws /\ ub_bsn b = i mod sns /\ (ub_incomplete b = false -> ub_content b = content edge (blk i)).

Definition loop_params (edge : bool) (sns ws : Z) : Prop := if edge then sns = 2048 /\ 64 <= ws <= 512 else sns = 128 /\ ws = 64.

Section Loop.
  Context (edge : bool) (sns n : Z) (blk : Z -> mblock).
  Definition with_pcu (s : uloop) (o : uobs) (m : ullc) (new : list (list Z)) : uloop :=
    mk_ul o m (l_out s ++ new) (l_known s) (l_air s) (l_last s).
  Definition with_air (s : uloop) (air : list (uobs * report)) : uloop := mk_ul (l_o s) (l_m s) (l_out s) (l_known s) air (l_last s).

  Inductive lstep (s : uloop) : uloop -> Prop :=
  | L_send a rel flow l t' m' new fin o' : is_va (l_known s) a -> half_alone l -> Forall (sends edge sns a (uws (l_o s)) n blk) l ->
      ul_rcv_llc rel flow (u_t (l_o s)) (l_m s) l = Some (t', m', new, fin) -> uobs_step (URcv rel flow l) (l_o s) = Some o' ->
      lstep s (with_pcu s o' m' new)
  | L_window w o' : ul_op_ok sns (USetWs w) (l_o s) -> loop_params edge sns w -> uobs_step (USetWs w) (l_o s) = Some o' ->
      lstep s (with_pcu s o' (l_m s) [])
  | L_report rest : 0 <= rest < 256 ->
      lstep s (with_air s (l_air s ++ [(l_o s, pcu_report edge (ut_w (u_t (l_o s))) rest)]))
  | L_lost x y z : l_air s = x ++ y :: z -> lstep s (with_air s (x ++ z))
  | L_hears a o r rest : is_va (l_known s) a -> l_air s = (o, r) :: rest ->
      lstep s (mk_ul (l_o s) (l_m s) (l_out s) (hears a (uws (l_o s)) n r (l_known s)) rest o).

  Inductive lsteps (s : uloop) : uloop -> Prop :=
  | L_refl : lsteps s s
  | L_more s1 s2 : lsteps s s1 -> lstep s1 s2 -> lsteps s s2.

  Definition lstart (ws : Z) : uloop := mk_ul (uobs_init sns ws) ullc_reset [] unknown [] (uobs_init sns ws).
  Definition ul_loop (ws : Z) (s : uloop) : Prop := loop_params edge sns ws /\ lsteps (lstart ws) s.
End Loop.
