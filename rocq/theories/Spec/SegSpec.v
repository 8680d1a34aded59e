(** Reassembly of LLC frames from RLC data blocks by the length indicator rules of
    3GPP TS 44.060, 10.4.13, 10.4.14 and 10.4.14a, as the receiving side applies them. *)
From Coq Require Import ZArith List Bool.
From Verif Require Import Model.Segment.
Import ListNotations.
Local Open Scope Z_scope.

(** Fields of a length octet. *)
Definition ext_e (x : Z) : bool := x mod 2 =? 1.
Definition gprs_m (x : Z) : bool := (x / 2) mod 2 =? 1.
Definition gprs_li (x : Z) : nat := Z.to_nat (x / 4).
Definition egprs_li (x : Z) : nat := Z.to_nat (x / 2).

(** The length octets of a block, up to and including the one whose E bit is 1, and the
    octets after them. *)
Fixpoint split_ext (o : list Z) : option (list Z * list Z) :=
  match o with
  | [] => None
  | x :: r => if ext_e x then Some ([x], r)
              else match split_ext r with Some (l, d) => Some (x :: l, d) | None => None end
  end.

(** A receiver holds the frames completed and the octets of the one under way. *)
Definition rx := (list (list Z) * list Z)%type.
Definition finish (r : rx) : rx := (fst r ++ [snd r], []).
Definition more (r : rx) (d : list Z) : rx := (fst r, snd r ++ d).

(** GPRS: length 0 means the frame goes on in the next block; M=0 means nothing but
    filling follows; M=1 and E=1 means the rest is a new frame. *)
Fixpoint rx_gprs (lis d : list Z) (r : rx) : rx :=
  match lis with
  | [] => r
  | x :: lis' =>
    if Nat.eqb (gprs_li x) 0 then more r d
    else
      let n := gprs_li x in
      let r1 := finish (more r (firstn n d)) in
      if negb (gprs_m x) then r1
      else if ext_e x then more r1 (skipn n d)
      else rx_gprs lis' (skipn n d) r1
  end.
(** EGPRS: length 127 means nothing but filling follows; after the last length octet the
    rest is a new frame. *)
Fixpoint rx_egprs (lis d : list Z) (r : rx) : rx :=
  match lis with
  | [] => r
  | x :: lis' =>
    if Nat.eqb (egprs_li x) 127 then r
    else
      let n := egprs_li x in
      let r1 := finish (more r (firstn n d)) in
      if ext_e x then more r1 (skipn n d) else rx_egprs lis' (skipn n d) r1
  end.
(** The last block of a TBF ends the frame under way. *)
Definition rx_end (fbi : bool) (r : rx) : rx :=
  if fbi then match snd r with [] => r | _ => finish r end else r.
Definition rx_block (edge : bool) (b : sent_block) (r : rx) : option rx :=
  if sb_e b then Some (rx_end (sb_fbi b) (more r (sb_oct b)))
  else match split_ext (sb_oct b) with
       | None => None
       | Some (lis, d) => Some (rx_end (sb_fbi b) ((if edge then rx_egprs else rx_gprs) lis d r))
       end.
Fixpoint rx_run (edge : bool) (l : list sent_block) (r : rx) : option rx :=
  match l with
  | [] => Some r
  | b :: l' => match rx_block edge b r with Some r' => rx_run edge l' r' | None => None end
  end.

(** Block lengths whose length indicators fit their fields. *)
Definition len_ok (edge : bool) (n : nat) : Prop := (2 <= n /\ n <= if edge then 127 else 64)%nat.
(** Frames handed to the sender are not empty. *)
Definition step_ok (edge : bool) (x : seg_step) : Prop :=
  len_ok edge (ss_len x) /\ Forall (fun f => f <> []) (ss_new x).
(** Only the last block may carry the final block indicator. *)
Fixpoint ends_once (l : list sent_block) : Prop :=
  match l with
  | [] => True
  | b :: r => (sb_fbi b = true -> r = []) /\ ends_once r
  end.

Definition real (l : list (list Z * bool)) : list (list Z) := map fst (filter (fun x => negb (snd x)) l).
(** The frame under way, unless there is none or it is a dummy frame. *)
Definition under_way (s : sender) : list (list Z) :=
  if s_dummy s then [] else match l_frame (s_llc s) with [] => [] | f => [f] end.
(** The sender of a new TBF. *)
Definition fresh : sender := mk_snd no_llc false [] [].
