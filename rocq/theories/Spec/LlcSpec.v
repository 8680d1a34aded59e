(** What C18-C21 talk about: priority FIFO lists, interleavings, counts, lifetimes, and
    observations of the queue management. *)
From Coq Require Import ZArith List Bool Permutation.
From Verif Require Import Model.Codel Model.LlcQueue.
Import ListNotations.
Local Open Scope Z_scope.

Definition lists := prio -> list frame.
Definition rank (p : prio) : Z := match p with PGmm => 0 | PSms => 1 | POther => 2 end.
Definition all_frames (q : llcq) : list frame := ql q PGmm ++ ql q PSms ++ ql q POther.

(** Taking frames one after the other, each the oldest of the highest non-empty
    priority. *)
Inductive takes : lists -> list (frame * prio) -> lists -> Prop :=
| tk_nil : forall l l', (forall p, l p = l' p) -> takes l [] l'
| tk_cons : forall l f p ps l1 l',
    l p = f :: l1 p -> (forall p', rank p' < rank p -> l p' = []) ->
    (forall p', p' <> p -> l1 p' = l p') ->
    takes l1 ps l' -> takes l ((f, p) :: ps) l'.

(** [c] interleaves [a] and [b], keeping the order of each. *)
Inductive shuffle {A : Type} : list A -> list A -> list A -> Prop :=
| sh_nil : shuffle [] [] []
| sh_l : forall x a b c, shuffle a b c -> shuffle (x :: a) b (x :: c)
| sh_r : forall x a b c, shuffle a b c -> shuffle a (x :: b) (x :: c).

Definition oldest_first (l : list frame) : Prop :=
  forall a x m y b, l = a ++ x :: m ++ y :: b -> f_recv x <= f_recv y.

Definition sum_len (l : list frame) : Z := fold_right (fun f s => f_len f + s) 0 l.
(** The reported counts, which are 64-bit, are those of the contents. *)
Definition counts_ok (q : llcq) : Prop :=
  q_size q = Z.of_nat (length (all_frames q)) mod 2 ^ 64 /\
  q_octets q = sum_len (all_frames q) mod 2 ^ 64.

(** Histories of a queue. Merging takes in another queue. *)
Inductive qop : Type :=
| QEnq (f : frame) | QDeq (now hyst : Z) | QPutBack (p : prio) (f : frame) | QMerge (o : llcq) | QClear.
(** Frames that came in and that went out (delivered, dropped, cleared). *)
Record qlog := mk_log { lg_in : list frame; lg_out : list frame }.
Definition opt_frame (r : option (frame * prio)) : list frame := match r with Some (f, _) => [f] | None => [] end.
Definition q_step (st : llcq * qlog) (op : qop) : option (llcq * qlog) :=
  let '(q, g) := st in
  match op with
  | QEnq f => Some (enqueue q f, mk_log (lg_in g ++ [f]) (lg_out g))
  | QDeq now hyst =>
    match dequeue q now hyst with
    | None => None
    | Some (q', r, d) => Some (q', mk_log (lg_in g) (lg_out g ++ map (fun x => fst (fst x)) d ++ opt_frame r))
    end
  | QPutBack p f => Some (merge_prepend q p f, mk_log (lg_in g ++ [f]) (lg_out g))
  | QMerge o => Some (fst (move_and_merge q o), mk_log (lg_in g ++ all_frames o) (lg_out g))
  | QClear => Some (clear q, mk_log (lg_in g) (lg_out g ++ all_frames q))
  end.
(** The configured hysteresis is not negative. *)
Definition qop_ok (op : qop) : Prop := match op with QDeq _ hyst => 0 <= hyst | _ => True end.
Fixpoint q_run (st : llcq * qlog) (ops : list qop) : option (llcq * qlog) :=
  match ops with
  | [] => Some st
  | op :: r => match q_step st op with Some st' => q_run st' r | None => None end
  end.

(** A TBF taking frames from the queue until it is given up before its first ack. *)
Inductive hop : Type := HEnq (f : frame) | HSched (now hyst : Z) | HComplete.
Record hstate := mk_hs { hs_h : holder; hs_q : llcq; hs_drops : list (frame * prio); hs_enq : list frame }.
Definition h_step (s : hstate) (op : hop) : option hstate :=
  match op with
  | HEnq f => Some (mk_hs (hs_h s) (enqueue (hs_q s) f) (hs_drops s) (hs_enq s ++ [f]))
  | HSched now hyst =>
    match schedule_next (hs_h s) (hs_q s) now hyst with
    | None => None
    | Some (h, q, d) => Some (mk_hs h q (hs_drops s ++ map fst d) (hs_enq s))
    end
  | HComplete => Some (mk_hs (complete_frame (hs_h s)) (hs_q s) (hs_drops s) (hs_enq s))
  end.
(** Frames carry at least one octet. *)
Definition hop_ok (op : hop) : Prop :=
  match op with HEnq f => 0 < f_len f | HSched _ hyst => 0 <= hyst | HComplete => True end.
Fixpoint h_run (s : hstate) (ops : list hop) : option hstate :=
  match ops with
  | [] => Some s
  | op :: r => match h_step s op with Some s' => h_run s' r | None => None end
  end.
Definition of_prio (p : prio) (l : list (frame * prio)) : list frame :=
  map fst (filter (fun x => rank (snd x) =? rank p) l).

(** The frames of a list that belong to a priority. *)
Definition enq_of (p : prio) (l : list frame) : list frame := filter (fun f => rank (frame_prio f) =? rank p) l.

(** Observations made when frames leave a queue: reception time, now, backlog. *)
Record obs := mk_obs { o_recv : Z; o_now : Z; o_bytes : Z }.
Definition cd_step (s : codel) (o : obs) : bool * codel := codel_control s (o_recv o) (o_now o) (o_bytes o).
Fixpoint cd_run (s : codel) (l : list obs) : codel :=
  match l with [] => s | o :: r => cd_run (snd (cd_step s o)) r end.
(** Waited at least the target, with more than one packet behind it. *)
Definition too_long (target maxpacket : Z) (o : obs) : Prop :=
  target <= o_now o - o_recv o /\ ~ (0 <= o_bytes o <= maxpacket).
(** Nothing seen yet. *)
Definition start_state (s : codel) : Prop := cd_first_above s = 0 /\ cd_dropping s = false /\ cd_drop_next s = 0.
(** Times of the drops along a list of observations, while dropping goes on. *)
Fixpoint cd_drops (s : codel) (l : list obs) : list Z :=
  match l with
  | [] => []
  | o :: r => let '(d, s') := cd_step s o in (if d then [o_now o] else []) ++ cd_drops s' r
  end.
Fixpoint cd_keeps (s : codel) (l : list obs) : Prop :=
  match l with [] => True | o :: r => cd_dropping (snd (cd_step s o)) = true /\ cd_keeps (snd (cd_step s o)) r end.
(** interval * inv_sqrt(n) / 256, in whole microseconds. *)
Definition law (interval n : Z) : Z := interval / 1000 * inv_sqrt n / 256 * 1000.
Fixpoint law_sum (interval c : Z) (k : nat) : Z :=
  match k with O => 0 | S j => law interval c + law_sum interval ((c + 1) mod 2 ^ 32) j end.

(** The lifetime of a frame that arrived at [t0] with delay value [delay] (10 ms units),
    or the forced one, is over at [now]; 0xffff is infinite. *)
Definition lifetime_of (force delay : Z) : Z := if force =? 0 then delay else force.
Definition overdue (force delay t0 now : Z) : Prop :=
  lifetime_of force delay <> 0xffff /\ t0 + lifetime_of force delay * 10000000 < now.
Definition dropped_frames (d : list (frame * prio * reason)) : list frame := map (fun x => fst (fst x)) d.
Definition given (r : option (frame * prio)) : list (frame * prio) := match r with Some x => [x] | None => [] end.
