(** What RAN information management is for: a mobile that changes to a cell gets the system
    information of that cell. *)
From Coq Require Import ZArith List Bool.
From Verif Require Import Model.NeighCache Model.Nacc Model.Rim.
Import ListNotations.
Open Scope Z_scope.

(** 3GPP TS 48.018, 11.3.63.2.1: system information without the two octets in front of it. *)
Definition bare (o : option (list Z)) : list Z := match o with Some (_ :: _ :: l) => l | _ => [] end.
(** What the cell's BTS has set, in the order SI1, SI3, SI13. *)
Definition describes (b : cell) : list Z := bare (l_si1 b) ++ bare (l_si3 b) ++ bare (l_si13 b).

Definition serves (p : pcu) (g : cgi) : Prop := exists b, In b (p_cells p) /\ l_cgi b = g.

(** Now, some cell of identity [g] is described by [l]. *)
Definition broadcast (t : net) (g : cgi) (l : list Z) : Prop :=
  exists p b, In p (t_pcus t) /\ In b (p_cells p) /\ l_cgi b = g /\ describes b = l.

(** System information is a block of 23 octets. *)
Definition whole (o : option (list Z)) : Prop := match o with Some l => length l = 23%nat | None => True end.
Definition whole_cell (b : cell) : Prop := whole (l_si1 b) /\ whole (l_si3 b) /\ whole (l_si13 b).
Definition whole_op (o : nop) : Prop := match o with SysInfo _ _ a b c => whole a /\ whole b /\ whole c | _ => True end.

(** The beginning: nothing asked, nothing known. *)
Definition fresh (t : net) : Prop :=
  t_air t = [] /\
  forall p, In p (t_pcus t) -> c_list (p_cache p) = [] /\ Forall whole_cell (p_cells p) /\ forall m, In m (p_mobs p) -> mo_nacc m = None.

(** Every PCU has one cell and the SGSN knows it by its own identity. *)
Definition plain (t : net) : Prop :=
  forall p, In p (t_pcus t) -> exists b, p_cells p = [b] /\ l_cgi b = p_ident p.

(** After a history: a mobile that is being told about its target is told what once was true of it. *)
Definition truthful (t : net) (ops : list nop) : Prop :=
  forall t' p m n, t_run t ops = Some t' -> In p (t_pcus t') -> In m (p_mobs p) -> mo_nacc m = Some n -> n_st n = TX_DATA ->
    n_psi n = false /\
    exists ops1 ops2 t1, ops = ops1 ++ ops2 /\ t_run t ops1 = Some t1 /\ broadcast t1 (n_cgi n) (n_si n).

(** What libosmocore's decoder hands over: at most 127 elements (a number of seven bits), each of the
    length of its kind, and one of the known containers. *)
Definition decoded (r : pdu) : Prop :=
  match r_cont r with
  | Some (Info _ _ _ psi si) => (length si <= 127)%nat /\ Forall (fun x => length x = if psi then 22%nat else 21%nat) si
  | Some Unknown => False
  | _ => True
  end.

(** The mobile is in the cell and waits for the system information of [g]. *)
Definition awaits (b : cell) (g : cgi) (m : mob) : Prop :=
  mo_cell m = l_nr b /\ exists n, mo_nacc m = Some n /\ n_st n = WAIT_SI /\ n_cgi n = g.
(** The mobile is about to be sent [l] as the system information of [g], from the beginning. *)
Definition is_told (b : cell) (g : cgi) (l : list Z) (m : mob) : Prop :=
  mo_cell m = l_nr b /\
  exists n, mo_nacc m = Some n /\ n_st n = TX_DATA /\ n_cgi n = g /\ n_psi n = false /\ n_si n = l /\ n_sent n = 0 /\ n_idx n = 0.

(** A PCU gets the answer to a request for [g]: it remembers [l] for [g], the mobiles of cell [b] that
    wait for it are told, and nothing else changes. *)
Definition informed (b : cell) (g : cgi) (l : list Z) (p p' : pcu) : Prop :=
  lookup cgi_eq g (p_cache p') = Some (false, l) /\
  (forall h, h <> g -> lookup cgi_eq h (p_cache p') = lookup cgi_eq h (p_cache p)) /\
  p_cells p' = p_cells p /\ p_ident p' = p_ident p /\
  Forall2 (fun m m' => (awaits b g m -> is_told b g l m') /\ (~ awaits b g m -> m' = m)) (p_mobs p) (p_mobs p').
