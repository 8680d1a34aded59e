(** What is expected of the paging state of one subscriber. *)
From Coq Require Import ZArith List Bool.
From Verif Require Import Model.PchTimer.
Import ListNotations.
Open Scope Z_scope.

(** The subscriber [i] is not paged, or paged under a P-TMSI (if any) until a moment; the clock and
    the configured time. *)
Record sub := Sub { s_page : option (option Z * Z); s_now : Z; s_t : Z }.
(** A mobile with this TLLI and this IMSI (empty: unknown) is the subscriber. *)
Definition is_same (i : imsi) (pt : option Z) (tlli : Z) (j : imsi) : bool :=
  match pt with Some p => p =? tlli | None => false end || (negb (str_eq j []) && str_eq j i).
Definition s_step (i : imsi) (s : sub) (o : pop) : sub :=
  match o with
  | Page sent pt j =>
      match s_page s with
      | Some _ => s
      | None => if str_eq j i && sent then Sub (Some (pt, s_now s + s_t s)) (s_now s) (s_t s) else s
      end
  | Stop tlli j =>
      match s_page s with
      | Some (pt, _) => if is_same i pt tlli j then Sub None (s_now s) (s_t s) else s
      | None => s
      end
  | Wait d => Sub (s_page s) (s_now s + d) (s_t s)
  | Timers =>
      match s_page s with
      | Some (_, e) => if e <=? s_now s then Sub None (s_now s) (s_t s) else s
      | None => s
      end
  | SetT t => Sub (s_page s) (s_now s) t
  end.
Definition s_run (i : imsi) (s : sub) (ops : list pop) : sub := fold_left (s_step i) ops s.

(** No page uses the reserved TMSI value, and no page is for the empty IMSI. *)
Definition proper (o : pop) : Prop :=
  match o with Page _ (Some p) i => p <> RESERVED /\ i <> [] | Page _ None i => i <> [] | _ => True end.
(** The P-TMSIs name subscribers unambiguously among those being paged: a mobile with the P-TMSI of
    a paged subscriber as TLLI is that subscriber, as far as its IMSI is known. *)
Definition clear_stop (c : cell) (o : pop) : Prop :=
  match o with
  | Stop tlli j => forall x y, In x (pl c) -> In y (pl c) -> tlli <> RESERVED -> p_ptmsi x = tlli ->
      (p_ptmsi y = tlli -> p_imsi y = p_imsi x) /\ (j = [] \/ j = p_imsi x)
  | _ => True
  end.
Fixpoint clear_run (c : cell) (ops : list pop) : Prop :=
  match ops with
  | [] => True
  | o :: ops => clear_stop c o /\ forall c', p_step c o = Some c' -> clear_run c' ops
  end.
