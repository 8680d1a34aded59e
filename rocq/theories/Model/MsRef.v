(** Reference counting of a mobile's context.

    Models src/gprs_ms.c:66-109 (use counts, release timer), 125-181 (ms_alloc), 183-260
    (destructor, ms_becomes_idle, ms_becomes_active), 312-395 (attaching and detaching TBFs)
    and 396-427 (ms_reset); ms_is_idle of src/gprs_ms.h:149-153.

    osmo_use_count of libosmocore is taken by its contract: one counter per user name, the
    callback after each change.  The users are [MS_USE_TBF] and the names of functions that hold
    the context while they run ([RHold]).  Numbers stand for the addresses of TBFs. *)
From Coq Require Import ZArith List Bool.
Import ListNotations.
Open Scope Z_scope.

Record ms := Ms {
  m_ul : option Z;        (* ms->ul_tbf *)
  m_dl : option Z;        (* ms->dl_tbf *)
  m_old : list Z;         (* ms->old_tbfs *)
  m_tbf : Z;              (* use count of MS_USE_TBF *)
  m_holds : list Z;       (* the other users, once per use *)
  m_known : bool;         (* ms_tlli(ms) != GSM_RESERVED_TMSI *)
  m_timer : option Z;     (* release_timer: pending, when it expires *)
  m_now : Z;              (* the clock, seconds *)
  m_delay : Z;            (* X2030 *)
  m_idled : Z }.          (* how often ms_becomes_idle was called *)

Inductive why :=
| NotIdle        (* OSMO_ASSERT(ms_is_idle(ms)), line 96 *)
| Twice          (* OSMO_ASSERT(!ms_tbf_is_attached(ms, tbf)), line 362 *)
| NotHeld        (* a use given back that was not taken; ms_reset without a use *)
| Endless.       (* ms_reset does not return *)

(** The context goes on, is freed, or something is wrong. *)
Inductive res := Run (m : ms) | Freed (m : ms) | Bad (w : why).

Definition bind (r : res) (f : ms -> res) : res := match r with Run m => f m | _ => r end.

Definition set_ul v m := Ms v (m_dl m) (m_old m) (m_tbf m) (m_holds m) (m_known m) (m_timer m) (m_now m) (m_delay m) (m_idled m).
Definition set_dl v m := Ms (m_ul m) v (m_old m) (m_tbf m) (m_holds m) (m_known m) (m_timer m) (m_now m) (m_delay m) (m_idled m).
Definition set_old v m := Ms (m_ul m) (m_dl m) v (m_tbf m) (m_holds m) (m_known m) (m_timer m) (m_now m) (m_delay m) (m_idled m).
Definition set_tbf v m := Ms (m_ul m) (m_dl m) (m_old m) v (m_holds m) (m_known m) (m_timer m) (m_now m) (m_delay m) (m_idled m).
Definition set_holds v m := Ms (m_ul m) (m_dl m) (m_old m) (m_tbf m) v (m_known m) (m_timer m) (m_now m) (m_delay m) (m_idled m).
Definition set_known v m := Ms (m_ul m) (m_dl m) (m_old m) (m_tbf m) (m_holds m) v (m_timer m) (m_now m) (m_delay m) (m_idled m).
Definition set_timer v m := Ms (m_ul m) (m_dl m) (m_old m) (m_tbf m) (m_holds m) (m_known m) v (m_now m) (m_delay m) (m_idled m).
Definition set_now v m := Ms (m_ul m) (m_dl m) (m_old m) (m_tbf m) (m_holds m) (m_known m) (m_timer m) v (m_delay m) (m_idled m).
Definition set_delay v m := Ms (m_ul m) (m_dl m) (m_old m) (m_tbf m) (m_holds m) (m_known m) (m_timer m) (m_now m) v (m_idled m).
Definition set_idled v m := Ms (m_ul m) (m_dl m) (m_old m) (m_tbf m) (m_holds m) (m_known m) (m_timer m) (m_now m) (m_delay m) v.

(** osmo_use_count_total. *)
Definition total (m : ms) : Z := m_tbf m + Z.of_nat (length (m_holds m)).

(** ms_is_idle, src/gprs_ms.h:149-153. *)
Definition is_idle (m : ms) : bool :=
  match m_ul m, m_dl m, m_old m with None, None, [] => true | _, _, _ => false end.

(** ms_becomes_idle, lines 217-250. *)
Definition becomes_idle (m : ms) : res :=
  let m := set_idled (m_idled m + 1) m in
  if m_delay m =? 0 then Freed m
  else if negb (m_known m) then Freed m
  else Run (set_timer (Some (m_now m + m_delay m)) m).

(** ms_use_cb, lines 68-100, after the counters have changed. *)
Definition use_cb (m : ms) : res :=
  if total m =? 0 then (if is_idle m then becomes_idle m else Bad NotIdle) else Run m.

(** ms_alloc, lines 125-181, with or without a use. *)
Definition ms_alloc (hold : option Z) (now delay : Z) : ms :=
  Ms None None [] 0 (match hold with Some h => [h] | None => [] end) false None now delay 0.

(** ms_tbf_is_attached, lines 311-331. *)
Definition eqo (o : option Z) (t : Z) : bool := match o with Some x => x =? t | None => false end.
Definition attached_b (m : ms) (t : Z) : bool :=
  eqo (m_ul m) t || eqo (m_dl m) t || existsb (Z.eqb t) (m_old m).

(** ms_attach_ul_tbf, ms_attach_dl_tbf, ms_attach_tbf, ms_becomes_active, lines 252-260 and 333-370. *)
Definition to_old (o : option Z) (l : list Z) : list Z := match o with Some x => l ++ [x] | None => l end.
Definition attach (down : bool) (t : Z) (m : ms) : res :=
  if attached_b m t then Bad Twice
  else
    let m := if down then set_dl (Some t) (set_old (to_old (m_dl m) (m_old m)) m)
             else set_ul (Some t) (set_old (to_old (m_ul m) (m_old m)) m) in
    bind (use_cb (set_tbf (m_tbf m + 1) m)) (fun m => Run (set_timer None m)).

(** llist_del of one element. *)
Fixpoint remove1 (t : Z) (l : list Z) : list Z :=
  match l with
  | [] => []
  | x :: l => if t =? x then l else x :: remove1 t l
  end.

(** ms_detach_tbf, lines 372-395 (called by tbf_free through set_ms). *)
Definition detach (t : Z) (m : ms) : res :=
  if negb (attached_b m t) then Run m
  else
    let m := if eqo (m_ul m) t then set_ul None m
             else if eqo (m_dl m) t then set_dl None m
             else set_old (remove1 t (m_old m)) m in
    if m_tbf m <=? 0 then Bad NotHeld
    else use_cb (set_tbf (m_tbf m - 1) m).

(** ms_ref and ms_unref by a function. *)
Definition hold (h : Z) (m : ms) : res := use_cb (set_holds (h :: m_holds m) m).
Definition unhold (h : Z) (m : ms) : res :=
  if existsb (Z.eqb h) (m_holds m) then use_cb (set_holds (remove1 h (m_holds m)) m)
  else Bad NotHeld.

(** ms_reset, lines 399-427; [pend]: the TBFs that have a timer pending.  The loop of lines 413-417
    looks at the first element again and again; an element with a pending timer stays. *)
Definition detach_opt (pend : list Z) (o : option Z) (m : ms) : res :=
  match o with
  | Some t => if existsb (Z.eqb t) pend then Run m else detach t m
  | None => Run m
  end.
Fixpoint reset_old (pend : list Z) (l : list Z) (m : ms) : res :=
  match l with
  | [] => Run m
  | t :: l => if existsb (Z.eqb t) pend then Bad Endless
              else bind (detach t m) (reset_old pend l)
  end.
Definition reset (pend : list Z) (m : ms) : res :=
  match m_holds m with
  | [] => Bad NotHeld
  | _ =>
      bind (detach_opt pend (m_ul m) m) (fun m =>
      bind (detach_opt pend (m_dl m) m) (fun m =>
      bind (reset_old pend (m_old m) m) (fun m =>
      Run (set_known false m))))
  end.

(** ms_release_timer_cb, lines 102-109, when the timer has expired. *)
Definition timer (m : ms) : res :=
  match m_timer m with
  | Some d => if d <=? m_now m then Freed (set_timer None m) else Run m
  | None => Run m
  end.

Inductive rop :=
| RAttach (down : bool) (t : Z) | RDetach (t : Z)
| RHold (h : Z) | RUnhold (h : Z)
| RReset (pend : list Z)
| RTlli (known : bool)     (* TLLIs set or confirmed: Model/MsTlli.v *)
| RTime (dt : Z)           (* time passes *)
| RTimer                   (* the main loop looks at the timers *)
| RDelay (d : Z).          (* VTY: timer X2030 *)

Definition r_step (m : ms) (o : rop) : res :=
  match o with
  | RAttach d t => attach d t m
  | RDetach t => detach t m
  | RHold h => hold h m
  | RUnhold h => unhold h m
  | RReset pend => reset pend m
  | RTlli k => Run (set_known k m)
  | RTime dt => Run (set_now (m_now m + dt) m)
  | RTimer => timer m
  | RDelay d => Run (set_delay d m)
  end.

Fixpoint r_run (m : ms) (ops : list rop) : res :=
  match ops with
  | [] => Run m
  | o :: ops => bind (r_step m o) (fun m => r_run m ops)
  end.

(** talloc_free by the destructor of the cell (src/bts.cpp:242-246), with TBFs attached:
    ms_talloc_destructor, lines 183-216, stops the timer and then frees the TBFs.  A free of
    an object inside its own destructor has no effect.  The result is the state in which the
    memory is given back. *)
Definition go_on (r : res) (m : ms) : ms := match r with Run m => m | Freed m => m | Bad _ => m end.
Definition free_opt (o : option Z) (m : ms) : ms :=
  match o with Some t => go_on (detach t m) m | None => m end.
Definition destroy (m : ms) : ms :=
  let m := set_timer None m in
  let m := free_opt (m_ul m) m in
  let m := free_opt (m_dl m) m in
  fold_left (fun m t => free_opt (Some t) m) (m_old m) m.
