(** The mobiles that "show ms" displays and the statistic of the mobiles present:
    /repo/src/pcu_vty_functions.cpp, pcu_vty.c, gprs_ms.h, gprs_ms.c; on top of MsTlli.v. *)
From Coq Require Import ZArith List Bool.
From Verif Require Import Model.MsTlli Model.ShowPdch.
Import ListNotations.
Local Open Scope Z_scope.

(** ms_tlli, gprs_ms.h:188-196. *)
Definition ms_tlli (t : tl) : Z :=
  if negb (new_ul t =? RES) then new_ul t
  else if negb (tlli t =? RES) then tlli t
  else new_dl t.

(** show_ms, pcu_vty_functions.cpp:150: the first line, with the TLLI and the IMSI (a number, as in
    MsTlli.v; 0: none). *)
Record ms_line := mk_ml { ml_id : Z; ml_tlli : list Z; ml_imsi : Z }.
Definition show_one (c : ctx) : ms_line := mk_ml (c_id c) (tlli_text (ms_tlli (c_tl c))) (c_imsi c).
(** pcu_vty_show_ms_all, pcu_vty_functions.cpp:237-247. *)
Definition show_all (s : store) : list ms_line := map show_one (st_list s).

(** What a look-up answers: the argument is refused, nobody is known by it, or a mobile. *)
Inductive answer := Refused | Unknown | Shown (l : ms_line).
Definition answer_of (o : option ctx) : answer := match o with Some c => Shown (show_one c) | None => Unknown end.
(** show_ms_tlli, pcu_vty.c:1204-1220, in a cell, with pcu_vty_show_ms_by_tlli,
    pcu_vty_functions.cpp:249-259, and bts_get_ms_by_tlli, bts.cpp:1239-1242. *)
Definition show_by_tlli (arg : list Z) (s : store) : answer :=
  match tlli_arg arg with
  | None => Refused
  | Some x => answer_of (get_ms x RES 0 s)
  end.
(** pcu_vty_show_ms_by_imsi, pcu_vty_functions.cpp:261-271, with bts_get_ms_by_imsi,
    bts.cpp:1244-1247. *)
Definition show_by_imsi (i : Z) (s : store) : answer := answer_of (get_ms RES RES i s).

(** STAT_MS_PRESENT: incremented by ms_alloc, gprs_ms.c:134, and decremented by
    ms_talloc_destructor, gprs_ms.c:188; what an operation of MsTlli.v adds to it. *)
Definition present_delta (s : store) (o : mop) : Z :=
  match o with
  | MAnnounce _ _ => 0
  | MDown x two ie imsi => match get_ms x (old_tlli two ie) imsi s with Some _ => 0 | None => 1 end
  | MNamed x => match get_ms x RES 0 s with Some _ => 0 | None => 1 end
  | MAccess => 1
  | MFree i => match find_id i s with Some _ => -1 | None => 0 end
  end.
Fixpoint present_run (s : store) (k : Z) (ops : list mop) : option (store * Z) :=
  match ops with
  | [] => Some (s, k)
  | o :: ops => match m_step s o with Some s' => present_run s' (k + present_delta s o) ops | None => None end
  end.
