(** What the commands "show tbf" and "show ms" display of transfers: /repo/src/pcu_vty.c,
    pcu_vty_functions.cpp, gprs_ms.c, tbf.cpp, pcu_utils.h; on top of TbfFsm.v. *)
From Coq Require Import ZArith List Bool.
From Verif Require Import Model.TbfFsm.
Import ListNotations.
Local Open Scope Z_scope.

(** state_flags, tbf_fsm.h:65, 73, with the flags of tbf.h:111-112. *)
Definition state_flags (f : fsm) : Z := (if f_ccch f then 1 else 0) + (if f_pacch f then 2 else 0).

(** show_tbf, pcu_vty.c:1170-1190: "show tbf (all|ccch|pacch)" and the flags asked for. *)
Inductive show_arg := ShowAll | ShowCcch | ShowPacch.
Definition show_flags (a : show_arg) : Z :=
  match a with ShowAll => 0xffffffff | ShowCcch => 1 | ShowPacch => 2 end.
Definition listed (a : show_arg) (f : fsm) : bool := negb (Z.land (state_flags f) (show_flags a) =? 0).

(** The TBFs of a TRX (trx->ul_tbfs and trx->dl_tbfs), each with a name. *)
Record trx_tbfs := mk_tt { tt_ul : list (Z * fsm); tt_dl : list (Z * fsm) }.
(** pcu_vty_show_tbf_all, pcu_vty_functions.cpp:110-142: the uplink TBFs printed and the downlink
    ones. *)
Definition show_tbf (a : show_arg) (l : list trx_tbfs) : list Z * list Z :=
  (flat_map (fun t => map fst (filter (fun x => listed a (snd x)) (tt_ul t))) l,
   flat_map (fun t => map fst (filter (fun x => listed a (snd x)) (tt_dl t))) l).

(** tbf_is_tfi_assigned, tbf.cpp:767-782. *)
Definition tfi_assigned (is_dl : bool) (f : fsm) : bool :=
  match f_st f with
  | NEW => false
  | ASSIGN => is_dl && f_ccch f
  | _ => true
  end.
(** pcu_lsb, pcu_utils.h:78-81. *)
Definition lsb (x : Z) : Z := Z.land x (- x) mod 256.
(** ms_current_pacch_slots, gprs_ms.c:961-985: the downlink and the uplink TBF of the mobile, each
    with its set of timeslots (dl_slots and ul_slots, tbf.cpp:646-682). *)
Definition pacch_slots (dl ul : option (fsm * Z)) : Z :=
  let active (is_dl : bool) (x : option (fsm * Z)) :=
    match x with Some (f, m) => if tfi_assigned is_dl f then Some m else None | None => None end in
  match active true dl, active false ul with
  | None, None => 0
  | Some d, None => lsb d
  | None, Some u => lsb u
  | Some d, Some u => lsb (Z.land u d)
  end.
(** "PACCH:" of show_ms, pcu_vty_functions.cpp:164-169: the timeslots printed. *)
Definition shown_pacch (dl ul : option (fsm * Z)) : list Z :=
  filter (Z.testbit (pacch_slots dl ul)) [0; 1; 2; 3; 4; 5; 6; 7].
