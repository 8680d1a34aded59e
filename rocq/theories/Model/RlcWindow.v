(** Model of [gprs_rlc_window] (src/rlc_window.h 29-71, src/rlc_window.cpp 26-42):
    the parameters shared by the downlink and the uplink window. *)
From Coq Require Import ZArith Bool.
From Verif Require Import Base.Arith.
Local Open Scope Z_scope.

(** src/rlc.h RLC_GPRS_SNS, RLC_MAX_SNS; src/rlc_window.h 23-27. *)
Definition RLC_GPRS_SNS : Z := 128.
Definition RLC_MAX_SNS : Z := 2048.
Definition RLC_GPRS_WS : Z := 64.
Definition RLC_EGPRS_MIN_WS : Z := 64.
Definition RLC_EGPRS_MAX_WS : Z := 1024.
Definition RLC_EGPRS_MAX_BSN_DELTA : Z := 512.

(** [mod_sns(uint16_t bsn)] (src/rlc_window.h 68-71). The argument is converted
    to 16 bits, then masked with [sns - 1]. *)
Definition mod_sns (sns x : Z) : Z := Z.land (x mod 65536) (sns - 1).

(** [mod_sns_half()] (src/rlc.h): the mask of the state arrays, RLC_MAX_SNS/2 - 1. *)
Definition mod_sns_half : Z := 1023.

(** [set_sns] (src/rlc_window.cpp 26-33); [None] is a failed OSMO_ASSERT. *)
Definition set_sns_check (sns : Z) : bool :=
  (RLC_GPRS_SNS <=? sns) && (sns <=? RLC_MAX_SNS) && (Z.land sns (- sns) =? sns).

(** [set_ws] (src/rlc_window.cpp 35-42). *)
Definition set_ws_check (ws : Z) : bool :=
  (RLC_GPRS_SNS / 2 <=? ws) && (ws <=? RLC_MAX_SNS / 2).
