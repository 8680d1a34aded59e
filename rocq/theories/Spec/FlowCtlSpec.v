(** What flow control announces. *)
From Coq Require Import ZArith List Bool.
From Verif Require Import Model.CodingScheme Model.BtsConf Model.FlowCtl Spec.CodingSpec.
Import ListNotations.
Open Scope Z_scope.

(** The ranges of the configuration, src/pcu_vty.c:345-459 and 622-660. *)
Definition forced (x hi : Z) : Prop := x = 0 \/ 1 <= x <= hi.
Definition conf_ok (c : fconf) : Prop :=
  forced (c_time c) 65534 /\ (forced (c_lifetime c) 65534 \/ c_lifetime c = 65535) /\
  forced (c_bvc_bucket c) 6553500 /\ forced (c_bvc_leak c) 6553500 /\
  forced (c_ms_bucket c) 6553500 /\ forced (c_ms_leak c) 6553500.
(** 8 TRX with 8 timeslots. *)
Definition cell_ok (l : fcell) : Prop := 0 <= l_pdch l <= 64 /\ 0 <= l_slots l.
Definition hist_ok (h : list fop) : Prop :=
  Forall (fun o => match o with FReport c l => conf_ok c /\ cell_ok l | FBytes b k => 0 <= b /\ 0 <= k | FDelay ns => 0 <= ns | FSent => True end) h.

(** Octets per second of [n] timeslots: a radio block lasts 20 ms. *)
Definition blocks_of (c : scheme) : Z := match c with UNKNOWN => 0 | MCS7 | MCS8 | MCS9 => 2 | _ => 1 end.
Definition capacity (c : scheme) (n : Z) : Z := payload c * blocks_of c * 50 * n.

(** The delays since the last report, in nanoseconds, and their sum. *)
Fixpoint delays (acc : list Z) (h : list fop) : list Z :=
  match h with
  | [] => acc
  | FDelay ns :: h => delays (ns :: acc) h
  | FReport _ _ :: h => delays [] h
  | _ :: h => delays acc h
  end.
Definition total (l : list Z) : Z := fold_right Z.add 0 l.

(** A scheme the cell may use downlink: the BTS offers it and the configured limit allows it. *)
Definition usable (y : vty) (b : bconf) (s : scheme) : Prop :=
  exists n, (s = mcs_get_egprs_by_num n /\ 1 <= n <= 9 /\ Z.testbit (b_mcs_mask b) (n - 1) = true /\ n <= p_dl (y_max_mcs y)) \/
            (s = mcs_get_gprs_by_num n /\ 1 <= n <= 4 /\ Z.testbit (b_cs_mask b) (n - 1) = true /\ n <= p_dl (y_max_cs y)).
