(** What a user expects of a saved configuration. *)
From Coq Require Import ZArith List Bool.
From Verif Require Import Model.VtyConf.
Import ListNotations.
Open Scope Z_scope.

(** The kinds of messages the user can select for tracing. *)
Definition categories : list Z := [0; 1; 2; 3; 4; 5; 6; 7; 15; 16; 17; 18; 19; 20; 21].

(** Two values of a setting mean the same: they are equal; for the mask, the selectable kinds are. *)
Definition same (f : field) (a b : Z) : Prop :=
  match f with
  | f_categ_mask => forall n, In n categories -> Z.testbit a n = Z.testbit b n
  | _ => a = b
  end.

(** The settings a saved file carries: all, but the bucket time, and the limits of the coding scheme and the delay of
    the idle acknowledgement once switched off. *)
Definition carried (f : field) (z : Z) : Prop :=
  match f with
  | f_fc_bucket_time => z = 0
  | f_max_cs_dl | f_max_cs_ul | f_max_mcs_dl | f_max_mcs_ul | f_llc_idle_ack => z <> 0
  | _ => True
  end.

Definition between (a b z : Z) : Prop := a <= z <= b.

(** The ranges documented for the commands (0 where a setting can be switched off). *)
Definition documented (f : field) (z : Z) : Prop :=
  match f with
  | f_fc_interval => between 1 10 z
  | f_fc_bucket_time => between 0 65534 z
  | f_fc_bvc_bucket_size | f_fc_bvc_leak_rate | f_fc_ms_bucket_size | f_fc_ms_leak_rate => between 0 6553500 z
  | f_force_initial_cs | f_force_initial_mcs | f_force_two_phase | f_preemptive | f_dl_arq_type | f_cs_adj_enabled | f_ns_dialect => between 0 1 z
  | f_initial_cs_dl | f_initial_cs_ul | f_max_cs_dl | f_max_cs_ul => between 0 4 z
  | f_initial_mcs_dl | f_initial_mcs_ul | f_max_mcs_dl | f_max_mcs_ul => between 0 9 z
  | f_force_alpha => between 0 10 z \/ z = 255
  | f_gamma => between 0 31 z
  | f_cs_adj_upper | f_cs_adj_lower => between 0 100 z
  | f_cs_downgrade => between 0 10000 z
  | f_cs_low i => if (1 <=? i) && (i <=? 3) then between 0 35 z else z = if i =? 0 then -256 else 0
  | f_cs_high i => if (0 <=? i) && (i <=? 2) then between 0 35 z else z = if i =? 3 then 256 else 0
  | f_mcs_low i => if (1 <=? i) && (i <=? 8) then between 0 35 z else z = if i =? 0 then -256 else 0
  | f_mcs_high i => if (0 <=? i) && (i <=? 7) then between 0 35 z else z = if i =? 8 then 256 else 0
  | f_ns_ip_dscp => between (-1) 63 z
  | f_ns_priority => between (-1) 255 z
  | f_ws_base => between 0 1024 z
  | f_ws_pdch => between 0 256 z
  | f_msclass_default => between 1 45 z
  | f_llc_lifetime | f_llc_discard | f_llc_idle_ack => between 0 65535 z
  | f_llc_codel => z = 0 \/ z = 2 ^ 32 - 1 \/ exists k, between 1 1000 k /\ z = 10 * k
  | f_alloc => between 0 3 z
  | f_categ_mask => between 0 (2 ^ 32 - 1) z
  | f_timer t => between 0 (if t =? 3172 then 255000 else 2147483647) z
  | f_keep_neigh | f_keep_si => between 0 2147483647 z
  end.
