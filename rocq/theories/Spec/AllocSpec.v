(** What an allocation may hand out, and how timeslots must describe the TBFs on them. *)
From Coq Require Import ZArith List Bool.
From Verif Require Import Model.Mslot Model.Alloc Model.Cell.
Import ListNotations.
Local Open Scope Z_scope.

(** Timeslot [ts] is in the set [mask]. *)
Definition on (mask ts : Z) : Prop := 0 <= ts < 8 /\ Z.testbit mask ts = true.
Definition tfi_free (p : pdch) (d : dir) (k : Z) : Prop := 0 <= k < 32 /\ Z.testbit (pd_tfi p d) k = false.
Definition usf_free (p : pdch) (u : Z) : Prop := 0 <= u < 7 /\ Z.testbit (pd_usf p) u = false.

(** A mobile's record: it has reserved timeslots only on its TRX and only enabled ones. *)
Definition ms_ok (b : bts) (v : msv) : Prop :=
  match v_trx v with
  | None => v_rul v = 0 /\ v_rdl v = 0
  | Some n =>
    0 <= n < 8 /\ 0 <= v_rul v < 256 /\ 0 <= v_rdl v < 256 /\
    forall ts, on (v_rul v) ts \/ on (v_rdl v) ts -> pd_enabled (b n ts) = true
  end.

(** The counters of TBFs are in the range of their type. *)
Definition counters_ok (b : bts) : Prop :=
  forall n ts d, 0 <= ts < 8 -> 0 <= pd_gprs (b n ts) d < 256 /\ 0 <= pd_egprs (b n ts) d < 256.

(** The result of an allocation for direction [d]. *)
Record granted (b : bts) (d : dir) (r : ares) : Prop := mk_granted {
  g_trx : 0 <= r_trx r < 8;
  g_mask : 0 < r_mask r < 256;
  g_enabled : forall ts, on (r_mask r) ts -> pd_enabled (b (r_trx r) ts) = true;
  g_tfi : forall ts, on (r_mask r) ts -> tfi_free (b (r_trx r) ts) d (r_tfi r);
  g_usf : d = UL -> forall ts, on (r_mask r) ts -> usf_free (b (r_trx r) ts) (r_usf r ts) }.

(** ** TBFs and timeslots *)

Definition uses (t : tbf) (n ts : Z) : Prop := t_trx t = n /\ on (t_slots t) ts.
(** A TBF is in order: its timeslots are enabled, its numbers in range. *)
Definition tbf_ok (c : cell) (t : tbf) : Prop :=
  forall n ts, uses t n ts ->
    0 <= n < 8 /\ pd_enabled (c_bts c n ts) = true /\ 0 <= t_tfi t < 32 /\
    (t_dir t = UL -> 0 <= t_usf t ts < 7).
(** No two TBFs of one direction share a TFI or a USF on a timeslot. *)
Definition no_clash (c : cell) : Prop :=
  forall t1 t2 n ts, In t1 (c_tbfs c) -> In t2 (c_tbfs c) -> uses t1 n ts -> uses t2 n ts ->
    t_dir t1 = t_dir t2 ->
    t_tfi t1 = t_tfi t2 \/ (t_dir t1 = UL /\ t_usf t1 ts = t_usf t2 ts) -> t_id t1 = t_id t2.

Definition dir_eqb (a b : dir) : bool := Bool.eqb (is_ul a) (is_ul b).
Definition usesb (n ts : Z) (t : tbf) : bool := (t_trx t =? n) && Z.testbit (t_slots t) ts.
(** The number of TBFs of a kind on a timeslot. *)
Definition tbf_count (c : cell) (n ts : Z) (d : dir) (egprs : bool) : Z :=
  Z.of_nat (length (filter (fun t => usesb n ts t && dir_eqb (t_dir t) d && Bool.eqb (t_egprs t) egprs) (c_tbfs c))).
(** The number of mobiles that have reserved a timeslot. *)
Definition reserves (v : msv) (n ts : Z) (d : dir) : bool :=
  match v_trx v with
  | None => false
  | Some k => (k =? n) && Z.testbit (match d with UL => v_rul v | DL => v_rdl v end) ts
  end.
Definition res_count (ids : list Z) (ms : Z -> msv) (n ts : Z) (d : dir) : Z :=
  Z.of_nat (length (filter (fun m => reserves (ms m) n ts d) ids)).

(** A timeslot's tables and counters describe exactly the TBFs that use it. *)
Record described (ids : list Z) (c : cell) (n ts : Z) : Prop := mk_described {
  e_table : forall d k id, pd_tbf (c_bts c n ts) d k = Some id <->
    exists t, In t (c_tbfs c) /\ uses t n ts /\ t_dir t = d /\ t_tfi t = k /\ t_id t = id;
  e_tfi : forall d k, 0 <= k < 32 -> (Z.testbit (pd_tfi (c_bts c n ts) d) k = true <->
    exists t, In t (c_tbfs c) /\ uses t n ts /\ t_dir t = d /\ t_tfi t = k);
  e_usf : forall u, 0 <= u < 8 -> (Z.testbit (pd_usf (c_bts c n ts)) u = true <->
    exists t, In t (c_tbfs c) /\ uses t n ts /\ t_dir t = UL /\ t_usf t ts = u);
  e_gprs : forall d, pd_gprs (c_bts c n ts) d = tbf_count c n ts d false;
  e_egprs : forall d, pd_egprs (c_bts c n ts) d = tbf_count c n ts d true;
  e_res : forall d, pd_res (c_bts c n ts) d = res_count ids (c_ms c) n ts d }.

(** ** TFI search *)

(** [k] is free on every enabled timeslot of a TRX that has one. *)
Definition trx_free (t : trx) (d : dir) (k : Z) : Prop :=
  (exists ts, 0 <= ts < 8 /\ pd_enabled (t ts) = true) /\ 0 <= k < 32 /\
  forall ts, 0 <= ts < 8 -> pd_enabled (t ts) = true -> Z.testbit (pd_tfi (t ts) d) k = false.
Definition trx_freeb (t : trx) (d : dir) (k : Z) : bool :=
  existsb (fun ts => pd_enabled (t ts)) slots8 &&
  forallb (fun ts => negb (pd_enabled (t ts)) || negb (Z.testbit (pd_tfi (t ts) d) k)) slots8.
(** How many TFIs are free on a TRX. *)
Definition free_count (t : trx) (d : dir) : nat :=
  length (filter (fun i => trx_freeb t d (Z.of_nat i)) (seq 0 32)).
(** The TRX that may be used: the one wanted, or all. *)
Definition allowed (use_trx n : Z) : Prop :=
  0 <= n < 8 /\ (0 <= use_trx < 8 -> n = use_trx).
