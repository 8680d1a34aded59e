(** The neighbour cache and the system information cache.

    Models src/neigh_cache.c:26-154 (neigh_cache) and 161-285 (si_cache), which are the same
    program for two types of key and value: a list of entries in the order of their last update,
    and one timer.  Times are nanoseconds of the monotonic clock.  osmo_timer_schedule takes
    microseconds, the rest of the nanoseconds is cut off; the timer is taken to run on the same
    clock.  Not modelled: failing allocations, the freeing of a whole cache. *)
From Coq Require Import ZArith List Bool.
Import ListNotations.
Open Scope Z_scope.

Definition SEC : Z := 1000000000.

(** struct neigh_cache_entry_key and neigh_cache_entry_key_eq, src/neigh_cache.h:38-54. *)
Record nkey := Nkey { k_lac : Z; k_ci : Z; k_arfcn : Z; k_bsic : Z }.
Definition nkey_eq (a b : nkey) : bool :=
  (k_lac a =? k_lac b) && (k_ci a =? k_ci b) && (k_arfcn a =? k_arfcn b) && (k_bsic a =? k_bsic b).

(** struct osmo_cell_global_id_ps (libosmocore); osmo_cgi_ps_cmp is 0 if all its fields agree. *)
Record cgi := Cgi { g_mcc : Z; g_mnc : Z; g_mnc3 : bool; g_lac : Z; g_rac : Z; g_ci : Z }.
Definition cgi_eq (a b : cgi) : bool :=
  (g_mcc a =? g_mcc b) && (g_mnc a =? g_mnc b) && Bool.eqb (g_mnc3 a) (g_mnc3 b) &&
  (g_lac a =? g_lac b) && (g_rac a =? g_rac b) && (g_ci a =? g_ci b).

Section Cache.
Context {K V : Type} (eq : K -> K -> bool).

(** struct neigh_cache_entry, si_cache_entry. *)
Record entry := En { e_key : K; e_val : V; e_ts : Z }.
(** struct neigh_cache, si_cache; [c_timer]: when the cleanup timer fires; [c_now]: the clock. *)
Record cache := Ca { c_list : list entry; c_keep : Z; c_timer : option Z; c_now : Z }.

(** neigh_cache_schedule_cleanup, src/neigh_cache.c:51-73 (si_cache: 185-207). *)
Definition schedule (c : cache) : cache :=
  match c_list c with
  | [] => c
  | e :: _ =>
      let threshold := e_ts e + c_keep c in
      let result := if threshold <=? c_now c then 0 else threshold - c_now c in
      Ca (c_list c) (c_keep c) (Some (c_now c + result / 1000 * 1000)) (c_now c)
  end.

(** The loop of neigh_cache_cleanup_cb, src/neigh_cache.c:38-47. *)
Fixpoint drop_old (threshold : Z) (l : list entry) : list entry :=
  match l with
  | [] => []
  | e :: l' => if threshold <? e_ts e then l else drop_old threshold l'
  end.

(** neigh_cache_cleanup_cb, src/neigh_cache.c:27-49 (si_cache: 162-183). *)
Definition cleanup (c : cache) : cache :=
  schedule (Ca (drop_old (c_now c - c_keep c) (c_list c)) (c_keep c) (c_timer c) (c_now c)).

(** neigh_cache_alloc, src/neigh_cache.c:75-84. *)
Definition cache_new (now sec : Z) : cache := Ca [] (sec * SEC) None now.

(** neigh_cache_set_keep_time_interval, src/neigh_cache.c:86-90. *)
Definition set_keep (sec : Z) (c : cache) : cache :=
  schedule (Ca (c_list c) (sec * SEC) (c_timer c) (c_now c)).

(** neigh_cache_lookup_entry, src/neigh_cache.c:92-101. *)
Definition lookup_entry (k : K) (l : list entry) : option entry := find (fun e => eq (e_key e) k) l.

(** neigh_cache_lookup_value, src/neigh_cache.c:103-110. *)
Definition lookup (k : K) (c : cache) : option V := option_map e_val (lookup_entry k (c_list c)).

(** llist_del of the entry found. *)
Fixpoint unlink (k : K) (l : list entry) : list entry :=
  match l with
  | [] => []
  | e :: l => if eq (e_key e) k then l else e :: unlink k l
  end.

(** neigh_cache_add, src/neigh_cache.c:112-140. *)
Definition add (k : K) (v : V) (c : cache) : cache :=
  let l := match lookup_entry k (c_list c) with
           | None => c_list c ++ [En k v (c_now c)]
           | Some e => unlink k (c_list c) ++ [En (e_key e) v (c_now c)]
           end in
  schedule (Ca l (c_keep c) (c_timer c) (c_now c)).

(** What happens to a cache: an entry is stored, the keep time is configured, time passes, and the
    main loop runs the timers that are due (the timer is then no longer pending). *)
Inductive cop := Add (k : K) (v : V) | SetKeep (sec : Z) | Wait (d : Z) | Timers.
Definition c_step (c : cache) (o : cop) : cache :=
  match o with
  | Add k v => add k v c
  | SetKeep s => set_keep s c
  | Wait d => Ca (c_list c) (c_keep c) (c_timer c) (c_now c + d)
  | Timers => match c_timer c with
              | Some t => if t <=? c_now c then cleanup (Ca (c_list c) (c_keep c) None (c_now c)) else c
              | None => c
              end
  end.
Definition c_run (c : cache) (ops : list cop) : cache := fold_left c_step ops c.
End Cache.
Arguments entry : clear implicits.
Arguments cache : clear implicits.
Arguments cop : clear implicits.
