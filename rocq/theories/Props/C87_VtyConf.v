(** C87: a saved configuration, read at the next start, gives the same configuration. *)
From Coq Require Import ZArith Ascii String List Bool.
From Verif Require Import Model.VtyConf Spec.VtyConfSpec Proofs.VtyConfR.
Import ListNotations.
Open Scope Z_scope.

(** The full statement is the one below without [carried].  [file] is what was read at the start, [lines] what was typed
    since, both any lines at all; lines refused change nothing.  No line of the file written is refused, and each
    setting it carries comes back. *)
Theorem C87_reload_partial : forall file lines : list line,
  let c := typed lines (boot (typed file conf0)) in
  exists c1, load (config_write c) conf0 = Some c1 /\
    host (boot c1) = host c /\ path (boot c1) = path c /\
    forall f, carried f (num c f) -> same f (num (boot c1) f) (num c f).
Proof. exact reload. Qed.
Print Assumptions C87_reload_partial.

(** The settings not carried: the bucket time is never written; limits and a delay that were switched off are back at
    their defaults. *)
Theorem C87_reload_refuted :
  (exists lines c1, load (config_write (typed lines (boot conf0))) conf0 = Some c1 /\
     num (typed lines (boot conf0)) f_fc_bucket_time = 100 /\ num (boot c1) f_fc_bucket_time = 0) /\
  (exists lines c1, load (config_write (typed lines (boot conf0))) conf0 = Some c1 /\
     num (typed lines (boot conf0)) f_max_cs_dl = 0 /\ num (boot c1) f_max_cs_dl = 4) /\
  (exists lines c1, load (config_write (typed lines (boot conf0))) conf0 = Some c1 /\
     num (typed lines (boot conf0)) f_max_mcs_dl = 0 /\ num (boot c1) f_max_mcs_dl = 9) /\
  (exists lines c1, load (config_write (typed lines (boot conf0))) conf0 = Some c1 /\
     num (typed lines (boot conf0)) f_llc_idle_ack = 0 /\ num (boot c1) f_llc_idle_ack = 10).
Proof. exact loses_all. Qed.
Print Assumptions C87_reload_refuted.

(** Whatever is typed, every setting stays in the range documented for it, and the thresholds in order; a procedure of
    allocation is chosen; the caches keep their entries for the times configured (timers X10 and X11). *)
Theorem C87_ranges : forall file lines : list line,
  let c := typed lines (boot (typed file conf0)) in
  (forall f, documented f (num c f)) /\ num c f_cs_adj_lower <= num c f_cs_adj_upper /\
  num c f_alloc <> 0 /\
  num c f_keep_neigh = num c (f_timer (-10)) /\ num c f_keep_si = num c (f_timer (-11)).
Proof. exact in_range. Qed.
Print Assumptions C87_ranges.

Definition a_session : list line :=
  [[W "cs"; Nr 2; Nr 3]; [W "cs"; W "threshold"; Nr 90; Nr 20]; [W "window-size"; Nr 100; Nr 16]; [W "gamma"; Nr 13]; [W "timer"; Tm (-2031); Nr 500];
   [W "timer"; Tm (-10); Nr 9]; [W "timer"; Tm 3172; Nr 300000]; [W "cs"; Nr 7]; [W "gsmtap-category"; W "ul-rach"]; [W "gsmtap-remote-host"];
   [W "queue"; W "codel"; W "interval"; Nr 40]; [W "alloc-algorithm"; W "a"]; [W "no"; W "cs"; W "threshold"]]%string.
Example a_session_saved :
  let c := typed a_session (boot conf0) in
  map (num c) [f_initial_cs_dl; f_initial_cs_ul; f_ws_pdch; f_gamma; f_timer (-2031); f_keep_neigh; f_timer 3172; f_llc_codel; f_cs_adj_upper]
    = [2; 3; 16; 6; 500; 9; 5000; 400; 100] /\
  forallb (fun l => existsb (fun m => if list_eq_dec word_dec l m then true else false) (config_write c))
    [[W "cs"; Nr 2; Nr 3]; [W "no"; W "cs"; W "threshold"]; [W "window-size"; Nr 100; Nr 16]; [W "gamma"; Nr 12]; [W "queue"; W "codel"; W "interval"; Nr 40];
     [W "alloc-algorithm"; W "a"]; [W "gsmtap-remote-host"; W "localhost"]; [W "gsmtap-category"; W "ul-rach"]; [W "timer"; Tm (-10); Nr 9]; [W "timer"; Tm (-2031); Nr 500]]%string = true /\
  length (config_write c) = 18%nat.
Proof. vm_compute. repeat split. Qed.
