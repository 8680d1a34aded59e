(** How a mobile reads an Immediate Assignment (3GPP TS 44.018 9.1.18, 10.5.2.16, 10.5.2.25a,
    10.5.2.30) and an Immediate Assignment Reject (9.1.20, 10.5.2.17). *)
From Coq Require Import ZArith List Bool.
From Verif Require Import Model.CodingScheme Model.ImmAss.
Import ListNotations.
Local Open Scope Z_scope.

(** A received bit: its value, and whether it reads as H, that is, differs from the padding
    octet 0x2b at its place. *)
Definition rbit : Type := bool * bool.
Definition octet_bits (o : Z) : list rbit :=
  map (fun i => (Z.testbit o i, xorb (Z.testbit o i) (Z.testbit 0x2b i))) [7; 6; 5; 4; 3; 2; 1; 0].
Definition message_bits (l : list Z) : list rbit := flat_map octet_bits l.

Definition reader (A : Type) : Type := list rbit -> option (A * list rbit).
Definition ret {A} (a : A) : reader A := fun l => Some (a, l).
Definition bind {A C} (r : reader A) (f : A -> reader C) : reader C :=
  fun l => match r l with Some (a, l') => f a l' | None => None end.
Definition fail {A} : reader A := fun _ => None.
Notation "'let*' x := r 'in' k" := (bind r (fun x => k)) (at level 200, x name, r at level 100, k at level 200).

Definition flag : reader bool := fun l => match l with (v, _) :: r => Some (v, r) | [] => None end.
Definition high : reader bool := fun l => match l with (_, h) :: r => Some (h, r) | [] => None end.
Fixpoint number (w : nat) (acc : Z) : reader Z :=
  match w with O => ret acc | S w => let* b := flag in number w (2 * acc + Z.b2z b) end.
Definition uint (w : nat) : reader Z := number w 0.
Definition expect (w : nat) (v : Z) : reader unit := let* x := uint w in if x =? v then ret tt else fail.
Definition opt {A} (r : reader A) : reader (option A) := let* b := flag in if b then let* x := r in ret (Some x) else ret None.
Definition opt_h {A} (r : reader A) : reader (option A) := let* b := high in if b then let* x := r in ret (Some x) else ret None.
Fixpoint times {A} (n : nat) (r : reader A) : reader (list A) :=
  match n with O => ret [] | S n => let* x := r in let* l := times n r in ret (x :: l) end.

(** A frame number modulo 42432 as T1', T3 and T2. *)
Record time := mk_time { t1 : Z; t3 : Z; t2 : Z }.
Definition time_of (rfn : Z) : time := mk_time (rfn / 1326 mod 32) (rfn mod 51) (rfn mod 26).
Definition r_time : reader time := let* a := uint 5 in let* b := uint 6 in let* c := uint 5 in ret (mk_time a b c).

(** 10.5.2.30: random access value and frame number. *)
Record request := mk_request { rq_ra : Z; rq_time : time }.
Definition r_request : reader request := let* a := uint 8 in let* t := r_time in ret (mk_request a t).

Record power := mk_power { w_alpha : option Z; w_gamma : Z }.
Definition r_power : reader power := let* a := opt (uint 4) in let* g := uint 5 in ret (mk_power a g).

(** < Packet Downlink Assignment > *)
Record downlink := mk_dl {
  d_tlli : Z; d_tfi : Z; d_rlc_mode : bool; d_power : power; d_polling : bool; d_ta_valid : bool;
  d_tai : option Z; d_start : option time; d_p0 : option Z;
  d_egprs : option (Z * Z * option Z) }.     (* window size, measurement mode, BEP_PERIOD2 *)
Definition r_downlink : reader downlink :=
  let* tlli := uint 32 in
  let* present := flag in
  if present then
    let* tfi := uint 5 in let* mode := flag in let* pw := r_power in
    let* poll := flag in let* tav := flag in
    let* tai := opt (uint 4) in let* st := opt r_time in let* p0 := opt (uint 5) in
    let* e := opt_h (let* ws := uint 5 in let* lqm := uint 2 in let* bep := opt (uint 4) in ret (ws, lqm, bep)) in
    ret (mk_dl tlli tfi mode pw poll tav tai st p0 e)
  else fail.

(** The dynamic allocation fields common to both uplink assignments. *)
Record dynamic := mk_dyn { y_tfi : Z; y_polling : bool; y_usf : Z; y_granularity : bool; y_p0 : option Z }.
Definition r_dynamic : reader dynamic :=
  let* tfi := uint 5 in let* poll := flag in
  let* fixed := flag in
  if fixed then fail else
  let* usf := uint 3 in let* g := flag in let* p0 := opt (uint 5) in ret (mk_dyn tfi poll usf g p0).

Inductive uplink :=
(* < Packet Uplink Assignment > *)
| UpTbf (y : dynamic) (coding : Z) (tlli_coding : bool) (pw : power) (tai : option Z) (start : option time)
| UpSingle (pw : power) (start : time)
(* < EGPRS Packet Uplink Assignment > *)
| UpTbfEgprs (ext_ra : Z) (y : dynamic) (coding : Z) (tlli_coding : bool) (bep : option Z) (reseg : bool) (ws : Z)
    (pw : power) (tai : option Z) (start : option time)
| UpMultiEgprs (ext_ra : Z) (pw : power) (start : time) (blocks : Z) (p0 : option Z).
Definition r_uplink : reader uplink :=
  let* tbf := flag in
  if tbf then
    let* y := r_dynamic in let* c := uint 2 in let* tc := flag in let* pw := r_power in
    let* tai := opt (uint 4) in let* st := opt r_time in ret (UpTbf y c tc pw tai st)
  else
    let* pw := r_power in let* _ := expect 2 1 in let* st := r_time in ret (UpSingle pw st).
Definition r_uplink_egprs : reader uplink :=
  let* ra := uint 5 in
  let* access := flag in
  if access then fail else
  let* tbf := flag in
  if tbf then
    let* y := r_dynamic in let* c := uint 4 in let* tc := flag in let* bep := opt (uint 4) in
    let* rs := flag in let* ws := uint 5 in let* pw := r_power in
    let* tai := opt (uint 4) in let* st := opt r_time in ret (UpTbfEgprs ra y c tc bep rs ws pw tai st)
  else
    let* pw := r_power in let* st := r_time in let* n := uint 2 in let* p0 := opt (uint 5) in
    ret (UpMultiEgprs ra pw st n p0).

Inductive frequency := Arfcn (n : Z) | Hopping (maio hsn : Z).
Inductive rest := RDown (d : downlink) | RUp (u : uplink).
Record message := mk_msg {
  m_down : bool; m_ts : Z; m_tsc : Z; m_freq : frequency; m_request : request; m_ta : Z; m_ma : list Z; m_rest : rest }.
Definition r_rest (down : bool) : reader rest :=
  let* a := high in let* b := high in let* c := flag in let* d := flag in
  match a, b, c, d with
  | true, true, false, true => if down then let* x := r_downlink in ret (RDown x) else fail
  | true, true, false, false => if down then fail else let* x := r_uplink in ret (RUp x)
  | false, true, false, false => if down then fail else let* x := r_uplink_egprs in ret (RUp x)
  | _, _, _, _ => fail
  end.
Definition r_message : reader message :=
  let* _ := expect 8 6 in                     (* radio resource management *)
  let* _ := expect 8 63 in                    (* IMMEDIATE ASSIGNMENT *)
  let* _ := expect 2 0 in
  let* down := flag in
  let* _ := expect 1 1 in                     (* assigns a TBF *)
  let* _ := expect 4 0 in                     (* normal paging *)
  let* _ := expect 5 1 in                     (* packet channel description *)
  let* ts := uint 3 in let* tsc := uint 3 in
  let* hop := flag in
  let* f := (if hop then let* maio := uint 6 in let* hsn := uint 6 in ret (Hopping maio hsn)
             else let* _ := expect 2 0 in let* n := uint 10 in ret (Arfcn n)) in
  let* rq := r_request in
  let* _ := expect 2 0 in
  let* ta := uint 6 in
  let* n := uint 8 in
  let* ma := times (Z.to_nat n) (uint 8) in
  let* r := r_rest down in
  ret (mk_msg down ts tsc f rq ta ma r).
(** The L2 pseudo length and the message behind it. The length counts all octets between
    itself and the rest octets. *)
Definition mobile_reads (block : list Z) : option (Z * message) :=
  match block with
  | [] => None
  | l :: msg =>
    if l mod 4 =? 1 then match r_message (message_bits msg) with Some (m, _) => Some (l / 4, m) | None => None end else None
  end.

(** Immediate Assignment Reject: four references with their wait indications, then the low
    bits of 11-bit access values for each. *)
Definition r_reject : reader (list (request * Z) * list (option Z)) :=
  let* _ := expect 8 6 in let* _ := expect 8 58 in let* _ := uint 8 in
  let* l := times 4 (let* q := r_request in let* w := uint 8 in ret (q, w)) in
  let* e := times 4 (opt_h (uint 5)) in ret (l, e).
Definition mobile_reads_reject (block : list Z) : option (Z * (list (request * Z) * list (option Z))) :=
  match block with
  | [] => None
  | l :: msg =>
    if l mod 4 =? 1 then match r_reject (message_bits msg) with Some (m, _) => Some (l / 4, m) | None => None end else None
  end.

(** An IE of [w] bits can carry [v]. *)
Definition fits (w : Z) (v : Z) : Prop := 0 <= v < 2 ^ w.

(** * What the mobile ought to read *)
Definition freq_of (p : ia_pdch) : frequency :=
  match ip_fh p with Some (maio, hsn, _) => Hopping maio hsn | None => Arfcn (ip_arfcn p) end.
Definition ma_of (p : ia_pdch) : list Z := match ip_fh p with Some (_, _, ma) => ma | None => [] end.
Definition pdch_ok (p : ia_pdch) : Prop :=
  fits 3 (ip_ts p) /\ fits 3 (ip_tsc p) /\ fits 10 (ip_arfcn p) /\
  match ip_fh p with
  | Some (maio, hsn, ma) => fits 6 maio /\ fits 6 hsn /\ (length ma <= 8)%nat /\ forall x, In x ma -> fits 8 x
  | None => True
  end.
Definition par_ok (q : ia_par) : Prop :=
  fits 11 (q_ra q) /\ (q_ext q = false -> fits 8 (q_ra q)) /\ 0 <= q_rfn q < 65536 /\ 0 <= q_ta q < 256 /\
  fits 3 (q_usf q) /\ 0 <= q_start q < 65536 /\ fits 4 (q_alpha q) /\ fits 5 (q_gamma q) /\ q_tai q < 16.
(** The power control fields as the mobile reads them. *)
Definition power_of (alpha gamma : Z) : power := mk_power (if alpha =? 0 then None else Some alpha) gamma.
Definition tai_of (tai : Z) : option Z := if tai <? 0 then None else Some tai.

(** The head of every assignment, with rest octets [r]. *)
Definition message_for (p : ia_pdch) (q : ia_par) (r : rest) : message :=
  mk_msg (q_down q) (ip_ts p) (ip_tsc p) (freq_of p) (mk_request (if q_ext q then 127 else q_ra q) (time_of (q_rfn q)))
    (q_ta q mod 64) (ma_of p) r.
(** Downlink; [e]: the EGPRS part. *)
Definition downlink_for (tlli tfi : Z) (q : ia_par) (e : option (Z * Z * option Z)) : rest :=
  RDown (mk_dl tlli tfi false (power_of (q_alpha q) (q_gamma q)) (q_poll q) (q_ta q <? 64) (tai_of (q_tai q))
    (if q_poll q then Some (time_of (q_start q)) else None) None e).
(** Uplink, by the kind of access burst and whether there is a TBF. *)
Definition uplink_for (t : ia_tbf) (q : ia_par) : uplink :=
  match t with
  | UlTbf _ tfi _ ws cs =>
    let y := mk_dyn tfi false (q_usf q) false None in
    if q_ext q
    then UpTbfEgprs (q_ra q mod 32) y (mcs_chan_code cs) false None false ((ws - 64) / 32) (power_of (q_alpha q) (q_gamma q)) (tai_of (q_tai q)) None
    else UpTbf y (mcs_chan_code cs) true (power_of (q_alpha q) (q_gamma q)) (tai_of (q_tai q)) None
  | _ =>
    if q_ext q then UpMultiEgprs (q_ra q mod 32) (power_of (q_alpha q) (q_gamma q)) (time_of (q_start q)) 0 None
    else UpSingle (power_of (q_alpha q) (q_gamma q)) (time_of (q_start q))
  end.
Definition ws_ok (ws : Z) : Prop := 64 <= ws <= 1024.
Definition ul_ok (t : ia_tbf) (q : ia_par) : Prop :=
  match t with
  | UlTbf tlli tfi _ ws cs => fits 5 tfi /\ ws_ok ws /\ ~ In tlli [1; 2; 3] /\
      (if q_ext q then cs <> UNKNOWN else In cs [CS1; CS2; CS3; CS4])
  | NoTbf => True
  | DlTbf _ _ _ _ => False
  end.
(** A call no code path makes: an assertion fails. *)
Definition aborts (t : ia_tbf) (q : ia_par) : Prop :=
  if q_down q then match t with DlTbf _ _ _ _ => False | _ => True end
  else q_ext q = false /\ match t with DlTbf _ _ e _ | UlTbf _ _ e _ _ => e = true | NoTbf => False end.
(** Frame numbers modulo 42432 within half that period of each other, one way or the other. *)
Definition near (a b : Z) : Prop := (a - b) mod 42432 < 21216 \/ 0 < (b - a) mod 42432 < 21216.
