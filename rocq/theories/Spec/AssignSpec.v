(** How a mobile reads a PACKET UPLINK ASSIGNMENT (3GPP TS 44.060 11.2.29) and a PACKET DOWNLINK ASSIGNMENT
    (11.2.7), written from the CSN.1 of that document.  Parts that only describe allocations of another kind
    (single block, fixed, EGPRS2, indirect frequency encoding, starting times, power parameters P0) make the
    reader give up: the PCU does not use them. *)
From Coq Require Import ZArith List Bool.
From Verif.Model Require Import CodingScheme.
Import ListNotations.
Local Open Scope Z_scope.

Definition reader (A : Type) : Type := list bool -> option (A * list bool).
Definition ret {A} (a : A) : reader A := fun l => Some (a, l).
Definition bind {A C} (r : reader A) (f : A -> reader C) : reader C :=
  fun l => match r l with Some (a, l') => f a l' | None => None end.
Definition fail {A} : reader A := fun _ => None.
Notation "'let*' x := r 'in' k" := (bind r (fun x => k)) (at level 200, x name, r at level 100, k at level 200).

Definition flag : reader bool := fun l => match l with b :: r => Some (b, r) | [] => None end.
(** < name : bit (w) >, the most significant bit first. *)
Fixpoint num (w : nat) : reader Z :=
  match w with
  | O => ret 0
  | S k => let* b := flag in let* x := num k in ret (2 ^ Z.of_nat k * Z.b2z b + x)
  end.
(** bits that must have this value *)
Definition must (w : nat) (v : Z) : reader unit := let* x := num w in if x =? v then ret tt else fail.
(** { 0 | 1 < x > } *)
Definition opt {A} (r : reader A) : reader (option A) := let* b := flag in if b then let* x := r in ret (Some x) else ret None.
(** { null | 0 bit** | 1 < x > } *)
Definition or_null {A} (r : reader A) : reader (option A) :=
  fun l => match l with [] => ret None [] | _ => opt r l end.
Fixpoint times {A} (n : nat) (r : reader A) : reader (list A) :=
  match n with O => ret [] | S n => let* x := r in let* l := times n r in ret (x :: l) end.

(** To whom: a TLLI, or the TFI of a TBF (downlink or not). *)
Inductive addressee := ByTlli (tlli : Z) | ByTfi (downlink : bool) (tfi : Z).
(** { 0 < Global TFI > | 10 < TLLI > } *)
Definition r_addressee : reader addressee :=
  let* b := flag in
  if b then let* c := flag in if c then fail else let* t := num 32 in ret (ByTlli t)
  else let* d := flag in let* t := num 5 in ret (ByTfi d t).

(** 12.12: timing advance value; index and timeslot number of continuous timing advance. *)
Record advance := mk_advance { a_value : option Z; a_index : option (Z * Z) }.
Definition r_advance : reader advance :=
  let* v := opt (num 6) in
  let* i := opt (let* x := num 4 in let* t := num 3 in ret (x, t)) in
  ret (mk_advance v i).

(** 12.8: training sequence code; a carrier, or MAIO, HSN and the mobile allocation (12.10a). *)
Inductive carrier := Arfcn (n : Z) | Hopping (maio hsn : Z) (allocation : list bool).
Record frequency := mk_frequency { f_tsc : Z; f_carrier : carrier }.
Definition r_frequency : reader frequency :=
  let* tsc := num 3 in
  let* kind := num 2 in
  if kind =? 0 then let* n := num 10 in ret (mk_frequency tsc (Arfcn n))
  else if kind =? 2 then
    let* maio := num 6 in let* hsn := num 6 in
    let* rfl := flag in if rfl then fail else               (* { 1 < RFL number : bit (4) > } ** 0 *)
    let* list := flag in if list then fail else             (* 0 < MA_LENGTH : bit (6) > < MA_BITMAP > *)
    let* len := num 6 in
    let* ma := times (Z.to_nat (len + 1)) flag in
    ret (mk_frequency tsc (Hopping maio hsn ma))
  else fail.

(** EGPRS window size (table 12.5.2.1). *)
Definition window_of (code : Z) : Z := 64 + 32 * code.

(** The header of the block (10.4): when to answer, if asked. *)
Definition r_header (message : Z) : reader (option Z) :=
  let* _ := must 2 1 in let* rrbp := num 2 in let* poll := flag in let* usf := num 3 in
  let* _ := must 6 message in let* page := num 2 in let* persistence := opt (num 16) in
  ret (if poll then Some rrbp else None).

(** ** Uplink *)
(** A timeslot: its USF and, with power control, its gamma. *)
Record share := mk_share { h_usf : Z; h_gamma : option Z }.
(** Dynamic Allocation struct: TFI, ALPHA if given, eight timeslots. *)
Record dynamic := mk_dynamic { y_tfi : Z; y_alpha : option Z; y_slots : list (option share) }.
Definition r_dynamic : reader dynamic :=
  let* extended := must 1 0 in
  let* p0 := must 1 0 in
  let* granularity := must 1 0 in
  let* tfi := opt (num 5) in
  let* granted := must 1 0 in
  let* start := must 1 0 in
  let* power := flag in
  match tfi with
  | None => fail
  | Some tfi =>
    if power then
      let* alpha := num 4 in
      let* l := times 8 (opt (let* u := num 3 in let* g := num 5 in ret (mk_share u (Some g)))) in
      ret (mk_dynamic tfi (Some alpha) l)
    else let* l := times 8 (opt (let* u := num 3 in ret (mk_share u None))) in ret (mk_dynamic tfi None l)
  end.
(** Coding commanded: CS or MCS number minus 1; EGPRS: with resegmentation, and window size. *)
Inductive coding := Gprs (cs : Z) | Egprs (mcs : Z) (resegment : bool) (window : Z).
Record uplink := mk_uplink {
  u_poll : option Z; u_to : addressee; u_coding : coding; u_tlli_same : bool; u_advance : advance;
  u_frequency : option frequency; u_dynamic : dynamic }.
Definition r_uplink : reader uplink :=
  let* poll := r_header 10 in
  let* who := r_addressee in
  let* egprs := flag in
  if egprs then
    let* _ := must 2 0 in
    let* contention := must 1 0 in
    let* reduced := must 1 0 in
    let* mcs := num 4 in let* reseg := flag in let* ws := num 5 in
    let* access := must 1 0 in                              (* { 1 < Access Technology Type > } ** 0 *)
    let* arac := must 1 0 in
    let* same := flag in
    let* bep := must 1 0 in
    let* ta := r_advance in
    let* extended := must 1 0 in
    let* f := opt r_frequency in
    let* _ := must 2 1 in
    let* y := r_dynamic in
    ret (mk_uplink poll who (Egprs mcs reseg (window_of ws)) same ta f y)
  else
    let* cs := num 2 in let* same := flag in
    let* ta := r_advance in
    let* f := opt r_frequency in
    let* _ := must 2 1 in
    let* y := r_dynamic in
    let* additions := or_null (must 1 0) in
    match additions with
    | Some _ => fail
    | None => ret (mk_uplink poll who (Gprs cs) same ta f y)
    end.

(** ** Downlink *)
Record downlink := mk_downlink {
  w_poll : option Z; w_to : addressee; w_acknowledged : bool; w_control_ack : bool; w_slots : list bool;
  w_advance : advance; w_frequency : option frequency; w_tfi : option Z;
  w_power : option (Z * list (option Z));                   (* ALPHA, GAMMA of eight timeslots *)
  w_window : option Z }.                                    (* EGPRS, with this window *)
Definition r_downlink : reader downlink :=
  let* poll := r_header 2 in
  let* who := r_addressee in
  let* escape := must 1 0 in
  let* mac_mode := must 2 0 in
  let* unack := flag in let* ca := flag in
  let* slots := times 8 flag in
  let* ta := r_advance in
  let* p0 := must 1 0 in
  let* f := opt r_frequency in
  let* tfi := opt (num 5) in
  let* power := opt (let* a := num 4 in let* l := times 8 (opt (num 5)) in ret (a, l)) in
  let* start := must 1 0 in
  let* mapping := must 1 0 in
  let* r99 := or_null (
    let* params := opt (let* ws := num 5 in let* lqm := must 2 0 in let* bep := must 1 0 in ret (window_of ws)) in
    let* ext := must 1 0 in let* reduced := must 1 0 in ret params) in
  ret (mk_downlink poll who (negb unack) ca slots ta f tfi power (match r99 with Some (Some w) => Some w | _ => None end)).

(** What the mobile makes of the bits of a block. *)
Definition reads {A} (r : reader A) (block : list bool) : option A :=
  match r block with Some (x, _) => Some x | None => None end.

(** The mobile allocation of a timeslot: the last [n] bits of these octets. *)
Definition octet_bits (x : Z) : list bool := map (Z.testbit x) [7; 6; 5; 4; 3; 2; 1; 0].
Definition last_bits (n : Z) (octets : list Z) : list bool :=
  let b := flat_map octet_bits octets in skipn (length b - Z.to_nat n) b.

(** The number a coding scheme has on the air. *)
Definition code_of (c : scheme) : option coding :=
  match c with
  | CS1 => Some (Gprs 0) | CS2 => Some (Gprs 1) | CS3 => Some (Gprs 2) | CS4 => Some (Gprs 3)
  | _ => None
  end.
Definition egprs_code_of (c : scheme) : option Z :=
  match c with
  | MCS1 => Some 0 | MCS2 => Some 1 | MCS3 => Some 2 | MCS4 => Some 3 | MCS5 => Some 4 | MCS6 => Some 5
  | MCS7 => Some 6 | MCS8 => Some 7 | MCS9 => Some 8 | _ => None
  end.
