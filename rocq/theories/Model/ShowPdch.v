(** The command "show bts pdch" and the argument of "show ms tlli": /repo/src/pcu_vty.c and
    pcu_vty_functions.cpp; on top of Alloc.v. *)
From Coq Require Import ZArith List Bool.
From Verif Require Import Model.Mslot Model.Alloc.
Import ListNotations.
Local Open Scope Z_scope.

(** A line of the output: the timeslot, whether it is enabled, its downlink and uplink TBFs. *)
Record pdch_line := mk_pl { pl_ts : Z; pl_on : bool; pl_dl : Z; pl_ul : Z }.
(** pcu_vty_show_bts_pdch, pcu_vty_functions.cpp:273-299: each TRX displayed, with its lines. The
    heading with the BTS is left out. *)
Definition pdch_lines (t : trx) : list pdch_line :=
  map (fun ts => mk_pl ts (pd_enabled (t ts)) (num_tbfs (t ts) DL) (num_tbfs (t ts) UL)) [0; 1; 2; 3; 4; 5; 6; 7].
Definition show_pdch (b : bts) : list (Z * list pdch_line) :=
  flat_map (fun n => if existsb (fun ts => pd_enabled (b n ts)) [0; 1; 2; 3; 4; 5; 6; 7] then [(n, pdch_lines (b n))] else [])
    [0; 1; 2; 3; 4; 5; 6; 7].

(** strtoll of the C library with base 16, called at pcu_vty.c:1212: the value and the rest of the
    string (endp). Strings are lists of character codes without the final 0; locale "C". *)
Definition hx_space (c : Z) : bool := (c =? 32) || ((9 <=? c) && (c <=? 13)).
Fixpoint hx_skip (s : list Z) : list Z :=
  match s with c :: r => if hx_space c then hx_skip r else s | [] => [] end.
Definition hx_digit (c : Z) : option Z :=
  if (48 <=? c) && (c <=? 57) then Some (c - 48)
  else if (97 <=? c) && (c <=? 102) then Some (c - 87)
  else if (65 <=? c) && (c <=? 70) then Some (c - 55)
  else None.
Fixpoint hx_digits (s : list Z) : list Z * list Z :=
  match s with
  | c :: r => match hx_digit c with Some d => let (ds, e) := hx_digits r in (d :: ds, e) | None => ([], s) end
  | [] => ([], [])
  end.
Definition hx_sign (s : list Z) : bool * list Z :=
  match s with
  | c :: r => if c =? 45 then (true, r) else if c =? 43 then (false, r) else (false, s)
  | [] => (false, s)
  end.
Definition hx_prefix (s : list Z) : list Z :=
  match s with
  | z :: x :: c :: r =>
    if (z =? 48) && ((x =? 120) || (x =? 88)) && (match hx_digit c with Some _ => true | None => false end) then c :: r else s
  | _ => s
  end.
Definition strtoll16 (s : list Z) : Z * list Z :=
  let (neg, s1) := hx_sign (hx_skip s) in
  let (ds, e) := hx_digits (hx_prefix s1) in
  match ds with
  | [] => (0, s)
  | _ => let v := fold_left (fun a d => 16 * a + d) ds 0 in
         (if neg then Z.max (- 2 ^ 63) (- v) else Z.min (2 ^ 63 - 1) v, e)
  end.
(** show_ms_tlli, pcu_vty.c:1204-1220: the TLLI looked for, or nothing if the argument is refused.
    The value is converted to unsigned long long. *)
Definition tlli_arg (s : list Z) : option Z :=
  let (v, e) := strtoll16 s in
  let u := v mod 2 ^ 64 in
  match e with
  | _ :: _ => None
  | [] => if 0xffffffff <? u then None else Some u
  end.

(** "TLLI=%08x" of show_ms, pcu_vty_functions.cpp:150: eight digits, lower case. *)
Definition hx_char (d : Z) : Z := if d <? 10 then 48 + d else 87 + d.
Definition tlli_text (v : Z) : list Z := map (fun k => hx_char (v / 16 ^ k mod 16)) [7; 6; 5; 4; 3; 2; 1; 0].
