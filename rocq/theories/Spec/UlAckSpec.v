(** How a mobile reads a PACKET UPLINK ACK/NACK, 3GPP TS 44.060 11.2.28. *)
From Coq Require Import ZArith List Bool.
From Verif.Model Require Import CodingScheme T4.
From Verif.Spec Require Import AssignSpec.
Import ListNotations.
Local Open Scope Z_scope.

(** The blocks a report is about: the number of the first one, and for this and the following ones whether they
    have been received; GPRS (12.3): the 64 numbers before SSN, EGPRS (12.3.1): those from SSN on. *)
Inductive report := GprsReport (ssn : Z) (bits : list bool) | EgprsReport (ssn : Z) (eow : bool) (bits : list bool).
Record ul_ack := mk_ul_ack {
  q_poll : option Z;        (* RRBP, if the mobile is to answer *)
  q_tfi : Z; q_coding : Z;  (* channel coding command *)
  q_final : bool; q_report : report;
  q_tlli : option Z;        (* contention resolution *)
  q_ta : option Z; q_est : bool }.

(** A string of [n] bits. *)
Definition string (n : nat) : reader (list bool) := times n flag.
(** Packet Timing Advance, of which only the value is used here. *)
Definition r_ta : reader (option Z) :=
  let* a := opt r_advance in ret (match a with Some x => a_value x | None => None end).

(** 12.3 *)
Definition r_gprs_desc : reader (bool * report) :=
  let* f := flag in let* ssn := num 7 in let* b := string 64 in ret (f, GprsReport ssn b).
(** 12.3.1, with its length in front; the uncompressed bitmap is what is left, the highest number first;
    BEGINNING_OF_WINDOW is not looked at. *)
Definition r_egprs_desc : reader (bool * report) :=
  let* has := must 1 1 in
  let* len := num 8 in
  let* f := flag in let* bow := flag in let* eow := flag in let* ssn := num 11 in
  let* c := opt (let* n := num 7 in let* colour := flag in let* b := string (Z.to_nat n) in ret (colour, b)) in
  match c with
  | None => let* u := string (Z.to_nat (len - 15)) in ret (f, EgprsReport ssn eow (rev u))
  | Some (colour, b) =>
    let* u := string (Z.to_nat (len - 23 - Z.of_nat (length b))) in
    let (ok, l) := decompress_crbb 1024 colour b [] in
    if ok : bool then ret (f, EgprsReport ssn eow (l ++ rev u)) else fail
  end.

Definition r_ul_ack : reader ul_ack :=
  let* payload := must 2 1 in let* rrbp := num 2 in let* sp := flag in let* usf := num 3 in
  let* mt := must 6 9 in let* page := num 2 in
  let* fixed := must 2 0 in let* tfi := num 5 in
  let* egprs := flag in
  let poll := if sp then Some rrbp else None in
  if egprs then
    let* escape := must 2 0 in
    let* mcs := num 4 in let* reseg := flag in let* pre := flag in let* prr := flag in let* arac := flag in
    let* tlli := opt (num 32) in let* est := flag in let* ta := r_ta in
    let* ext := must 1 0 in let* power := must 1 0 in let* bits := must 1 0 in
    let* d := r_egprs_desc in
    let* fixed := must 1 0 in
    ret (mk_ul_ack poll tfi mcs (fst d) (snd d) tlli ta est)
  else
    let* cs := num 2 in let* d := r_gprs_desc in
    let* tlli := opt (num 32) in let* ta := r_ta in
    let* power := must 1 0 in let* bits := must 1 0 in let* fixed := must 1 0 in
    let* r99 := or_null (let* ext := must 1 0 in flag) in
    ret (mk_ul_ack poll tfi cs (fst d) (snd d) tlli ta (match r99 with Some e => e | None => false end)).
