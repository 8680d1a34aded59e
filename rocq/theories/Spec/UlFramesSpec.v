(** A mobile that sends LLC frames on an uplink TBF: how it cuts them into RLC data blocks (3GPP TS 44.060,
    10.4.13-10.4.14a, 10.3a.1), and what the SGSN must get.

    Blocks are numbered 0, 1, 2, ... without wrap-around. *)
From Coq Require Import ZArith List Bool.
From Verif Require Import Base.Arith Model.RlcWindow Model.RlcWindowUl Model.UlParse Model.TbfUlWindow Model.UlFrames
  Spec.SegSpec Spec.UlWindowSpec.
Import ListNotations.
Local Open Scope Z_scope.

(** What follows the last frame that ends in a block: the octets of one more frame, which fill the block, or
    filling. [Zero d]: as [Open], said by a length of 0 (GPRS only). *)
Inductive ending := Open (d : list Z) | Fill (d : list Z) | Zero (d : list Z).
(** A block without length indicators, or the parts of frames that end in it. *)
Inductive body := Whole (d : list Z) | Parts (ends : list (list Z)) (e : ending).
Record mblock := mk_mb { b_cv : Z; b_tlli : option (list Z); b_body : body }.

(** GPRS length octets: length, M, E. *)
Definition gli (n : Z) (m e : bool) : Z := 4 * n + 2 * Z.b2z m + Z.b2z e.
(** The last one says M = 1, E = 1 before [Open], M = 0, E = 1 before filling; a length of 0 comes on its own. *)
Fixpoint gprs_lis (ends : list (list Z)) (e : ending) : list Z :=
  match ends with
  | [] => match e with Zero _ => [gli 0 false true] | _ => [] end
  | p :: r =>
    match r, e with
    | [], Open _ => [gli (num p) true true]
    | [], Fill _ => [gli (num p) false true]
    | _, _ => gli (num p) true false :: gprs_lis r e
    end
  end.
(** EGPRS length octets: length, E; the length 127 announces filling. *)
Definition eli (n : Z) (e : bool) : Z := 2 * n + Z.b2z e.
Fixpoint egprs_lis (ends : list (list Z)) (e : ending) : list Z :=
  match ends with
  | [] => match e with Fill _ => [eli 127 true] | _ => [] end
  | p :: r =>
    match r, e with
    | [], Open _ => [eli (num p) true]
    | _, _ => eli (num p) false :: egprs_lis r e
    end
  end.
Definition rest_of (e : ending) : list Z := match e with Open d | Fill d | Zero d => d end.
Definition tlli_of (b : mblock) : list Z := match b_tlli b with Some t => t | None => [] end.
(** The octets of a block: length octets, TLLI, parts of frames. *)
Definition block_octets (edge : bool) (b : mblock) : list Z :=
  match b_body b with
  | Whole d => tlli_of b ++ d
  | Parts ends e => (if edge then egprs_lis else gprs_lis) ends e ++ tlli_of b ++ concat ends ++ rest_of e
  end.

(** A block as the standard allows it. The parts after the first one are frames; with frames of at least 4 octets
    there are at most 15 parts in a block of 74 octets. *)
Definition part_len (edge first : bool) (n : Z) : Prop :=
  if edge then (if first then 0 <= n < 127 else 4 <= n < 127) else (if first then 1 <= n < 64 else 4 <= n < 64).
Definition ending_ok (edge : bool) (ends : list (list Z)) (e : ending) : Prop :=
  match e with Zero _ => edge = false | _ => ends <> [] end.
Definition body_ok (edge : bool) (b : body) : Prop :=
  match b with
  | Whole _ => True
  | Parts ends e => ending_ok edge ends e /\
      match ends with [] => True | p :: r => part_len edge true (num p) /\ Forall (fun q => part_len edge false (num q)) r end
  end.
Definition mblock_ok (edge : bool) (b : mblock) : Prop :=
  body_ok edge (b_body b) /\ match b_tlli b with Some t => length t = 4%nat | None => True end /\
  17 <= num (block_octets edge b) <= 74 /\ Forall (fun x => 0 <= x < 256) (block_octets edge b).

(** The pieces of frames in a block, each with "the frame ends here"; the last block of all ends the frame in it. *)
Definition tail_piece (last : bool) (d : list Z) : list (list Z * bool) := match d with [] => [] | _ => [(d, last)] end.
Definition pieces (b : mblock) : list (list Z * bool) :=
  let last := b_cv b =? 0 in
  match b_body b with
  | Whole d => tail_piece last d
  | Parts ends e => map (fun p => (p, true)) ends ++ match e with Open d | Zero d => tail_piece last d | Fill _ => [] end
  end.
(** Joining pieces: the frames completed and the part of the one under way. *)
Fixpoint join (ps : list (list Z * bool)) (r : list (list Z) * list Z) : list (list Z) * list Z :=
  match ps with
  | [] => r
  | (d, ends) :: l => join l (if ends : bool then (fst r ++ [snd r ++ d], []) else (fst r, snd r ++ d))
  end.
(** The first [n] blocks of a mobile. *)
Definition blocks (blk : Z -> mblock) (n : Z) : list mblock := map (fun k => blk (Z.of_nat k)) (seq 0 (Z.to_nat n)).
Definition frames_in (blk : Z -> mblock) (n : Z) : list (list Z) * list Z := join (concat (map pieces (blocks blk n))) ([], []).

(** A mobile with [n] blocks that carry the frames [F]. Only its last block has countdown value 0. *)
Record mobile (edge : bool) (n : Z) (blk : Z -> mblock) (F : list (list Z)) : Prop := {
  mo_n : 1 <= n;
  mo_ok : forall i, 0 <= i < n -> mblock_ok edge (blk i);
  mo_cv : forall i, 0 <= i < n -> (b_cv (blk i) = 0 <-> i = n - 1);
  mo_frames : frames_in blk n = (F, []);
  mo_len : Forall (fun f => num f <= LLC_MAX_LEN) F }.

(** A block of the mobile as it is received complete. *)
Definition content (edge : bool) (b : mblock) : ul_content :=
  let d := block_octets edge b in
  mk_ulc (num d) edge
    (mk_rdbi (num d) (match b_tlli b with Some _ => true | None => false end)
       (match b_body b with Whole _ => true | Parts _ _ => false end) (b_cv b) false) d.
(** A received block that is one of the mobile's; it may be half of one, or be refused for its TLLI. The window allows
    its number, seen from the lower edge [Q]. *)
Definition from_mobile (edge : bool) (sns ws Q n : Z) (blk : Z -> mblock) (b : ul_blk) : Prop :=
  exists i, 0 <= i < n /\ Q - ws <= i < Q + ws /\ ub_bsn b = i mod sns /\
            (ub_incomplete b = false -> ub_content b = content edge (blk i)).

(** A transfer: observer and window (UlWindowSpec.v), frame buffer, and the frames sent to the SGSN so far. Blocks
    can be lost, repeated and reordered. *)
Inductive transfer (edge : bool) (sns ws n : Z) (blk : Z -> mblock) : uobs -> ullc -> list (list Z) -> Prop :=
| T_start : ul_params sns ws -> transfer edge sns ws n blk (uobs_init sns ws) ullc_reset []
| T_rcv o m out rel flow l o' t' m' new fin : transfer edge sns ws n blk o m out ->
    Forall (from_mobile edge sns (uws o) (u_Q o) n blk) l ->
    ul_rcv_llc rel flow (u_t o) m l = Some (t', m', new, fin) -> uobs_step (URcv rel flow l) o = Some o' ->
    transfer edge sns ws n blk o' m' (out ++ new)
| T_ws o m out w o' : transfer edge sns ws n blk o m out -> ul_op_ok sns (USetWs w) o ->
    uobs_step (USetWs w) o = Some o' -> transfer edge sns ws n blk o' m out.
