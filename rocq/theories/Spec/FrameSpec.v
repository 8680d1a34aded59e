(** Frames, blocks and reservation tables, for C13-C17 and C57. *)
From Coq Require Import ZArith List Bool.
From Verif Require Import Model.FrameNo Model.UlController.
Import ListNotations.
Local Open Scope Z_scope.

(** TS 45.002 table 6: first frames of the 12 radio blocks of a 52-multiframe. *)
Definition block_starts : list Z := [0; 4; 8; 13; 17; 21; 26; 30; 34; 39; 43; 47].
Definition in_hyper (fn : Z) : Prop := 0 <= fn < HYP.
Definition block_start (fn : Z) : Prop := In (fn mod 52) block_starts.

(** Frames from [a] forward to [b]. *)
Definition ahead (a b : Z) : Z := (b - a) mod HYP.

(** The frame a mobile answers in (TS 44.060 table 10.4.5.1) when RRBP value [v] comes in
    the block starting at [fn]: 13, 17 or 18, 21 or 22, 26 frames later, whichever of the
    two starts a block. *)
Definition rrbp_offsets (v : Z) : list Z :=
  if v =? 0 then [13] else if v =? 1 then [17; 18] else if v =? 2 then [21; 22]
  else if v =? 3 then [26] else [].
Definition answers_in (fn v p : Z) : Prop :=
  exists o, In o (rrbp_offsets v) /\ p = (fn + o) mod HYP /\ block_start p.

(** A reservation table: who owns which frame. *)
Definition table := Z -> option owner.
Definition t_empty : table := fun _ => None.
Definition t_set (m : table) (fn : Z) (o : option owner) : table :=
  fun x => if x =? fn then o else m x.
Definition t_release_tbf (m : table) (tbf : Z) : table :=
  fun x => match m x with Some o => if owned_by tbf o then None else Some o | None => None end.
Definition t_release_tbfs (m : table) (l : list Z) : table := fold_left t_release_tbf l m.

(** Expiry, frame by frame from [fn] on, [n] frames: an entry found is reported, and with
    it go the entries of the TBFs freed by its owner's reaction. *)
Fixpoint t_expire (frees : item -> list Z) (m : table) (fn : Z) (n : nat) : table * list item :=
  match n with
  | O => (m, [])
  | S k =>
    match m fn with
    | None => t_expire frees m ((fn + 1) mod HYP) k
    | Some o =>
      let it := mk_item fn o in
      let '(m', rep) := t_expire frees (t_release_tbfs (t_set m fn None) (frees it)) ((fn + 1) mod HYP) k in
      (m', it :: rep)
    end
  end.

(** The table with the time up to which it has been expired. *)
Record tstate := mk_ts { ts_m : table; ts_now : Z }.
Definition t_step (frees : item -> list Z) (s : tstate) (op : ulop) : tstate * ulres :=
  match op with
  | UReserve fn o =>
    match ts_m s fn with
    | None => (mk_ts (t_set (ts_m s) fn (Some o)) (ts_now s), RBool true)
    | Some _ => (s, RBool false)
    end
  | UReleaseFn fn =>
    match ts_m s fn with
    | None => (s, RBool false)
    | Some _ => (mk_ts (t_set (ts_m s) fn None) (ts_now s), RBool true)
    end
  | UReleaseTbf b => (mk_ts (t_release_tbf (ts_m s) b) (ts_now s), RDone)
  | UExpire fn =>
    let '(m', rep) := t_expire frees (ts_m s) (ts_now s) (S (Z.to_nat (ahead (ts_now s) fn))) in
    (mk_ts m' fn, RReport rep)
  end.
Fixpoint t_run (frees : item -> list Z) (s : tstate) (ops : list ulop) : tstate * list ulres :=
  match ops with
  | [] => (s, [])
  | op :: r =>
    let '(s1, x) := t_step frees s op in
    let '(s2, xs) := t_run frees s1 r in (s2, x :: xs)
  end.

(** Operations stay within half a hyperframe (more than 104 minutes) ahead of the time
    of the last expiry; releases may name any frame. *)
Definition op_in_time (s : tstate) (op : ulop) : Prop :=
  match op with
  | UReserve fn _ => in_hyper fn /\ ahead (ts_now s) fn < HYP / 2
  | UReleaseFn fn => in_hyper fn
  | UReleaseTbf _ => True
  | UExpire fn => in_hyper fn /\ ahead (ts_now s) fn < HYP / 2
  end.
Fixpoint ops_in_time (frees : item -> list Z) (s : tstate) (ops : list ulop) : Prop :=
  match ops with
  | [] => True
  | op :: r => op_in_time s op /\ ops_in_time frees (fst (t_step frees s op)) r
  end.

(** Controllers reachable by such operations from an empty one, with their table. *)
Definition ulc_reach (bal : tree -> tree) (frees : item -> list Z) (t : tree) (s : tstate) : Prop :=
  exists now ops res, in_hyper now /\
    ops_in_time frees (mk_ts t_empty now) ops /\
    ul_run bal frees Leaf ops = Some (t, res) /\
    fst (t_run frees (mk_ts t_empty now) ops) = s.

(** Owners whose TBF is freed by the reaction to one of the reported entries. *)
Definition freed_by (frees : item -> list Z) (rep : list item) (o : owner) : bool :=
  existsb (fun b => owned_by b o) (flat_map frees rep).

(** [n] steps from block to block. *)
Fixpoint steps (n : nat) (fn : Z) : Z := match n with O => fn | S k => steps k (fn_next_block fn) end.

(** Clocks: the frame number is in the hyperframe or not yet known. *)
Definition clk_ok (c : bclock) : Prop :=
  (in_hyper (ck_fn c) \/ ck_fn c = FN_UNSET) /\ (in_hyper (ck_blk c) \/ ck_blk c = -1).
Fixpoint clk_run (c : bclock) (l : list Z) : option bclock :=
  match l with
  | [] => Some c
  | fn :: r => match set_block_fn c fn with Some c' => clk_run c' r | None => None end
  end.
