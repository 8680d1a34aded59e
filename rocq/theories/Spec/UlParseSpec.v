(** What the chunks of an uplink data block must look like and what they mean. *)
From Coq Require Import ZArith List Bool Sorted.
From Verif Require Import Model.Segment Model.UlParse Spec.SegSpec.
Import ListNotations.
Local Open Scope Z_scope.

Definition octets (l : list Z) : Prop := Forall (fun x => 0 <= x < 256) l.

(** Chunk [c] lies inside a block of [n] octets; [a] lies before [b]. *)
Definition inside (n : Z) (c : chunk) : Prop := 0 <= c_off c /\ 0 <= c_len c /\ c_off c + c_len c <= n.
Definition before (a b : chunk) : Prop := c_off a + c_len a <= c_off b.
Definition well_placed (n : Z) (l : list chunk) : Prop := Forall (inside n) l /\ StronglySorted before l.

(** A received block of a TBF: it is followed by other memory, [d_len] is its length. *)
Definition block_ok (r : rdbi) (mem : list Z) : Prop :=
  17 <= d_len r <= 255 /\ d_len r <= num mem /\ octets mem.
Definition the_block (r : rdbi) (mem : list Z) : list Z := firstn (Z.to_nat (d_len r)) mem.

(** The receiver ([rx] of SegSpec.v) takes the octets of each chunk. *)
Fixpoint take_chunks (mem : list Z) (l : list chunk) (r : rx) : rx :=
  match l with
  | [] => r
  | c :: l' =>
    let r1 := more r (slice mem (c_off c) (c_len c)) in
    take_chunks mem l' (if c_done c then finish r1 else r1)
  end.
(** None of the frames on the way is longer than the frame buffer. *)
Fixpoint fits (mem : list Z) (l : list chunk) (r : rx) : Prop :=
  match l with
  | [] => True
  | c :: l' =>
    let r1 := more r (slice mem (c_off c) (c_len c)) in
    num (snd r1) <= LLC_MAX_LEN /\ fits mem l' (if c_done c then finish r1 else r1)
  end.
(** The same for a sequence of blocks; a block that does not parse adds nothing. *)
Definition chunks_of (b : ublk) : list chunk :=
  match from_ul_data (ub_edge b) (ub_rdbi b) (ub_mem b) (Some 16) with POk l _ => l | _ => [] end.
Fixpoint take_blocks (bs : list ublk) (r : rx) : rx :=
  match bs with [] => r | b :: l => take_blocks l (take_chunks (ub_mem b) (chunks_of b) r) end.
Fixpoint fit_all (bs : list ublk) (r : rx) : Prop :=
  match bs with
  | [] => True
  | b :: l => fits (ub_mem b) (chunks_of b) r /\ fit_all l (take_chunks (ub_mem b) (chunks_of b) r)
  end.

(** Octets taken by the TLLI. *)
Definition tlli_len (r : rdbi) : nat := if d_ti r then 4 else 0.
