(** What a report says about the quality of the downlink: counted over the blocks the report is about. *)
From Coq Require Import ZArith List Bool.
From Verif Require Import Base.Arith Model.CodingScheme Model.RlcWindow Model.RlcWindowDl Model.DlErrors Spec.DlWindowSpec.
Import ListNotations.
Local Open Scope Z_scope.

(** The blocks a report starting at V(A) is about, each with its bit. *)
Definition reported (o : obs) (bits : list bool) : list (bool * Z) :=
  map (fun k => (nth k bits false, o_A o + Z.of_nat k)) (seq 0 (Z.to_nat (Z.min (Z.of_nat (length bits)) (o_S o - o_A o)))).
Definition count {A} (f : A -> bool) (l : list A) : Z := Z.of_nat (length (filter f l)).
Definition total {A} (f : A -> bool) (v : A -> Z) (l : list A) : Z := fold_right Z.add 0 (map v (filter f l)).

(** The scheme a block was sent with last, and its size. *)
Definition sent_with (sns : Z) (t : dl_store) (i : Z) : scheme := e_cs t (i mod sns mod 1024).
Definition size (sns : Z) (t : dl_store) (i : Z) : Z := e_len t (i mod sns mod 1024).

(** Newly received: received, and the latest about it was not that already.  Newly lost: lost, and not held to be lost before. *)
Definition known_received (o : obs) (i : Z) : bool := match last_about i (o_log o) with Some (AckRep _) => true | _ => false end.
Definition new_received (o : obs) (b : bool * Z) : bool := fst b && negb (known_received o (snd b)).
Definition new_lost (o : obs) (b : bool * Z) : bool := negb (fst b) && negb (dl_state_eqb (blk o (snd b)) DlNacked).
Definition of_scheme (sns : Z) (t : dl_store) (cur : scheme) (b : bool * Z) : bool := snum (sent_with sns t (snd b)) =? snum cur.

(** The counts: for the rate, blocks of the current scheme, newly received or lost (again). *)
Definition counted (sns : Z) (o : obs) (t : dl_store) (cur : scheme) (bits : list bool) : ana :=
  let l := reported o bits in
  mk_ana (count (fun b => of_scheme sns t cur b && new_received o b) l) (count (fun b => of_scheme sns t cur b && negb (fst b)) l)
    (count (new_received o) l) (total (new_received o) (fun b => size sns t (snd b)) l)
    (count (new_lost o) l) (total (new_lost o) (fun b => size sns t (snd b)) l).
