(** What the counters of data blocks by coding scheme should show. *)
From Coq Require Import ZArith Ascii String List Bool.
From Verif Require Import Model.CodingScheme Model.SchemeCtr.
Import ListNotations.
Local Open Scope Z_scope.

Definition short_name (s : scheme) : string :=
  (match s with
   | CS1 => "cs1" | CS2 => "cs2" | CS3 => "cs3" | CS4 => "cs4"
   | MCS1 => "mcs1" | MCS2 => "mcs2" | MCS3 => "mcs3" | MCS4 => "mcs4" | MCS5 => "mcs5"
   | MCS6 => "mcs6" | MCS7 => "mcs7" | MCS8 => "mcs8" | MCS9 => "mcs9" | UNKNOWN => ""
   end)%string.
Definition all_schemes : list scheme := [CS1; CS2; CS3; CS4; MCS1; MCS2; MCS3; MCS4; MCS5; MCS6; MCS7; MCS8; MCS9].
Definition of_edge (s : scheme) : bool :=
  match s with CS1 | CS2 | CS3 | CS4 | UNKNOWN => false | _ => true end.

(** The name a counter should bear; the cell's have an underscore where those of a TBF have a
    colon. *)
Definition title (sep : string) (w : way) (s : scheme) : string :=
  ((if of_edge s then "egprs" else "gprs") ++ ":" ++ (match w with Down => "downlink" | Up => "uplink" end)
   ++ sep ++ short_name s)%string.
Definition cell_title := title "_".
Definition tbf_title := title ":".

(** The value shown under a name: that of the first counter of the group bearing it. *)
Fixpoint shown_from (names : list string) (v : nat -> Z) (name : string) (i : nat) : Z :=
  match names with
  | [] => 0
  | y :: r => if String.eqb y name then v i else shown_from r v name (S i)
  end.
Definition shown (names : list string) (v : nat -> Z) (name : string) : Z := shown_from names v name 0.
Definition tbf_names (w : way) (edge : bool) : list string :=
  match w, edge with
  | Down, false => dl_gprs_names | Down, true => dl_egprs_names
  | Up, false => ul_gprs_names | Up, true => ul_egprs_names
  end.
(** What the groups of a TBF show for a scheme; 0 if the group is not there. *)
Definition tbf_shown (w : way) (g : groups) (s : scheme) : Z :=
  match (if of_edge s then g_egprs g else g_gprs g) with
  | Some v => shown (tbf_names w (of_edge s)) v (tbf_title w s)
  | None => 0
  end.
(** What the cell shows for a scheme now, less what it showed before. *)
Definition cell_gain (w : way) (c0 c1 : nat -> Z) (s : scheme) : Z :=
  shown cell_names c1 (cell_title w s) - shown cell_names c0 (cell_title w s).

(** How many radio blocks of a list are of scheme [s]. *)
Fixpoint amount (s : scheme) (l : list scheme) : Z :=
  match l with [] => 0 | x :: r => (if seqb x s then 1 else 0) + amount s r end.

(** [n s] is what is shown, [a s] what was sent. A block of MCS-7 or MCS-9 sent alone goes out
    as MCS-5 or MCS-6. *)
Definition exact_schemes : list scheme := [CS1; CS2; CS3; CS4; MCS1; MCS2; MCS3; MCS4; MCS8].
Definition nearly (n a : scheme -> Z) : Prop :=
  (forall s, In s exact_schemes -> n s = a s)
  /\ n MCS5 + n MCS7 = a MCS5 + a MCS7 /\ a MCS7 <= n MCS7
  /\ n MCS6 + n MCS9 = a MCS6 + a MCS9 /\ a MCS9 <= n MCS9.
Definition sum_of (n : scheme -> Z) : Z := fold_right Z.add 0 (map n all_schemes).

(** Every new block of a downlink TBF has a scheme of the TBF's mode (see C37). *)
Definition suited_op (o : cellop) (w : cellw) : Prop :=
  match o with
  | OnDl i (NewBlock c) =>
    forall t, nth_error (w_dl w) i = Some t -> In c all_schemes /\ of_edge c = d_egprs t
  | _ => True
  end.
Fixpoint suited (os : list cellop) (w : cellw) : Prop :=
  match os with
  | [] => True
  | o :: r => suited_op o w /\ match cell_step o w with Some w' => suited r w' | None => True end
  end.
