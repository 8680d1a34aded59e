(** Who is to get an application information message, without counters or marks: a mobile that has a
    downlink TBF when the BTS asks is due that message, until it was given to it or is gone. *)
From Coq Require Import ZArith List Bool.
From Verif Require Import Model.Sched Model.AppInfo Spec.PagingSpec.
Import ListNotations.
Local Open Scope Z_scope.

Record who := mk_who { w_id : Z; w_dl : bool; w_due : option (list bool) }.

(** The mobile whose turn it is: the one with the downlink assignment to be sent in this block, if any. *)
Definition turn (b : ablock) : option Z :=
  match k_dl_ass (candidates (a_ul b) (a_dl b)) with Some t => Some (a_of b (t_id t)) | None => None end.

Definition due_of (l : list who) (m : Z) : option (list bool) :=
  match find (fun x => w_id x =? m) l with Some x => w_due x | None => None end.
Definition give (o : aop) (l : list who) : list who * option (Z * list bool) :=
  match o with
  | ONew m => (if existsb (fun x => w_id x =? m) l then l else mk_who m false None :: l, None)
  | ODl m b => (map (fun x => if w_id x =? m then mk_who m b (w_due x) else x) l, None)
  | OFree m => (filter (fun x => negb (w_id x =? m)) l, None)
  | ORequest ty data => (map (fun x => if w_dl x then mk_who (w_id x) true (app_msg ty data) else x) l, None)
  | OBlock b =>
    match turn b with
    | None => (l, None)
    | Some m =>
      match due_of l m with
      | None => (l, None)
      | Some x => (map (fun y => if w_id y =? m then mk_who m (w_dl y) None else y) l, Some (m, x))
      end
    end
  end.
Fixpoint gives (ops : list aop) (l : list who) : list who * list (option (Z * list bool)) :=
  match ops with
  | [] => (l, [])
  | o :: r => let '(l1, x) := give o l in let '(l2, xs) := gives r l1 in (l2, x :: xs)
  end.

(** What the code relies on: no empty request; a request comes only when every mobile that is still due an
    earlier message has a downlink TBF; a mobile does not go away while it is due one; less than 2^32
    mobiles. *)
Definition smooth (l : list who) (o : aop) : Prop :=
  match o with
  | ORequest ty data => data <> [] /\ (forall x, In x l -> w_due x <> None -> w_dl x = true) /\
                        Z.of_nat (length l) < 4294967296
  | OFree m => due_of l m = None
  | _ => True
  end.
Fixpoint smooth_run (ops : list aop) (l : list who) : Prop :=
  match ops with
  | [] => True
  | o :: r => smooth l o /\ smooth_run r (fst (give o l))
  end.

Definition waiting (s : acell) : Z := Z.of_nat (length (filter i_flag (c_ms s))).

(** TS 44.060 10.4.7: the first two bits of a downlink block, 00 is a data block, 01 and 10 control
    blocks; 23 octets in CS-1, which control blocks are sent in. *)
Definition control_block (b : list bool) : Prop :=
  (firstn 2 b = [false; true] \/ firstn 2 b = [true; false]) /\ length b = 184%nat.

(** The content of TS 44.060 11.2.47 as a mobile reads it: page mode (2 bits), application type (4 bits), as many
    octets as there are. *)
Definition read_app (b : list bool) : option (Z * Z * list Z) :=
  match uint 2 0 b with
  | Some (page, b1) =>
    match uint 4 0 b1 with
    | Some (ty, b2) =>
      match octs (Nat.div (length b2) 8) b2 with Some (o, _) => Some (page, ty, o) | None => None end
    | None => None
    end
  | None => None
  end.
