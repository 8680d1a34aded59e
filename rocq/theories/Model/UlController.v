(** The uplink controller of a PDCH: /repo/src/pdch_ul_controller.c, sba.c. *)
From Coq Require Import ZArith List Bool.
From Verif Require Import Model.FrameNo.
Import ListNotations.
Local Open Scope Z_scope.

(** enum pdch_ulc_tbf_poll_reason, pdch_ul_controller.h:50-56. *)
Inductive poll_reason : Set := PollUlAss | PollDlAss | PollUlAck | PollDlAck | PollCellChg.

(** The type and union of struct pdch_ulc_node, pdch_ul_controller.h:59-76. TBFs and
    single block allocations are identified by a number in place of the pointer. *)
Inductive owner : Set :=
| OUsf (tbf : Z)
| OPoll (tbf : Z) (r : poll_reason)
| OSba (sba : Z).
Record item := mk_item { i_fn : Z; i_own : owner }.

(** struct pdch_ulc, pdch_ul_controller.h:37-41: the search tree. *)
Inductive tree : Set := Leaf | Node (l : tree) (x : item) (r : tree).
Fixpoint inorder (t : tree) : list item :=
  match t with Leaf => [] | Node l x r => inorder l ++ x :: inorder r end.

(** pdch_ulc_get_node, pdch_ul_controller.c:60-78. *)
Fixpoint get_node (t : tree) (fn : Z) : option item :=
  match t with
  | Leaf => None
  | Node l it r =>
    let res := fncmp (i_fn it) fn in
    if 0 <? res then get_node l fn
    else if res <? 0 then get_node r fn
    else Some it
  end.

(** pdch_ulc_get_sba, pdch_ulc_get_tbf_poll, pdch_ulc_fn_is_free,
    pdch_ul_controller.c:88-107. *)
Definition get_sba (t : tree) (fn : Z) : option Z :=
  match get_node t fn with Some (mk_item _ (OSba s)) => Some s | _ => None end.
Definition get_tbf_poll (t : tree) (fn : Z) : option Z :=
  match get_node t fn with Some (mk_item _ (OPoll b _)) => Some b | _ => None end.
Definition fn_is_free (t : tree) (fn : Z) : bool :=
  match get_node t fn with None => true | Some _ => false end.

(** rrbp_list, pdch_ul_controller.c:117-124, with enum rrbp_field,
    pdch_ul_controller.h:30-35. *)
Definition rrbp_list : list (Z * Z) := [(13, 0); (17, 1); (18, 1); (21, 2); (22, 2); (26, 3)].

(** pdch_ulc_get_next_free_rrbp_fn, pdch_ul_controller.c:114-146: (poll_fn, rrbp), or
    [None] for -EBUSY. *)
Fixpoint rrbp_search (t : tree) (fn : Z) (l : list (Z * Z)) : option (Z * Z) :=
  match l with
  | [] => None
  | (off, coding) :: r =>
    let p := next_fn fn off in
    if negb (fn_valid p) then rrbp_search t fn r
    else if fn_is_free t p then Some (p, coding)
    else rrbp_search t fn r
  end.
Definition get_next_free_rrbp_fn (t : tree) (fn : Z) : option (Z * Z) := rrbp_search t fn rrbp_list.

(** pdch_ulc_get_next_free_fn, pdch_ul_controller.c:149-169: the walk in key order. *)
Fixpoint next_free_walk (l : list item) (check : Z) : Z :=
  match l with
  | [] => check
  | it :: r =>
    let res := fncmp (i_fn it) check in
    if 0 <? res then check
    else next_free_walk r (if res =? 0 then fn_next_block check else check)
  end.
Definition get_next_free_fn (t : tree) (start : Z) : Z := next_free_walk (inorder t) start.

(** The descent in pdch_ulc_add_node, pdch_ul_controller.c:179-210: [None] is -EEXIST. *)
Fixpoint tree_insert (t : tree) (x : item) : option tree :=
  match t with
  | Leaf => Some (Node Leaf x Leaf)
  | Node l it r =>
    let res := fncmp (i_fn x) (i_fn it) in
    if res <? 0 then
      match tree_insert l x with Some l' => Some (Node l' it r) | None => None end
    else if 0 <? res then
      match tree_insert r x with Some r' => Some (Node l it r') | None => None end
    else None
  end.

(** Some tree with a given sequence of entries. *)
Fixpoint comb (l : list item) : tree :=
  match l with [] => Leaf | x :: r => Node Leaf x (comb r) end.
(** Removing the entry of frame [fn] from a sequence without duplicates. *)
Definition without (fn : Z) (l : list item) : list item := filter (fun it => negb (i_fn it =? fn)) l.

(** rb_insert_color and rb_erase are library functions that keep the order of the
    entries; [bal] stands for whatever shape they produce. Throughout, it is only assumed
    that [bal] does not change the sequence of entries. *)
Definition keeps_order (bal : tree -> tree) : Prop := forall t, inorder (bal t) = inorder t.

(** pdch_ulc_add_node and the three reserve functions,
    pdch_ul_controller.c:171-235: the new tree and whether it succeeded. *)
Definition reserve (bal : tree -> tree) (t : tree) (fn : Z) (o : owner) : tree * bool :=
  match tree_insert t (mk_item fn o) with
  | Some t' => (bal t', true)
  | None => (t, false)
  end.

(** pdch_ulc_release_node, pdch_ul_controller.c:237-241 (and the rb_erase of
    pdch_ulc_pop_node, 79-86). *)
Definition release_node (bal : tree -> tree) (t : tree) (it : item) : tree :=
  bal (comb (without (i_fn it) (inorder t))).

(** pdch_ulc_release_fn, pdch_ul_controller.c:243-250. *)
Definition release_fn (bal : tree -> tree) (t : tree) (fn : Z) : tree * bool :=
  match get_node t fn with
  | None => (t, false)
  | Some it => (release_node bal t it, true)
  end.

(** pdch_ulc_release_tbf, pdch_ul_controller.c:252-285: remove the first matching entry
    and start again. [None]: the loop did not end within [fuel] rounds. *)
Definition owned_by (tbf : Z) (o : owner) : bool :=
  match o with OUsf b => b =? tbf | OPoll b _ => b =? tbf | OSba _ => false end.
Fixpoint release_tbf_loop (fuel : nat) (bal : tree -> tree) (t : tree) (tbf : Z) : option tree :=
  match find (fun it => owned_by tbf (i_own it)) (inorder t) with
  | None => Some t
  | Some it =>
    match fuel with
    | O => None
    | S f => release_tbf_loop f bal (release_node bal t it) tbf
    end
  end.
Definition release_tbf (bal : tree -> tree) (t : tree) (tbf : Z) : option tree :=
  release_tbf_loop (length (inorder t)) bal t tbf.

Fixpoint release_tbfs (bal : tree -> tree) (t : tree) (l : list Z) : option tree :=
  match l with
  | [] => Some t
  | b :: r => match release_tbf bal t b with Some t' => release_tbfs bal t' r | None => None end
  end.

(** pdch_ulc_expire_fn, pdch_ul_controller.c:287-333. The timeout handlers are outside;
    what they may do to this table is to free TBFs, which releases their entries:
    [frees it] lists the TBFs freed when [it] times out. The result is the new tree and
    the entries reported, in order. *)
Fixpoint expire_loop (fuel : nat) (bal : tree -> tree) (frees : item -> list Z) (t : tree) (fn : Z)
  : option (tree * list item) :=
  match inorder t with
  | [] => Some (t, [])
  | it :: _ =>
    if 0 <? fncmp (i_fn it) fn then Some (t, [])
    else
      match fuel with
      | O => None
      | S f =>
        match release_tbfs bal (release_node bal t it) (frees it) with
        | None => None
        | Some t1 =>
          match expire_loop f bal frees t1 fn with
          | None => None
          | Some (t2, rep) => Some (t2, it :: rep)
          end
        end
      end
  end.
Definition expire_fn (bal : tree -> tree) (frees : item -> list Z) (t : tree) (fn : Z) :=
  expire_loop (length (inorder t)) bal frees t fn.

(** AGCH_START_OFFSET, sba.c:50. *)
Definition AGCH_START_OFFSET : Z := 52.
(** sba_alloc, sba.c:53-73: the frame number chosen, and the tree. The result of the
    reservation is not looked at by the code. *)
Definition sba_alloc (bal : tree -> tree) (t : tree) (last_rts sba : Z) : tree * Z * bool :=
  let start := next_fn last_rts AGCH_START_OFFSET in
  let fn := get_next_free_fn t start in
  let '(t', ok) := reserve bal t fn (OSba sba) in (t', fn, ok).

(** Operations on the controller and their visible results. *)
Inductive ulop : Set :=
| UReserve (fn : Z) (o : owner)
| UReleaseFn (fn : Z)
| UReleaseTbf (tbf : Z)
| UExpire (fn : Z).
Inductive ulres : Set := RBool (b : bool) | RDone | RReport (l : list item).

Definition ul_step (bal : tree -> tree) (frees : item -> list Z) (t : tree) (op : ulop)
  : option (tree * ulres) :=
  match op with
  | UReserve fn o => let '(t', b) := reserve bal t fn o in Some (t', RBool b)
  | UReleaseFn fn => let '(t', b) := release_fn bal t fn in Some (t', RBool b)
  | UReleaseTbf b =>
    match release_tbf bal t b with Some t' => Some (t', RDone) | None => None end
  | UExpire fn =>
    match expire_fn bal frees t fn with Some (t', l) => Some (t', RReport l) | None => None end
  end.
Fixpoint ul_run (bal : tree -> tree) (frees : item -> list Z) (t : tree) (ops : list ulop)
  : option (tree * list ulres) :=
  match ops with
  | [] => Some (t, [])
  | op :: r =>
    match ul_step bal frees t op with
    | None => None
    | Some (t1, x) =>
      match ul_run bal frees t1 r with
      | None => None
      | Some (t2, xs) => Some (t2, x :: xs)
      end
    end
  end.
