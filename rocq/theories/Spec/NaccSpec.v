(** What a mobile reads from the messages of a network assisted cell change. *)
From Coq Require Import ZArith List Bool.
From Verif Require Import Model.NeighCache Model.Nacc Spec.PagingSpec.
Import ListNotations.
Open Scope Z_scope.

(** 3GPP TS 44.060, 10.4, 11.2: header of a control block without optional octets, the message type,
    the page mode, then "0" and the Global TFI.  Result: RRBP if the block polls, message type,
    downlink TFI?, TFI, the rest. *)
Definition r_head (l : list bool) : option (option Z * Z * bool * Z * list bool) :=
  match uint 2 0 l with Some (1, l) =>
  match uint 2 0 l with Some (rrbp, l) =>
  match uint 1 0 l with Some (sp, l) =>
  match uint 3 0 l with Some (_, l) =>
  match uint 6 0 l with Some (mt, l) =>
  match uint 2 0 l with Some (_, l) =>
  match uint 1 0 l with Some (0, l) =>
  match uint 1 0 l with Some (dl, l) =>
  match uint 5 0 l with Some (tfi, l) =>
    Some (if sp =? 1 then Some rrbp else None, mt, dl =? 1, tfi, l)
  | None => None end | None => None end | _ => None end | None => None end | None => None end
  | None => None end | None => None end | None => None end | _ => None end.

(** 3GPP TS 44.060, 11.2.9e, Packet Neighbour Cell Data: the index of the container, the cell it is for
    (in the first one), the kind of the data, its length field and all the octets it has room for. *)
Record container := Co { co_idx : Z; co_cell : option (Z * Z); co_kind : Z; co_len : Z; co_room : list Z }.
Definition r_container (l : list bool) : option container :=
  match r_head l with Some (None, 0x0c, _, _, l) =>
  match uint 2 0 l with Some (_, l) =>
  match uint 1 0 l with Some (_, l) =>
  match uint 5 0 l with Some (idx, l) =>
  match uint 1 0 l with
  | Some (1, l) =>
      match uint 10 0 l with Some (a, l) =>
      match uint 6 0 l with Some (b, l) =>
      match uint 3 0 l with Some (k, l) =>
      match uint 5 0 l with Some (n, l) =>
      match octs 16 l with Some (d, []) => Some (Co idx (Some (a, b)) k n d) | _ => None end
      | None => None end | None => None end | None => None end | None => None end
  | Some (_, l) =>
      match uint 3 0 l with Some (k, l) =>
      match uint 5 0 l with Some (n, l) =>
      match octs 18 l with Some (d, []) => Some (Co idx None k n d) | _ => None end
      | None => None end | None => None end
  | None => None end
  | None => None end | None => None end | None => None end | _ => None end.

(** A length field of 31 says that the container is full and another one follows. *)
Definition full (c : container) : bool := co_len c =? 31.

(** The mobile collects the containers 0, 1, 2, ... of one kind until one is not full. *)
Fixpoint collect (i kind : Z) (l : list container) : option (list Z) :=
  match l with
  | [] => None
  | c :: l =>
      if negb ((co_idx c =? i) && (co_kind c =? kind)) then None
      else if full c then option_map (app (co_room c)) (collect (i + 1) kind l)
      else match l with [] => Some (firstn (Z.to_nat (co_len c)) (co_room c)) | _ => None end
  end.
(** The cell, the kind of system information and its octets. *)
Definition reassemble (l : list container) : option (Z * Z * Z * list Z) :=
  match l with
  | c :: _ => match co_cell c with
              | Some (a, b) => option_map (fun d => (a, b, co_kind c, d)) (collect 0 (co_kind c) l)
              | None => None
              end
  | [] => None
  end.
Fixpoint all_some {A} (l : list (option A)) : option (list A) :=
  match l with
  | [] => Some []
  | Some x :: l => option_map (cons x) (all_some l)
  | None :: _ => None
  end.
Definition mobile_collects (l : list (list bool)) : option (Z * Z * Z * list Z) :=
  match all_some (map r_container l) with Some c => reassemble c | None => None end.

(** 3GPP TS 44.060, 11.2.2a, Packet Cell Change Continue: the poll, the TBF, and the cell if given. *)
Definition r_continue (l : list bool) : option (option Z * bool * Z * option (Z * Z)) :=
  match r_head l with Some (p, 0x0b, dl, tfi, l) =>
  match uint 1 0 l with
  | Some (1, l) =>
      match uint 10 0 l with Some (a, l) =>
      match uint 6 0 l with Some (b, l) => Some (p, dl, tfi, Some (a, b))
      | None => None end | None => None end
  | Some (_, _) => Some (p, dl, tfi, None)
  | None => None end
  | _ => None end.

(** A request of the scheduler that can be served. *)
Definition good_create (c : create) : Prop :=
  cr_assigned c = true /\ cr_enc c = true /\ 0 <= cr_tfi c < 32 /\ exists fn rrbp, cr_poll c = Some (fn, rrbp) /\ 0 <= rrbp < 4.
Definition good_key (k : nkey) : Prop := 0 <= k_arfcn k < 1024 /\ 0 <= k_bsic k < 64.

(** How many containers system information of [len] octets takes: 16 octets in the first one, 18 in
    every other, and one that is not full at the end. *)
Definition containers (len : Z) : Z := if len <? 16 then 1 else (len - 16) / 18 + 2.

Definition is_continue (m : msg) : bool := match m with Continue _ => true | Data _ => false end.

(** Announcements, answers and cached values as the fields of the messages can hold them. *)
Definition good_si (l : list Z) : Prop := Forall (fun x => 0 <= x < 256) l /\ Z.of_nat (length l) < 2 ^ 64.
Definition good_target (t : target) : Prop :=
  match t with
  | Gsm a s | Lte (Some (a, s)) _ _ => 0 <= a < 1024 /\ 0 <= s < 64
  | _ => True
  end.
Definition good_world (w : world) : Prop :=
  good_si (local_si (w_bts w)) /\ (forall g psi l, w_si w g = Some (psi, l) -> good_si l) /\ w_t_neigh w = true /\ w_t_si w = true.
Definition good_event (e : mev) : Prop :=
  match e with MNotif t => good_target t | MRan _ _ l => good_si l | MRts c => cr_assigned c = true -> 0 <= cr_tfi c < 32 | _ => True end.
Definition good_history (h : list (world * mev)) : Prop := Forall (fun p => good_world (fst p) /\ good_event (snd p)) h.

(** Events that are no business of a machine that has something to send to the mobile: the
    announcement repeated, late answers and acknowledgements, timers, requests for a TBF that is not
    assigned. *)
Definition quiet (k : nkey) (p : world * mev) : Prop :=
  match snd p with
  | MNotif t => fill_key (w_bts (fst p)) t = Some (Some k)
  | MRts c => cr_assigned c = false
  | _ => True
  end.
Definition serves (p : world * mev) : Prop := match snd p with MRts c => good_create c | _ => False end.
Definition is_rts (p : world * mev) : bool := match snd p with MRts c => cr_assigned c | _ => false end.
Definition requests (h : list (world * mev)) : Z := Z.of_nat (length (filter is_rts h)).

(** The GSM cell announced last. *)
Fixpoint announced (k : option nkey) (h : list (world * mev)) : option nkey :=
  match h with
  | [] => k
  | (w, MNotif (Gsm a s)) :: h => announced (Some (Nkey (g_lac (b_cgi (w_bts w))) (g_ci (b_cgi (w_bts w))) a s)) h
  | _ :: h => announced k h
  end.
Definition gsm_only (h : list (world * mev)) : Prop :=
  Forall (fun p => match snd p with MNotif (Gsm _ _) => True | MNotif _ => False | _ => True end) h.

(** The network as it is: who is behind the address of a neighbour, and the system information of each
    cell.  Caches, answers and the cells of this PCU agree with it. *)
Record truth := Truth { tr_addr : nkey -> cgi; tr_si : cgi -> bool * list Z }.
Definition consistent (T : truth) (h : list (world * mev)) : Prop :=
  Forall (fun p =>
    (forall k g, w_neigh (fst p) k = Some g -> g = tr_addr T k) /\
    (forall g x, w_si (fst p) g = Some x -> x = tr_si T g) /\
    (forall b, In b (w_cells (fst p)) -> tr_si T (b_cgi b) = (false, local_si b)) /\
    In (w_bts (fst p)) (w_cells (fst p)) /\
    match snd p with
    | MAddr k (Some g) => g = tr_addr T k
    | MRan g psi l => tr_si T g = (psi, l)
    | _ => True
    end) h.
(** No other cell of this PCU is the target. *)
Definition foreign (T : truth) (h : list (world * mev)) : Prop :=
  Forall (fun p => forall k b, In b (w_cells (fst p)) -> b_nr b <> b_nr (w_bts (fst p)) -> tr_addr T k <> b_cgi b) h.
