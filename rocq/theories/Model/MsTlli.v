(** The TLLIs of a mobile's context and the store of contexts.

    Models src/gprs_ms.c:399-600, src/gprs_ms.h:188-202, bts_get_ms of
    src/bts.cpp:1211-1245, and their callers: dl_tbf_handle
    (src/tbf_dl.cpp:187-235), gprs_bssgp_pcu_rx_dl_ud (src/gprs_bssgp_pcu.c:167-181),
    src/pdch.cpp:359, 649-657 and 841-848.

    Not modelled here: what a context contains beside its identities (queues,
    TBFs, classes).  [None] is a failed assertion. *)
From Coq Require Import ZArith List Bool.
Import ListNotations.
Open Scope Z_scope.

(** GSM_RESERVED_TMSI: no TLLI. *)
Definition RES : Z := 4294967295.

(** struct GprsMs: tlli, new_ul_tlli, new_dl_tlli. *)
Record tl := Tl { tlli : Z; new_ul : Z; new_dl : Z }.

(** ms_alloc, lines 135-137. *)
Definition tl_new : tl := Tl RES RES RES.

(** ms_apply_tlli_change, lines 492-503. *)
Definition tl_apply (x : Z) : tl := Tl x RES RES.

(** ms_set_tlli, lines 505-526: the mobile uses [x]. *)
Definition set_tlli (x : Z) (t : tl) : tl :=
  if (x =? tlli t) || (x =? new_ul t) then t
  else if negb (x =? new_dl t) then Tl (tlli t) x (new_dl t)
  else tl_apply x.

(** ms_confirm_tlli, lines 528-553: the SGSN uses [x]. *)
Definition confirm_tlli (x : Z) (t : tl) : tl :=
  if (x =? tlli t) || (x =? new_dl t) then t
  else if negb (x =? new_ul t) then Tl (tlli t) (new_ul t) x
  else tl_apply x.

(** ms_check_tlli, src/gprs_ms.h:198-202. *)
Definition check_tlli (t : tl) (x : Z) : bool :=
  negb (x =? RES) && ((x =? tlli t) || (x =? new_ul t) || (x =? new_dl t)).

(** Uses of TLLIs by either side. *)
Inductive use := Ul (x : Z) | Dl (x : Z).
Definition tl_use (t : tl) (u : use) : tl :=
  match u with Ul x => set_tlli x t | Dl x => confirm_tlli x t end.
Definition tl_uses (t : tl) (l : list use) : tl := fold_left tl_use l t.

(** ** The store *)

(** A context: its number (address), TLLIs and IMSI (0: empty). *)
Record ctx := Ctx { c_id : Z; c_tl : tl; c_imsi : Z }.

(** bts->ms_list; [st_next] makes new numbers. *)
Record store := Store { st_list : list ctx; st_next : Z }.

Definition with_tl (t : tl) (c : ctx) := Ctx (c_id c) t (c_imsi c).
Definition with_imsi (i : Z) (c : ctx) := Ctx (c_id c) (c_tl c) i.

Definition find_id (i : Z) (s : store) : option ctx := find (fun c => c_id c =? i) (st_list s).
Definition modify (i : Z) (f : ctx -> ctx) (s : store) : store :=
  Store (map (fun c => if c_id c =? i then f c else c) (st_list s)) (st_next s).

(** bts_get_ms, src/bts.cpp:1211-1237. *)
Definition get_by_imsi (i : Z) (s : store) : option ctx :=
  if i =? 0 then None else find (fun c => negb (c_imsi c =? 0) && (c_imsi c =? i)) (st_list s).
Definition get_ms (x old i : Z) (s : store) : option ctx :=
  match (if negb (x =? RES) || negb (old =? RES)
         then find (fun c => check_tlli (c_tl c) x || check_tlli (c_tl c) old) (st_list s)
         else None) with
  | Some c => Some c
  | None => get_by_imsi i s
  end.

(** ms_alloc, line 132: llist_add puts the new context in front. *)
Definition alloc (s : store) : store * Z :=
  (Store (Ctx (st_next s) tl_new 0 :: st_list s) (st_next s + 1), st_next s).

(** ms_merge_and_clear_ms with ms_reset, lines 396-427 and 453-489: [c] takes over
    the IMSI if it has none; [o] loses its identities. *)
Definition merge (c o : Z) (s : store) : option store :=
  if c =? o then None  (* OSMO_ASSERT(old_ms != ms) *)
  else
    let imsi := match find_id o s with Some x => c_imsi x | None => 0 end in
    let s := modify c (fun x => if (c_imsi x =? 0) && negb (imsi =? 0) then with_imsi imsi x else x) s in
    Some (modify o (fun x => Ctx (c_id x) tl_new 0) s).

(** ms_update_announced_tlli, lines 429-451. *)
Definition announce (i x : Z) (s : store) : option store :=
  if x =? RES then Some s
  else match find_id i s with
  | None => Some s
  | Some c =>
      let o := if check_tlli (c_tl c) x then None else get_ms x RES 0 s in
      let s := modify i (fun c => with_tl (set_tlli x (c_tl c)) c) s in
      match o with Some o => merge i (c_id o) s | None => Some s end
  end.

(** ms_set_imsi, lines 555-600 (without the test of its length). *)
Definition set_imsi (i imsi : Z) (s : store) : option store :=
  match find_id i s with
  | None => Some s
  | Some c =>
      if c_imsi c =? imsi then Some s
      else
        match (match get_by_imsi imsi s with Some o => merge i (c_id o) s | None => Some s end) with
        | None => None
        | Some s => Some (modify i (with_imsi imsi) s)
        end
  end.

(** dl_tbf_handle, src/tbf_dl.cpp:187-235: data from the SGSN.  [imsi] 0: none. *)
Definition dl_handle (x old imsi : Z) (s : store) : option (store * Z) :=
  let found :=
    match get_ms x old imsi s with
    | Some c =>
        if (c_imsi c =? 0) && negb (imsi =? 0) then
          match get_by_imsi imsi s with
          | Some o => if c_id o =? c_id c then Some (s, c_id c)
                      else option_map (fun s => (s, c_id c)) (merge (c_id c) (c_id o) s)
          | None => Some (s, c_id c)
          end
        else Some (s, c_id c)
    | None => Some (alloc s)
    end in
  match found with
  | None => None
  | Some (s, i) =>
      match (if imsi =? 0 then Some s else set_imsi i imsi s) with
      | None => None
      | Some s => Some (modify i (fun c => with_tl (confirm_tlli x (c_tl c)) c) s, i)
      end
  end.

(** A message from a mobile that names its TLLI itself: Packet Resource Request
    and Packet Measurement Report, src/pdch.cpp:649-657, 841-848. *)
Definition ul_named (x : Z) (s : store) : store :=
  match get_ms x RES 0 s with
  | Some _ => s
  | None => let '(s, i) := alloc s in modify i (fun c => with_tl (set_tlli x (c_tl c)) c) s
  end.

(** The old TLLI of a DL-UNITDATA message, src/gprs_bssgp_pcu.c:167-176: [ie] is the
    element's content.  The length tested is that of the lifetime element ([two]: it is
    2), and tlvp_val16be reads the first two of the four octets. *)
Definition old_tlli (two : bool) (ie : option Z) : Z :=
  match ie with
  | Some t => if two then t / 65536 else RES
  | None => RES
  end.

Inductive mop :=
| MAnnounce (i x : Z)        (* src/pdch.cpp:359, src/tbf_ul.cpp:364 *)
| MDown (x : Z) (two : bool) (ie : option Z) (imsi : Z)
| MNamed (x : Z)
| MAccess                    (* access burst: src/bts.cpp:1006 *)
| MFree (i : Z).             (* a context is freed: llist_del, line 186 *)

Definition m_step (s : store) (o : mop) : option store :=
  match o with
  | MAnnounce i x => announce i x s
  | MDown x two ie imsi => option_map fst (dl_handle x (old_tlli two ie) imsi s)
  | MNamed x => Some (ul_named x s)
  | MAccess => Some (fst (alloc s))
  | MFree i => Some (Store (filter (fun c => negb (c_id c =? i)) (st_list s)) (st_next s))
  end.

Fixpoint m_run (s : store) (ops : list mop) : option store :=
  match ops with
  | [] => Some s
  | o :: ops => match m_step s o with Some s => m_run s ops | None => None end
  end.

Definition m_empty : store := Store [] 0.
