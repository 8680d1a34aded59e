(** Timing advance: /repo/src/pcu_l1_if.h, bts.cpp, gprs_ms.c, and the PTCCH table of a PDCH,
    pdch.cpp. *)
From Coq Require Import ZArith List Bool.
From Verif Require Import Base.Arith Model.UlController.
Import ListNotations.
Local Open Scope Z_scope.

(** qta2ta, pcu_l1_if.h:35-42. *)
Definition qta2ta (qta : Z) : Z :=
  if qta <? 0 then 0 else (if 252 <? qta then 252 else qta) / 4.
(** sign_qta2ta, pcu_l1_if.h:44-61: >> of a negative number rounds down. The result fits
    int8_t. *)
Definition sign_qta2ta (qta : Z) : Z :=
  let q := if qta <? -252 then -252 else qta in
  let q := if 252 <? q then 252 else q in
  let adj := if q <? -2 then -1 else if 2 <? q then 1 else 0 in
  q / 4 + adj.
(** ta_limit, pcu_l1_if.h:63-70. *)
Definition ta_limit (ta : Z) : Z := let ta := if ta <? 0 then 0 else ta in if 63 <? ta then 63 else ta.

(** GSM48_TA_INVALID and gsm48_ta_is_valid of libosmocore's gsm_04_08.h. *)
Definition TA_INVALID : Z := 220.
Definition ta_is_valid (ta : Z) : bool := ta <? 64.

(** ms_set_ta, gprs_ms.c:603-617, on the timing advance of a mobile. *)
Definition ms_set_ta (old ta : Z) : Z :=
  if ta =? old then old else if ta_is_valid ta then ta else old.
(** update_tbf_ta, bts.cpp:1249-1266; set_tbf_ta, bts.cpp:1268-1281; int8_t and uint8_t
    arguments. *)
Definition update_tbf_ta (old delta : Z) : Z :=
  if delta =? 0 then old else ms_set_ta old (ta_limit (old + delta)).
Definition set_tbf_ta (old ta : Z) : Z :=
  if old =? ta then old else ms_set_ta old (ta_limit ta).

(** The TBFs as bts_update_tbf_ta sees them: direction (true for uplink) and mobile. *)
Definition tbfs := Z -> option (bool * Z).
(** bts_update_tbf_ta, bts.cpp:1283-1312; [t] is the controller of the timeslot. The timing
    advances of all mobiles before and after. *)
Definition bts_update_tbf_ta (enabled : bool) (t : tree) (tb : tbfs) (fn ta : Z) (is_rach : bool) (tas : Z -> Z) : Z -> Z :=
  if negb enabled then tas
  else match get_node t fn with
       | Some (mk_item _ (OPoll b _)) =>
         match tb b with
         | Some (true, ms) =>
           upd tas ms (if is_rach then set_tbf_ta (tas ms) (ta mod 256) else update_tbf_ta (tas ms) ta)
         | _ => tas
         end
       | _ => tas
       end.

(** Where timing advances come from: ms_alloc (gprs_ms.c:140); an access burst that gets a
    TBF (bts.cpp:947, 1018); a single block allocation, with the burst it was made for
    (bts.cpp:992, pdch.cpp:720, 861); and the two indications of a PHY accessed directly
    (osmo-bts-sysmo/sysmo_l1_if.c:202, 256 and two more). *)
Inductive taop :=
| TaNew (ms : Z)
| TaRach (ms qta : Z)
| TaSba (ms qta : Z)
| TaData (enabled : bool) (t : tree) (tb : tbfs) (fn bto : Z)
| TaRa (enabled : bool) (t : tree) (tb : tbfs) (fn qta : Z).
Definition ta_step (o : taop) (tas : Z -> Z) : Z -> Z :=
  match o with
  | TaNew ms => upd tas ms TA_INVALID
  | TaRach ms qta | TaSba ms qta => upd tas ms (ms_set_ta (tas ms) (qta2ta qta))
  | TaData en t tb fn bto => bts_update_tbf_ta en t tb fn (sign_qta2ta bto) false tas
  | TaRa en t tb fn qta => bts_update_tbf_ta en t tb fn (qta2ta qta) true tas
  end.
Definition ta_run (os : list taop) : Z -> Z := fold_left (fun s o => ta_step o s) os (fun _ => TA_INVALID).

(** * PTCCH *)
(** PTCCH_TAI_FREE and PTCCH_TAI_NUM, pdch.h:36-37; the first 16 octets of ptcch_msg as
    pdch_init leaves them, pdch.cpp:165-166. *)
Definition TAI_FREE : Z := 0x7f.
Definition TAI_NUM : nat := 16.
Definition ptcch0 : list Z := repeat TAI_FREE TAI_NUM.
Fixpoint set_nth (l : list Z) (i : nat) (v : Z) : list Z :=
  match l, i with
  | [], _ => []
  | _ :: r, O => v :: r
  | x :: r, S k => x :: set_nth r k v
  end.
(** reserve_tai, pdch.cpp:1251-1264: the loop; the index returned, TAI_FREE for none. *)
Fixpoint first_free (l : list Z) (i : nat) : option nat :=
  match l with
  | [] => None
  | x :: r => if x =? TAI_FREE then Some i else first_free r (S i)
  end.
Definition reserve_tai (ta : Z) (l : list Z) : Z * list Z :=
  match first_free l 0 with
  | Some i => (Z.of_nat i, set_nth l i ta)
  | None => (TAI_FREE, l)
  end.
(** release_tai and update_ta, pdch.cpp:1266-1276; None: the assertion fails. *)
Definition update_ta (tai ta : Z) (l : list Z) : option (list Z) :=
  if (0 <=? tai) && (tai <? 16) then Some (set_nth l (Z.to_nat tai) ta) else None.
Definition release_tai (tai : Z) (l : list Z) : option (list Z) := update_ta tai TAI_FREE l.

(** ptcch_slot_map, bts.cpp:1058-1063. *)
Definition ptcch_slot_map : list Z :=
  [12; 38; 64; 90; 116; 142; 168; 194; 220; 246; 272; 298; 324; 350; 376; 402].
Fixpoint subslot (l : list Z) (fn416 : Z) (ss : Z) : option Z :=
  match l with
  | [] => None
  | x :: r => if x =? fn416 then Some ss else subslot r fn416 (ss + 1)
  end.
(** bts_rcv_ptcch_rach, bts.cpp:1065-1104, for a timeslot number in range: the table, None
    for a failed assertion. *)
Definition rcv_ptcch_rach (enabled : bool) (rfn qta : Z) (l : list Z) : option (list Z) :=
  if negb enabled then Some l
  else match subslot ptcch_slot_map (rfn mod 416) 0 with
       | None => Some l
       | Some ss => update_ta ss (qta2ta qta) l
       end.

Inductive taiop := Reserve (ta : Z) | Release (tai : Z) | Burst (enabled : bool) (rfn qta : Z).
(** The table and what was answered. *)
Definition tai_step (o : taiop) (l : list Z) : option (list Z * option Z) :=
  match o with
  | Reserve ta => let '(r, l') := reserve_tai ta l in Some (l', Some r)
  | Release tai => match release_tai tai l with Some l' => Some (l', None) | None => None end
  | Burst en rfn qta => match rcv_ptcch_rach en rfn qta l with Some l' => Some (l', None) | None => None end
  end.
