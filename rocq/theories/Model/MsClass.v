(** The multislot classes the PCU takes from the MS radio access capability. *)
From Coq Require Import ZArith List Bool.
Import ListNotations.
From Verif Require Import Model.Csn1 Model.Csn1Tables.
Open Scope Z_scope.

(** Where u.Content of MS_RA_capability_value[i] starts, for an MS_Radio_Access_capability_t at [c]: the count, then elements
    of 69 bytes, each with the index of the technology in front of the union (gsm_rlcmac.h:1110-1136, 1138-1217, 1257-1273). *)
Definition content_at (c : Z) (i : nat) : Z := c + 1 + 69 * Z.of_nat i + 1.

(** One turn of the loops: the class [cls] if Exist_Multislot_capability and [exist] are set
    (decoding.cpp:296-300, 312-316).  Offsets in Content_t: Exist_Multislot_capability 7, Multislot_capability 8. *)
Definition class_in (s : state) (c exist cls : Z) (i : nat) : option Z :=
  if get8 s (content_at c i + 7) =? 0 then None
  else if get8 s (content_at c i + 8 + exist) =? 0 then None
  else Some (get8 s (content_at c i + 8 + cls)).
Fixpoint first_class (s : state) (c exist cls : Z) (l : list nat) : Z :=
  match l with
  | [] => 0
  | i :: r => match class_in s c exist cls i with Some x => x | None => first_class s c exist cls r end
  end.
(** cap->Count_MS_RA_capability_value elements. *)
Definition elements (s : state) (c : Z) : list nat := seq 0 (Z.to_nat (get8 s c)).
(** get_ms_class_by_capability, decoding.cpp:291-304: Exist_GPRS_multislot_class is at 2, the class at 3. *)
Definition get_ms_class_by_capability (s : state) (c : Z) : Z := first_class s c 2 3 (elements s c).
(** get_egprs_ms_class_by_capability, decoding.cpp:306-319: Exist_EGPRS_multislot_class is at 10, the class at 11. *)
Definition get_egprs_ms_class_by_capability (s : state) (c : Z) : Z := first_class s c 10 11 (elements s c).

(** parse_ra_cap, gprs_bssgp_pcu.c:71-95, for a message with the element: whatever decode_gsm_ra_cap returns, the
    structure it leaves is used. *)
Definition parse_ra_cap (msg : list Z) : state := match decode_racap msg with Go s | Stop _ s | Wild s => s end.
(** gprs_bssgp_pcu_rx_dl_ud, gprs_bssgp_pcu.c:144-150. *)
Definition classes (msg : list Z) : Z * Z :=
  (get_ms_class_by_capability (parse_ra_cap msg) 0, get_egprs_ms_class_by_capability (parse_ra_cap msg) 0).

(** rcv_resource_request, pdch.cpp:792-801: Exist_MS_Radio_Access_capability2 is at 16 of Packet_Resource_Request_t and
    the capability at 17.  A class of 0 is not taken over: the mobile keeps [old]. *)
Definition take_class (c old : Z) : Z := if c =? 0 then old else c.
Definition request_classes (s : state) (old : Z * Z) : Z * Z :=
  if u8 s 16 =? 0 then old
  else (take_class (get_ms_class_by_capability s 17) (fst old), take_class (get_egprs_ms_class_by_capability s 17) (snd old)).
