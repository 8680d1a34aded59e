(** What should be sent over GSMTAP. *)
From Coq Require Import ZArith Ascii String List Bool.
From Verif Require Import Model.Gsmtap.
Import ListNotations.
Local Open Scope Z_scope.

(** The category of the manual that traffic belongs to. *)
Definition name_of (a : air) : string :=
  match a with
  | DlCtrl _ _ _ _ => "dl-ctrl" | DlData false _ _ _ _ => "dl-data-gprs" | DlData true _ _ _ _ => "dl-data-egprs"
  | DlDummy _ _ _ _ => "dl-dummy" | DlPtcch _ _ _ _ => "dl-ptcch" | DlAgch _ => "dl-agch" | DlPch _ => "dl-pch"
  | UlCtrl false _ _ _ _ => "ul-ctrl" | UlCtrl true _ _ _ _ => "ul-dummy"
  | UlData false _ _ _ _ => "ul-data-gprs" | UlData true _ _ _ _ => "ul-data-egprs"
  | UlRach _ _ _ _ _ => "ul-rach" | UlPtcch _ _ _ _ _ => "ul-ptcch" | UlUnknown _ _ _ _ _ => "ul-unknown"
  end%string.
(** A category is switched on: some command did, and none after it switched it off. *)
Definition switched_on (l : list gcmd) (n : string) : Prop :=
  exists before c after, l = before ++ c :: after /\ (c = GAll \/ c = GOn n) /\ ~ In GNone after /\ ~ In (GOff n) after.

(** Where traffic was: ARFCN, timeslot and frame number; unknown here for the CCCH, which the BTS
    schedules. *)
Definition place_of (arf : list Z) (a : air) : option (Z * Z * Z) :=
  match a with
  | DlCtrl trx ts fn _ | DlData _ trx ts fn _ | DlDummy trx ts fn _ | DlPtcch trx ts fn _ | UlCtrl _ trx ts fn _
  | UlData _ trx ts fn _ | UlRach _ _ trx ts fn | UlPtcch _ _ trx ts fn => Some (nth (Z.to_nat trx) arf 0, ts, fn)
  | UlUnknown n ts fn _ _ => Some (n, ts, fn)
  | DlAgch _ | DlPch _ => None
  end.
Definition is_uplink (a : air) : bool :=
  match a with
  | UlCtrl _ _ _ _ _ | UlData _ _ _ _ _ | UlRach _ _ _ _ _ | UlPtcch _ _ _ _ _ | UlUnknown _ _ _ _ _ => true
  | _ => false
  end.
(** The logical channel. *)
Definition chan_of (a : air) : chan :=
  match a with
  | DlCtrl _ _ _ _ | DlDummy _ _ _ _ | UlCtrl _ _ _ _ _ => ChPacch
  | DlData _ _ _ _ _ | UlData _ _ _ _ _ => ChPdtch
  | DlPtcch _ _ _ _ | UlPtcch _ _ _ _ _ => ChPtcch
  | DlAgch _ => ChAgch | DlPch _ => ChPch | UlRach _ _ _ _ _ => ChRach | UlUnknown _ _ _ ch _ => ch
  end.
(** The TRX is one of the eight; an idle PTCCH block is no traffic; ARFCNs have ten bits. *)
Definition arfcn_ok (n : Z) : Prop := 0 <= n < 1024.
Definition air_ok (a : air) : Prop :=
  match a with
  | DlCtrl trx _ _ _ | DlData _ trx _ _ _ | DlDummy trx _ _ _ | UlCtrl _ trx _ _ _ | UlData _ trx _ _ _ => 0 <= trx < 8
  | DlPtcch trx _ _ d => 0 <= trx < 8 /\ d <> []
  | UlRach e ra trx _ _ | UlPtcch e ra trx _ _ => 0 <= trx < 8 /\ 0 <= ra < (if e then 2048 else 256)
  | UlUnknown n _ _ _ _ => arfcn_ok n
  | DlAgch _ | DlPch _ => True
  end.
(** A receiver of GSMTAP reads an ARFCN field as ten bits and the direction (bit 14). *)
Definition read_arfcn (x : Z) : Z * bool := (x mod 1024, Z.odd (x / 16384)).
(** The contents: the block as it is; of an access burst, the request, high-order bits first: eight
    bits, or eleven bits and five of padding. *)
Definition contents (a : air) (l : list Z) : Prop :=
  match a with
  | DlCtrl _ _ _ d | DlData _ _ _ _ d | DlDummy _ _ _ d | DlPtcch _ _ _ d | DlAgch d | DlPch d | UlCtrl _ _ _ _ d
  | UlData _ _ _ _ d | UlUnknown _ _ _ _ d => l = d
  | UlRach true ra _ _ _ | UlPtcch true ra _ _ _ => exists x y, l = [x; y] /\ 0 <= x < 256 /\ 0 <= y < 256 /\ x * 256 + y = ra * 32
  | UlRach false ra _ _ _ | UlPtcch false ra _ _ _ => l = [ra]
  end.
