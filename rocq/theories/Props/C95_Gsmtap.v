(** C95: GSMTAP shows the traffic of the categories switched on, and no other. *)
From Coq Require Import ZArith Ascii String List Bool.
From Verif Require Import Model.Gsmtap Spec.GsmtapSpec Proofs.GsmtapP.
Import ListNotations.
Local Open Scope Z_scope.

(** The full property: after any commands, traffic gives one packet if its category is switched on and
    none if not, and never an access outside memory; the packet has the contents of the traffic and
    is labelled with its channel, direction, ARFCN, timeslot and frame number. Missing in the theorem: the
    label of AGCH and PCH (for which [place_of] is None), and TRX numbers that the BTS has not (8 and
    more). *)
Theorem C95_tap_partial : forall l arf a, List.length arf = 8%nat -> Forall arfcn_ok arf -> air_ok a ->
  exists r, tap (g_masks l) arf a = Some r /\ (r <> None <-> switched_on l (name_of a)) /\
    forall p, r = Some p -> contents a (p_data p) /\ p_chan p = chan_of a /\
      forall n ts fn, place_of arf a = Some (n, ts, fn) -> read_arfcn (p_arfcn p) = (n, is_uplink a) /\ p_ts p = ts /\ p_fn p = fn.
Proof. exact tap_ok. Qed.
Print Assumptions C95_tap_partial.

(** With its category switched off, traffic sends nothing, and access bursts and blocks do not even touch the
    array of TRX, whatever their TRX number. *)
Theorem C95_off : forall l arf a, ~ switched_on l (name_of a) -> match a with DlPtcch trx _ _ _ => 0 <= trx < 8 /\ List.length arf = 8%nat | _ => True end ->
  tap (g_masks l) arf a = Some None.
Proof. exact off_ok. Qed.
Print Assumptions C95_off.

(** The label of the CCCH is false: a cell on ARFCN 871 appears on ARFCN 0. *)
Theorem C95_ccch_refuted : exists l n a, In a [DlAgch [1]; DlPch [1]] /\ arfcn_ok n /\
  exists p, tap (g_masks l) (repeat n 8) a = Some (Some p) /\ fst (read_arfcn (p_arfcn p)) <> n.
Proof. exact ccch_refuted. Qed.
Print Assumptions C95_ccch_refuted.

(** Memory is read outside the array of the TRX for every access burst with a TRX number of 8 or more,
    when access bursts are switched on. *)
Theorem C95_burst_refuted : forall arf e ra trx ts fn, List.length arf = 8%nat -> 8 <= trx ->
  tap (g_masks [GOn "ul-rach"%string]) arf (UlRach e ra trx ts fn) = None /\
  tap (g_masks [GOn "ul-ptcch"%string]) arf (UlPtcch e ra trx ts fn) = None.
Proof. exact burst_refuted. Qed.
Print Assumptions C95_burst_refuted.

(** Everything switched on, then the dummy blocks off: an 11-bit access burst on the second TRX, a data block, a
    dummy block. *)
Definition ex_on : list gcmd := [GOn "dl-dummy"%string; GAll; GOff "dl-dummy"%string].
Definition ex_arf : list Z := [871; 873; 0; 0; 0; 0; 0; 0].
Example C95_example :
  map (tap (g_masks ex_on) ex_arf) [UlRach true 0x7a5 1 0 1000; DlData true 0 6 52 [1; 2; 3]; DlDummy 0 6 56 [0]] =
    [Some (Some (mk_pkt (873 + 16384) 0 ChRach 1000 [0xf4; 0xa0])); Some (Some (mk_pkt 871 6 ChPdtch 52 [1; 2; 3])); Some None] /\
  air_ok (UlRach true 0x7a5 1 0 1000) /\ switched_on ex_on (name_of (UlRach true 0x7a5 1 0 1000)) /\
  read_arfcn (873 + 16384) = (873, true).
Proof.
  split; [vm_compute; reflexivity|]. split; [repeat split; discriminate|]. split; [|vm_compute; reflexivity].
  exists [GOn "dl-dummy"%string], GAll, [GOff "dl-dummy"%string]. split; [reflexivity|]. split; [now left|].
  split; intros [X|[]]; discriminate X.
Qed.
