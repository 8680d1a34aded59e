(** C93: "show bts pdch" counts the transfers there are, and "show ms tlli" takes the TLLI written. *)
From Coq Require Import ZArith List Bool Lia.
From Verif Require Import Base.Arith Model.Mslot Model.Alloc Model.Cell Model.ShowPdch Spec.AllocSpec Spec.ShowPdchSpec.
From Verif Require Import Proofs.AllocEx Proofs.ShowPdchP.
Import ListNotations.
Local Open Scope Z_scope.

(** After any history: each TRX with an enabled timeslot is displayed once, and no other; each with its
    eight timeslots, whether they are enabled, and the numbers of TBFs that use them; and every TBF is
    counted on each of its timeslots, which are displayed as enabled. *)
Theorem C93_pdch : forall def ids os, NoDup ids -> (length ids < 256)%nat ->
  exists c, crun def ids os init_cell = Some c /\
    NoDup (map fst (show_pdch (c_bts c))) /\
    (forall n l, In (n, l) (show_pdch (c_bts c)) ->
       map pl_ts l = [0; 1; 2; 3; 4; 5; 6; 7] /\
       forall x, In x l -> pl_on x = pd_enabled (c_bts c n (pl_ts x)) /\
         pl_dl x = tbfs_on c n (pl_ts x) DL /\ pl_ul x = tbfs_on c n (pl_ts x) UL) /\
    (forall n, In n (map fst (show_pdch (c_bts c))) <-> 0 <= n < 8 /\ exists ts, 0 <= ts < 8 /\ pd_enabled (c_bts c n ts) = true) /\
    (forall t n ts, In t (c_tbfs c) -> uses t n ts -> exists l x, In (n, l) (show_pdch (c_bts c)) /\ In x l /\
       pl_ts x = ts /\ pl_on x = true /\ 1 <= match t_dir t with DL => pl_dl x | UL => pl_ul x end).
Proof. exact pdch_history. Qed.
Print Assumptions C93_pdch.
Example C93_ex_pdch : seen (cell_of (en [2; 3] ++ [Enable 5 7 0] ++ put_on UL 2 [1; 2; 3] ++ put_on DL 3 [4; 5] ++ [Free 2]))
  (fun c => map (fun x => (fst x, map (fun y => (pl_on y, pl_dl y, pl_ul y)) (snd x))) (show_pdch (c_bts c))) =
  Some [(0, [(false, 0, 0); (false, 0, 0); (true, 0, 2); (true, 2, 0); (false, 0, 0); (false, 0, 0); (false, 0, 0); (false, 0, 0)]);
        (5, [(false, 0, 0); (false, 0, 0); (false, 0, 0); (false, 0, 0); (false, 0, 0); (false, 0, 0); (false, 0, 0); (true, 0, 0)])].
Proof. vm_compute. reflexivity. Qed.

(** The argument of "show ms tlli" is taken if and only if it is a numeral to the base 16 of a number
    of at most 32 bits, and then as that number. *)
Theorem C93_tlli : forall s v, s <> [] -> (tlli_arg s = Some v <-> numeral_of s v /\ v <= 0xffffffff).
Proof. exact tlli_arg_iff. Qed.
Print Assumptions C93_tlli.
(** "c0ffee01", "0xC0ffee01", "100000000", "-1", "0x", "12g", and twenty digits f. *)
Example C93_ex_tlli : map tlli_arg
  [[99; 48; 102; 102; 101; 101; 48; 49]; [48; 120; 67; 48; 102; 102; 101; 101; 48; 49]; [49; 48; 48; 48; 48; 48; 48; 48; 48]; [45; 49];
   [48; 120]; [49; 50; 103]; repeat 102 20] = [Some 0xc0ffee01; Some 0xc0ffee01; None; None; None; None; None].
Proof. vm_compute. reflexivity. Qed.

(** The TLLI that "show ms" displays of a mobile, typed in, is that TLLI. *)
Theorem C93_shown : forall v, 0 <= v < 2 ^ 32 -> tlli_arg (tlli_text v) = Some v.
Proof. exact text_read. Qed.
Print Assumptions C93_shown.
Example C93_ex_shown : tlli_text 0xc0ffee = [48; 48; 99; 48; 102; 102; 101; 101] /\ tlli_arg (tlli_text 0xc0ffee) = Some 0xc0ffee.
Proof. split; vm_compute; reflexivity. Qed.
