(** A downlink transfer with the mobile at the other end: which blocks it has received, and the reports it sends
    (3GPP TS 44.060 9.1.8).  The reports take time, and any of them can be lost; blocks can be lost, too.

    Blocks are numbered without wrap-around as in DlWindowSpec.v. *)
From Coq Require Import ZArith List Bool.
From Verif Require Import Base.Arith Model.RlcWindow Model.RlcWindowDl Model.TbfDlWindow Spec.DlWindowSpec.
Import ListNotations.
Local Open Scope Z_scope.

(** Received by the mobile. *)
Definition have := Z -> bool.
Inductive answer :=
| Gprs (ssn : Z) (rbb : Z -> bool)                                        (* 11.2.6 with 12.3 *)
| Egprs (ssn : Z) (crbb : option (bool * list bool)) (urbb : list bool).  (* 11.2.6a, BOW = 1 *)

(** V(R): one more than the highest block received; V(Q): the lowest not received. *)
Definition is_vr (h : have) (r : Z) : Prop := 0 <= r /\ (forall i, h i = true -> i < r) /\ (r = 0 \/ h (r - 1) = true).
Definition is_vq (h : have) (q : Z) : Prop := 0 <= q /\ (forall i, 0 <= i < q -> h i = true) /\ h q = false.
(** What a mobile that has received [h] answers: GPRS, the 64 blocks before V(R); EGPRS, "beginning of window"
    and as many blocks after V(Q) as it likes, compressed or not. *)
Definition truthful (sns : Z) (h : have) (a : answer) : Prop :=
  match a with
  | Gprs ssn rbb => sns = 128 /\ exists r, is_vr h r /\ ssn = r mod 128 /\ forall b, 1 <= b <= 64 -> rbb (64 - b) = h (r - b)
  | Egprs ssn crbb urbb => exists q, is_vq h q /\ ssn = (q + 1) mod sns /\
      match bitmap_of crbb urbb with
      | None => True
      | Some l => forall k, (k < length l)%nat -> nth k l false = h (q + 1 + Z.of_nat k)
      end
  end.

(** The bits the PCU gets out of an answer. *)
Definition bits_of_answer (a : answer) (w : dl_window) : list bool :=
  match a with
  | Gprs ssn rbb => fst (decode_gprs_acknack false ssn rbb w)
  | Egprs ssn crbb urbb => fst (decode_egprs_acknack false true ssn crbb urbb w)
  end.

(** The PCU; what the mobile has; answers on their way, the oldest first, each with what the mobile had then; and
    what it had when it sent the answer the PCU got last. *)
Record loop := mk_loop { p_o : obs; p_have : have; p_air : list (have * answer); p_last : have }.
Definition nothing : have := fun _ => false.

Inductive dl_loop (sns ws : Z) : loop -> Prop :=
| L_start : dl_params sns ws -> dl_loop sns ws (mk_loop (obs_init sns ws) nothing [] nothing)
| L_send s e1 e2 s1 s2 o' : dl_loop sns ws s -> obs_step (DBlock e1 e2 s1 s2) (p_o s) = Some o' ->
    dl_loop sns ws (mk_loop o' (p_have s) (p_air s) (p_last s))
| L_window s n o' : dl_loop sns ws s -> ws_grows (DSetWs n) (o_w (p_o s)) -> obs_step (DSetWs n) (p_o s) = Some o' ->
    dl_loop sns ws (mk_loop o' (p_have s) (p_air s) (p_last s))
| L_receive s i : dl_loop sns ws s -> 0 <= i < o_S (p_o s) ->
    dl_loop sns ws (mk_loop (p_o s) (upd (p_have s) i true) (p_air s) (p_last s))
| L_answer s a : dl_loop sns ws s -> truthful sns (p_have s) a ->
    dl_loop sns ws (mk_loop (p_o s) (p_have s) (p_air s ++ [(p_have s, a)]) (p_last s))
| L_lost s x y z : dl_loop sns ws s -> p_air s = x ++ y :: z ->
    dl_loop sns ws (mk_loop (p_o s) (p_have s) (x ++ z) (p_last s))
| L_arrives s h a r o' : dl_loop sns ws s -> p_air s = (h, a) :: r ->
    obs_step (DReport false (bits_of_answer a (o_w (p_o s)))) (p_o s) = Some o' ->
    dl_loop sns ws (mk_loop o' (p_have s) r h).

(** The blocks an answer is about. *)
Definition covers (h : have) (a : answer) (i : Z) : Prop :=
  match a with
  | Gprs _ _ => exists r, is_vr h r /\ i < r
  | Egprs _ crbb urbb => exists q, is_vq h q /\
      match bitmap_of crbb urbb with None => i < q | Some l => i <= q + Z.of_nat (length l) end
  end.
