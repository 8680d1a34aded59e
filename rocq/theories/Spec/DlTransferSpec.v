(** A downlink transfer from the SGSN to the mobile: LLC frames come in, RLC blocks go out over a radio link that loses
    any of them, and the mobile reports what it has got (any report can be lost, too) and puts the frames together
    again (3GPP TS 44.060 9.1, 9.3.2). *)
From Coq Require Import ZArith List Bool.
From Verif Require Import Base.Arith Model.CodingScheme Model.RlcWindow Model.RlcWindowDl Model.TbfDlWindow Model.Segment
  Model.DlTransfer Spec.SegSpec Spec.DlWindowSpec Spec.DlLoopSpec.
Import ListNotations.
Local Open Scope Z_scope.

(** The PCU; the frames it was given so far; the blocks of the last radio block; for each block (counted from 0, without
    wrap-around, by the mobile) whether the mobile has it and what is in it; the answers on their way, each with what
    the mobile had when it sent it; and whether the PCU has got the final answer. *)
Record xfer := mk_xfer {
  t_x : dtx; t_in : list (list Z); t_air : list (Z * sent_block);
  t_have : have; t_got : Z -> sent_block; t_rep : list (have * answer); t_over : bool }.
Definition xfer_new (sns ws : Z) : xfer :=
  mk_xfer (dtx_new sns ws) [] [] nothing (fun _ => mk_sb false false []) [] false.

Definition space (edge : bool) : Z := if edge then 2048 else 128.
(** The coding schemes of an EGPRS or a GPRS TBF. *)
Definition suits (edge : bool) (k : pick) : Prop := if edge then mcs_is_edge (k_cs k) = true else mcs_is_gprs (k_cs k) = true.
Definition suits2 (edge : bool) (k : option pick) : Prop := match k with Some p => suits edge p | None => True end.

(** One step. [mw] is the window of the mobile. *)
Inductive xstep (edge pre : bool) (mw : Z) (s : xfer) : xfer -> Prop :=
| X_frame f : f <> [] ->
    xstep edge pre mw s (mk_xfer (d_queue f (t_x s)) (t_in s ++ [f]) (t_air s) (t_have s) (t_got s) (t_rep s) (t_over s))
| X_send k1 k2 h1 h2 x air : t_over s = false -> suits edge k1 -> suits2 edge k2 ->
    d_send edge pre k1 k2 h1 h2 (t_x s) = Some (x, air) ->
    xstep edge pre mw s (mk_xfer x (t_in s) air (t_have s) (t_got s) (t_rep s) (t_over s))
| X_window n x : t_over s = false -> ws_grows (DSetWs n) (x_w (t_x s)) -> d_window n (t_x s) = Some x ->
    xstep edge pre mw s (mk_xfer x (t_in s) (t_air s) (t_have s) (t_got s) (t_rep s) (t_over s))
(* the mobile gets a block: it is taken if its number is in the window, which starts at the first one missing *)
| X_receive b sb q : In (b, sb) (t_air s) -> is_vq (t_have s) q -> (b - q) mod space edge < mw ->
    let i := q + (b - q) mod space edge in
    xstep edge pre mw s (mk_xfer (t_x s) (t_in s) (t_air s) (upd (t_have s) i true) (upd (t_got s) i sb) (t_rep s) (t_over s))
| X_answer a : truthful (space edge) (t_have s) a ->
    xstep edge pre mw s (mk_xfer (t_x s) (t_in s) (t_air s) (t_have s) (t_got s) (t_rep s ++ [(t_have s, a)]) (t_over s))
| X_lost u v w : t_rep s = u ++ v :: w ->
    xstep edge pre mw s (mk_xfer (t_x s) (t_in s) (t_air s) (t_have s) (t_got s) (u ++ w) (t_over s))
| X_arrives h a r x : t_over s = false -> t_rep s = (h, a) :: r -> d_report (bits_of_answer a (x_w (t_x s))) (t_x s) = Some x ->
    xstep edge pre mw s (mk_xfer x (t_in s) (t_air s) (t_have s) (t_got s) r (t_over s))
(* the mobile has the block with the final block indicator and all before it, says so, and the PCU hears it *)
| X_final q : is_vq (t_have s) q -> 0 < q -> sb_fbi (t_got s (q - 1)) = true ->
    xstep edge pre mw s (mk_xfer (t_x s) (t_in s) (t_air s) (t_have s) (t_got s) (t_rep s) true).

Inductive xsteps (edge pre : bool) (mw : Z) : xfer -> xfer -> Prop :=
| XS_refl s : xsteps edge pre mw s s
| XS_step s s1 s2 : xstep edge pre mw s s1 -> xsteps edge pre mw s1 s2 -> xsteps edge pre mw s s2.

(** Window sizes: the one the PCU starts with, and the mobile's, at most as large. *)
Definition sizes (edge : bool) (ws mw : Z) : Prop := dl_params (space edge) ws /\ 64 <= mw <= ws.
Definition xreach (edge pre : bool) (ws mw : Z) (s : xfer) : Prop :=
  sizes edge ws mw /\ xsteps edge pre mw (xfer_new (space edge) ws) s.

(** The blocks the mobile has without a gap, and the frames it puts together from them. *)
Definition in_row (s : xfer) (q : Z) : list sent_block := map (fun k => t_got s (Z.of_nat k)) (seq 0 (Z.to_nat q)).
Definition gets (edge : bool) (s : xfer) (frames : list (list Z)) : Prop :=
  exists q part, is_vq (t_have s) q /\ rx_run edge (in_row s q) ([], []) = Some (frames, part).
(** [tags] marks frames as filling: LLC dummy commands. *)
Definition tagged (tags : list (list Z * bool)) (frames : list (list Z)) : Prop :=
  map fst tags = frames /\ Forall (fun t => snd t = true -> exists n, fst t = dummy_frame n) tags.
(** Everything sent has been acknowledged, and the last block of the TBF has been sent; or the mobile said that. *)
Definition complete (s : xfer) : Prop := t_over s = true \/ (x_fin (t_x s) = true /\ dl_empty (x_w (t_x s)) = true).
(** What was not put into this TBF. *)
Definition left_over (s : xfer) : list (list Z) := s_queue (x_s (t_x s)).
