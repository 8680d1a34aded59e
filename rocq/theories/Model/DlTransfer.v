(** A downlink TBF as a whole: the queue of LLC frames, the frame under way, the blocks made from them, which are kept
    until acknowledged, and the window that decides which block goes out; /repo/src/tbf_dl.cpp. *)
From Coq Require Import ZArith List Bool.
From Verif Require Import Base.Arith Model.CodingScheme Model.RlcWindow Model.RlcWindowDl Model.TbfDlWindow Model.Segment.
Import ListNotations.
Local Open Scope Z_scope.

(** struct gprs_rlcmac_dl_tbf, tbf_dl.h:51-143, as far as used here: m_window, the blocks of m_rlc, m_llc with the
    queue of the mobile, and whether the state is TBF_ST_FINISHED. *)
Record dtx := mk_dtx { x_w : dl_window; x_store : Z -> sent_block; x_s : sender; x_fin : bool }.
Definition dtx_new (sns ws : Z) : dtx :=
  mk_dtx (dl_init sns ws) (fun _ => mk_sb false false []) (mk_snd no_llc false [] []) false.

(** gprs_rlc::block, rlc.h:286-289. *)
Definition block_at (x : dtx) (bsn : Z) : sent_block := x_store x (Z.land bsn mod_sns_half).
(** have_data, tbf_dl.cpp:1171-1175. *)
Definition have_data (s : sender) : bool :=
  (0 <? Z.of_nat (chunk_size (s_llc s))) || negb (Nat.eqb (length (s_queue s)) 0).
(** is_final in create_new_bsn, tbf_dl.cpp:622 and 652, in the round that writes chunk number [n]: the queue has handed
    out one frame per chunk before. [keep] is keep_open(fn), tbf_dl.cpp:1200-1219. *)
Definition is_final (keep : nat -> bool) (s : sender) (n : nat) : bool :=
  Nat.eqb (length (s_queue (next_frame s)) - n) 0 && negb (keep n).

(** What a turn of the TBF depends on beside its own state: the coding scheme for a new block, and keep_open. *)
Record pick := mk_pick { k_cs : scheme; k_keep : nat -> bool }.

(** take_next_bsn, tbf_dl.cpp:266-390, with create_new_bsn, 559-694, if a new block is made; that is when V(S) moves.
    [pre] is the configuration of preemptive retransmission. When the final block indicator is set the state becomes
    TBF_ST_FINISHED (tbf_dl_fsm.c:242-245). *)
Definition env_of (edge pre : bool) (x : dtx) : take_env :=
  mk_take_env (x_fin x) (have_data (x_s x)) pre edge (fun b => Z.of_nat (length (sb_oct (block_at x b)))).
Definition d_take (edge pre : bool) (k : pick) (prev : Z) (x : dtx) : option (dtx * Z) :=
  match tbf_take_next_bsn 3 (env_of edge pre x) prev (x_w x) with
  | None => None
  | Some (w, b) =>
    if dw_vs w =? dw_vs (x_w x) then Some (mk_dtx w (x_store x) (x_s x) (x_fin x), b)
    else match create_block edge (Z.to_nat (mcs_max_data_block_bytes (k_cs k))) (is_final (k_keep k) (x_s x)) (x_s x) with
         | None => None
         | Some (sb, s) => Some (mk_dtx w (upd (x_store x) (Z.land b mod_sns_half) sb) s (x_fin x || sb_fbi sb), b)
         end
  end.

(** create_dl_acked_block, tbf_dl.cpp:396-412 and 697-920: the blocks of one radio block, each with its number. [k2]:
    the coding scheme has room for a second one. [h1], [h2]: only the first half goes out, 830-831; the mobile is
    assumed to make something of a block only when it has all of it. *)
Definition half (h : bool) (b : Z) (x : dtx) : dtx :=
  if h then mk_dtx (tbf_first_seg_sent (x_w x) b) (x_store x) (x_s x) (x_fin x) else x.
Definition d_send (edge pre : bool) (k1 : pick) (k2 : option pick) (h1 h2 : bool) (x : dtx)
  : option (dtx * list (Z * sent_block)) :=
  match d_take edge pre k1 (-1) x with
  | None => None
  | Some (x1, b1) =>
    if b1 <? 0 then Some (x1, []) else
    match k2 with
    | None => Some (half h1 b1 x1, [(b1, block_at x1 b1)])
    | Some k =>
      match d_take edge pre k b1 x1 with
      | None => None
      | Some (x2, b2) =>
        if b2 <? 0 then Some (half h1 b1 x2, [(b1, block_at x2 b1)])
        else Some (half h2 b2 (half h1 b1 x2), [(b1, block_at x2 b1); (b2, block_at x2 b2)])
      end
    end
  end.

(** rcvd_dl_ack, tbf_dl.cpp:1018-1062 and 1081-1113, without the final indication. *)
Definition d_report (bits : list bool) (x : dtx) : option dtx :=
  match tbf_rcvd_dl_ack false (dw_va (x_w x)) bits (x_w x) with
  | None => None
  | Some (w, _, _) => Some (mk_dtx w (x_store x) (x_s x) (x_fin x))
  end.
(** set_window_size, tbf_dl.cpp:1336-1344. *)
Definition d_window (ws : Z) (x : dtx) : option dtx :=
  match dl_set_ws (x_w x) ws with None => None | Some w => Some (mk_dtx w (x_store x) (x_s x) (x_fin x)) end.
(** ms_append_llc_dl_data, gprs_ms.c:1364-1379, puts a frame into the queue. Frames that expire in the queue are those of
    LlcQueue.v; here the queue holds those that will be handed out. *)
Definition d_queue (f : list Z) (x : dtx) : dtx :=
  let s := x_s x in
  mk_dtx (x_w x) (x_store x) (mk_snd (s_llc s) (s_dummy s) (s_queue s ++ [f]) (s_done s)) (x_fin x).
