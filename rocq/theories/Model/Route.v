(** One timeslot with many TBFs: the frames reserved for uplink blocks, and what
    each received uplink block, or the lack of it, does to the TBFs.

    Models the rcv_ functions of src/pdch.cpp, pdch_ulc_expire_fn of
    src/pdch_ul_controller.c, and the creation and the end of TBFs (src/gprs_ms.c,
    src/tbf.cpp), on top of the machines of one TBF (Model/TbfSub.v).

    Simplifications.  There is one timeslot.  A mobile is a number, so that the
    merging of two contexts of one mobile (Model/MsTlli.v, Model/MsRef.v) does not
    occur.  A frame number is a number: how the frame of a poll is chosen is in
    Model/UlController.v.  The contents of data and of reports are not modelled
    (Model/DlLoop.v, Model/UlLoop.v); what they make a TBF do is an operation of its
    own ([RDo]).  A new TBF that follows a request is an operation of its own. *)
From Coq Require Import ZArith List Bool.
From Verif Require Import Model.TbfFsm Model.TbfSub.
Import ListNotations.
Open Scope Z_scope.

(** A TBF: a number in place of its address, its mobile, its TFI (-1: none,
    TBF_TFI_UNSET), whether it is the mobile's current TBF of its direction
    (ms->ul_tbf, ms->dl_tbf) or one of ms->old_tbfs, and its machines. *)
Record rtbf := RT { r_id : Z; r_ms : Z; r_tfi : Z; r_cur : bool; r_t : tbf }.

(** src/pdch_ul_controller.h:40-79 struct pdch_ulc_node.  [NNacc] is a poll with
    the reason PDCH_ULC_POLL_CELL_CHG_CONTINUE. *)
Inductive node := NPoll (id : Z) (r : reason) | NUsf (id : Z) | NNacc (id : Z) | NSba.

(** The TBF a node points to. *)
Definition owner (n : node) : option Z :=
  match n with NPoll id _ | NUsf id | NNacc id => Some id | NSba => None end.

(** The TBFs of the timeslot, the reserved frames, the number of single block
    allocations that exist (src/sba.c), and the time. *)
Record rst := RS { s_tbfs : list rtbf; s_nodes : list (Z * node); s_sba : nat; s_now : Z }.

Definition set_tbfs l s := RS l (s_nodes s) (s_sba s) (s_now s).
Definition set_nodes l s := RS (s_tbfs s) l (s_sba s) (s_now s).
Definition set_sba n s := RS (s_tbfs s) (s_nodes s) n (s_now s).
Definition set_time n s := RS (s_tbfs s) (s_nodes s) (s_sba s) n.

Definition r_init : rst := RS [] [] 0 0.

(** [Halt]: a failed assertion.  [Fault]: a TBF is used after it was freed. *)
Inductive res := Ok (s : rst) | Halt | Fault.
Definition andthen (r : res) (k : rst -> res) : res := match r with Ok s => k s | _ => r end.

Definition dir_eqb (a b : dir) : bool := match a, b with DL, DL | UL, UL => true | _, _ => false end.
Definition r_dir x : dir := t_dir (r_t x).
Definition is_id (id : Z) (x : rtbf) : bool := r_id x =? id.
Definition get (id : Z) s : option rtbf := find (is_id id) (s_tbfs s).

(** src/pdch.cpp:1124-1152 ul_tbf_by_tfi, dl_tbf_by_tfi. *)
Definition is_tfi (d : dir) (tfi : Z) (x : rtbf) : bool := dir_eqb (r_dir x) d && (r_tfi x =? tfi) && (0 <=? tfi).
Definition by_tfi (d : dir) (tfi : Z) s : option rtbf := find (is_tfi d tfi) (s_tbfs s).

(** ms_ul_tbf, ms_dl_tbf: src/gprs_ms.h:131-132. *)
Definition is_cur (d : dir) (m : Z) (x : rtbf) : bool := dir_eqb (r_dir x) d && (r_ms x =? m) && r_cur x.
Definition current (d : dir) (m : Z) s : option rtbf := find (is_cur d m) (s_tbfs s).

(** ** Reserved frames: src/pdch_ul_controller.c *)
Definition node_at (fn : Z) s : option node :=
  option_map snd (find (fun p => fst p =? fn) (s_nodes s)).
(** pdch_ulc_release_fn, lines 244-251. *)
Definition release (fn : Z) s : rst := set_nodes (filter (fun p => negb (fst p =? fn)) (s_nodes s)) s.
(** pdch_ulc_add_node, lines 184-211: a frame is reserved once. *)
Definition reserve (fn : Z) (n : node) s : rst :=
  match node_at fn s with None => set_nodes ((fn, n) :: s_nodes s) s | Some _ => s end.
Definition owned (id : Z) (n : node) : bool := match owner n with Some i => i =? id | None => false end.

(** tbf_free, src/tbf.cpp:246-281: the TBF leaves its mobile and the timeslot, with
    its reservations (pdch_ulc_release_tbf, src/pdch_ul_controller.c:253-285). *)
Definition remove (id : Z) s : rst :=
  RS (filter (fun x => negb (is_id id x)) (s_tbfs s))
     (filter (fun p => negb (owned id (snd p))) (s_nodes s)) (s_sba s) (s_now s).

Definition with_t t x := RT (r_id x) (r_ms x) (r_tfi x) (r_cur x) t.
Definition with_cur b x := RT (r_id x) (r_ms x) (r_tfi x) b (r_t x).

(** The new machines of a TBF are stored; a TBF that was freed is gone. *)
Definition store (x : rtbf) t s : rst :=
  match f_dead (t_f t) with
  | Some _ => remove (r_id x) s
  | None => set_tbfs (map (fun y => if is_id (r_id x) y then with_t t y else y) (s_tbfs s)) s
  end.

(** An operation on the machines of one TBF.  [Fault] if it is gone. *)
Definition act (c : tconf) (id : Z) (o : sop) s : res :=
  match get id s with
  | None => Fault
  | Some x => match sub_step c (r_t x) o with None => Halt | Some (t, _) => Ok (store x t s) end
  end.

(** ** Received blocks *)

(** The mobile that a request is from: its TLLI, or the TFI of one of its TBFs. *)
Inductive who := ByTlli (m : Z) | ByDlTfi (tfi : Z) | ByUlTfi (tfi : Z).
Definition ms_of (w : who) s : option Z :=
  match w with
  | ByTlli m => Some m
  | ByDlTfi tfi => option_map r_ms (by_tfi DL tfi s)
  | ByUlTfi tfi => option_map r_ms (by_tfi UL tfi s)
  end.

Inductive msg :=
| MAck (nacc : bool)               (* Packet Control Acknowledgement; [nacc]: the cell change awaits it *)
| MDlAck (tfi : Z) (final : bool)  (* (EGPRS) Packet Downlink Ack/Nack *)
| MRequest (w : who)               (* Packet Resource Request *)
| MMeas                            (* Packet Measurement Report *)
| MCellChange (d : dir) (tfi : Z)  (* Packet Cell Change Notification *)
| MData (tfi : Z)                  (* RLC data block *)
| MOther.                          (* Packet Uplink Dummy Control Block, or not understood *)

(** The answer is awaited: tbf_ul_ack_exp_ctrl_ack, src/tbf_ul_ack_fsm.c:275-280,
    ul_ass_state_is and dl_ass_state_is with WAIT_ACK. *)
Definition awaits (r : reason) t : bool :=
  match r with
  | P_UL_ACK => match t_uk t with UK_WAIT => true | _ => false end
  | P_UL_ASS => match t_ua t with UA_WAIT => true | _ => false end
  | P_DL_ASS => match t_da t with DA_WAIT => true | _ => false end
  | P_DL_ACK => false
  end.

(** An event for the current TBF of a mobile, if there is one. *)
Definition tell (c : tconf) (d : dir) (m : Z) (o : sop) s : res :=
  match current d m s with None => Ok s | Some y => act c (r_id y) o s end.

Definition ack_pacch (d : dir) : sop :=
  SLife (match d with DL => LDl (DEv ACK_PACCH) | UL => LUl (UEv ACK_PACCH) end).

(** rcv_control_ack, src/pdch.cpp:336-468. *)
Definition rcv_ack (c : tconf) (fn : Z) (nacc : bool) s : res :=
  match node_at fn s with
  | Some (NPoll id r) =>
      match get id s with
      | None => Fault
      | Some x =>
          match r, r_dir x with
          | P_UL_ACK, DL => Halt  (* OSMO_ASSERT(ul_tbf) *)
          | _, _ =>
              if negb (awaits r (r_t x)) then Ok s
              else
                let s := release fn s in
                match r with
                | P_UL_ACK => act c id (SAnswer r false) s
                | P_UL_ASS =>
                    andthen (act c id (SAnswer r false) s) (tell c UL (r_ms x) (ack_pacch UL))
                | P_DL_ASS =>
                    match current DL (r_ms x) s with
                    | None => act c id (SAnswer r false) s
                    | Some y =>
                        (* new_tbf is [y]; tbf_free(tbf) if it ends and is of the same
                           direction; the event goes to [y] even if it was [tbf] *)
                        andthen (act c id (SAnswer r (dir_eqb (r_dir x) DL)) s) (act c (r_id y) (ack_pacch DL))
                    end
                | P_DL_ACK => Ok s
                end
          end
      end
  | Some (NNacc id) =>
      match get id s with
      | None => Fault
      | Some x => if nacc then Ok (release fn s) else Ok s
      end
  | _ => Ok s
  end.

(** rcv_control_dl_ack_nack and rcv_control_egprs_dl_ack_nack, src/pdch.cpp:470-625. *)
Definition rcv_dl_ack (c : tconf) (fn tfi : Z) (final : bool) s : res :=
  match node_at fn s with
  | Some (NPoll id P_DL_ACK) =>
      match get id s with
      | None => Fault
      | Some x =>
          match r_dir x with
          | UL => Halt  (* tbf_as_dl_tbf gives NULL *)
          | DL => if r_tfi x =? tfi then act c id (SDlAck final) (release fn s) else Ok s
          end
      end
  | _ => Ok s
  end.

(** The current TBF of a mobile is freed, if there is one. *)
Definition remove_cur (d : dir) (m : Z) s : rst :=
  match current d m s with None => s | Some y => remove (r_id y) s end.

(** rcv_resource_request, src/pdch.cpp:627-831, up to the new uplink TBF. *)
Definition rcv_request (c : tconf) (fn : Z) (w : who) s : res :=
  match node_at fn s with
  | None => Ok s
  | Some n =>
      match ms_of w s with
      | None => Ok s
      | Some m =>
          match n with
          | NUsf id =>
              match get id s with
              | None => Fault
              | Some x => if r_ms x =? m then Ok (remove id (release fn s)) else Ok s
              end
          | NSba =>
              Ok (remove_cur DL m (remove_cur UL m (set_sba (pred (s_sba s)) (release fn s))))
          | NPoll id r =>
              match get id s with
              | None => Fault
              | Some x =>
                  match r, r_dir x with
                  | P_UL_ACK, UL =>
                      if r_ms x =? m then act c id SResReq (release fn s) else Ok s
                  | _, _ => Ok s
                  end
              end
          | NNacc id => match get id s with None => Fault | Some _ => Ok s end
          end
      end
  end.

(** rcv_measurement_report, src/pdch.cpp:833-870.  A poll at this frame loses its
    reservation; the TBF is not told. *)
Definition rcv_meas (c : tconf) (fn : Z) s : res :=
  match node_at fn s with
  | None => Ok s
  | Some (NUsf id) => act c id SUsfUsed (release fn s)
  | Some (NPoll _ _) | Some (NNacc _) => Ok (release fn s)
  | Some NSba => Ok (set_sba (pred (s_sba s)) (release fn s))
  end.

(** rcv_cell_change_notification, src/pdch.cpp:872-902.  Whatever is reserved at this
    frame loses its reservation; a single block allocation is not freed. *)
Definition rcv_cell_change (c : tconf) (fn : Z) (d : dir) (tfi : Z) s : res :=
  match by_tfi d tfi s with
  | None => Ok s
  | Some _ =>
      match node_at fn s with
      | Some (NUsf id) => act c id SUsfUsed (release fn s)
      | _ => Ok (release fn s)
      end
  end.

(** rcv_data_block, src/pdch.cpp:1001-1082. *)
Definition rcv_data (c : tconf) (fn tfi : Z) s : res :=
  match by_tfi UL tfi s with
  | None => Ok s
  | Some y =>
      match node_at fn s with
      | Some (NUsf id) =>
          if id =? r_id y then act c (r_id y) SUlData (release fn s) else act c (r_id y) SUlStray s
      | _ => act c (r_id y) SUlStray s
      end
  end.

(** rcv_control_block and rcv_block: src/pdch.cpp:904-999. *)
Definition rcv (c : tconf) (fn : Z) (m : msg) s : res :=
  match m with
  | MAck nacc => rcv_ack c fn nacc s
  | MDlAck tfi final => rcv_dl_ack c fn tfi final s
  | MRequest w => rcv_request c fn w s
  | MMeas => rcv_meas c fn s
  | MCellChange d tfi => rcv_cell_change c fn d tfi s
  | MData tfi => rcv_data c fn tfi s
  | MOther => Ok s
  end.

(** No block came in a reserved frame: pdch_ulc_expire_fn,
    src/pdch_ul_controller.c:287-331, for one node. *)
Definition expire (c : tconf) (fn : Z) s : res :=
  match node_at fn s with
  | None => Ok s
  | Some (NPoll id r) => act c id (SUnanswered r) (release fn s)
  | Some (NUsf id) => act c id SUsfTimeout (release fn s)
  | Some (NNacc _) => Ok (release fn s)
  | Some NSba => Ok (set_sba (pred (s_sba s)) (release fn s))
  end.

(** ** Everything that can happen *)

(** What a TBF does, or is told, apart from received blocks, lost blocks and its
    creation. *)
Definition own_op (o : sop) : bool :=
  match o with
  | SLife (LDl (DEv (PCUIF_CNF | LAST_DL_DATA) | DFinalBlock | DTimer _ | DT3191)) => true
  | SLife (LUl (UEv FIRST_UL_DATA | UTimer | UT3141)) => true
  | SLimits _ _ _ | SUaSched | SUaRej | SUaAbort | SUaRts _ _ _ _ | SUaTimer => true
  | SDaRts _ _ _ _ _ _ | SUkSched | SUkRts _ _ _ | SDlPoll | SUlLast => true
  | _ => false
  end.

(** A message with a poll: the poll can be placed if the frame is free
    (tbf_check_polling, src/tbf.cpp:794-817); an assignment is made if the mobile
    has a TBF to assign. *)
Definition informed (s : rst) (x : rtbf) (fn : Z) (o : sop) : sop :=
  let free := match node_at fn s with None => true | Some _ => false end in
  let has d := match current d (r_ms x) s with None => false | Some _ => true end in
  match o with
  | SUaRts ctrl _ _ enc => SUaRts ctrl free (has UL) enc
  | SDaRts ctrl resolved _ _ tlli enc => SDaRts ctrl resolved free (has DL) tlli enc
  | SUkRts ctrl _ tlli => SUkRts ctrl free tlli
  | _ => o
  end.

(** The poll that an operation has placed, if any. *)
Definition placed (t t' : tbf) : option reason :=
  find (fun r => Nat.ltb (outstanding r t) (outstanding r t')) [P_UL_ASS; P_DL_ASS; P_UL_ACK; P_DL_ACK].

Inductive rop :=
| RNewUl (id m tfi : Z) (w : on_channel) (l1 l3 l5 : Z)        (* src/gprs_ms.c:1128-1240 *)
| RNewDl (via : option Z) (id m tfi : Z) (l1 l3 l5 : Z)        (* src/gprs_ms.c:1268-1362 *)
| RDo (id : Z) (o : sop) (fn : Z)      (* [fn]: the frame of the poll, if one is placed *)
| RUsf (id fn : Z)                     (* src/gprs_rlcmac_sched.cpp:109-147 *)
| RNacc (id fn : Z)                    (* src/nacc_fsm.c:205-207 *)
| RSba (fn : Z)                        (* src/sba.c:52-73 *)
| RTime (d : Z)
| RBlock (fn : Z) (m : msg)
| RExpire (fn : Z)
| RFree (id : Z).                      (* tbf_free from elsewhere *)

(** ms_attach_tbf, src/gprs_ms.c:334-370: the new TBF is the mobile's current one. *)
Definition attach (x : rtbf) s : rst :=
  set_tbfs (x :: map (fun y => if is_cur (r_dir x) (r_ms x) y then with_cur false y else y) (s_tbfs s)) s.

(** The TFI is free in this direction; there is no TBF with this number. *)
Definition fresh (d : dir) (id tfi : Z) s : bool :=
  match get id s, by_tfi d tfi s with None, None => true | _, _ => false end.

(** The mobile has no downlink TBF, or one that carries no data any more
    (ms_need_dl_tbf, src/gprs_ms.h:164-186). *)
Definition needs_dl (m : Z) s : bool :=
  match current DL m s with
  | None => true
  | Some y => match f_st (t_f (r_t y)) with WAIT_REUSE | RELEASING => true | _ => false end
  end.

(** The TBF on whose PACCH the assignment is sent: the mobile's uplink TBF, or its
    downlink TBF in WAIT_RELEASE (src/gprs_ms.c:1383-1407, src/tbf_dl_fsm.c:290-294,
    src/tbf_ul.cpp:241-242, src/pdch.cpp:410-411). *)
Definition may_assign (m : Z) s (v : rtbf) : bool :=
  (r_ms v =? m) && r_cur v &&
  match r_dir v with UL => needs_dl m s | DL => tst_eqb (f_st (t_f (r_t v))) WAIT_RELEASE end.

Definition create (c : tconf) (d : dir) (id m tfi : Z) (w : on_channel) (l1 l3 l5 : Z) s : res :=
  match sub_new c d w (s_now s) l1 l3 l5 with
  | None => Halt
  | Some t => Ok (attach (RT id m tfi true t) s)
  end.

Definition time_op (d : Z) (x : rtbf) : sop :=
  SLife (match r_dir x with DL => LDl (DTime d) | UL => LUl (UTime d) end).

Fixpoint pass (c : tconf) (d : Z) (l : list rtbf) : option (list rtbf) :=
  match l with
  | [] => Some []
  | x :: l =>
      match sub_step c (r_t x) (time_op d x), pass c d l with
      | Some (t, _), Some l => Some (with_t t x :: l)
      | _, _ => None
      end
  end.

Definition r_step (c : tconf) (s : rst) (o : rop) : res :=
  match o with
  | RNewUl id m tfi w l1 l3 l5 =>
      if fresh UL id tfi s then create c UL id m tfi w l1 l3 l5 s else Ok s
  | RNewDl via id m tfi l1 l3 l5 =>
      if negb (fresh DL id tfi s) then Ok s
      else match via with
      | None =>
          match current UL m s with
          | None => if needs_dl m s then create c DL id m tfi OnCcch l1 l3 l5 s else Ok s
          | Some _ => Ok s
          end
      | Some v =>
          match get v s with
          | Some y =>
              if may_assign m s y
              then andthen (create c DL id m tfi OnPacch l1 l3 l5 s) (act c v SDaSched)
              else Ok s
          | None => Ok s
          end
      end
  | RDo id o fn =>
      match get id s with
      | None => Ok s
      | Some x =>
          let o := informed s x fn o in
          if negb (own_op o) || (match o, node_at fn s with SDlPoll, Some _ => true | _, _ => false end)
          then Ok s
          else match sub_step c (r_t x) o with
          | None => Halt
          | Some (t, _) =>
              let s' := store x t s in
              let s' := match placed (r_t x) t with Some r => reserve fn (NPoll id r) s' | None => s' end in
              match f_dead (t_f t) with
              | Some By2001 => tell c UL (r_ms x) SDaAbort s'   (* src/tbf_dl_fsm.c:424-433 *)
              | _ => Ok s'
              end
          end
      end
  | RUsf id fn =>
      match get id s, node_at fn s with
      | Some x, None =>
          match r_dir x, f_st (t_f (r_t x)) with
          | UL, FLOW => andthen (act c id SUsf s) (fun s => Ok (reserve fn (NUsf id) s))
          | _, _ => Ok s
          end
      | _, _ => Ok s
      end
  | RNacc id fn =>
      match get id s, node_at fn s with
      | Some _, None => Ok (reserve fn (NNacc id) s)
      | _, _ => Ok s
      end
  | RSba fn =>
      match node_at fn s with
      | None => Ok (set_sba (S (s_sba s)) (reserve fn NSba s))
      | Some _ => Ok s
      end
  | RTime d =>
      match pass c d (s_tbfs s) with
      | None => Halt
      | Some l => Ok (set_time (s_now s + Z.max 0 d) (set_tbfs l s))
      end
  | RBlock fn m => rcv c fn m s
  | RExpire fn => expire c fn s
  | RFree id => Ok (remove id s)
  end.

Fixpoint r_run (c : tconf) (s : rst) (ops : list rop) : res :=
  match ops with
  | [] => Ok s
  | o :: ops => andthen (r_step c s o) (fun s => r_run c s ops)
  end.
