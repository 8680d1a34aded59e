(** The downlink LLC queue of a mobile: /repo/src/llc.c, llc.h. *)
From Coq Require Import ZArith List Bool.
From Verif Require Import Model.Codel.
Import ListNotations.
Local Open Scope Z_scope.

Definition u64 (x : Z) : Z := x mod 2 ^ 64.
Definition s32 (x : Z) : Z := (x + 2 ^ 31) mod 2 ^ 32 - 2 ^ 31.

(** A queued message with its struct MetaInfo, llc.h:53-56: an identity, the first octet,
    the length, reception and expiry time (0: never expires). The remaining content is
    carried along by the code and left out. *)
Record frame := mk_f { f_id : Z; f_addr : Z; f_len : Z; f_recv : Z; f_exp : Z }.

(** enum gprs_llc_queue_prio, llc.h:57-62. *)
Inductive prio : Set := PGmm | PSms | POther.
Definition prios : list prio := [PGmm; PSms; POther].

(** llc_sapi2prio, llc.c:130-142. *)
Definition sapi2prio (sapi : Z) : prio :=
  match sapi with 1 => PGmm | 2 | 7 | 8 => PSms | _ => POther end.
Definition frame_prio (f : frame) : prio := sapi2prio (f_addr f mod 16).

(** struct gprs_llc_queue, llc.h:124-131, without avg_queue_delay (a statistic). *)
Record llcq := mk_q {
  q_gmm : list frame; q_sms : list frame; q_other : list frame;
  q_size : Z; q_octets : Z; q_use_codel : bool;
  q_cgmm : codel; q_csms : codel; q_cother : codel }.
Definition ql (q : llcq) (p : prio) : list frame :=
  match p with PGmm => q_gmm q | PSms => q_sms q | POther => q_other q end.
Definition qc (q : llcq) (p : prio) : codel :=
  match p with PGmm => q_cgmm q | PSms => q_csms q | POther => q_cother q end.
Definition set_ql (q : llcq) (p : prio) (l : list frame) : llcq :=
  match p with
  | PGmm => mk_q l (q_sms q) (q_other q) (q_size q) (q_octets q) (q_use_codel q) (q_cgmm q) (q_csms q) (q_cother q)
  | PSms => mk_q (q_gmm q) l (q_other q) (q_size q) (q_octets q) (q_use_codel q) (q_cgmm q) (q_csms q) (q_cother q)
  | POther => mk_q (q_gmm q) (q_sms q) l (q_size q) (q_octets q) (q_use_codel q) (q_cgmm q) (q_csms q) (q_cother q)
  end.
Definition set_qc (q : llcq) (p : prio) (c : codel) : llcq :=
  match p with
  | PGmm => mk_q (q_gmm q) (q_sms q) (q_other q) (q_size q) (q_octets q) (q_use_codel q) c (q_csms q) (q_cother q)
  | PSms => mk_q (q_gmm q) (q_sms q) (q_other q) (q_size q) (q_octets q) (q_use_codel q) (q_cgmm q) c (q_cother q)
  | POther => mk_q (q_gmm q) (q_sms q) (q_other q) (q_size q) (q_octets q) (q_use_codel q) (q_cgmm q) (q_csms q) c
  end.
Definition set_cnt (q : llcq) (n o : Z) : llcq :=
  mk_q (q_gmm q) (q_sms q) (q_other q) n o (q_use_codel q) (q_cgmm q) (q_csms q) (q_cother q).

(** llc_queue_init, llc.c:103-115, with llc_queue_set_codel_interval, 118-128
    ([interval] 0: CoDel not used). *)
Definition llcq_init (interval : Z) : llcq :=
  let c := if interval =? 0 then codel_init else codel_set_interval codel_init interval in
  mk_q [] [] [] 0 0 (negb (interval =? 0)) c c c.

(** llc_queue_enqueue, llc.c:144-162. *)
Definition enqueue (q : llcq) (f : frame) : llcq :=
  let p := frame_prio f in
  set_cnt (set_ql q p (ql q p ++ [f])) (u64 (q_size q + 1)) (u64 (q_octets q + f_len f)).

(** llc_queue_clear, llc.c:164-179. *)
Definition clear (q : llcq) : llcq :=
  set_cnt (set_ql (set_ql (set_ql q PGmm []) PSms []) POther []) 0 0.

(** The inner loop of llc_queue_move_and_merge, llc.c:190-224: the older message first;
    at equal times the one of the other queue. *)
Fixpoint merge_lists (a : list frame) : list frame -> list frame :=
  match a with
  | [] => fun b => b
  | x :: a' =>
    fix inner (b : list frame) : list frame :=
      match b with
      | [] => x :: a'
      | y :: b' => if f_recv x <? f_recv y then x :: merge_lists a' b else y :: inner b'
      end
  end.
Fixpoint count_list (l : list frame) (n o : Z) : Z * Z :=
  match l with [] => (n, o) | f :: r => count_list r (u64 (n + 1)) (u64 (o + f_len f)) end.
(** llc_queue_move_and_merge, llc.c:181-234: both queues afterwards. *)
Definition move_and_merge (q o : llcq) : llcq * llcq :=
  let m p := merge_lists (ql q p) (ql o p) in
  let '(n, oc) := count_list (m PGmm ++ m PSms ++ m POther) 0 0 in
  (set_cnt (set_ql (set_ql (set_ql q PGmm (m PGmm)) PSms (m PSms)) POther (m POther)) n oc, clear o).

(** llc_queue_merge_prepend, llc.c:237-254: put back a frame taken out before. *)
Definition merge_prepend (q : llcq) (p : prio) (f : frame) : llcq :=
  set_cnt (set_ql q p (f :: ql q p)) (u64 (q_size q + 1)) (u64 (q_octets q + f_len f)).

(** llc_queue_pick_msg, llc.c:258-288, without the average delay. *)
Definition pick_from (q : llcq) (p : prio) : option (frame * prio * llcq) :=
  match ql q p with
  | [] => None
  | f :: r => Some (f, p, set_cnt (set_ql q p r) (u64 (q_size q - 1)) (u64 (q_octets q - f_len f)))
  end.
Definition pick (q : llcq) : option (frame * prio * llcq) :=
  match pick_from q PGmm with
  | Some x => Some x
  | None => match pick_from q PSms with
            | Some x => Some x
            | None => pick_from q POther
            end
  end.

(** llc_pdu_can_be_discarded, llc.c:85-101. *)
Definition can_be_discarded (f : frame) : bool :=
  if f_len f <=? 60 then false
  else if f_addr f mod 16 =? 1 then false
  else Z.land (f_addr f) 0xe0 =? 0xc0.

(** llc_queue_is_frame_expired, llc.c:397-404. *)
Definition is_expired (now exp : Z) : bool := if exp =? 0 then false else exp <? now.

(** Why a frame was dropped. *)
Inductive reason : Set := RCodel | RLifetime.

(** The loop of llc_queue_dequeue, llc.c:290-345. [frames] counts the frames dropped in
    this call (32 bits). [None]: not ended within [fuel] rounds. *)
Fixpoint deq_loop (fuel : nat) (q : llcq) (now now2 frames : Z)
  : option (llcq * option (frame * prio) * list (frame * prio * reason)) :=
  match pick q with
  | None => Some (q, None, [])
  | Some (f, p, q1) =>
    match fuel with
    | O => None
    | S n =>
      let '(cd, q2) :=
        if q_use_codel q1 then
          let '(d, c') := codel_control (qc q1 p) (f_recv f) now (s32 (q_octets q1)) in (d, set_qc q1 p c')
        else (false, q1) in
      let drop (r : reason) :=
        match deq_loop n q2 now now2 (u32 (frames + 1)) with
        | None => None
        | Some (q3, res, l) => Some (q3, res, (f, p, r) :: l)
        end in
      if cd then drop RCodel
      else if negb (is_expired now2 (f_exp f)) then Some (q2, Some (f, p), [])
      else if negb (is_expired now (f_exp f)) then
        if frames =? 0 then Some (q2, Some (f, p), [])
        else if negb (can_be_discarded f) then Some (q2, Some (f, p), [])
        else drop RLifetime
      else drop RLifetime
    end
  end.
Definition qlen (q : llcq) : nat := length (q_gmm q) + length (q_sms q) + length (q_other q).
(** llc_queue_dequeue, llc.c:290-373; [hyst] is llc_discard_csec. Reporting the discarded
    frames to the SGSN is separate, below. *)
Definition dequeue (q : llcq) (now hyst : Z) : option (llcq * option (frame * prio) * list (frame * prio * reason)) :=
  deq_loop (qlen q) q now (now + hyst * 10000000) 0.

(** The LLC-DISCARDED report, llc.c:347-359: frames and octets, or none. *)
Definition discarded_report (l : list (frame * prio * reason)) : option (Z * Z) :=
  let frames := fold_left (fun n _ => u32 (n + 1)) l 0 in
  let octets := fold_left (fun n x => u32 (n + f_len (fst (fst x)))) l 0 in
  if frames =? 0 then None else Some (Z.min frames 0xff, Z.min octets 0xffffff).

(** llc_queue_calc_pdu_lifetime, llc.c:375-395; [force] is force_llc_lifetime. *)
Definition calc_pdu_lifetime (force delay now : Z) : Z :=
  let d := if negb (force =? 0) then force else delay in
  if d =? 0xffff then 0 else now + d * 10000000.

(** How a downlink TBF that has not been acknowledged yet holds frames: the one being
    sent (m_llc) and those sent completely, latest first (tx_llc_until_first_dl_ack_rcvd);
    tbf_dl.h:88-90. *)
Record holder := mk_h { h_cur : option (frame * prio); h_sent : list (frame * prio) }.

(** schedule_next_frame, tbf_dl.cpp:539-557. A frame of length 0 leaves m_llc empty. *)
Definition schedule_next (h : holder) (q : llcq) (now hyst : Z)
  : option (holder * llcq * list (frame * prio * reason)) :=
  match h_cur h with
  | Some _ => Some (h, q, [])
  | None =>
    match dequeue q now hyst with
    | None => None
    | Some (q', r, l) =>
      let cur := match r with Some (f, p) => if f_len f =? 0 then None else Some (f, p) | None => None end in
      Some (mk_h cur (h_sent h), q', l)
    end
  end.
(** create_new_bsn when a frame is complete, tbf_dl.cpp:667-675, before the first ack. *)
Definition complete_frame (h : holder) : holder :=
  match h_cur h with
  | Some x => mk_h None (x :: h_sent h)
  | None => h
  end.
(** llc_put_dummy_frame from create_new_bsn, llc.c:50-69 and tbf_dl.cpp:645: a frame of
    [len] octets (6 to 79) is put into the empty m_llc, whose meta information was reset. *)
Definition put_dummy (h : holder) (id len : Z) : holder :=
  match h_cur h with
  | Some _ => h
  | None => mk_h (Some (mk_f id 0x43 (Z.max 6 (Z.min len 79)) 0 0, PGmm)) (h_sent h)
  end.
(** dl_tbf_copy_unacked_pdus_to_llc_queue, tbf_dl.cpp:1141-1159. *)
Definition copy_back (h : holder) (q : llcq) : llcq :=
  let q1 := match h_cur h with Some (f, p) => merge_prepend q p f | None => q end in
  fold_left (fun q x => merge_prepend q (snd x) (fst x)) (h_sent h) q1.
