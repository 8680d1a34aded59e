(** C73: messages from the BTS over the PCU interface. *)
From Coq Require Import ZArith List Bool Lia.
From Verif Require Import Model.FrameNo Model.BtsConf Model.PcuIf Spec.PcuIfSpec
  Proofs.PcuIfP Proofs.PcuIfR Proofs.PcuIfS Proofs.PcuIfT Proofs.PcuIfU Proofs.PcuIfV Proofs.PcuIfEx.
Import ListNotations.
Local Open Scope Z_scope.

(** Every message is taken apart as the other side put it together. *)
Theorem C73_layout_data : forall m r, ok_data m -> rd_data (enc_data m ++ r) = Some (m, r).
Proof. exact (fun m r H => layout_data m H r). Qed.
Print Assumptions C73_layout_data.
Theorem C73_layout_rts : forall spare arfcn m r, length spare = 3%nat -> u16 arfcn -> ok_rts m ->
  rd_rts (enc_rts spare arfcn m ++ r) = Some (m, r).
Proof. exact (fun spare arfcn m r L A H => layout_rts spare arfcn m L A H r). Qed.
Print Assumptions C73_layout_rts.
Theorem C73_layout_rach : forall arfcn m r, u16 arfcn -> ok_rach m -> rd_rach (enc_rach arfcn m ++ r) = Some (m, r).
Proof. exact (fun arfcn m r A H => layout_rach arfcn m A H r). Qed.
Print Assumptions C73_layout_rach.
Theorem C73_layout_info : forall nse cell rep cv ext i r,
  length nse = 7%nat -> length cell = 11%nat -> length rep = 3%nat -> length ext = 4%nat -> ok_info i ->
  rd_info (enc_info nse cell rep cv ext i ++ r) = Some (i, r).
Proof. exact (fun nse cell rep cv ext i r A B C D H => layout_info nse cell rep cv ext i A B C D H r). Qed.
Print Assumptions C73_layout_info.
Theorem C73_layout_neighbour : forall n r, ok_naddr n -> rd_naddr (enc_naddr n ++ r) = Some (n, r).
Proof. exact (fun n r H => layout_naddr n H r). Qed.
Print Assumptions C73_layout_neighbour.

(** Whatever comes over the socket, in any state: no memory outside the message or outside the cell's timeslots is
    read, but for DATA.ind and RTS.req about timeslots that do not exist and for lengths beyond the message. *)
Theorem C73_memory_partial : forall e y ds s a e' d, reached e y ds s a ->
  ~ no_slot d -> ~ too_long d -> sock_read e' s d <> Fault.
Proof. exact (fun e y ds s a e' d R => read_safe e' s d (reached_wf e y ds s a R)). Qed.
Print Assumptions C73_memory_partial.
(** Those are not checked for. *)
Theorem C73_memory_refuted : exists e y ds s a, reached e y ds s a /\
  (exists e' d, Forall byte d /\ no_slot d /\ ~ too_long d /\ sock_read e' s d = Fault) /\
  (exists e' d, Forall byte d /\ too_long d /\ ~ no_slot d /\ sock_read e' s d = Fault).
Proof. exact memory_refuted. Qed.
Print Assumptions C73_memory_refuted.
(** RTS.req: when it is logged. *)
Theorem C73_memory_rts_refuted : exists e y ds s a e' d, reached e y ds s a /\ Forall byte d /\
  kind d = RTS_REQ /\ sock_read e' s d = Fault.
Proof. exact rts_memory_refuted. Qed.
Print Assumptions C73_memory_rts_refuted.

(** The process ends only when the connection is closed or on an INFO.ind; an assertion fails only on a DATA.ind with
    an impossible frame number or an INFO.ind with a mobile allocation of more than 64 bits. *)
Theorem C73_alive_partial : forall e y ds s a e' d, reached e y ds s a ->
  (forall st, sock_read e' s d = Exit st -> d = [] \/ (kind d = INFO_IND /\ 1007 <= Z.of_nat (length d))) /\
  (sock_read e' s d = Halt -> no_frame d \/ long_ma d).
Proof. exact (fun e y ds s a e' d R => read_alive e' s d (reached_wf e y ds s a R)). Qed.
Print Assumptions C73_alive_partial.
(** Those messages do end the process. *)
Theorem C73_alive_refuted : exists e y ds s a, reached e y ds s a /\
  (exists e' d, Forall byte d /\ no_frame d /\ sock_read e' s d = Halt) /\
  (exists e' d, Forall byte d /\ long_ma d /\ sock_read e' s d = Halt).
Proof. exact alive_refuted. Qed.
Print Assumptions C73_alive_refuted.

(** A message shorter than its kind needs, or of an unknown kind, is refused and changes no cell. *)
Theorem C73_short : forall e s d, d <> [] ->
  (match needed (kind d) with None => True | Some n => Z.of_nat (length d) < n end) ->
  exists s', sock_read e s d = Done s' [] EINVAL /\
    (forall m b, find_bts s m = Some b -> find_bts s' m = Some b) /\
    (forall m x t, is_on s' m x t = is_on s m x t) /\ (forall m k, si s' m k = si s m k) /\
    s_bssgp s' = s_bssgp s /\ s_e1 s' = s_e1 s.
Proof. exact read_short. Qed.
Print Assumptions C73_short.

(** A message about one cell leaves all others as they are, and starts nothing for them. *)
Theorem C73_others : forall e y ds s a e' d s' a' rc, reached e y ds s a -> sock_read e' s d = Done s' a' rc ->
  (forall m, m <> cell_nr d -> find_bts s' m = find_bts s m) /\ Forall (about (cell_nr d)) a'.
Proof.
  exact (fun e y ds s a e' d s' a' rc R E =>
    match read_step e' s d s' a' rc (reached_wf e y ds s a R) E with
    | conj _ (conj A (conj Ot _)) => conj Ot A end).
Qed.
Print Assumptions C73_others.
(** Except for the timers, which all cells share. *)
Theorem C73_timers_refuted : exists e y ds s a e' d s' a' rc, reached e y ds s a /\ Forall byte d /\
  find_bts s 0 <> None /\ cell_nr d <> 0 /\ sock_read e' s d = Done s' a' rc /\ s_t s' <> s_t s.
Proof. exact timers_refuted. Qed.
Print Assumptions C73_timers_refuted.

(** After any history the timeslots the PCU takes to be in use are those it has last asked the BTS to activate. *)
Theorem C73_activation : forall e y ds s a, reached e y ds s a ->
  forall nr x t, 0 <= x -> 0 <= t -> told a nr x t = is_on s nr x t.
Proof. exact activation. Qed.
Print Assumptions C73_activation.
(** Blocks, requests to send and timing advance bursts of other timeslots start nothing. *)
Theorem C73_in_use : forall e s d s' a rc x nr trx ts, sock_read e s d = Done s' a rc -> In x a ->
  uses x = Some (nr, trx, ts) -> is_on s nr trx ts = true.
Proof. exact read_uses. Qed.
Print Assumptions C73_in_use.

(** A block received on a timeslot in use is processed with exactly its octets and measurements; the clock of the cell
    is set. *)
Theorem C73_block : forall e y ds s a e' m nr, reached e y ds s a -> ok_data m -> di_sapi m = 5 ->
  di_len m <= 162 -> di_fn m < HYP -> is_on s nr (di_trx m) (di_ts m) = true ->
  exists s' a' b', sock_read e' s (header DATA_IND nr ++ enc_data m) = Done s' (ABlock nr (di_trx m) (di_ts m)
      (firstn (Z.to_nat (di_len m)) (di_data m)) (di_fn m) (di_rssi m) (Z.quot (di_ber m) 100) (di_ta m)
      (Z.quot (di_lqual m) 10) :: a') (e_rc e') /\
    (forall x, In x a' -> exists o, x = ATap o) /\
    find_bts s' nr = Some b' /\ b_fn b' = di_fn m.
Proof. exact (fun e y ds s a e' m nr R => block e' s m nr (reached_wf e y ds s a R)). Qed.
Print Assumptions C73_block.
(** A request to send reaches the scheduler exactly if the timeslot is in use. *)
Theorem C73_request : forall e y ds s a e' sp ar m nr, reached e y ds s a -> length sp = 3%nat -> u16 ar -> ok_rts m ->
  rt_sapi m = 5 -> 0 <= rt_trx m < 8 -> 0 <= rt_ts m < 8 -> find_bts s nr <> None ->
  sock_read e' s (header RTS_REQ nr ++ enc_rts sp ar m) =
  Done s (if is_on s nr (rt_trx m) (rt_ts m) then [ARts nr (rt_trx m) (rt_ts m) (rt_fn m) (rt_blk m)] else []) 0.
Proof. exact (fun e y ds s a e' sp ar m nr R => request e' s sp ar m nr (reached_wf e y ds s a R)). Qed.
Print Assumptions C73_request.

(** An access burst less than half a cycle of the frame numbers old is handed on with all its values and the frame it
    was received in; one with an impossible frame number starts nothing. *)
Theorem C73_access : forall e s ar m nr b a, u16 ar -> ok_rach m -> find_bts s nr = Some b -> ri_sapi m = 1 ->
  0 <= b_fn b < HYP -> 0 <= a < 21216 -> ri_fn m = (b_fn b - a) mod HYP ->
  sock_read e s (header RACH_IND nr ++ enc_rach ar m) =
  Done s [ARach nr (ri_burst m) (0 <? ri_11 m) (ri_ra m) (ri_trx m) (ri_ts m) (ri_fn m mod 42432) (ri_fn m) (ri_qta m)] (e_rc e).
Proof. exact access. Qed.
Print Assumptions C73_access.
Theorem C73_access_no_frame : forall e s ar m nr, u16 ar -> ok_rach m -> find_bts s nr <> None -> HYP <= ri_fn m ->
  sock_read e s (header RACH_IND nr ++ enc_rach ar m) = Done s [] EINVAL.
Proof. exact access_no_frame. Qed.
Print Assumptions C73_access_no_frame.

(** The system information kept of a cell is the last one announced and not taken back. *)
Theorem C73_si : forall e s d s' a rc k, known k -> sock_read e s d = Done s' a rc ->
  si s' (cell_nr d) k = si_after d k (si s (cell_nr d) k).
Proof. exact read_si. Qed.
Print Assumptions C73_si.

(** An INFO.ind is put into effect: identity, timeslots with their training sequence and hopping parameters, channel
    numbers, timers and counters; the first one is announced to the SGSN. *)
Theorem C73_info_partial : forall e y ds s a e' i nr nse cell rep cv ext, reached e y ds s a ->
  length nse = 7%nat -> length cell = 11%nat -> length rep = 3%nat -> length ext = 4%nat -> ok_info i ->
  in_version i = 12 -> Z.testbit (in_flags i) 0 = true -> Z.testbit (in_flags i) 1 = false -> short_ma i ->
  In 4 (in_atype i) \/ In 41 (in_atype i) -> e_ns e' = true -> e_bssgp e' = true ->
  exists s' a' b', sock_read e' s (header INFO_IND nr ++ enc_info nse cell rep cv ext i) = Done s' a' 0 /\
    find_bts s' nr = Some b' /\ b_active b' = true /\ b_bsic b' = in_bsic i /\
    b_cgi b' = mk_cgi (in_mcc i) (in_mnc i) (flag (in_mnc3 i)) (in_lac i) (in_rac i mod 256) (in_ci i) /\
    slots_as as_wanted i b' /\
    (forall x xi, nth_error (in_trx i) x = Some xi -> exists xb, nth_error (b_trx b') x = Some xb /\ x_arfcn xb = ix_arfcn xi) /\
    (in_t3142 i <> 0 ->
       t_3142 (s_t s') = in_t3142 i /\ t_3169 (s_t s') = in_t3169 i /\ t_3191 (s_t s') = in_t3191 i /\
       t_3193 (s_t s') = in_t3193 i * 10 /\ t_3195 (s_t s') = in_t3195 i /\
       b_n3101 b' = in_n3101 i /\ b_n3103 b' = in_n3103 i /\ b_n3105 b' = in_n3105 i) /\
    (s_bssgp s = None ->
       s_bssgp s' = Some (mk_bg nr (in_bvci i) (in_nsei i) (b_cgi b'))) /\
    s_bssgp s' <> None.
Proof. exact (fun e y ds s a e' i nr nse cell rep cv ext R => info_taken e' s i nr nse cell rep cv ext (reached_wf e y ds s a R)). Qed.
Print Assumptions C73_info_partial.
(** But a timeslot that hopped goes on hopping when a later INFO.ind says that it does not. *)
Theorem C73_hopping_refuted : exists e y ds s a i d s' a' b', reached e y ds s a /\ ok_info i /\
  (exists nse cell rep cv ext, length nse = 7%nat /\ length cell = 11%nat /\ length rep = 3%nat /\ length ext = 4%nat /\
     d = header INFO_IND 0 ++ enc_info nse cell rep cv ext i) /\
  sock_read (e 0%nat) s d = Done s' a' 0 /\ find_bts s' 0 = Some b' /\ slots_as as_wanted i b' /\
  ~ slots_as exactly_as_wanted i b'.
Proof. exact hopping_refuted. Qed.
Print Assumptions C73_hopping_refuted.
(** And what the SGSN is told stays as in the first INFO.ind. *)
Theorem C73_sgsn_refuted : exists e y ds s a b g, reached e y ds s a /\ find_bts s 0 = Some b /\ b_active b = true /\
  s_bssgp s = Some g /\ g_bts g = 0 /\ g_id g <> b_cgi b.
Proof. exact sgsn_refuted. Qed.
Print Assumptions C73_sgsn_refuted.

(** A cell of eight TRXs with timeslot 7 in use. *)
Example C73_ex_reached : reached (fun _ => ex_env false) vty0 ex_ds (fst (run_of ex_ds)) (snd (run_of ex_ds)) /\
  is_on (fst (run_of ex_ds)) 0 0 7 = true /\ is_on (fst (run_of ex_ds)) 0 0 6 = false /\
  told (snd (run_of ex_ds)) 0 3 7 = true.
Proof. split; [exact ex_reached|]. repeat split; vm_compute; reflexivity. Qed.
Example C73_ex_info : ok_info (ex_info 128 1 10 2 20) /\ short_ma (ex_info 128 1 10 2 20).
Proof.
  split; [apply ex_ok; lia|]. intros j xi k t H1 H2 _. cbn [in_trx ex_info] in H1.
  apply nth_error_In, repeat_spec in H1. subst xi. cbn [ix_ts ex_trx] in H2. apply nth_error_In, repeat_spec in H2.
  subst t. cbn. lia.
Qed.
Example C73_ex_block : ok_data (ex_data 5 23 1000 0 7) /\
  (exists s' b, sock_read (ex_env true) (fst (run_of ex_ds)) (ex_dmsg 0 (ex_data 5 23 1000 0 7)) =
     Done s' [ABlock 0 0 7 (map Z.of_nat (seq 1 23)) 1000 (-70) 2 (-3) (-1)] 0 /\ find_bts s' 0 = Some b /\ b_fn b = 1000) /\
  ~ no_slot (ex_dmsg 0 (ex_data 5 23 1000 0 7)) /\ ~ too_long (ex_dmsg 0 (ex_data 5 23 1000 0 7)) /\
  ~ no_frame (ex_dmsg 0 (ex_data 5 23 1000 0 7)).
Proof.
  split; [unfold ok_data, u8, byte, u16, u32z, i8, i16; cbn; repeat split; lia|]. split.
  - eexists. eexists. split; [vm_compute; reflexivity|]. split; vm_compute; reflexivity.
  - split; [|split].
    + intros [(_ & _ & [H|H]) | (H & _)]; vm_compute in H; try discriminate; now apply H.
    + intros (_ & H). vm_compute in H. discriminate.
    + intros (_ & _ & H). vm_compute in H. now apply H.
Qed.
(** SI 3 announced and taken back; SI 13 is not touched. *)
Example C73_ex_si :
  let s1 := done_of (fst (run_of ex_ds)) (ex_si 0 4 23 73 0) in
  let s2 := done_of s1 (ex_si 0 4 23 73 27) in
  let s3 := done_of s2 (ex_si 0 4 1 3 0) in
  si s1 0 13 <> None /\ si s2 0 3 = Some (73 :: 6 :: 27 :: repeat 43 20) /\ si s3 0 3 = None /\ si s3 0 13 = si s1 0 13.
Proof. repeat split; vm_compute; try discriminate; reflexivity. Qed.
(** An access burst of frame 995 when the clock shows 1000. *)
Example C73_ex_access :
  let s := done_of (fst (run_of ex_ds)) (ex_dmsg 0 (ex_data 5 23 1000 0 7)) in
  option_map b_fn (find_bts s 0) = Some 1000 /\
  sock_read (ex_env true) s (header RACH_IND 0 ++ enc_rach 871 (mk_ri 1 120 12 995 0 0 0 0)) =
    Done s [ARach 0 0 false 120 0 0 995 995 12] 0 /\
  sock_read (ex_env true) s (header RACH_IND 0 ++ enc_rach 871 (mk_ri 1 120 12 2715648 0 0 0 0)) = Done s [] EINVAL.
Proof. repeat split; vm_compute; reflexivity. Qed.
