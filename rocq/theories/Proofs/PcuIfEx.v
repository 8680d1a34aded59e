(** Concrete messages over the PCU interface (C73). *)
From Coq Require Import ZArith List Bool Lia.
From Verif Require Import Model.FrameNo Model.BtsConf Model.PcuIf Spec.PcuIfSpec.
Import ListNotations.
Local Open Scope Z_scope.

Definition ex_env (log : bool) : env :=
  mk_env log false 0 (fun _ _ => 0) true true (fun _ => Some MiTmsi) (fun _ => (4000, 1500)).
(** A timeslot with training sequence 7; hopping or not, with a mobile allocation of [n] bits. *)
Definition ex_its (hop n : Z) : its := mk_its 7 hop 5 2 n [0; 0; 0; 0; 0; 0; 170; 3].
Definition ex_trx (mask hop n : Z) : itrx := mk_itrx 871 mask 0 (repeat (ex_its hop n) 8).
Definition ex_info (mask hop n lac t : Z) : info :=
  mk_info 12 983041 (repeat (ex_trx mask hop n) 8) 63 1 1 0 lac 3 101 4 1800
    t 5 6 160 5 10 4 8 2 0 [101; 0] [23000; 0] [23001; 0] [4; 0] [repeat 127 16; repeat 0 16] 1.
Definition ex_msg (nr : Z) (i : info) : list Z :=
  header INFO_IND nr ++ enc_info (repeat 3 7) (repeat 3 11) (repeat 5 3) 15 (repeat 0 4) i.
Definition ex_data (sapi len fn trx ts : Z) : data_ind :=
  mk_di sapi len (map Z.of_nat (seq 1 162)) fn 871 trx ts 0 (-70) 250 (-3) (-15).
Definition ex_dmsg (nr : Z) (m : data_ind) : list Z := header DATA_IND nr ++ enc_data m.
Definition ex_si (nr sapi len t0 t2 : Z) : list Z :=
  header DATA_IND nr ++ [sapi; len; t0; 6; t2] ++ repeat 43 159 ++ repeat 0 16.
Definition ex_app (nr len : Z) : list Z := header APP_INFO nr ++ [1; len] ++ repeat 9 162.
Definition ex_rts (nr trx ts : Z) : list Z :=
  header RTS_REQ nr ++ enc_rts [0; 0; 0] 871 (mk_rts 5 1000 trx ts 0).

Definition run_of (ds : list (list Z)) : pcu * list act :=
  match rx_all (fun _ => ex_env false) 0 (pcu0 vty0) ds with Some r => r | None => (pcu0 vty0, []) end.
Definition done_of (s : pcu) (d : list Z) : pcu :=
  match sock_read (ex_env false) s d with Done s' _ _ => s' | _ => s end.

Definition bytes (d : list Z) : bool := forallb (fun x => (0 <=? x) && (x <? 256)) d.
Lemma bytes_ok : forall d, bytes d = true -> Forall byte d.
Proof.
  intros d H. apply Forall_forall. intros x Hx. unfold bytes in H. rewrite forallb_forall in H. specialize (H x Hx).
  apply andb_prop in H. unfold byte. lia.
Qed.

Definition ex_ds : list (list Z) := [ex_msg 0 (ex_info 128 0 0 2 20)].
Lemma ex_reached : reached (fun _ => ex_env false) vty0 ex_ds (fst (run_of ex_ds)) (snd (run_of ex_ds)).
Proof. vm_compute. reflexivity. Qed.
Lemma ex_ok : forall mask hop n lac t, 0 <= lac < 65536 -> ok_info (ex_info mask hop n lac t).
Proof.
  intros mask hop n lac t H. unfold ok_info. cbn [in_version in_flags in_trx in_mcc in_mnc in_lac in_rac in_nsei in_ci in_bvci
    in_nsvci in_lport in_rport in_atype in_ip ex_info].
  unfold u32z, u16.
  repeat (first [split | lia | reflexivity]).
  all: repeat first [apply Forall_nil | apply Forall_cons | lia | reflexivity].
  all: unfold ok_itrx, ex_trx, u16, u32z; cbn [ix_arfcn ix_hl1 ix_ts];
    repeat (split; [lia || reflexivity|]); repeat first [apply Forall_nil | apply Forall_cons | reflexivity].
Qed.

Lemma memory_refuted : exists e y ds s a, reached e y ds s a /\
  (exists e' d, Forall byte d /\ no_slot d /\ ~ too_long d /\ sock_read e' s d = Fault) /\
  (exists e' d, Forall byte d /\ too_long d /\ ~ no_slot d /\ sock_read e' s d = Fault).
Proof.
  exists (fun _ => ex_env false), vty0, ex_ds, (fst (run_of ex_ds)), (snd (run_of ex_ds)).
  split; [exact ex_reached|]. split.
  - exists (ex_env false), (ex_dmsg 0 (ex_data 5 23 1000 8 0)). split; [apply bytes_ok; vm_compute; reflexivity|].
    split; [|split].
    + left. vm_compute. repeat split; try reflexivity. left. discriminate.
    + intros [_ H]. vm_compute in H. discriminate.
    + vm_compute. reflexivity.
  - exists (ex_env false), (ex_app 0 163). split; [apply bytes_ok; vm_compute; reflexivity|].
    split; [|split].
    + split; [right; reflexivity|reflexivity].
    + intros [[H _] | [H _]]; vm_compute in H; discriminate.
    + vm_compute. reflexivity.
Qed.
Lemma rts_memory_refuted : exists e y ds s a e' d, reached e y ds s a /\ Forall byte d /\
  kind d = RTS_REQ /\ sock_read e' s d = Fault.
Proof.
  exists (fun _ => ex_env false), vty0, ex_ds, (fst (run_of ex_ds)), (snd (run_of ex_ds)), (ex_env true), (ex_rts 0 8 0).
  split; [exact ex_reached|]. split; [apply bytes_ok; vm_compute; reflexivity|]. split; vm_compute; reflexivity.
Qed.
Lemma alive_refuted : exists e y ds s a, reached e y ds s a /\
  (exists e' d, Forall byte d /\ no_frame d /\ sock_read e' s d = Halt) /\
  (exists e' d, Forall byte d /\ long_ma d /\ sock_read e' s d = Halt).
Proof.
  exists (fun _ => ex_env false), vty0, ex_ds, (fst (run_of ex_ds)), (snd (run_of ex_ds)).
  split; [exact ex_reached|]. split.
  - exists (ex_env false), (ex_dmsg 0 (ex_data 5 23 2715648 0 7)). split; [apply bytes_ok; vm_compute; reflexivity|].
    split; [|vm_compute; reflexivity]. vm_compute. repeat split; try reflexivity. discriminate.
  - exists (ex_env false), (ex_msg 0 (ex_info 128 1 65 2 20)). split; [apply bytes_ok; vm_compute; reflexivity|].
    split; [|vm_compute; reflexivity]. split; [vm_compute; reflexivity|]. exists 0%nat, 7%nat.
    split; [lia|]. split; [lia|]. vm_compute. repeat split; try reflexivity. discriminate.
Qed.
(** A cell that hopped and no longer does. *)
Definition hop_ds : list (list Z) := [ex_msg 0 (ex_info 128 1 10 2 20)].
Lemma hopping_refuted : exists e y ds s a i d s' a' b', reached e y ds s a /\ ok_info i /\
  (exists nse cell rep cv ext, length nse = 7%nat /\ length cell = 11%nat /\ length rep = 3%nat /\ length ext = 4%nat /\
     d = header INFO_IND 0 ++ enc_info nse cell rep cv ext i) /\
  sock_read (e 0%nat) s d = Done s' a' 0 /\ find_bts s' 0 = Some b' /\ slots_as as_wanted i b' /\
  ~ slots_as exactly_as_wanted i b'.
Proof.
  exists (fun _ => ex_env false), vty0, hop_ds, (fst (run_of hop_ds)), (snd (run_of hop_ds)), (ex_info 128 0 0 2 20),
    (ex_msg 0 (ex_info 128 0 0 2 20)), (done_of (fst (run_of hop_ds)) (ex_msg 0 (ex_info 128 0 0 2 20))), [].
  eexists. split; [vm_compute; reflexivity|]. split; [apply ex_ok; lia|].
  split; [exists (repeat 3 7), (repeat 3 11), (repeat 5 3), 15, (repeat 0 4); repeat split|].
  split; [vm_compute; reflexivity|]. split; [vm_compute; reflexivity|]. split.
  - intros x t Hx Ht.
    do 8 (destruct x as [|x]; [do 8 (destruct t as [|t];
      [eexists; eexists; eexists; split; [reflexivity|]; split; [reflexivity|]; split; [reflexivity|];
       split; [reflexivity | first [discriminate | intros _; split; [reflexivity | intros C; exfalso; apply C; reflexivity]]]|]); lia|]). lia.
  - intros H. destruct (H 0%nat 7%nat ltac:(lia) ltac:(lia)) as (xi & it & p & H1 & H2 & H3 & [_ H4]).
    cbn in H1. injection H1 as <-. cbn in H2. injection H2 as <-. cbn in H3. injection H3 as <-.
    specialize (H4 eq_refl eq_refl). discriminate.
Qed.
(** The identity the SGSN knows stays the one of the first INFO.ind. *)
Lemma sgsn_refuted : exists e y ds s a b g, reached e y ds s a /\ find_bts s 0 = Some b /\ b_active b = true /\
  s_bssgp s = Some g /\ g_bts g = 0 /\ g_id g <> b_cgi b.
Proof.
  set (ds := [ex_msg 0 (ex_info 128 0 0 2 20); ex_msg 0 (ex_info 128 0 0 9 20)]).
  exists (fun _ => ex_env false), vty0, ds, (fst (run_of ds)), (snd (run_of ds)). eexists. eexists.
  split; [vm_compute; reflexivity|]. split; [vm_compute; reflexivity|]. split; [reflexivity|].
  split; [vm_compute; reflexivity|]. split; [reflexivity|]. vm_compute. discriminate.
Qed.
(** A message of four octets about another cell, not configured yet, resets the timers of this one. *)
Lemma timers_refuted : exists e y ds s a e' d s' a' rc, reached e y ds s a /\ Forall byte d /\
  find_bts s 0 <> None /\ cell_nr d <> 0 /\ sock_read e' s d = Done s' a' rc /\ s_t s' <> s_t s.
Proof.
  set (ds := [ex_msg 0 (ex_info 128 0 0 2 33)]).
  exists (fun _ => ex_env false), vty0, ds, (fst (run_of ds)), (snd (run_of ds)), (ex_env false), (header 83 1).
  exists (done_of (fst (run_of ds)) (header 83 1)), [], 0.
  split; [vm_compute; reflexivity|]. split; [apply bytes_ok; reflexivity|]. split; [vm_compute; discriminate|].
  split; [vm_compute; discriminate|]. split; [vm_compute; reflexivity|]. vm_compute. discriminate.
Qed.
