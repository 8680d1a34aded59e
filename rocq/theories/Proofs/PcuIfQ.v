(** More proofs about the PCU interface (C73): messages by position, what they do. *)
From Coq Require Import ZArith List Bool Lia.
From Verif Require Import Model.FrameNo Model.BtsConf Model.PcuIf Spec.PcuIfSpec.
Import ListNotations.
Local Open Scope Z_scope.

(** ** Messages by position *)
Lemma nth_skipn : forall A n k (l : list A) d, nth k (skipn n l) d = nth (n + k) l d.
Proof. induction n; intros k [|x l] d; cbn [skipn Nat.add nth]; try reflexivity; [now destruct k | apply IHn]. Qed.
Lemma skipn_add : forall A n k (l : list A), skipn k (skipn n l) = skipn (n + k) l.
Proof. induction n; intros k [|x l]; cbn [skipn Nat.add]; try reflexivity; [now rewrite skipn_nil | apply IHn]. Qed.
Lemma octet_at : forall n l, (n < length l)%nat -> octet (skipn n l) = Some (nth n l 0, skipn (S n) l).
Proof.
  induction n; intros [|x l] Hl; cbn in Hl; try lia; [reflexivity|].
  cbn [skipn nth]. rewrite IHn by lia. reflexivity.
Qed.
Lemma times_at : forall A (m : reader A) (f : nat -> A) w l,
  (forall n, (n + w <= length l)%nat -> m (skipn n l) = Some (f n, skipn (n + w) l)) ->
  forall k n, (n + w * k <= length l)%nat ->
    times k m (skipn n l) = Some (map (fun j => f (n + w * j)%nat) (seq 0 k), skipn (n + w * k) l).
Proof.
  intros A m f w l Hm. induction k as [|k IH]; intros n Hn.
  - cbn [times seq map]. unfold ret. rewrite Nat.mul_0_r, Nat.add_0_r. reflexivity.
  - cbn [times]. unfold bind at 1. rewrite Hm by lia. unfold bind. rewrite IH by lia. unfold ret.
    f_equal. f_equal.
    + cbn [seq map]. rewrite Nat.mul_0_r, Nat.add_0_r. f_equal.
      rewrite <- seq_shift, map_map. apply map_ext. intros j. f_equal. lia.
    + f_equal. lia.
Qed.
Lemma octets_at_n : forall k n l, (n + k <= length l)%nat ->
  times k octet (skipn n l) = Some (map (fun j => nth (n + j) l 0) (seq 0 k), skipn (n + k) l).
Proof.
  intros k n l Hl. rewrite (times_at Z octet (fun n => nth n l 0) 1 l).
  - f_equal. f_equal; [apply map_ext; intros j|]; f_equal; lia.
  - intros m Hm. rewrite octet_at by lia. do 2 f_equal. f_equal. lia.
  - lia.
Qed.
Definition at_num (k n : nat) (l : list Z) : Z := le (map (fun j => nth (n + j) l 0) (seq 0 k)).
Lemma num_at : forall k n l, (n + k <= length l)%nat ->
  num k (skipn n l) = Some (at_num k n l, skipn (n + k) l).
Proof. intros k n l Hl. unfold num, bind. rewrite octets_at_n by lia. reflexivity. Qed.
Lemma be_at : forall n l, (n + 2 <= length l)%nat ->
  be16 (skipn n l) = Some (256 * nth n l 0 + nth (S n) l 0, skipn (n + 2) l).
Proof.
  intros n l Hl. unfold be16, bind. rewrite octet_at by lia. rewrite octet_at by lia. unfold ret.
  do 2 f_equal. f_equal. lia.
Qed.
Lemma bind_at : forall A B (m : reader A) (k : A -> reader B) l a r,
  m l = Some (a, r) -> bind m k l = k a r.
Proof. intros A B m k l a r H. unfold bind. now rewrite H. Qed.
Definition span (n k : nat) (l : list Z) : list Z := map (fun j => nth (n + j) l 0) (seq 0 k).

Ltac go tac := erewrite bind_at; [| tac; cbn [length] in *; lia]; cbn [Nat.add].
Ltac go1 := go ltac:(apply octet_at).
Ltac gon := go ltac:(apply num_at).
Ltac gos := go ltac:(apply octets_at_n).
Ltac gob := go ltac:(apply be_at).

Definition pos_data (l : list Z) : data_ind :=
  mk_di (nth 0 l 0) (nth 1 l 0) (span 2 162 l) (at_num 4 164 l) (at_num 2 168 l) (nth 170 l 0) (nth 171 l 0)
        (nth 172 l 0) (signed 8 (nth 173 l 0)) (at_num 2 174 l) (signed 16 (at_num 2 176 l)) (signed 16 (at_num 2 178 l)).
Lemma data_at : forall l, (180 <= length l)%nat -> rd_data l = Some (pos_data l, skipn 180 l).
Proof.
  intros l Hl. unfold rd_data. change l with (skipn 0 l) at 1.
  do 2 go1. gos. do 2 gon. do 4 go1. do 3 gon. reflexivity.
Qed.
Lemma cnf_at : forall l, (5 <= length l)%nat -> rd_cnf l = Some ((nth 0 l 0, at_num 4 1 l), skipn 5 l).
Proof. intros l Hl. unfold rd_cnf. change l with (skipn 0 l) at 1. go1. gon. reflexivity. Qed.
Definition pos_rts (l : list Z) : rts_req :=
  mk_rts (nth 0 l 0) (at_num 4 4 l) (nth 10 l 0) (nth 11 l 0) (nth 12 l 0).
Lemma rts_at : forall l, (13 <= length l)%nat -> rd_rts l = Some (pos_rts l, skipn 13 l).
Proof.
  intros l Hl. unfold rd_rts. change l with (skipn 0 l) at 1. go1. gos. do 2 gon. do 3 go1. reflexivity.
Qed.
Definition pos_rach (l : list Z) : rach_ind :=
  mk_ri (nth 0 l 0) (at_num 2 1 l) (signed 16 (at_num 2 3 l)) (at_num 4 5 l) (nth 11 l 0) (nth 12 l 0)
        (nth 13 l 0) (nth 14 l 0).
Lemma rach_at : forall l, (15 <= length l)%nat -> rd_rach l = Some (pos_rach l, skipn 15 l).
Proof.
  intros l Hl. unfold rd_rach. change l with (skipn 0 l) at 1. go1. do 4 gon. do 4 go1. reflexivity.
Qed.
Definition pos_its (l : list Z) (n : nat) : its :=
  mk_its (nth n l 0) (nth (n + 1) l 0) (nth (n + 2) l 0) (nth (n + 3) l 0) (nth (n + 4) l 0) (span (n + 5) 8 l).
Lemma its_at : forall l n, (n + 13 <= length l)%nat -> rd_its (skipn n l) = Some (pos_its l n, skipn (n + 13) l).
Proof.
  intros l n Hl. unfold rd_its.
  do 5 (erewrite bind_at; [| apply octet_at; lia]).
  erewrite bind_at; [| apply octets_at_n; lia].
  unfold pos_its, span, ret.
  repeat match goal with |- context [S (S (S (S (S n))))] => replace (S (S (S (S (S n))))) with (n + 5)%nat by lia end.
  replace (S n) with (n + 1)%nat by lia. replace (S (n + 1)) with (n + 2)%nat by lia.
  replace (S (n + 2)) with (n + 3)%nat by lia. replace (S (n + 3)) with (n + 4)%nat by lia.
  replace (n + 5 + 8)%nat with (n + 13)%nat by lia. reflexivity.
Qed.
Definition pos_itrx (l : list Z) (n : nat) : itrx :=
  mk_itrx (at_num 2 n l) (nth (n + 2) l 0) (at_num 4 (n + 4) l)
          (map (fun j => pos_its l (n + 8 + 13 * j)) (seq 0 8)).
Lemma itrx_at : forall l n, (n + 112 <= length l)%nat -> rd_itrx (skipn n l) = Some (pos_itrx l n, skipn (n + 112) l).
Proof.
  intros l n Hl. unfold rd_itrx.
  erewrite bind_at; [| apply num_at; lia].
  do 2 (erewrite bind_at; [| apply octet_at; lia]).
  replace (S (S (n + 2))) with (n + 4)%nat by lia.
  erewrite bind_at; [| apply num_at; lia].
  replace (n + 4 + 4)%nat with (n + 8)%nat by lia.
  erewrite bind_at; [| apply (times_at _ rd_its (pos_its l) 13 l); [intros; now apply its_at | lia]].
  unfold ret, pos_itrx. do 2 f_equal. f_equal. lia.
Qed.
Definition pos_info (l : list Z) : info :=
  mk_info (at_num 4 0 l) (at_num 4 4 l) (map (fun j => pos_itrx l (8 + 112 * j)) (seq 0 8)) (nth 904 l 0)
    (at_num 2 905 l) (at_num 2 907 l) (nth 909 l 0) (at_num 2 910 l) (at_num 2 912 l) (at_num 2 914 l)
    (at_num 2 934 l) (at_num 2 939 l)
    (nth 941 l 0) (nth 942 l 0) (nth 943 l 0) (nth 944 l 0) (nth 945 l 0)
    (nth 946 l 0) (nth 947 l 0) (nth 948 l 0) (nth 954 l 0) (nth 955 l 0)
    (map (fun j => at_num 2 (956 + 2 * j) l) (seq 0 2)) (map (fun j => at_num 2 (960 + 2 * j) l) (seq 0 2))
    (map (fun j => at_num 2 (964 + 2 * j) l) (seq 0 2)) (span 968 2 l)
    (map (fun j => span (970 + 16 * j) 16 l) (seq 0 2)) (nth 1002 l 0).
Lemma info_at : forall l, (1003 <= length l)%nat -> exists r, rd_info l = Some (pos_info l, r).
Proof.
  intros l Hl. unfold rd_info. change l with (skipn 0 l) at 1. do 2 gon.
  erewrite bind_at; [| apply (times_at _ rd_itrx (pos_itrx l) 112 l); [intros; now apply itrx_at | lia]].
  change (8 + 112 * 8)%nat with 904%nat.
  go1. do 2 gon. go1. do 3 gon. do 2 gos. do 2 gon. go1. gon. do 9 go1. do 2 gon. do 2 go1.
  do 3 (erewrite bind_at; [| apply (times_at _ (num 2) (fun n => at_num 2 n l) 2 l); [intros; apply num_at; lia | lia]]; cbn [Nat.add Nat.mul]).
  gos.
  erewrite bind_at; [| apply (times_at _ (times 16 octet) (fun n => span n 16 l) 16 l); [intros; apply octets_at_n; lia | lia]].
  change (970 + 16 * 2)%nat with 1002%nat.
  go1. eexists. reflexivity.
Qed.
Lemma e1_at : forall l, (5 <= length l)%nat -> rd_e1 l = Some (span 0 5 l, skipn 5 l).
Proof. intros l Hl. unfold rd_e1. change l with (skipn 0 l) at 1. now rewrite octets_at_n by lia. Qed.
Lemma time_at : forall l, (4 <= length l)%nat -> rd_time l = Some (at_num 4 0 l, skipn 4 l).
Proof. intros l Hl. unfold rd_time. change l with (skipn 0 l) at 1. now rewrite num_at by lia. Qed.
Lemma pag_at : forall l, (11 <= length l)%nat -> rd_pag l = Some ((nth 1 l 0, span 2 9 l), skipn 11 l).
Proof. intros l Hl. unfold rd_pag. change l with (skipn 0 l) at 1. do 2 go1. gos. reflexivity. Qed.
Lemma app_at : forall l, (2 <= length l)%nat -> rd_app l = Some ((nth 0 l 0, nth 1 l 0), skipn 2 l).
Proof. intros l Hl. unfold rd_app. change l with (skipn 0 l) at 1. do 2 go1. reflexivity. Qed.
Lemma susp_at : forall l, (11 <= length l)%nat -> rd_susp l = Some ((at_num 4 0 l, span 4 6 l), skipn 11 l).
Proof. intros l Hl. unfold rd_susp. change l with (skipn 0 l) at 1. gon. gos. go1. reflexivity. Qed.
Lemma cont_at : forall l, (4 <= length l)%nat -> rd_cont l = Some ((nth 0 l 0, 256 * nth 2 l 0 + nth 3 l 0), skipn 4 l).
Proof. intros l Hl. unfold rd_cont. change l with (skipn 0 l) at 1. do 2 go1. gob. reflexivity. Qed.
Lemma naddr_at : forall l, (18 <= length l)%nat -> exists n r, rd_naddr l = Some (n, r).
Proof.
  intros l Hl. unfold rd_naddr. change l with (skipn 0 l) at 1.
  do 3 gob. do 2 go1. do 2 gob. go1. gob. go1. gob. do 2 eexists. reflexivity.
Qed.

(** A message of sufficient size is taken apart; a shorter one is refused. *)
Lemma sized_at : forall A size (m : reader A) (f : list Z -> A) s raw k,
  (forall l, (Z.to_nat size <= length l)%nat -> exists r, m l = Some (f l, r)) -> 0 <= size ->
  sized size m s raw k = if Z.of_nat (length raw) <? size then Done s [] EINVAL else k (f raw).
Proof.
  intros A size m f s raw k Hm Hs. unfold sized.
  replace (HDR + Z.of_nat (length raw) <? HDR + size) with (Z.of_nat (length raw) <? size)
    by (destruct (Z.ltb_spec (Z.of_nat (length raw)) size), (Z.ltb_spec (HDR + Z.of_nat (length raw)) (HDR + size)); lia).
  destruct (Z.ltb_spec (Z.of_nat (length raw)) size) as [L|L]; [reflexivity|].
  destruct (Hm raw) as [r E]; [lia|]. now rewrite E.
Qed.

(** The dispatch without the readers. *)
Definition short (raw : list Z) (n : Z) : bool := Z.of_nat (length raw) <? n.
Definition disp (e : env) (s : pcu) (b : bts) (ty : Z) (raw : list Z) : outcome :=
  if ty =? 2 then if short raw 180 then Done s [] EINVAL else rx_data e s b (pos_data raw) raw
  else if ty =? 17 then if short raw 5 then Done s [] EINVAL else rx_cnf s b (nth 0 raw 0, at_num 4 1 raw)
  else if ty =? 16 then if short raw 13 then Done s [] EINVAL else rx_rts e s b (pos_rts raw)
  else if ty =? 34 then if short raw 15 then Done s [] EINVAL else rx_rach e s b (pos_rach raw)
  else if ty =? 50 then if short raw 1003 then Done s [] EINVAL else rx_info e s b (pos_info raw)
  else if ty =? 51 then if short raw 5 then Done s [] EINVAL else rx_e1 s b (span 0 5 raw)
  else if ty =? 82 then if short raw 4 then Done s [] EINVAL else Done s [] 0
  else if ty =? 96 then if short raw 11 then Done s [] EINVAL else rx_pag e s b (nth 1 raw 0, span 2 9 raw)
  else if ty =? 3 then if short raw 11 then Done s [] EINVAL else rx_susp e s b (at_num 4 0 raw, span 4 6 raw)
  else if ty =? 4 then if short raw 164 then Done s [] EINVAL else rx_app e s b (nth 0 raw 0, nth 1 raw 0) raw
  else if ty =? 83 then Done s [] 0
  else if ty =? 128 then
    if short raw 4 then Done s [] EINVAL
    else if HDR + Z.of_nat (length raw) <? HDR + SZ_CONT + (256 * nth 2 raw 0 + nth 3 raw 0) then Done s [] EINVAL
    else rx_cont s b (nth 0 raw 0, 256 * nth 2 raw 0 + nth 3 raw 0) raw
  else Done s [] EINVAL.
Definition have_bts (s : pcu) (nr : Z) : pcu * bts :=
  match find_bts s nr with
  | Some b => (s, b)
  | None => (mk_pcu (s_bts s ++ [new_bts nr]) tdefs0 (s_bssgp s) (s_e1 s) (s_vty s), new_bts nr)
  end.
Lemma rx_disp : forall e s ty nr raw,
  rx e s ty nr raw = disp e (fst (have_bts s nr)) (snd (have_bts s nr)) ty raw.
Proof.
  intros e s ty nr raw. unfold rx, disp. fold (have_bts s nr). destruct (have_bts s nr) as [s1 b]. cbn [fst snd].
  unfold short.
  rewrite (sized_at _ SZ_DATA rd_data pos_data) by
    (try (intros l Hl; eexists; apply data_at; unfold SZ_DATA in Hl; lia); unfold SZ_DATA; lia).
  rewrite (sized_at _ SZ_CNF rd_cnf (fun l => (nth 0 l 0, at_num 4 1 l))) by
    (try (intros l Hl; eexists; apply cnf_at; unfold SZ_CNF in Hl; lia); unfold SZ_CNF; lia).
  rewrite (sized_at _ SZ_RTS rd_rts pos_rts) by
    (try (intros l Hl; eexists; apply rts_at; unfold SZ_RTS in Hl; lia); unfold SZ_RTS; lia).
  rewrite (sized_at _ SZ_RACH rd_rach pos_rach) by
    (try (intros l Hl; eexists; apply rach_at; unfold SZ_RACH in Hl; lia); unfold SZ_RACH; lia).
  rewrite (sized_at _ SZ_INFO rd_info pos_info) by
    (try (intros l Hl; apply info_at; unfold SZ_INFO in Hl; lia); unfold SZ_INFO; lia).
  rewrite (sized_at _ SZ_E1 rd_e1 (span 0 5)) by
    (try (intros l Hl; eexists; apply e1_at; unfold SZ_E1 in Hl; lia); unfold SZ_E1; lia).
  rewrite (sized_at _ SZ_TIME rd_time (at_num 4 0)) by
    (try (intros l Hl; eexists; apply time_at; unfold SZ_TIME in Hl; lia); unfold SZ_TIME; lia).
  rewrite (sized_at _ SZ_PAG rd_pag (fun l => (nth 1 l 0, span 2 9 l))) by
    (try (intros l Hl; eexists; apply pag_at; unfold SZ_PAG in Hl; lia); unfold SZ_PAG; lia).
  rewrite (sized_at _ SZ_SUSP rd_susp (fun l => (at_num 4 0 l, span 4 6 l))) by
    (try (intros l Hl; eexists; apply susp_at; unfold SZ_SUSP in Hl; lia); unfold SZ_SUSP; lia).
  rewrite (sized_at _ SZ_APP rd_app (fun l => (nth 0 l 0, nth 1 l 0))) by
    (try (intros l Hl; eexists; apply app_at; unfold SZ_APP in Hl; lia); unfold SZ_APP; lia).
  rewrite (sized_at _ SZ_CONT rd_cont (fun l => (nth 0 l 0, 256 * nth 2 l 0 + nth 3 l 0))) by
    (try (intros l Hl; eexists; apply cont_at; unfold SZ_CONT in Hl; lia); unfold SZ_CONT; lia).
  cbn [snd]. reflexivity.
Qed.
