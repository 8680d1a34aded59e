(** Frame numbers: /repo/src/pcu_utils.h, the frame clock and relative frame numbers in
    /repo/src/bts.cpp. *)
From Coq Require Import ZArith List Bool.
Import ListNotations.
Local Open Scope Z_scope.

(** GSM_MAX_FN = GSM_TDMA_HYPERFRAME of libosmocore: 26 * 51 * 2048. *)
Definition HYP : Z := 2715648.
Definition u32 (x : Z) : Z := x mod 2 ^ 32.
(** FN_UNSET, pcu_utils.h:26. *)
Definition FN_UNSET : Z := 4294967295.

(** next_fn, pcu_utils.h:32-35. *)
Definition next_fn (fn offset : Z) : Z := u32 (fn + offset) mod HYP.

(** rts_next_fn, pcu_utils.h:42-49. *)
Definition rts_next_fn (rts_fn block_nr : Z) : Z :=
  let fn := u32 (rts_fn + 4) in
  let fn := if block_nr mod 3 =? 2 then u32 (fn + 1) else fn in
  fn mod HYP.

(** fn2bn, pcu_utils.h:51-54. *)
Definition fn2bn (fn : Z) : Z := fn mod 52 / 4.

(** fn_valid, pcu_utils.h:56-60. *)
Definition fn_valid (fn : Z) : bool :=
  let f := fn mod 13 in (f =? 0) || (f =? 4) || (f =? 8).

(** fn_next_block, pcu_utils.h:62-68. *)
Definition fn_next_block (fn : Z) : Z :=
  let bn := fn2bn fn + 1 in
  let fn := fn - fn mod 52 in
  u32 (fn + (bn * 4 + bn / 3)) mod HYP.

(** RFN_MODULUS and fn2rfn, pcu_utils.h:83-87. *)
Definition RFN_MODULUS : Z := 42432.
Definition fn2rfn (fn : Z) : Z := fn mod RFN_MODULUS.

(** GSM_TDMA_FN_SUM / _SUB / _DIFF of libosmocore (gsm_utils.h), on 32-bit operands. *)
Definition FN_SUM (a b : Z) : Z := u32 (a + b) mod HYP.
Definition FN_SUB (a b : Z) : Z := u32 (a + HYP - b) mod HYP.
Definition FN_DIFF (a b : Z) : Z := Z.min (FN_SUB a b) (FN_SUB b a).

(** gsm0502_fncmp of libosmocore: -1 when [a] comes before [b] within half a hyperframe,
    1 when after, 0 when equal. *)
Definition fncmp (a b : Z) : Z :=
  if a =? b then 0
  else if ((a <? b) && (b - a <? HYP / 2)) || ((b <? a) && (HYP / 2 <? a - b)) then -1
  else 1.

(** RFN_THRESHOLD, bts.cpp:55. *)
Definition RFN_THRESHOLD : Z := RFN_MODULUS / 2.

(** bts_rfn_to_fn, bts.cpp:743-788; [cur] is the current frame number. [None]: the
    assertion fails. *)
Definition bts_rfn_to_fn (cur rfn : Z) : option Z :=
  if negb (rfn <? RFN_MODULUS) then None
  else if cur =? FN_UNSET then Some rfn
  else
    let cur_rfn := fn2rfn cur in
    let r := FN_SUB cur cur_rfn in
    let r :=
      if RFN_THRESHOLD <? FN_DIFF rfn cur_rfn then
        if r <? RFN_MODULUS then FN_SUB HYP (FN_SUB RFN_MODULUS r) else FN_SUB r RFN_MODULUS
      else r in
    Some (FN_SUM r rfn).

(** The frame clock of a cell: cur_fn (32-bit unsigned) and cur_blk_fn (int, -1 before
    the first block), bts.h:231-232. *)
Record bclock := mk_clk { ck_fn : Z; ck_blk : Z }.

(** bts_set_current_frame_number, bts.cpp:337-352. [None]: the assertion fails. The log
    message about a jump is left out. *)
Definition set_current_fn (c : bclock) (fn : Z) : option bclock :=
  if negb (fn <? HYP) then None else Some (mk_clk fn (ck_blk c)).

(** delta_fn, bts.cpp:354-357, on 32-bit signed integers; C's % rounds to zero. *)
Definition s32 (x : Z) : Z := (x + 2 ^ 31) mod 2 ^ 32 - 2 ^ 31.
Definition delta_fn (fn to : Z) : Z := Z.rem (fn + HYP * 3 / 2 - to) HYP - HYP / 2.

(** bts_set_current_block_frame_number, bts.cpp:359-388. The current frame number is
    converted to int (FN_UNSET becomes -1). The late-block counter is left out. *)
Definition set_block_fn (c : bclock) (fn : Z) : option bclock :=
  if (0 <=? ck_blk c) && (delta_fn fn (ck_blk c) <=? 0) then Some c
  else
    let delay := if negb (ck_fn c =? 0) then delta_fn fn (s32 (ck_fn c)) else 0 in
    let c1 := mk_clk (ck_fn c) fn in
    if (delay <? -500) || (0 <? delay) || (ck_fn c =? FN_UNSET)
    then set_current_fn c1 fn else Some c1.
