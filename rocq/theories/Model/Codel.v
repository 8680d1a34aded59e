(** CoDel queue management: /repo/src/gprs_codel.c. Times are integers, in nanoseconds
    (struct timespec values are normalised; the timespec macros are then exact). *)
From Coq Require Import ZArith List Bool.
Import ListNotations.
Local Open Scope Z_scope.

Definition u32 (x : Z) : Z := x mod 2 ^ 32.

(** struct gprs_codel, gprs_codel.h:36-44. A time of 0 is "not set". *)
Record codel := mk_cd {
  cd_dropping : bool; cd_count : Z; cd_first_above : Z; cd_drop_next : Z;
  cd_target : Z; cd_interval : Z; cd_maxpacket : Z }.

(** inv_sqrt_tab, gprs_codel.c:30-46. *)
Definition inv_sqrt_tab : list Z := [255;
  255; 181; 147; 128; 114; 104; 96; 90; 85; 80; 77; 73; 71; 68;
  66; 64; 62; 60; 58; 57; 55; 54; 53; 52; 51; 50; 49; 48; 47; 46;
  45; 45; 44; 43; 43; 42; 42; 41; 40; 40; 39; 39; 39; 38; 38; 37;
  37; 36; 36; 36; 35; 35; 35; 34; 34; 34; 33; 33; 33; 33; 32; 32;
  32; 32; 31; 31; 31; 31; 30; 30; 30; 30; 29; 29; 29; 29; 29; 28;
  28; 28; 28; 28; 28; 27; 27; 27; 27; 27; 27; 26; 26; 26; 26; 26;
  26; 26; 25; 25; 25; 25; 25; 25; 25; 25; 24; 24; 24; 24; 24; 24;
  24; 24; 24; 23; 23; 23; 23; 23; 23; 23; 23; 23; 23; 22; 22; 22;
  22; 22; 22; 22; 22; 22; 22; 22; 22; 21; 21; 21; 21; 21; 21; 21;
  21; 21; 21; 21; 21; 21; 20; 20; 20; 20; 20; 20; 20; 20; 20; 20;
  20; 20; 20; 20; 20; 19; 19; 19; 19; 19; 19; 19; 19; 19; 19; 19;
  19; 19; 19; 19; 19; 19; 19; 18; 18; 18; 18; 18; 18; 18; 18; 18;
  18; 18; 18; 18; 18; 18; 18; 18; 18; 18; 18; 18; 17; 17; 17; 17;
  17; 17; 17; 17; 17; 17; 17; 17; 17; 17; 17; 17; 17; 17; 17; 17;
  17; 17; 17; 17].
Definition tab_size : Z := Z.of_nat (length inv_sqrt_tab).
Definition inv_sqrt (count : Z) : Z :=
  if tab_size <=? count then 16 else nth (Z.to_nat count) inv_sqrt_tab 16.

(** control_law, gprs_codel.c:27-63: the time to the next drop. The product fits the
    32-bit type for the intervals that can be configured (up to 10 s). *)
Definition control_law (s : codel) : Z :=
  (cd_interval s / 1000) * inv_sqrt (cd_count s) / 256 * 1000.

(** gprs_codel_set_interval, gprs_codel.c:74-89, and gprs_codel_set_maxpacket, 91-98. *)
Definition codel_set_interval (s : codel) (ms : Z) : codel :=
  let ms := if ms <=? 0 then 100 else ms in
  mk_cd (cd_dropping s) (cd_count s) (cd_first_above s) (cd_drop_next s)
        (Z.quot (ms * 13) 256 * 1000000) (ms * 1000000) (cd_maxpacket s).
Definition codel_set_maxpacket (s : codel) (n : Z) : codel :=
  mk_cd (cd_dropping s) (cd_count s) (cd_first_above s) (cd_drop_next s)
        (cd_target s) (cd_interval s) (if n <? 0 then 512 else n).
(** gprs_codel_init, gprs_codel.c:65-72. *)
Definition codel_init : codel :=
  codel_set_maxpacket (codel_set_interval (mk_cd false 0 0 0 0 0 0) (-1)) (-1).

(** gprs_codel_control, gprs_codel.c:104-176, for a frame received at [recv] (the case
    without a frame is not used by the queue): the decision and the new state. *)
Definition codel_control (s : codel) (recv now bytes : Z) : bool * codel :=
  let stop (fa : Z) :=
    (false, mk_cd false (cd_count s) fa (cd_drop_next s) (cd_target s) (cd_interval s) (cd_maxpacket s)) in
  let sojourn := now - recv in
  if sojourn <? cd_target s then stop 0
  else if (0 <=? bytes) && (bytes <=? cd_maxpacket s) then stop 0
  else if cd_first_above s =? 0 then stop (now + cd_interval s)
  else if now <? cd_first_above s then stop (cd_first_above s)
  else
    let drop (count base : Z) :=
      let s1 := mk_cd true count (cd_first_above s) base (cd_target s) (cd_interval s) (cd_maxpacket s) in
      (true, mk_cd true count (cd_first_above s) (base + control_law s1)
                   (cd_target s) (cd_interval s) (cd_maxpacket s)) in
    if negb (cd_dropping s) then
      let in_cycle := negb (cd_drop_next s =? 0) && (now - cd_drop_next s <? cd_interval s) in
      let recently := in_cycle || negb (now - cd_first_above s <? cd_interval s) in
      if negb recently then (false, s)
      else drop (if in_cycle && (2 <? cd_count s) then cd_count s - 2 else 1) now
    else if now <? cd_drop_next s then (false, s)
    else drop (u32 (cd_count s + 1)) (cd_drop_next s).
