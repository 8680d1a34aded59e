(** Copying a data block between its place in the radio block, at any bit offset, and an
    octet aligned buffer: /repo/src/decoding.cpp and encoding.cpp. The least significant bit
    of an octet comes first. *)
From Coq Require Import ZArith List Bool.
Import ListNotations.
Local Open Scope Z_scope.

(** The loop in rlc_copy_to_aligned_buffer, decoding.cpp:581-585: [n] octets from [src],
    [last] being last_c. None: memory behind the message is read. *)
Fixpoint shift_down (extra last : Z) (n : nat) (src : list Z) : option (list Z) :=
  match n with
  | O => Some []
  | S k =>
    match src with
    | [] => None
    | c :: src' =>
      match shift_down extra c k src' with
      | None => None
      | Some r => Some (Z.lor (Z.shiftr last extra) (Z.shiftl c (8 - extra) mod 256) :: r)
      end
    end
  end.
(** rlc_copy_to_aligned_buffer, decoding.cpp:553-589, for a block of [n] octets at the bit
    offset [offs]: the buffer's content. *)
Definition copy_to_aligned (offs : Z) (n : nat) (src : list Z) : option (list Z) :=
  let hdr := Z.to_nat (offs / 8) in
  let extra := offs mod 8 in
  let s := skipn hdr src in
  if extra =? 0 then (if (length s <? n)%nat then None else Some (firstn n s))
  else match s with
       | [] => None
       | last :: s' => shift_down extra last n s'
       end.

(** The loop in rlc_copy_from_aligned_buffer, encoding.cpp:1366-1374. None: memory behind
    the message is written. *)
Fixpoint shift_up (extra last : Z) (buf dst : list Z) : option (list Z) :=
  match dst with
  | [] => None
  | d :: dst' =>
    match buf with
    | [] => Some (Z.lor (Z.land d (Z.shiftl 0xff extra)) (Z.shiftr last (8 - extra)) mod 256 :: dst')
    | c :: buf' =>
      match shift_up extra c buf' dst' with
      | None => None
      | Some r => Some (Z.lor (Z.shiftr last (8 - extra)) (Z.shiftl c extra) mod 256 :: r)
      end
    end
  end.
(** rlc_copy_from_aligned_buffer, encoding.cpp:1339-1378: the message afterwards; [buf] are
    the rdbi->data_len octets of the buffer. *)
Definition copy_from_aligned (offs : Z) (buf dst : list Z) : option (list Z) :=
  let hdr := Z.to_nat (offs / 8) in
  let extra := offs mod 8 in
  let d := skipn hdr dst in
  match (if extra =? 0 then
           (if (length d <? length buf)%nat then None else Some (buf ++ skipn (length buf) d))
         else match d with
              | [] => None
              | d0 :: _ => shift_up extra (Z.shiftl d0 (8 - extra) mod 256) buf d
              end) with
  | None => None
  | Some d' => Some (firstn hdr dst ++ d')
  end.
