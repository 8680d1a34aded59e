(** What the BTS makes of the messages of the PCU, from the layout of the interface
    (pcuif_proto.h) and 3GPP TS 44.018, and what it means that they arrive. *)
From Coq Require Import ZArith List Bool.
From Verif Require Import Model.PcuTx.
Import ListNotations.
Local Open Scope Z_scope.

(** ** The layout *)

(** A packed structure is given by the sizes of its members, one after the other; a message is cut
    into them, and what follows. *)
Fixpoint cut (sizes : list nat) (m : list Z) : list (list Z) * list Z :=
  match sizes with
  | [] => ([], m)
  | n :: r => let (fs, rest) := cut r (skipn n m) in (firstn n m :: fs, rest)
  end.
(** A number in host byte order (little endian), and in network byte order. *)
Definition hostnum (l : list Z) : Z := fold_right (fun b acc => b + 256 * acc) 0 l.
Definition netnum (l : list Z) : Z := fold_left (fun acc b => 256 * acc + b) l 0.
(** A string ends before the first zero. *)
Fixpoint cstring (l : list Z) : list Z :=
  match l with [] => [] | b :: r => if b =? 0 then [] else b :: cstring r end.

(** Header: type, cell, spare; then the members. *)
Definition L_HDR : list nat := [1; 1; 2]%nat.
Definition L_DATA : list nat := [1; 1; 162; 4; 2; 1; 1; 1; 1; 2; 2; 2]%nat.
Definition L_ACT : list nat := [1; 1; 1; 1]%nat.
Definition L_TXT : list nat := [1; 128]%nat.
Definition L_CONT : list nat := [1; 1; 2]%nat.
Definition L_NEIGH : list nat := [2; 2; 2; 1]%nat.
Definition L_AGCH : list nat := [4; 23; 1]%nat.
Definition L_PCH : list nat := [4; 16; 23; 1]%nat.

(** What the other side reads. A message has to be as long as its structure. *)
Record data := mk_data {
  d_bts : Z; d_trx : Z; d_ts : Z; d_sapi : Z; d_arfcn : Z; d_fn : Z; d_blk : Z; d_octets : list Z }.
Inductive heard :=
| HData (d : data)                                 (* send these octets in this block *)
| HAct (bts trx ts : Z) (on : bool)                (* switch a packet channel on or off *)
| HVersion (text : list Z)
| HNeigh (bts lac ci arfcn bsic : Z).              (* which cell is this neighbour? *)

Definition hear (m : list Z) : option heard :=
  match cut L_HDR m with
  | ([[ty]; [nr]; _], body) =>
    if ty =? 0x00 then
      match cut L_DATA body with
      | ([[sapi]; [len]; dat; fn; arfcn; [trx]; [ts]; [blk]; [_]; _; _; [_; _]], _) =>
          if len <=? 162 then
            Some (HData (mk_data nr trx ts sapi (hostnum arfcn) (hostnum fn) blk (firstn (Z.to_nat len) dat)))
          else None
      | _ => None
      end
    else if ty =? 0x40 then
      match cut L_ACT body with
      | ([[on]; [trx]; [ts]; [_]], _) => Some (HAct nr trx ts (negb (on =? 0)))
      | _ => None
      end
    else if ty =? 0x70 then
      match cut L_TXT body with
      | ([[ty]; text], _) => if (ty =? 0) && (length text =? 128)%nat then Some (HVersion (cstring text)) else None
      | _ => None
      end
    else if ty =? 0x80 then
      match cut L_CONT body with
      | ([[ty]; [_]; len], rest) =>
          if (ty =? 0x81) && (netnum len =? 7) && (length rest =? 7)%nat then
            match cut L_NEIGH rest with
            | ([lac; ci; arfcn; [bsic]], _) => Some (HNeigh nr (netnum lac) (netnum ci) (netnum arfcn) bsic)
            | _ => None
            end
          else None
      | _ => None
      end
    else None
  | _ => None
  end.

(** A block for the access grant channel or the paging channel, the payload of a data request:
    the reference of its confirmation if one is wanted, and for the paging channel the IMSI that
    gives the paging group. *)
Record ccch := mk_ccch { c_id : Z; c_imsi : list Z; c_block : list Z; c_confirm : bool }.
Definition hear_agch (l : list Z) : option ccch :=
  match cut L_AGCH l with
  | ([id; block; [cf]], []) => Some (mk_ccch (hostnum id) [] block (negb (cf =? 0)))
  | _ => None
  end.
Definition hear_pch (l : list Z) : option ccch :=
  match cut L_PCH l with
  | ([id; imsi; block; [cf]], []) => Some (mk_ccch (hostnum id) (cstring imsi) block (negb (cf =? 0)))
  | _ => None
  end.

(** ** PAGING REQUEST TYPE 1, TS 44.018, 9.1.22, 10.5.2.23 *)

(** The bit of a rest octet is H if it differs from the padding 0x2b. *)
Definition is_h (o : Z) (i : Z) : bool := xorb (Z.testbit o (7 - i)) (Z.testbit 0x2b (7 - i)).
(** The pseudo length octet (10.5.2.19) counts the octets up to the rest octets. Page mode 0
    (normal) and channel needed 0 (any); one identity, the rest octets after it: no notification,
    no priorities, no group call, and the packet page indication for the first identity. [Some]
    of the identity, and whether it is a page for packet data. *)
Definition page (block : list Z) : option (list Z * bool) :=
  match block with
  | l2 :: pd :: ty :: mode :: len :: rest =>
      if (length block =? 23)%nat && (l2 mod 4 =? 1) && (l2 / 4 =? 4 + len) &&
         (pd =? 0x06) && (ty =? 0x21) && (mode =? 0) then
        match skipn (Z.to_nat len) rest with
        | r1 :: _ =>
            if is_h r1 0 || is_h r1 1 || is_h r1 2 || is_h r1 3 then None
            else Some (firstn (Z.to_nat len) rest, is_h r1 4)
        | [] => None
        end
      else None
  | _ => None
  end.

(** ** Delivery *)

(** The messages the socket accepted in the course of events: those for which sending reported
    success, and the version sent when the connection is made. *)
Definition taken (version : list Z) (k : sock) (e : sevent) : list (list Z) :=
  if k_exit k then [] else
  match e with
  | Send m => if snd (sock_send m k) =? 0 then [m] else []
  | Ready (Some (RGot ms _)) _ _ => if k_fd k then ms else []
  | Retry true => if k_timer k then [txt_ind version] else []
  | _ => []
  end.
Fixpoint accepted (version : list Z) (k : sock) (es : list sevent) : list (list Z) :=
  match es with
  | [] => []
  | e :: r => taken version k e ++ accepted version (sock_step version k e) r
  end.
(** From the start of the program. *)
Definition accepted_all (version : list Z) (ok : bool) (es : list sevent) : list (list Z) :=
  (if ok then [txt_ind version] else []) ++ accepted version (l1if_open ok version sock0) es.
(** No message of length zero is handed over. *)
Definition event_ok (e : sevent) : Prop :=
  match e with
  | Send m => m <> []
  | Ready (Some (RGot ms _)) _ _ => Forall (fun m => m <> []) ms
  | _ => True
  end.
Definition prefix (p l : list (list Z)) : Prop := exists r, l = p ++ r.
(** What came in at the same time was read and processed without an error. *)
Definition read_fine (rd : option rres) : Prop := match rd with None => True | Some (RGot _ rc) => 0 <= rc | Some RLost => False end.
