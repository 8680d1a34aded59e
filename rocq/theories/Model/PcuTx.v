(** Messages the PCU sends to the BTS or BSC over the PCU socket, and the queue they wait in:
    /repo/src/pcu_l1_if.cpp, pcuif_sock.c, gprs_rlcmac.c, encoding.cpp (write_paging_request),
    /repo/include/osmocom/pcu/pcuif_proto.h.

    A message is the memory of its msgb, a list of octets that the functions below write into at
    the offsets of the packed structures; host byte order is little endian. Allocation succeeds.
    The direct PHY access (ENABLE_DIRECT_PHY) is not compiled in; logging and GSMTAP are left out. *)
From Coq Require Import ZArith List Bool.
From Verif Require Import Model.Csn1Enc Model.CtrlMsg.
Import ListNotations.
Local Open Scope Z_scope.

(** ** Memory *)

(** memcpy of [bs] to offset [off] of the memory [m]. *)
Definition put (off : nat) (bs m : list Z) : list Z := firstn off m ++ bs ++ skipn (off + length bs) m.
(** A number of [n] octets in host byte order, and osmo_store16be of libosmocore. *)
Fixpoint host (n : nat) (x : Z) : list Z :=
  match n with O => [] | S k => x mod 256 :: host k (x / 256) end.
Definition net16 (x : Z) : list Z := [x / 256 mod 256; x mod 256].
(** osmo_strlcpy of libosmocore: at most [n - 1] characters, and the terminating zero. *)
Definition strlcpy (n : nat) (s : list Z) : list Z := firstn (n - 1) s ++ [0].

(** ** The messages *)

(** sizeof(struct gsm_pcu_if): the header and the largest member of the union,
    struct gsm_pcu_if_info_ind; pcuif_proto.h:306-331. *)
Definition SIZE : nat := 4 + 1003.

(** pcu_msgb_alloc, pcu_l1_if.cpp:84-98; msgb_alloc gives zeroed memory. Offsets 0 and 1 are
    msg_type and bts_nr. *)
Definition msgb_alloc (ty nr : Z) : list Z := put 1 [nr] (put 0 [ty] (repeat 0 SIZE)).
(** pcu_msgb_alloc_ext_size, pcu_l1_if.cpp:101-113, and the msgb_put of the caller: the message
    is the header and [n] octets more. *)
Definition msgb_alloc_ext (ty nr : Z) (n : nat) : list Z := put 1 [nr] (put 0 [ty] (repeat 0 (4 + n))).

(** pcu_tx_txt_ind, pcu_l1_if.cpp:121-156, for PCU_VERSION (the function asserts this type):
    struct gsm_pcu_if_txt_ind, pcuif_proto.h:85-88. [text]: the formatted text, without its
    terminating zero. *)
Definition txt_ind (text : list Z) : list Z :=
  put 5 (strlcpy 128 text) (put 4 [0] (msgb_alloc 0x70 0)).

(** pcu_tx_act_req, pcu_l1_if.cpp:158-178; struct gsm_pcu_if_act_req, pcuif_proto.h:210-215. *)
Definition act_req (nr trx ts activate : Z) : list Z :=
  put 6 [ts] (put 5 [trx] (put 4 [activate] (msgb_alloc 0x40 nr))).

(** pcu_tx_data_req, pcu_l1_if.cpp:180-210; struct gsm_pcu_if_data, pcuif_proto.h:90-103. The
    length is passed as uint8_t; the octets are copied after the other fields are written, so
    more than 162 of them would go over those. [d]: the octets at data, at least len of them. *)
Definition data_req (nr trx ts sapi arfcn fn blk : Z) (d : list Z) (len : Z) : list Z :=
  let len := len mod 256 in
  let m := put 4 [sapi] (msgb_alloc 0x00 nr) in
  let m := put 168 (host 4 fn) m in
  let m := put 172 (host 2 arfcn) m in
  let m := put 174 [trx] m in
  let m := put 175 [ts] m in
  let m := put 176 [blk] m in
  let m := if len =? 0 then m else put 6 (firstn (Z.to_nat len) d) m in
  put 5 [len] m.

(** enum of SAPIs, pcuif_proto.h:24-33. *)
Definition SAPI_PDTCH : Z := 5.
Definition SAPI_PTCCH : Z := 7.
Definition SAPI_PCH_2 : Z := 8.
Definition SAPI_AGCH_2 : Z := 9.

(** pcu_l1if_tx_pdtch, pcu_l1_if.cpp:212-236: [None] for no block, an idle frame. *)
Definition tx_pdtch (nr trx ts arfcn fn blk : Z) (b : option (list Z)) : list Z :=
  match b with
  | None => data_req nr trx ts SAPI_PDTCH arfcn fn blk [] 0
  | Some d => data_req nr trx ts SAPI_PDTCH arfcn fn blk d (Z.of_nat (length d))
  end.
(** pcu_l1if_tx_ptcch, pcu_l1_if.cpp:238-257. *)
Definition tx_ptcch (nr trx ts arfcn fn blk : Z) (d : list Z) : list Z :=
  data_req nr trx ts SAPI_PTCCH arfcn fn blk d (Z.of_nat (length d)).

(** The 23 octets of a block on the CCCH: the L2 pseudo length, a uint8_t, and the 22 octets of
    the bit vector; bitvec_pack of libosmocore copies them. *)
Definition macblock (block : list Z) (plen : Z) : list Z := Z.lor (Z.shiftl plen 2) 1 mod 256 :: block.
(** pcu_l1if_tx_agch2, pcu_l1_if.cpp:262-275; struct gsm_pcu_if_agch, pcuif_proto.h:298-306. *)
Definition tx_agch2 (nr : Z) (block : list Z) (plen : Z) (confirm : bool) (id : Z) : list Z :=
  let a := repeat 0 28 in
  let a := put 27 [Z.b2z confirm] a in
  let a := put 0 (host 4 id) a in
  let a := put 4 (macblock block plen) a in
  data_req nr 0 0 SAPI_AGCH_2 0 0 0 a 28.
(** pcu_l1if_tx_pch2, pcu_l1_if.cpp:280-302; struct gsm_pcu_if_pch, pcuif_proto.h:284-295. [imsi]:
    its characters, [None] for a null pointer; OSMO_IMSI_BUF_SIZE of libosmocore is 16. *)
Definition tx_pch2 (nr : Z) (block : list Z) (plen : Z) (confirm : bool) (imsi : option (list Z)) (id : Z) : list Z :=
  let a := repeat 0 44 in
  let a := put 0 (host 4 id) a in
  let a := match imsi with Some s => put 4 (strlcpy 16 s) a | None => a end in
  let a := put 43 [Z.b2z confirm] a in
  let a := put 20 (macblock block plen) a in
  data_req nr 0 0 SAPI_PCH_2 0 0 0 a 44.

(** pcu_tx_neigh_addr_res_req, pcu_l1_if.cpp:304-330; struct gsm_pcu_if_container and
    gsm_pcu_if_neigh_addr_req, pcuif_proto.h:250-266: type, spare, length at 4 to 7, then the
    seven octets of the request. *)
Definition neigh_addr_req (nr lac ci arfcn bsic : Z) : list Z :=
  let m := msgb_alloc_ext 0x80 nr (4 + 7) in
  let m := put 4 [0x81] m in
  let m := put 6 (net16 7) m in
  let m := put 8 (net16 lac) m in
  let m := put 10 (net16 ci) m in
  let m := put 12 (net16 arfcn) m in
  put 14 [bsic] m.

(** ** Paging for packet data *)

(** bitvec_pack: the octets of a bit vector. *)
Definition bits_octet (l : list bool) : Z := fold_left (fun acc b => 2 * acc + Z.b2z b) l 0.
Fixpoint pack (n : nat) (v : list bool) : list Z :=
  match n with O => [] | S k => bits_octet (firstn 8 v) :: pack k (skipn 8 v) end.

(** write_paging_request, encoding.cpp:804-836, into the 22 octets of padding that
    gprs_rlcmac_paging_request sets up: the vector and the length, or the result of
    osmo_mobile_identity_encode_buf of libosmocore where that failed. [mi]: the encoded identity.
    bitvec_set_bytes writes at the vector's own position, which the write before left after the
    length octet. *)
Definition write_paging_request (mi : list Z) : option (list bool * Z) :=
  match mi with
  | [] => None
  | _ =>
    let n := Z.of_nat (length mi) in
    Some (over (field_bits 4 0 ++ field_bits 4 6 ++ field_bits 8 0x21 ++ field_bits 4 0 ++ field_bits 4 0 ++
                field_bits 8 n ++ flat_map (field_bits 8) mi ++
                field_bits 1 0 ++ field_bits 1 0 ++ field_bits 1 1 ++ field_bits 1 0 ++ field_bits 1 0 ++ field_bits 1 1)
               (flat_map (field_bits 8) (repeat 0x2b 22)),
          (32 + 8 * n) / 8)
  end.
(** GSM_RESERVED_TMSI of libosmocore. *)
Definition RESERVED_TMSI : Z := 0xffffffff.
(** gprs_rlcmac_paging_request, gprs_rlcmac.c:30-51: the message, and whether the bit vector was
    released; where the identity cannot be encoded no message is sent and the vector is kept. *)
Definition paging_request (nr : Z) (mi : list Z) (imsi : option (list Z)) : option (list Z) * bool :=
  match write_paging_request mi with
  | None => (None, false)
  | Some (v, plen) => (Some (tx_pch2 nr (pack 22 v) plen false imsi RESERVED_TMSI), true)
  end.

(** ** The socket *)

(** pcu_sock_state, pcuif_sock.c:44-48. [k_fd]: connected (fd > 0); [k_want]: OSMO_FD_WRITE is
    requested for the descriptor; [k_queue]: upqueue; [k_timer]: the retry timer runs. [k_wire]:
    what was written to the socket, a sequenced-packet one: a write takes a message as a whole.
    [k_kept]: messages neither queued, written nor released. [k_exit]: the process has ended. *)
Record sock := mk_sock {
  k_fd : bool; k_want : bool; k_queue : list (list Z); k_timer : bool; k_wire : list (list Z);
  k_kept : list (list Z); k_exit : bool }.
Definition sock0 : sock := mk_sock false false [] false [] [] false.

(** pcu_sock_send, pcuif_sock.c:56-70: result 0 or -EIO. A message that is not accepted is not
    released, here or in the callers. *)
Definition sock_send (m : list Z) (k : sock) : sock * Z :=
  if k_fd k then (mk_sock true true (k_queue k ++ [m]) (k_timer k) (k_wire k) (k_kept k) (k_exit k), 0)
  else (mk_sock false (k_want k) (k_queue k) (k_timer k) (k_wire k) (k_kept k ++ [m]) (k_exit k), -5).

(** pcu_sock_close, pcuif_sock.c:72-109: the queue is flushed, the cells are shut down (not
    modelled here), and the process exits. *)
Definition sock_close (k : sock) : sock := mk_sock false false [] (k_timer k) (k_wire k) (k_kept k) true.

(** The result of write(): all octets; EAGAIN; 0 or another error. *)
Inductive wres := WAll | WAgain | WFail.

(** pcu_sock_write, pcuif_sock.c:137-182: the loop over the queue; [ws]: the results of the calls
    of write(), EAGAIN after them. *)
Fixpoint sock_write (ws : list wres) (q : list (list Z)) (k : sock) : sock :=
  match q with
  | [] => mk_sock (k_fd k) (k_want k) [] (k_timer k) (k_wire k) (k_kept k) (k_exit k)
  | [] :: r => sock_write ws r (mk_sock (k_fd k) false r (k_timer k) (k_wire k) (k_kept k) (k_exit k))
  | m :: r =>
    match ws with
    | WAll :: ws' => sock_write ws' r (mk_sock (k_fd k) false r (k_timer k) (k_wire k ++ [m]) (k_kept k) (k_exit k))
    | WFail :: _ => sock_close k
    | _ => mk_sock (k_fd k) true (m :: r) (k_timer k) (k_wire k) (k_kept k) (k_exit k)
    end
  end.

(** What pcu_sock_read did (see Model/PcuIf.v): a message came in whose processing sent the
    messages given and returned a result; or recv() failed or was at the end, and the socket is
    closed (so is it by the exit of a process that rejects the message). *)
Inductive rres := RGot (sent : list (list Z)) (rc : Z) | RLost.
Definition send_all (ms : list (list Z)) (k : sock) : sock := fold_left (fun k m => fst (sock_send m k)) ms k.

(** pcu_sock_cb, pcuif_sock.c:184-198. *)
Definition sock_cb (rd : option rres) (wr : bool) (ws : list wres) (k : sock) : sock :=
  match rd with
  | Some RLost => sock_close k
  | Some (RGot ms rc) =>
      let k := send_all ms k in
      if rc <? 0 then k else if wr then sock_write ws (k_queue k) k else k
  | None => if wr then sock_write ws (k_queue k) k else k
  end.

(** pcu_l1if_open, pcuif_sock.c:200-226: [ok]: the connection could be made. The state is cleared
    first; on a connection the version of the PCU is sent. *)
Definition l1if_open (ok : bool) (version : list Z) (k : sock) : sock :=
  if ok then fst (sock_send (txt_ind version) (mk_sock true false [] false (k_wire k) (k_kept k) (k_exit k)))
  else mk_sock false false [] true (k_wire k) (k_kept k) (k_exit k).

(** pcu_l1if_close, pcuif_sock.c:228-237: at shutdown. *)
Definition l1if_close (k : sock) : sock :=
  let k := mk_sock (k_fd k) (k_want k) (k_queue k) false (k_wire k) (k_kept k) (k_exit k) in
  if k_fd k then sock_close k else k.

(** What happens: another part of the program sends a message; select() reports the socket (as
    writable only if that was asked for); the retry timer fires; the PCU is shut down. *)
Inductive sevent :=
| Send (m : list Z)
| Ready (rd : option rres) (wr : bool) (ws : list wres)
| Retry (ok : bool)
| Shut.
Definition sock_step (version : list Z) (k : sock) (e : sevent) : sock :=
  if k_exit k then k else
  match e with
  | Send m => fst (sock_send m k)
  | Ready rd wr ws => if k_fd k then sock_cb rd (wr && k_want k) ws k else k
  | Retry ok => if k_timer k then l1if_open ok version k else k
  | Shut => l1if_close k
  end.
(** main() opens the socket, pcu_main.cpp:319. *)
Definition sock_run (version : list Z) (ok : bool) (es : list sevent) : sock :=
  fold_left (sock_step version) es (l1if_open ok version sock0).
