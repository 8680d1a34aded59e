(** The messages of the SGSN as 3GPP TS 48.018 lays them out, and an SGSN at the other
    end of the link, independent of how the program reads and keeps them. *)
From Coq Require Import ZArith List Bool.
From Verif Require Import Model.Bssgp.
Import ListNotations.
Local Open Scope Z_scope.

(** ** Messages (48.018, clauses 10 and 11) *)

(** An information element: tag and value.  The sender may give the length in one octet
    (up to 127) or in two ([e_long]). *)
Record elem := El { e_tag : Z; e_long : bool; e_val : list Z }.
Definition oct (x : Z) : Prop := 0 <= x < 256.
Definition elem_ok (e : elem) : Prop :=
  oct (e_tag e) /\ Forall oct (e_val e) /\ Z.of_nat (length (e_val e)) < if e_long e then 32768 else 128.
Definition enc_elem (e : elem) : list Z :=
  let n := Z.of_nat (length (e_val e)) in
  if e_long e then e_tag e :: n / 256 :: n mod 256 :: e_val e else e_tag e :: 128 + n :: e_val e.
Definition enc (l : list elem) : list Z := flat_map enc_elem l.

(** The value of the first element with a tag. *)
Definition first (tag : Z) (l : list elem) : option (list Z) :=
  option_map e_val (find (fun e => e_tag e =? tag) l).

(** A number of 16 or 32 bits, most significant octet first. *)
Definition oct4 (x : Z) : list Z := [x / 16777216; x / 65536 mod 256; x / 256 mod 256; x mod 256].
Definition oct2 (x : Z) : list Z := [x / 256; x mod 256].
Definition number (l : list Z) : Z := fold_left (fun acc b => 256 * acc + b) l 0.

(** DL-UNITDATA: type, TLLI, QoS profile, elements.  The others: type, elements. *)
Definition dl_unitdata (tlli : Z) (qos : list Z) (l : list elem) : list Z := DL_UNITDATA :: oct4 tlli ++ qos ++ enc l.
Definition message (ty : Z) (l : list elem) : list Z := ty :: enc l.

(** What is to become of downlink data: refused with a cause, or handed on. *)
Definition down (c : cfg) (tlli old : Z) (l : list elem) : act :=
  match first IE_LLC l with
  | None => AStatus MissingMandIe
  | Some llc =>
      if 1543 <? Z.of_nat (length llc) then AStatus CondIeErr
      else
        let go imsi :=
          ADown tlli old imsi
            (match first IE_RAC l with Some v => c_cls c v | None => (0, 0) end)
            (match first IE_LIFETIME l with
             | Some v => if Nat.eqb (length v) 2 then number v else 65535
             | None => 65535
             end) llc in
        match first IE_IMSI l with
        | None => go None
        | Some v => match c_mi c v with Some (MImsi n) => go (Some n) | _ => AStatus CondIeErr end
        end
  end.

(** [i] is the length of the element with this tag in the message, and how many octets of
    the message there are from its value on. *)
Definition has_elem (m : list Z) (head : nat) (tag len rest : Z) : Prop :=
  exists t e, parse (skipn head m) = Some t /\ look tag t = Some e /\ i_len e = len /\ Z.of_nat (length (i_at e)) = rest.

(** Messages that are shorter than the numbers in them. *)
Definition cut_short (m : list Z) : Prop :=
  m = [] \/
  (hd 0 m = DL_UNITDATA /\ (length m < 5)%nat) \/
  (hd 0 m = DL_UNITDATA /\ exists len rest, has_elem m 8 IE_TLLI len rest /\ rest < 2) \/
  (hd 0 m = PAGING_CS /\ exists len rest, has_elem m 1 IE_TLLI len rest /\ rest < 4) \/
  (hd 0 m = BVC_RESET /\ exists len rest, has_elem m 1 IE_BVCI len rest /\ rest < 2).

(** ** The other end of the link (48.018, clause 8)

    Does the SGSN know the cell; may the cell be used.  [u]: whether it may be used right
    after a reset, on which implementations differ. *)
Record sgsn := Sg { g_known : bool; g_open : bool }.

Definition BVCI_ELEM (b : Z) : elem := El IE_BVCI false (oct2 b).
Definition CAUSE_ELEM (x : Z) : elem := El IE_CAUSE false [x].
Definition reset_ack (c : cfg) (b : Z) : bop := BMsg false 0 (c_nsei c) (message BVC_RESET_ACK [BVCI_ELEM b]).
Definition unblock_ack (c : cfg) : bop := BMsg false 0 (c_nsei c) (message BVC_UNBLOCK_ACK [BVCI_ELEM (c_bvci c)]).
(** A STATUS message reaches the program as a primitive, with its elements. *)
Definition status (c : cfg) (x : Z) : bop :=
  BPrim (PStatus (c_bvci c) (match parse (enc [CAUSE_ELEM x; BVCI_ELEM (c_bvci c)]) with Some t => t | None => [] end)).

Definition answers (c : cfg) (u : bool) (g : sgsn) (a : act) : sgsn * list bop :=
  match a with
  | AReset b => if b =? 0 then (Sg false false, [reset_ack c 0]) else (Sg true u, [reset_ack c b])
  | AUnblock b => if g_known g then (Sg true true, [unblock_ack c]) else (g, [status c 5])
  | AFlow b => if negb (g_known g) then (g, [status c 5]) else if negb (g_open g) then (g, [status c 9]) else (g, [])
  | _ => (g, [])
  end.

(** The timer expires; then everything sent arrives and is answered, and the answers
    arrive, until nothing is on the way. *)
Fixpoint talk (c : cfg) (u : bool) (n : nat) (k : link) (g : sgsn) (a : list act) : option (link * sgsn) :=
  match n with
  | O => None
  | S n =>
      match a with
      | [] => Some (k, g)
      | x :: a =>
          let '(g1, ans) := answers c u g x in
          match ans with
          | [] => talk c u n k g1 a
          | o :: _ =>
              match bstep c k o with
              | Done k1 b => talk c u n k1 g1 (a ++ b)
              | _ => None
              end
          end
      end
  end.
Definition after_timer (c : cfg) (u : bool) (k : link) (g : sgsn) : option (link * sgsn) :=
  match bstep c k (BPrim PTimer) with Done k1 a => talk c u 20 k1 g a | _ => None end.

(** Both sides take the link to be in service. *)
Definition in_service (k : link) (g : sgsn) : Prop :=
  k_ns k = true /\ k_sig k = true /\ k_rst k = true /\ k_unb k = true /\ g_known g = true /\ g_open g = true.

(** An acknowledgement of a reset, for whatever BVC. *)
Definition is_reset_ack (o : bop) : Prop := exists b n m, o = BMsg b 0 n (BVC_RESET_ACK :: m).
