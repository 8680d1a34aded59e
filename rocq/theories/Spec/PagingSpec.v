(** The Packet Paging Request as the mobile reads it: 3GPP TS 44.060, 11.2.10. *)
From Coq Require Import ZArith List Bool.
From Verif Require Import Model.Paging.
Import ListNotations.
Open Scope Z_scope.

Fixpoint uint (n : nat) (acc : Z) (l : list bool) : option (Z * list bool) :=
  match n, l with
  | O, _ => Some (acc, l)
  | S n, b :: l => uint n (2 * acc + Z.b2z b) l
  | S _, [] => None
  end.
Fixpoint octs (n : nat) (l : list bool) : option (list Z * list bool) :=
  match n with
  | O => Some ([], l)
  | S n => match uint 8 0 l with
           | Some (o, l) => match octs n l with Some (os, l) => Some (o :: os, l) | None => None end
           | None => None
           end
  end.

(** Who is paged: by TMSI (four octets) or by the octets of a mobile identity; channel needed. *)
Inductive who := ByTmsi (o : list Z) | ByMi (o : list Z).
Record rpage := Rpage { r_who : who; r_chan : Z }.

(** One < Repeated Page info struct >, after its presence bit, for an RR connection. *)
Definition r_info (l : list bool) : option (rpage * list bool) :=
  match l with
  | true :: mi :: l =>
      match (if mi then match uint 4 0 l with
                        | Some (n, l) => match octs (Z.to_nat n) l with
                                         | Some (o, l) => Some (ByMi o, l) | None => None end
                        | None => None end
             else match octs 4 l with Some (o, l) => Some (ByTmsi o, l) | None => None end) with
      | Some (w, l) =>
          match uint 2 0 l with
          | Some (c, false :: l) => Some (Rpage w c, l)
          | _ => None
          end
      | None => None
      end
  | _ => None
  end.
(** { 1 < Repeated Page info > } ** 0, which may be cut off by the end of the message. *)
Fixpoint r_pages (fuel : nat) (l : list bool) : option (list rpage) :=
  match fuel with
  | O => None
  | S fuel =>
      match l with
      | true :: l => match r_info l with
                     | Some (p, l) => match r_pages fuel l with Some ps => Some (p :: ps) | None => None end
                     | None => None
                     end
      | _ => Some []
      end
  end.
Definition mobile_reads (l : list bool) : option (list rpage) :=
  match uint 8 0 l with
  | Some (0x40, l) =>            (* control block, no poll, USF 0 *)
      match uint 6 0 l with
      | Some (0x22, l) =>        (* PACKET PAGING REQUEST *)
          match uint 4 0 l with  (* page mode; no persistence level, no NLN *)
          | Some (0, l) => r_pages (S (length l)) l
          | _ => None
          end
      | _ => None
      end
  | _ => None
  end.

(** What a queued record asks for. *)
Definition asks (p : page) : rpage :=
  Rpage (if Z.land (nth 0 (pg_id p) 0) 7 =? 4 then ByTmsi (tl (pg_id p)) else ByMi (pg_id p)) (pg_chan p).

(** Records as they are queued. *)
Definition good (p : page) : Prop :=
  0 <= pg_chan p < 4 /\ Forall (fun o => 0 <= o < 256) (pg_id p) /\
  (if Z.land (nth 0 (pg_id p) 0) 7 =? 4 then length (pg_id p) = 5%nat else (length (pg_id p) <= 8)%nat).
Definition good_id (i : ident) : Prop :=
  match i with
  | Tmsi t => 0 <= t < 4294967296
  | Imsi l => Forall (fun d => 0 <= d < 10) l
  end.

(** ** Histories of one channel's queue *)

Inductive qop := QAdd (p : page) | QSend.
(** Queue, and the records sent so far. *)
Fixpoint q_run (q : list page) (sent : list rpage) (ops : list qop) : option (list page * list rpage) :=
  match ops with
  | [] => Some (q, sent)
  | QAdd p :: ops => q_run (p :: q) sent ops
  | QSend :: ops =>
      match pag_request q with
      | (None, q) => q_run q sent ops
      | (Some m, q) => match mobile_reads m with
                       | Some ps => q_run q (sent ++ ps) ops
                       | None => None
                       end
      end
  end.
Definition added (ops : list qop) : list page :=
  flat_map (fun o => match o with QAdd p => [p] | QSend => [] end) ops.

(** ** Slots *)
Definition active (l : list pms) (t : ptbf) : Prop :=
  exists m, In m l /\ (pm_ul m = Some t \/ pm_dl m = Some t).
