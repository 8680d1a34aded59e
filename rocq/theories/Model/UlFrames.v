(** Reception of uplink data blocks up to the LLC frames handed to the SGSN:
    /repo/src/tbf_ul.cpp, joining TbfUlWindow.v and UlParse.v. *)
From Coq Require Import ZArith List Bool.
From Verif Require Import Model.UlParse Model.TbfUlWindow.
Import ListNotations.
Local Open Scope Z_scope.

(** What assemble_forward_llc takes out of a stored block, tbf_ul.cpp:161-178. *)
Definition ublk_of (c : ul_content) : ublk := mk_ub (uc_edge c) (uc_info c) (uc_data c).

(** rcv_data_block_acknowledged, tbf_ul.cpp:245-418, with the loop over the blocks that
    are ready, tbf_ul.cpp:385-392, and m_llc: the new state, the frames sent to the SGSN,
    and whether "last uplink data received" was signalled. None: a failed assertion, or
    octets outside of a buffer are touched. *)
Definition ul_rcv_llc (releasing flow : bool) (t : ul_tbf) (m : ullc) (l : list ul_blk)
  : option (ul_tbf * ullc * list (list Z) * bool) :=
  match ul_rcv releasing flow t l with
  | None => None
  | Some (t', out, fin) =>
    match assemble_all (map ublk_of out) m with
    | None => None
    | Some (frames, m') => Some (t', m', frames, fin)
    end
  end.
