(** Configuration of the links to the SGSN.

    src/pcu_l1_if.cpp (pcu_info_ind_ns), src/gprs_bssgp_pcu.c (gprs_ns_update_config, ns_conf_vc_cb,
    ns_configure_nse).  The NS layer of libosmocore is modelled by the contract of the calls used: sockets
    ("binds") with unique names, one NSE with its connections (NS-VCs) or, with IP-SNS, its initial end points.
    Left out: the protocol on the connections, DSCP and priority of the sockets, log output. *)
From Coq Require Import ZArith List Bool Arith.
Import ListNotations.
Open Scope Z_scope.

(** struct osmo_sockaddr, compared by osmo_sockaddr_cmp: family, address, port. *)
Inductive family := V4 | V6.
Record sockaddr := mk_sa { sa_fam : family; sa_ip : Z; sa_port : Z }.
Definition fam_eqb (a b : family) : bool := match a, b with V4, V4 | V6, V6 => true | _, _ => false end.
Definition sa_eqb (a b : sockaddr) : bool := fam_eqb (sa_fam a) (sa_fam b) && (sa_ip a =? sa_ip b) && (sa_port a =? sa_port b).

(** One of the PCU_IF_NUM_NSVC positions of the information from the BTS, pcuif_proto.h:182-189. *)
Record position := mk_pos { p_type : Z; p_lport : Z; p_rip : Z; p_rport : Z; p_nsvci : Z }.
Record info := mk_info { i_nsei : Z; i_pos : list position }.
(** local[i], remote[i], nsvci[i]. *)
Record entry := mk_entry { e_local : sockaddr; e_remote : sockaddr; e_nsvci : Z }.

(** pcu_info_ind_ns, pcu_l1_if.cpp:677-722: one position; [None]: its bit in "valid" stays clear.
    PCU_IF_ADDR_TYPE_IPV4 is 4, PCU_IF_ADDR_TYPE_IPV6 is 41; INADDR_ANY and in6addr_any are 0. *)
Definition entry_of (p : position) : option entry :=
  if p_type p =? 4 then Some (mk_entry (mk_sa V4 0 (p_lport p)) (mk_sa V4 (p_rip p) (p_rport p)) (p_nsvci p))
  else if p_type p =? 41 then Some (mk_entry (mk_sa V6 0 (p_lport p)) (mk_sa V6 (p_rip p) (p_rport p)) (p_nsvci p))
  else None.

(** A connection, with an identity that tells a kept one from one made anew. *)
Record vc := mk_vc { v_id : nat; v_local : sockaddr; v_remote : sockaddr; v_nsvci : Z }.
(** An NSE: its identity (the pointer), the NSEI, connections, end points and the chosen one with IP-SNS. *)
Record nse := mk_nse { n_id : nat; n_nsei : Z; n_vcs : list vc; n_points : list sockaddr; n_initial : option sockaddr }.
(** the_pcu->nsi and bts->nse: sockets with their names ("pcu0", "pcu1") and addresses, NSEs. *)
Record nsi := mk_nsi { s_binds : list (nat * sockaddr); s_nses : list nse; s_next : nat; s_nse : option nat }.
Definition nsi0 : nsi := mk_nsi [] [] 0 None.

(** What the calls into libosmocore answer: creating the NSE, opening a socket, adding it to IP-SNS,
    adding an end point, connecting. *)
Record env := mk_env { x_create : bool; x_bind : nat -> sockaddr -> bool; x_sns_bind : sockaddr -> bool;
                       x_point : sockaddr -> bool; x_connect : sockaddr -> sockaddr -> bool }.

(** The process goes on, ends (exit, pcu_l1_if.cpp:787-800), or a released NSE is used. *)
Inductive outcome := Goes (s : nsi) | Exits | Fault.

(** gprs_ns2_ip_bind_by_sockaddr; gprs_ns2_ip_bind refuses a name in use (gprs_ns2_bind_by_name). *)
Definition bound (bs : list (nat * sockaddr)) (a : sockaddr) : bool := existsb (fun b => sa_eqb (snd b) a) bs.
Definition named (bs : list (nat * sockaddr)) (i : nat) : bool := existsb (fun b => (fst b =? i)%nat) bs.

(** ns_configure_nse, gprs_bssgp_pcu.c:1114-1142: the sockets and the positions with their bit in "binds". *)
Fixpoint bind_loop (x : env) (sns : bool) (i : nat) (c : list (option entry)) (bs : list (nat * sockaddr))
  : list (nat * sockaddr) * list (option entry) :=
  match c with
  | [] => (bs, [])
  | None :: r => let '(bs', l) := bind_loop x sns (S i) r bs in (bs', None :: l)
  | Some e :: r =>
    if bound bs (e_local e) then let '(bs', l) := bind_loop x sns (S i) r bs in (bs', Some e :: l)
    else if named bs i || negb (x_bind x i (e_local e)) then let '(bs', l) := bind_loop x sns (S i) r bs in (bs', None :: l)
    else
      let bs1 := bs ++ [(i, e_local e)] in
      let '(bs', l) := bind_loop x sns (S i) r bs1 in
      (bs', (if sns && negb (x_sns_bind x (e_local e)) then None else Some e) :: l)
  end.

(** gprs_ns2_ip_connect: a connection of the socket to the same remote address is used again, with the new
    NSVCI; else a new one. *)
Definition same_ends (v : vc) (e : entry) : bool := sa_eqb (v_local v) (e_local e) && sa_eqb (v_remote v) (e_remote e).
Fixpoint renumber (vs : list vc) (e : entry) : list vc :=
  match vs with
  | [] => []
  | v :: r => if same_ends v e then mk_vc (v_id v) (v_local v) (v_remote v) (e_nsvci e) :: r else v :: renumber r e
  end.
(** gprs_bssgp_pcu.c:1150-1169 without IP-SNS: the connections, the next identity, "nsvcs". *)
Fixpoint connect_loop (x : env) (c : list (option entry)) (vs : list vc) (nx : nat) : list vc * nat * bool :=
  match c with
  | [] => (vs, nx, false)
  | None :: r => connect_loop x r vs nx
  | Some e :: r =>
    if existsb (fun v => same_ends v e) vs then
      let '(vs', nx', _) := connect_loop x r (renumber vs e) nx in (vs', nx', true)
    else if x_connect x (e_local e) (e_remote e) then
      let '(vs', nx', _) := connect_loop x r (vs ++ [mk_vc nx (e_local e) (e_remote e) (e_nsvci e)]) (S nx) in (vs', nx', true)
    else connect_loop x r vs nx
  end.
(** The same with IP-SNS; [None]: an error is returned at once.  An end point that is there already is
    fine (-EALREADY). *)
Fixpoint point_loop (x : env) (c : list (option entry)) (ps : list sockaddr) : option (list sockaddr * bool) :=
  match c with
  | [] => Some (ps, false)
  | None :: r => point_loop x r ps
  | Some e :: r =>
    if existsb (fun a => sa_eqb a (e_remote e)) ps then
      match point_loop x r ps with Some (ps', _) => Some (ps', true) | None => None end
    else if x_point x (e_remote e) then
      match point_loop x r (ps ++ [e_remote e]) with Some (ps', _) => Some (ps', true) | None => None end
    else None
  end.

Definition is_some {A} (o : option A) : bool := match o with Some _ => true | None => false end.
Definition with_nse (s : nsi) (n : nse) : list nse := map (fun m => if (n_id m =? n_id n)%nat then n else m) (s_nses s).

(** ns_configure_nse, gprs_bssgp_pcu.c:1086-1175. *)
Definition configure (x : env) (sns : bool) (nsei : Z) (c : list (option entry)) (s : nsi) : outcome :=
  if negb (existsb is_some c) then Exits else
  let found := find (fun n => n_nsei n =? nsei) (s_nses s) in
  match found, x_create x with
  | None, false => Exits
  | _, _ =>
    let n := match found with Some n => n | None => mk_nse (s_next s) nsei [] [] None end in
    let nses := match found with Some _ => s_nses s | None => s_nses s ++ [n] end in
    let nx := match found with Some _ => s_next s | None => S (s_next s) end in
    let '(bs, c') := bind_loop x sns 0 c (s_binds s) in
    if negb (existsb is_some c') then Exits
    else if sns then
      match point_loop x c' (n_points n) with
      | None => Exits
      | Some (ps, ok) =>
        if ok then
          let n' := mk_nse (n_id n) (n_nsei n) (n_vcs n) ps (n_initial n) in
          let s1 := mk_nsi bs nses nx (Some (n_id n)) in
          Goes (mk_nsi bs (with_nse s1 n') nx (Some (n_id n)))
        else Exits
      end
    else
      let '(vs, nx', ok) := connect_loop x c' (n_vcs n) nx in
      if ok then
        let n' := mk_nse (n_id n) (n_nsei n) vs (n_points n) (n_initial n) in
        let s1 := mk_nsi bs nses nx' (Some (n_id n)) in
        Goes (mk_nsi bs (with_nse s1 n') nx' (Some (n_id n)))
      else Exits
  end.

(** ns_conf_vc_cb, gprs_bssgp_pcu.c:1187-1211, with gprs_ns2_ip_vc_equal: the first position not found yet that
    equals the connection; the result is the positions left ("valid & ~found"). *)
Definition vc_equal (v : vc) (e : entry) : bool := same_ends v e && (v_nsvci v =? e_nsvci e).
Fixpoint look_for (v : vc) (c : list (option entry)) : option (list (option entry)) :=
  match c with
  | [] => None
  | Some e :: r => if vc_equal v e then Some (None :: r) else option_map (cons (Some e)) (look_for v r)
  | None :: r => option_map (cons None) (look_for v r)
  end.
(** gprs_ns2_nse_foreach_nsvc with it: the connections that stay, the positions left. *)
Fixpoint scan (vs : list vc) (c : list (option entry)) : list vc * list (option entry) :=
  match vs with
  | [] => ([], c)
  | v :: r =>
    match look_for v c with
    | Some c' => let '(k, l) := scan r c' in (v :: k, l)
    | None => scan r c
    end
  end.

(** gprs_ns2_free_nses, gprs_ns2_free_binds; bts->nse is not touched. *)
Definition cleared (s : nsi) : nsi := mk_nsi [] [] (s_next s) (s_nse s).

(** gprs_ns_update_config, gprs_bssgp_pcu.c:1214-1272. *)
Definition update_config (x : env) (sns : bool) (nsei : Z) (c : list (option entry)) (s : nsi) : outcome :=
  match s_nse s with
  | None => configure x sns nsei c (cleared s)
  | Some id =>
    match find (fun n => (n_id n =? id)%nat) (s_nses s) with
    | None => Fault
    | Some n =>
      if negb (nsei =? n_nsei n) then configure x sns nsei c (cleared s)
      else if sns then
        if existsb (fun o => match o, n_initial n with Some e, Some a => sa_eqb a (e_remote e) | _, _ => false end) c then Goes s
        else configure x sns nsei c (cleared s)
      else
        let '(k, l) := scan (n_vcs n) c in
        let n' := mk_nse (n_id n) (n_nsei n) k (n_points n) (n_initial n) in
        let s1 := mk_nsi (s_binds s) (with_nse s n') (s_next s) (s_nse s) in
        if negb (existsb is_some l) then Goes s1 else configure x sns nsei l s1
    end
  end.

(** pcu_info_ind_ns, pcu_l1_if.cpp:669-731, and what its caller does with an error, 787-800, 883-887: the
    process ends. *)
Definition info_ind_ns (x : env) (sns : bool) (i : info) (s : nsi) : outcome :=
  let c := map entry_of (i_pos i) in
  if negb (existsb is_some c) then Exits else update_config x sns (i_nsei i) c s.

(** What happens: the BTS sends its information, or IP-SNS settles on one of the end points
    (gprs_ns2_nse_sns_remote tells which). *)
Inductive op := Info (x : env) (i : info) | Settle (k : nat).
Definition step (sns : bool) (o : op) (s : nsi) : outcome :=
  match o with
  | Info x i => info_ind_ns x sns i s
  | Settle k => Goes (mk_nsi (s_binds s) (map (fun n => match nth_error (n_points n) k with
                        | Some a => mk_nse (n_id n) (n_nsei n) (n_vcs n) (n_points n) (Some a) | None => n end) (s_nses s)) (s_next s) (s_nse s))
  end.
Fixpoint run (sns : bool) (os : list op) (s : nsi) : outcome :=
  match os with
  | [] => Goes s
  | o :: r => match step sns o s with Goes s' => run sns r s' | Exits => Exits | Fault => Fault end
  end.
