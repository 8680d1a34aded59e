(** The links to the SGSN a configuration asks for, and those there are. *)
From Coq Require Import ZArith List Bool.
From Verif Require Import Model.NsConf.
Import ListNotations.
Open Scope Z_scope.

(** A link: family, local port, address and port of the SGSN, NSVCI. *)
Definition link : Type := family * Z * Z * Z * Z.

(** What the BTS asks for: every position with an IPv4 (4) or IPv6 (41) address. *)
Definition wanted (i : info) : list link :=
  flat_map (fun p => if p_type p =? 4 then [(V4, p_lport p, p_rip p, p_rport p, p_nsvci p)]
                     else if p_type p =? 41 then [(V6, p_lport p, p_rip p, p_rport p, p_nsvci p)] else []) (i_pos i).

(** The connections of the NSE in use. *)
Definition connections (s : nsi) : list vc :=
  match s_nse s with
  | Some id => flat_map (fun n => if (n_id n =? id)%nat then n_vcs n else []) (s_nses s)
  | None => []
  end.
Definition link_of (v : vc) : link := (sa_fam (v_local v), sa_port (v_local v), sa_ip (v_remote v), sa_port (v_remote v), v_nsvci v).
Definition links (s : nsi) : list link := map link_of (connections s).
(** The NSEI in use. *)
Definition nsei_of (s : nsi) : option Z :=
  match s_nse s with Some id => option_map n_nsei (find (fun n => (n_id n =? id)%nat) (s_nses s)) | None => None end.

(** No two of the links asked for have the same ends. *)
Definition ends (l : link) : family * Z * Z * Z := fst l.
Definition distinct (i : info) : Prop := NoDup (map ends (wanted i)).

(** Every call into the NS layer and the system succeeds. *)
Definition works (x : env) : Prop :=
  x_create x = true /\ (forall i a, x_bind x i a = true) /\ (forall a, x_sns_bind x a = true) /\
  (forall a, x_point x a = true) /\ (forall a b, x_connect x a b = true).

(** Position [k] always has the same family and local port, if it has any. *)
Definition steady (at_ : nat -> family * Z) (i : info) : Prop :=
  forall k p, nth_error (i_pos i) k = Some p ->
    (p_type p = 4 -> at_ k = (V4, p_lport p)) /\ (p_type p = 41 -> at_ k = (V6, p_lport p)).

(** With IP-SNS: the addresses of the SGSN the BTS names, those given to the protocol, and the one it settled on. *)
Definition remotes (i : info) : list sockaddr :=
  map (fun l : link => match l with (f, _, ip, port, _) => mk_sa f ip port end) (wanted i).
Definition points (s : nsi) : list sockaddr :=
  match s_nse s with
  | Some id => flat_map (fun n => if (n_id n =? id)%nat then n_points n else []) (s_nses s)
  | None => []
  end.
Definition settled (s : nsi) : option sockaddr :=
  match s_nse s with
  | Some id => match find (fun n => (n_id n =? id)%nat) (s_nses s) with Some n => n_initial n | None => None end
  | None => None
  end.
(** The sockets. *)
Definition sockets (s : nsi) : list sockaddr := map snd (s_binds s).
