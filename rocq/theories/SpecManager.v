(** What is asked of a backend and its driver together (C86). *)
From Verif Require Import Base ModelLabel ModelSTP ModelNRM ModelCalendar ModelBackend ModelDrivers SpecLabel SpecCalendar SpecBackend SpecDrivers ModelManager.
Open Scope Z_scope.

(** Every port has VLANs. *)
Definition vlan_ports (ports : list (string * nrm_port)) : Prop :=
  forall port p, aget port ports = Some p -> exists l, p_label p = Some l /\ ltype l = "vlan".

(** A request with proper labels for values from 1 to [hi]. *)
Definition asks_label (hi : Z) (l : option label) : Prop :=
  wf_olabel l /\ forall x v, l = Some x -> denotes (lvalues x) v -> 1 <= v <= hi.
Definition asks (hi : Z) (q : resv) : Prop := asks_label hi (s_label (rs_src q)) /\ asks_label hi (s_label (rs_dst q)).

(** A link between two VLANs of ports that are there; the same VLAN where the
    device cannot swap it for another. *)
Definition vlan_link {C} (m : manager C) (ports : list (string * nrm_port)) (hi : Z) (k : link) : Prop :=
  exists p d v w, aget (k_sp k) ports = Some p /\ aget (k_dp k) ports = Some d /\
    k_sl k = Some (mkLabel "vlan" [(v, v)]) /\ k_dl k = Some (mkLabel "vlan" [(w, w)]) /\ 1 <= v <= hi /\ 1 <= w <= hi /\
    (mg_swap m (Some "vlan") = false -> v = w).

(** The driver does not stand in the way of a request: the answer is that of the
    admission, which turns requests down for reasons of the protocol only; what is
    admitted gets the id given or a new one, and is booked. *)
Definition serves {C} (m : manager C) (ports : list (string * nrm_port)) (hi : Z) : Prop :=
  forall net mind sc now c h q, asks hi q ->
  let g := cfg_of m net ports mind sc in
  match admission g now c h q with
  | Err e => m_reserve m g now c h q = (c, Err e)
  | Ok (l1, l2) => exists c' cid, m_reserve m g now c h q = (c', Ok (cid, l1, l2)) /\ (forall i, rs_cid q = Some i -> cid = i) /\
      c' = cal_add (cal_add c (get_resource g (s_port (rs_src q)) l1) (rs_start q) (rs_end q)) (get_resource g (s_port (rs_dst q)) l2) (rs_start q) (rs_end q)
  end.

(** The commands of a link can be made, both ways. *)
Definition makes {C} (D : driver C) (k : link) : Prop :=
  (exists cs, dr_setup D (k_id k) (k_sp k) (k_sl k) (k_dp k) (k_dl k) = Ok cs) /\
  (exists cs, dr_teardown D (k_id k) (k_sp k) (k_sl k) (k_dp k) (k_dl k) = Ok cs).

(** What is accepted can be set up and torn down. *)
Definition keeps_its_word {C} (m : manager C) (ports : list (string * nrm_port)) (hi : Z) : Prop :=
  forall net mind sc now c h q c' cid l1 l2, asks hi q ->
  m_reserve m (cfg_of m net ports mind sc) now c h q = (c', Ok (cid, l1, l2)) ->
  makes (mg_driver m) (mkLink cid (s_port (rs_src q)) l1 (s_port (rs_dst q)) l2).

(** What is refused leaves no booking behind. *)
Definition tidy {C} (m : manager C) (ports : list (string * nrm_port)) (hi : Z) : Prop :=
  forall net mind sc now c h q c' e, asks hi q ->
  m_reserve m (cfg_of m net ports mind sc) now c h q = (c', Err e) -> c' = c.

(** All the requests of a history. *)
Definition all_ask (hi : Z) (l : list (op * env)) : Prop := forall h q e, In (Reserve h q, e) l -> asks hi q.
(** The ids of the connections have no blanks. *)
Definition plain_ids (l : list (op * env)) : Prop :=
  forall h q e, In (Reserve h q, e) l -> word match rs_cid q with Some i => i | None => rs_new q end.
(** The two ends of what is accepted are different ones. *)
Definition two_ends {C} (m : manager C) (ports : list (string * nrm_port)) (may : resv -> Prop) : Prop :=
  forall net mind sc now c h q c' cid l1 l2, may q ->
  m_reserve m (cfg_of m net ports mind sc) now c h q = (c', Ok (cid, l1, l2)) -> (s_port (rs_src q), l1) <> (s_port (rs_dst q), l2).
(** A request for one VLAN at each end. *)
Definition asks_one (q : resv) : Prop :=
  exists v w, s_label (rs_src q) = Some (mkLabel "vlan" [(v, v)]) /\ s_label (rs_dst q) = Some (mkLabel "vlan" [(w, w)]).
