(** What a request to a Junos Space server does, and what a link is there (C92).

    A configlet is a script on the server; which one does what is said in the
    configuration.  Assumed here: the one for setting up makes the circuit that its
    parameters describe, and the one for taking down removes a circuit if all its
    parameters are those of the circuit. *)
From Verif Require Import Base ModelLabel ModelAuthz ModelNRM ModelSTP ModelRest ModelDrivers SpecDrivers SpecJunos ModelSpace.
Open Scope Z_scope.

(** one Ethernet end: kind of label, interface, value *)
Record sarm := mkArm { sa_kind : json; sa_itf : json; sa_value : json }.
(** what a circuit joins an arm to *)
Inductive sfar := FarArm (a : sarm) | FarPath (ip out inn : json).
Record circuit := mkCircuit { ci_device : json; ci_name : json; ci_arm : sarm; ci_far : sfar }.

(** the parameter of that name *)
Definition param (n : string) (ps : list json) : result json :=
  match find (fun p => match jget "parameter" p with Ok (JStr m) => eqb m n | _ => false end) ps with
  | Some p => jget "param-value" p
  | None => Err EKey
  end.
(** the circuit that a request is about *)
Definition described (remote : bool) (b : json) : result circuit :=
  do! m <- jget "cli-configlet-mgmt" b;
  do! dev <- jget "deviceId" m;
  do! l <- jget "cli-configlet-param" m;
  match l with
  | JList ps =>
      do! name <- param "CircuitName" ps;
      if remote then
        do! t <- param "LabelType" ps; do! i <- param "InterfaceName" ps; do! v <- param "LabelValue" ps;
        do! ip <- param "TargetIP" ps; do! o <- param "LspNameOut" ps; do! n <- param "LspNameIn" ps;
        Ok (mkCircuit dev name (mkArm t i v) (FarPath ip o n))
      else
        do! t <- param "LabelType1" ps; do! i <- param "InterfaceName1" ps; do! v <- param "LabelValue1" ps;
        do! t' <- param "LabelType2" ps; do! i' <- param "InterfaceName2" ps; do! v' <- param "LabelValue2" ps;
        Ok (mkCircuit dev name (mkArm t i v) (FarArm (mkArm t' i' v')))
  | _ => Err EType
  end.
(** the server; circuits as a set *)
Definition server := circuit -> Prop.
Definition made_one (c : circuit) (s : server) : server := fun x => x = c \/ s x.
Definition gone_one (c : circuit) (s : server) : server := fun x => x <> c /\ s x.
Definition space_exec (ids : sids) (s : server) (q : sreq) : server :=
  let act f remote := match described remote (sq_body q) with Ok c => f c s | Err _ => s end in
  if eqb (sq_configlet q) (si_up ids) then act made_one false
  else if eqb (sq_configlet q) (si_up_remote ids) then act made_one true
  else if eqb (sq_configlet q) (si_down ids) then act gone_one false
  else if eqb (sq_configlet q) (si_down_remote ids) then act gone_one true
  else s.
(** four different configlets *)
Definition own_configlets (ids : sids) : Prop := NoDup [si_up ids; si_up_remote ids; si_down ids; si_down_remote ids].

(** the arm a port and label stand for *)
Definition arm_at (pm : list (string * nrm_port)) (port : string) (l : option label) (a : sarm) : Prop :=
  exists p, aget port pm = Some p /\
    match p_label p, l with
    | None, None => a = mkArm (JStr "port") (JStr (p_interface p)) (JInt 0)
    | Some pl, Some l => ltype pl = ltype l /\ exists v, lvalues l = [(v, v)] /\ a = mkArm (JStr (ltype l)) (JStr (p_interface p)) (JStr (py_str v))
    | _, _ => False
    end.
Definition vlan_port (pm : list (string * nrm_port)) (port : string) : Prop := exists p l, aget port pm = Some p /\ p_label p = Some l /\ ltype l = "vlan".
(** the router of a network: its id and its address *)
Definition space_router (routers : list (string * srouter)) (net id ip : string) : Prop := aget (remove_all ":topology" 0 net) routers = Some (mkSRouter id ip).
(** The circuit of a link.  Ports that lead to other networks take part as VLANs, or
    as the MPLS end. *)
Inductive circuit_of (routers : list (string * srouter)) (net : string) (pm : list (string * nrm_port)) (k : link) : circuit -> Prop :=
| of_two a a' id ip : arm_at pm (k_sp k) (k_sl k) a -> arm_at pm (k_dp k) (k_dl k) a' ->
    (local_port pm (k_sp k) \/ vlan_port pm (k_sp k)) -> (local_port pm (k_dp k) \/ vlan_port pm (k_dp k)) ->
    space_router routers net id ip ->
    circuit_of routers net pm k (mkCircuit (JStr id) (JStr ("GTS-local-" +++ k_id k)) a (FarArm a'))
| of_out a far v id ip id' ip' : arm_at pm (k_sp k) (k_sl k) a -> mpls_at pm (k_dp k) (k_dl k) far v -> (local_port pm (k_sp k) \/ vlan_port pm (k_sp k)) ->
    space_router routers net id ip -> space_router routers far id' ip' ->
    circuit_of routers net pm k (mkCircuit (JStr id) (JStr ("GTS-local-" +++ k_id k)) a (FarPath (JStr ip') (JStr (path_name far net v)) (JStr (path_name net far v))))
| of_in a far v id ip id' ip' : mpls_at pm (k_sp k) (k_sl k) far v -> arm_at pm (k_dp k) (k_dl k) a -> (local_port pm (k_dp k) \/ vlan_port pm (k_dp k)) ->
    space_router routers net id ip -> space_router routers far id' ip' ->
    circuit_of routers net pm k (mkCircuit (JStr id) (JStr ("GTS-local-" +++ k_id k)) a (FarPath (JStr ip') (JStr (path_name far net v)) (JStr (path_name net far v)))).
(** the label fits the port, as GenericBackend has checked (C86) *)
Definition space_fit (pm : list (string * nrm_port)) (k : link) : Prop :=
  forall port l, end_of k port l -> exists p, aget port pm = Some p /\
    match p_label p, l with None, None => True | Some pl, Some l => ltype pl = ltype l | _, _ => False end.
(** circuits on the server that were not made here *)
Definition space_fresh (s : server) : Prop := forall c x, s c -> ci_name c <> JStr ("GTS-local-" +++ x).
