(** What a link that is up means on a device.

    The devices are described here independently of the code: what a command
    text does to a device's configuration, and when a configuration carries
    traffic between two ports.  These descriptions are assumptions about the
    devices, taken from the way their command lines work; they are part of what
    the theorems of PropsDrivers.v say. *)
From Verif Require Import Base ModelLabel ModelDrivers.
Open Scope Z_scope.

(** * Links and histories *)

(** A link between two ports, each with the label picked for it. *)
Record link := mkLink { k_id : string; k_sp : string; k_sl : option label; k_dp : string; k_dl : option label }.

(** The two ends of a link. *)
Definition end_of (k : link) (port : string) (l : option label) : Prop :=
  (port = k_sp k /\ l = k_sl k) \/ (port = k_dp k /\ l = k_dl k).

(** A label picked for a link has one value; GenericBackend picks no other, see
    C29 and C30. *)
Definition picked (k : link) : Prop :=
  forall port l, end_of k port (Some l) -> single_value l = true.

(** The resources a link holds. *)
Definition holds {C} (D : driver C) (k : link) (r : string) : Prop :=
  exists port l, end_of k port l /\ dr_resource D port l = Ok r.

(** Two links that may be up at the same time: they have ids of their own and no
    resource in common.  GenericBackend never has two links up otherwise, see
    C32. *)
Definition apart {C} (D : driver C) (k k' : link) : Prop :=
  k_id k <> k_id k' /\ forall r, ~ (holds D k r /\ holds D k' r).

(** All resources of a link can be named; GenericBackend asks for them before
    it sets up the link. *)
Definition nameable {C} (D : driver C) (k : link) : Prop :=
  forall port l, end_of k port l -> exists r, dr_resource D port l = Ok r.

(** What a device goes through: links are set up and torn down in any order;
    [reach d ks] says that the device can be in state [d] with the links [ks]
    up.  The commands of one link reach the device one after the other.  [may]
    tells which links can be asked for at all. *)
Section History.
  Context {C S : Type} (D : driver C) (exec : S -> C -> S) (may : link -> Prop) (start : S).
  Inductive reach : S -> list link -> Prop :=
  | reach_start : reach start []
  | reach_up d ks k cs :
      reach d ks -> may k -> picked k -> nameable D k -> (forall k', In k' ks -> apart D k k') ->
      dr_setup D (k_id k) (k_sp k) (k_sl k) (k_dp k) (k_dl k) = Ok cs ->
      reach (fold_left exec cs d) (k :: ks)
  | reach_down d ks1 k ks2 cs :
      reach d (ks1 ++ k :: ks2) ->
      dr_teardown D (k_id k) (k_sp k) (k_sl k) (k_dp k) (k_dl k) = Ok cs ->
      reach (fold_left exec cs d) (ks1 ++ ks2).
End History.

(** A word: a text without blanks. *)
Definition word (s : string) : Prop := shas " " s = false.
(** The words of a command. *)
Definition words (cmd : string) : list string := split_on " " cmd.

(** The names of the interfaces are words and have no dot in them. *)
Definition plain_interfaces (pm : list (string * string)) : Prop :=
  forall port itf, aget port pm = Some itf -> word itf /\ shas "." itf = false.

(** The interface behind a port carries a VLAN by reason of a link. *)
Definition link_on (pm : list (string * string)) (ks : list link) (itf : string) (v : Z) : Prop :=
  exists k port, In k ks /\ end_of k port (Some (mkLabel "vlan" [(v, v)])) /\ aget port pm = Some itf.

(** A link that is up has one end at each of the two interfaces, both with the
    VLAN. *)
Definition link_between (pm : list (string * string)) (ks : list link) (a b : string) (v : Z) : Prop :=
  exists k, In k ks /\ k_sl k = Some (mkLabel "vlan" [(v, v)]) /\ k_dl k = Some (mkLabel "vlan" [(v, v)]) /\
    ((aget (k_sp k) pm = Some a /\ aget (k_dp k) pm = Some b) \/ (aget (k_sp k) pm = Some b /\ aget (k_dp k) pm = Some a)).

(** * Juniper configuration

    A configuration is a set of statements, each a path of words.  [set] adds a
    statement; where a statement can have one value only, the new one replaces
    the old.  [delete] removes everything below a path.  An interface may be
    written with its unit after a dot. *)
Definition path := list string.

(** [interfaces P.U ...] is short for [interfaces P unit U ...]. *)
Definition norm (p : path) : path :=
  match p with
  | i :: x :: r =>
      if eqb i "interfaces" then
        match rsplit1 "." x with Some (a, u) => i :: a :: "unit" :: u :: r | None => p end
      else p
  | _ => p
  end.

(** The statements that have one value. *)
Definition one_valued : list string := ["encapsulation"; "mtu"; "vlan-id"; "to"; "transmit-lsp"; "receive-lsp"].

(** Two statements that give different values to the same thing. *)
Fixpoint clash (p q : path) : bool :=
  match p, q with
  | a :: p', b :: q' =>
      eqb a b && match p', q' with
                 | [v], [w] => mem a one_valued && negb (eqb v w)
                 | _, _ => clash p' q'
                 end
  | _, _ => false
  end.

(** [q] is [p] or lies below it. *)
Fixpoint below (p q : path) : bool :=
  match p, q with
  | [], _ => true
  | a :: p', b :: q' => eqb a b && below p' q'
  | _ :: _, [] => false
  end.

Definition junos_exec (cfg : list path) (cmd : string) : list path :=
  match words cmd with
  | c :: p =>
      if eqb c "set" then norm p :: filter (fun q => negb (clash (norm p) q)) cfg
      else if eqb c "delete" then filter (fun q => negb (below (norm p) q)) cfg
      else cfg
  | [] => cfg
  end.

(** An interface of an EX switch carries a VLAN: a VLAN with that id is defined
    and the interface is a member of it. *)
Definition ex_carries (cfg : list path) (itf : string) (v : Z) : Prop :=
  exists n, In ["vlans"; n; "vlan-id"; py_str v] cfg /\
            In ["interfaces"; itf; "unit"; "0"; "family"; "ethernet-switching"; "vlan"; "members"; n] cfg.

(** Traffic of a VLAN passes between two interfaces of an EX switch: they are
    members of one and the same VLAN. *)
Definition ex_joined (cfg : list path) (a b : string) (v : Z) : Prop :=
  exists n, In ["vlans"; n; "vlan-id"; py_str v] cfg /\
            In ["interfaces"; a; "unit"; "0"; "family"; "ethernet-switching"; "vlan"; "members"; n] cfg /\
            In ["interfaces"; b; "unit"; "0"; "family"; "ethernet-switching"; "vlan"; "members"; n] cfg.

(** A configuration says nothing yet of the VLANs named by OpenNSA. *)
Definition ex_fresh (cfg : list path) : Prop :=
  forall q v, In q cfg -> below ["vlans"; "opennsa-" +++ py_str v] q = false /\
    (forall itf, below ["interfaces"; itf; "unit"; "0"; "family"; "ethernet-switching"; "vlan"; "members"; "opennsa-" +++ py_str v] q = false).

(** * Brocade switches

    The VLAN being configured, and the members of each VLAN. *)
Record br_state := mkBr { br_vlan : option Z; br_members : list (Z * string) }.

Definition br_exec (d : br_state) (cmd : string) : br_state :=
  match words cmd with
  | a :: b :: r =>
      if eqb a "vlan" then mkBr (py_int b) (br_members d)
      else if eqb [a; b] ["tagged"; "ethernet"] then
        match br_vlan d, r with Some v, [p] => mkBr (Some v) ((v, p) :: br_members d) | _, _ => d end
      else if eqb [a; b] ["no"; "vlan"] then
        match r with
        | [v] => match py_int v with
                 | Some n => mkBr None (filter (fun m => negb (eqb (fst m) n)) (br_members d))
                 | None => d
                 end
        | _ => d
        end
      else d
  | _ => d
  end.

(** The VLANs that can be asked for have no members yet. *)
Definition br_fresh (may : link -> Prop) (d : br_state) : Prop :=
  forall k port v itf, may k -> end_of k port (Some (mkLabel "vlan" [(v, v)])) -> ~ In (v, itf) (br_members d).

Definition br_carries (d : br_state) (itf : string) (v : Z) : Prop := In (v, itf) (br_members d).
Definition br_joined (d : br_state) (a b : string) (v : Z) : Prop := In (v, a) (br_members d) /\ In (v, b) (br_members d).

(** * Pica8 switches with Open vSwitch

    The VLANs let in at each interface, and the table of flows: what comes in at
    a port with a VLAN goes out at a port with a VLAN.  A flow for the same port
    and VLAN replaces the one before. *)
Record p8_state := mkP8 { p8_trunks : list (string * Z); p8_flows : list ((string * Z) * (string * Z)) }.

(** The text after a prefix. *)
Definition after (p s : string) : option string := if starts_with p s then Some (sdrop (String.length p) s) else None.
Definition oint (o : option string) : option Z := match o with Some s => py_int s | None => None end.

(** [in_port=I,dl_vlan=V] and, for a new flow, what to do with the traffic *)
Definition flow_of (f : string) : option ((string * Z) * option (string * Z)) :=
  match split_on "," f with
  | i :: v :: act =>
      match after "in_port=" i, oint (after "dl_vlan=" v) with
      | Some i', Some v' =>
          match act with
          | [] => Some ((i', v'), None)
          | [a] => match after "actions=output:" a with Some o => Some ((i', v'), Some (o, v')) | None => None end
          | [a; b] =>
              match after "action=set_field=" a, after "output:" b with
              | Some a', Some o =>
                  match split1 "-" a' with
                  | Some (w, rest) =>
                      match py_int w with
                      | Some w' => if eqb rest "\>vlan_vid" then Some ((i', v'), Some (o, w')) else None
                      | None => None
                      end
                  | None => None
                  end
              | _, _ => None
              end
          | _ => None
          end
      | _, _ => None
      end
  | _ => None
  end.

Definition p8_exec (d : p8_state) (cmd : string) : p8_state :=
  match words cmd with
  | [a; _; b; c; p; t; v] =>
      match py_int v with
      | Some n =>
          if eqb [a; b; c; t] ["/ovs/bin/ovs-vsctl"; "add"; "port"; "trunk"] then mkP8 ((p, n) :: p8_trunks d) (p8_flows d)
          else if eqb [a; b; c; t] ["/ovs/bin/ovs-vsctl"; "remove"; "port"; "trunk"] then
            mkP8 (filter (fun t => negb (eqb t (p, n))) (p8_trunks d)) (p8_flows d)
          else d
      | None => d
      end
  | [a; b; c; f] =>
      match flow_of f with
      | Some (m, Some t) =>
          if eqb [a; b; c] ["/ovs/bin/ovs-ofctl"; "add-flow"; "br0"] then
            mkP8 (p8_trunks d) ((m, t) :: filter (fun x => negb (eqb (fst x) m)) (p8_flows d))
          else d
      | Some (m, None) =>
          if eqb [a; b; c] ["/ovs/bin/ovs-ofctl"; "del-flows"; "br0"] then
            mkP8 (p8_trunks d) (filter (fun x => negb (eqb (fst x) m)) (p8_flows d))
          else d
      | None => d
      end
  | _ => d
  end.

(** The number a Pica8 switch gives to an interface [te-1/1/N] in its flows: N
    counted from 129. *)
Definition p8_number (itf n : string) : Prop :=
  exists a b t i, itf = a +++ "/" +++ b +++ "/" +++ t /\ shas "/" a = false /\ shas "/" b = false /\ shas "/" t = false /\
    py_int t = Some i /\ n = py_str (i + 128).

(** The interfaces of a port map have numbers, and no two ports the same one. *)
Definition p8_ports (pm : list (string * string)) : Prop :=
  (forall port itf, aget port pm = Some itf -> word itf /\ exists n, p8_number itf n) /\
  (forall p p' i i' n, aget p pm = Some i -> aget p' pm = Some i' -> p8_number i n -> p8_number i' n -> p = p').

(** What comes in at one end of a link that is up goes out at the other. *)
Definition link_flow (pm : list (string * string)) (ks : list link) (i : string) (v : Z) (o : string) (w : Z) : Prop :=
  exists k pa pb ia ib, In k ks /\
    ((pa = k_sp k /\ k_sl k = Some (mkLabel "vlan" [(v, v)]) /\ pb = k_dp k /\ k_dl k = Some (mkLabel "vlan" [(w, w)])) \/
     (pa = k_dp k /\ k_dl k = Some (mkLabel "vlan" [(v, v)]) /\ pb = k_sp k /\ k_sl k = Some (mkLabel "vlan" [(w, w)]))) /\
    aget pa pm = Some ia /\ aget pb pm = Some ib /\ p8_number ia i /\ p8_number ib o.

(** Flows that belong to no port of the port map stay out of the way of the
    links: nothing is there for the numbers of the ports. *)
Definition p8_fresh (pm : list (string * string)) (d : p8_state) : Prop :=
  forall port itf n v a, aget port pm = Some itf -> p8_number itf n ->
    ~ In ((n, v), a) (p8_flows d) /\ ~ In (itf, v) (p8_trunks d).
