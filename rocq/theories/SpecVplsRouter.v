(** What a link that is up means on a router of the VPLS backend.  What a command
    text does to the configuration is an assumption about the routers, as in
    SpecDrivers.v. *)
From Verif Require Import Base ModelLabel ModelDrivers SpecDrivers.
Open Scope Z_scope.

(** A statement of the configuration: about a unit of an interface, or about a
    routing instance.  The rest is kept as it was written. *)
Inductive vstmt := OfUnit (itf unit rest : string) | OfInstance (name rest : string).

(** [itf unit U rest]; without a rest it names the unit *)
Definition unit_text (s : string) : option (string * string * option string) :=
  match split1 " " s with
  | Some (itf, r) =>
      match after "unit " r with
      | Some r' => match split1 " " r' with Some (u, rest) => Some (itf, u, Some rest) | None => Some (itf, r', None) end
      | None => None
      end
  | None => None
  end.
(** Names of statements may be shortened, as [routing-instance] is. *)
Definition vr_exec (d : list vstmt) (cmd : string) : list vstmt :=
  match after "set interfaces " cmd, after "set routing-instances " cmd, after "delete interfaces " cmd, after "delete routing-instance " cmd with
  | Some s, _, _, _ => match unit_text s with Some (i, u, Some rest) => OfUnit i u rest :: d | _ => d end
  | _, Some s, _, _ => match split1 " " s with Some (c, rest) => OfInstance c rest :: d | None => d end
  | _, _, Some s, _ =>
      match unit_text s with
      | Some (i, u, None) => filter (fun q => match q with OfUnit i' u' _ => negb (eqb i' i && eqb u' u) | OfInstance _ _ => true end) d
      | _ => d
      end
  | _, _, _, Some c => filter (fun q => match q with OfInstance c' _ => negb (eqb c' c) | OfUnit _ _ _ => true end) d
  | None, None, None, None => d
  end.

(** The logical interface of a VLAN on a port. *)
Definition logical (itf : string) (v : Z) : string := itf +++ "." +++ py_str v.
(** The unit takes the traffic of its VLAN. *)
Definition vr_carries (d : list vstmt) (itf : string) (v : Z) : Prop :=
  exists descr, In (OfUnit itf (py_str v) ("description """ +++ descr +++ """ encapsulation vlan-vpls vlan-id " +++ py_str v +++ " family vpls")) d.
(** A logical interface is one of a VPLS instance, as site number [n]. *)
Definition vr_member (d : list vstmt) (c x : string) (n : Z) : Prop :=
  In (OfInstance c "instance-type vpls") d /\ In (OfInstance c ("interface " +++ x)) d /\
  exists s, word s /\ In (OfInstance c ("protocols vpls site " +++ s +++ " site-identifier " +++ py_str n +++ " interface " +++ x)) d.
(** The instance has two sites, and they are these. *)
Definition vr_joined (d : list vstmt) (a b : string) (v : Z) : Prop :=
  exists c n m, In (OfInstance c "protocols vpls site-range 2 no-tunnel-services") d /\
    vr_member d c (logical a v) n /\ vr_member d c (logical b v) m /\ 1 <= n <= 2 /\ 1 <= m <= 2 /\ n <> m.
(** What tells the traffic of one instance from that of others, and what says
    whose traffic it takes. *)
Definition vr_distinguisher (d : list vstmt) (c r : string) : Prop := In (OfInstance c ("route-distinguisher " +++ r)) d.
Definition vr_target (d : list vstmt) (c t : string) : Prop := In (OfInstance c ("vrf-target " +++ t)) d.

(** Ports are on interfaces of their own, with plain names. *)
Definition vr_ports (pm : list (string * string)) : Prop :=
  plain_interfaces pm /\ forall p p' i, aget p pm = Some i -> aget p' pm = Some i -> p = p'.
(** The links that can be asked for have ids without blanks, and neither their
    instances nor units of the ports are there at the start. *)
Definition vr_fresh (pm : list (string * string)) (may : link -> Prop) (d : list vstmt) : Prop :=
  (forall k, may k -> word (k_id k) /\ forall rest, ~ In (OfInstance (k_id k) rest) d) /\
  forall port itf u rest, aget port pm = Some itf -> ~ In (OfUnit itf u rest) d.

(** Two ids that agree in the first five letters and in the eighth and ninth. *)
Definition alike (c c' : string) : Prop := substring 0 5 c = substring 0 5 c' /\ substring 7 2 c = substring 7 2 c'.
