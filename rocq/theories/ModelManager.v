(** Model of the generic backend's [reserve] on top of the connection managers of
    the backends: /repo/opennsa/backends/common/genericbackend.py:207-359 with
    juniperex.py, brocade.py, force10.py, pica8ovs.py, dud.py, junosmx.py,
    junosex.py, oess.py, junipervpls.py and ncsvpn.py.

    ModelBackend takes the methods of a manager as functions that never fail; here
    they may raise.  junosspace.py, which cannot be imported (the [implements] of
    zope.interface, lines 40 and 83, is not there for Python 3), is in ModelSpace.
    Not modelled: the constructors. *)
From Verif Require Import Base ModelLabel ModelSTP ModelAuthz ModelNRM ModelCalendar ModelScheduler ModelBackend ModelDrivers ModelJunos ModelOess.
Open Scope Z_scope.

(** * Managers *)

(** The methods [reserve] calls, genericbackend.py:269-345, and the commands of a
    link.  [mg_target] only says whether [getTarget] raises; what it returns is
    inside the driver.  [mg_id] is [createConnectionId], a function of the text the
    random generator gives. *)
Record manager (C : Type) := mkManager {
  mg_driver : driver C;
  mg_target : string -> option label -> result unit;
  mg_connect : option (string -> string -> option label -> option label -> bool);
  mg_swap : option string -> bool;
  mg_id : string -> result string }.
Arguments mkManager {C}. Arguments mg_driver {C}. Arguments mg_target {C}. Arguments mg_connect {C}.
Arguments mg_swap {C}. Arguments mg_id {C}.

(** the target is there; genericbackend.py:342-343 *)
Definition there {T} (r : result T) : result unit := do! _ <- r; Ok tt.
(** [dict( [ (p.name, p.interface) for p in nrm_ports ] )]; juniperex.py:285,
    brocade.py:260, pica8ovs.py:254, dud.py:23, junipervpls.py:404, oess.py:430 *)
Definition interface_map (ports : list (string * nrm_port)) : list (string * string) :=
  map (fun x => (fst x, p_interface (snd x))) ports.

(** juniperex.py:226-277; canSwapLabel 252-253, createConnectionId 248-249 *)
Definition ex_manager (ports : list (string * nrm_port)) : manager string :=
  let pm := interface_map ports in
  mkManager (juniperex pm) (fun p l => there (ex_target pm p l)) None (fun _ => false) (fun x => Ok ("EX-" +++ x)).
(** brocade.py:195-251; canSwapLabel 226-227, createConnectionId 222-223 *)
Definition brocade_manager (ports : list (string * nrm_port)) : manager string :=
  let pm := interface_map ports in
  mkManager (brocade pm) (fun p l => there (br_target pm p l)) None (fun _ => false) (fun x => Ok ("B-" +++ x)).
(** force10.py:250-314; canSwapLabel 289-290, createConnectionId 285-286 *)
Definition force10_manager (ports : list (string * nrm_port)) : manager string :=
  let pm := interface_map ports in
  mkManager (force10 pm) (fun p l => there (f10_target pm p l)) None (fun _ => false) (fun x => Ok ("F10-" +++ x)).
(** pica8ovs.py:198-246; canSwapLabel 225-226, createConnectionId 221-222 *)
Definition pica8_manager (db : string) (ports : list (string * nrm_port)) : manager string :=
  let pm := interface_map ports in
  mkManager (pica8 db pm) (fun p l => there (p8_target pm p l)) None (fun _ => true) (fun x => Ok ("Pica8-" +++ x)).
(** junosmx.py:226-287; canSwapLabel 258-259, canConnect 278-287, createConnectionId 254-255 *)
Definition mx_manager (routers : list (string * string)) (net : string) (ports : list (string * nrm_port)) : manager string :=
  mkManager (junosmx routers net ports) (fun p l => there (mx_target ports p l)) (Some (fun _ _ => mx_can_connect)) (fun _ => true)
    (fun x => Ok ("JUNOS-" +++ x)).
(** junosex.py:221-260; canSwapLabel 243-244, createConnectionId 239-240 *)
Definition jx_manager (ports : list (string * nrm_port)) : manager string :=
  mkManager (junosex ports) (fun p l => there (jx_target ports p l)) None (fun _ => true) (fun x => Ok ("JuniperEx4550-" +++ x)).
(** oess.py:358-413; canSwapLabel 387-388, createConnectionId 384-385 *)
Definition oess_manager (group : string) (ports : list (string * nrm_port)) : manager talk :=
  let pm := interface_map ports in
  mkManager (mkDriver oe_resource (fun _ sp sl dp dl => do! t <- oe_setup pm group sp sl dp dl; Ok [t])
                                  (fun _ sp sl dp dl => do! t <- oe_teardown pm sp sl dp dl; Ok [t]))
    (fun p l => there (oe_target pm p l)) None (fun _ => true) (fun x => Ok ("OESS-" +++ x)).
(** dud.py:47-53 [canConnect] *)
Definition dud_can_connect (sl dl : option label) : bool :=
  match sl, dl with
  | None, None => true
  | Some a, Some b => eqb (ltype a) (ltype b)
  | _, _ => false
  end.
(** dud.py:30-77; a link that comes up is logged.  canSwapLabel 60-61,
    createConnectionId 56-57 *)
Definition dud_manager (ports : list (string * nrm_port)) : manager string :=
  let pm := interface_map ports in
  mkManager (mkDriver (dud_resource pm) (via_targets (dud_target pm) (fun _ s d => Ok ["Link " +++ s +++ " -> " +++ d +++ " up"]))
                                        (via_targets (dud_target pm) (fun _ s d => Ok ["Link " +++ s +++ " -> " +++ d +++ " down"])))
    (fun p l => there (dud_target pm p l)) (Some (fun _ _ => dud_can_connect)) (fun t => eqb t (Some "vlan")) (fun x => Ok ("DUD-" +++ x)).

(** ** junipervpls.py *)

(** junipervpls.py:346-351 [getResource] *)
Definition vpls_resource (pm : list (string * string)) (port : string) (l : option label) : result string :=
  match l with
  | Some l => if eqb (ltype l) "vlan" then do! _ <- port_of pm port; Ok (port +++ "." +++ label_value l) else Err EAssertion
  | None => Err EAssertion
  end.
(** junipervpls.py:354-363 [getTarget] *)
Definition vpls_target (pm : list (string * string)) (port : string) (l : option label) : result (string * Z) :=
  match l with
  | Some l =>
      if eqb (ltype l) "vlan" then
        do! i <- port_of pm port;
        do! v <- int_of (label_value l);
        if (1 <=? v) && (v <=? 4095) then Ok (i, v) else Err EAssertion
      else Err EAssertion
  | None => Err EAssertion
  end.
(** junipervpls.py:94 *)
Definition vpls_unit (itf : string) (v : Z) (descr : string) : string :=
  "set interfaces " +++ itf +++ " unit " +++ py_str v +++ " description """ +++ descr +++
  """ encapsulation vlan-vpls vlan-id " +++ py_str v +++ " family vpls".
(** junipervpls.py:98-103, a statement of a routing instance *)
Definition vpls_ri (cid rest : string) : string := "set routing-instances " +++ cid +++ " " +++ rest.
(** junipervpls.py:112-133 [createSetupCommands] *)
Definition vpls_setup_commands (sp dp : string) (v : Z) (cid descr rd target : string) : list string :=
  let si := sp +++ "." +++ py_str v in
  let di := dp +++ "." +++ py_str v in
  [vpls_unit sp v descr; vpls_unit dp v descr;
   vpls_ri cid "instance-type vpls"; vpls_ri cid ("interface " +++ si); vpls_ri cid ("interface " +++ di);
   vpls_ri cid ("route-distinguisher " +++ rd); vpls_ri cid ("vrf-target " +++ target);
   vpls_ri cid "protocols vpls site-range 2 no-tunnel-services";
   vpls_ri cid ("protocols vpls site MTRL1 site-identifier 1 interface " +++ si);
   vpls_ri cid ("protocols vpls site MTRL2 site-identifier 2 interface " +++ di)].
(** junipervpls.py:136-144 [createDeleteCommands], with the texts of lines 107-108 *)
Definition vpls_delete_commands (sp dp : string) (v : Z) (cid : string) : list string :=
  ["delete interfaces " +++ sp +++ " unit " +++ py_str v; "delete interfaces " +++ dp +++ " unit " +++ py_str v;
   "delete routing-instance " +++ cid].
(** [instance_id[:5] + instance_id[7:9]], junipervpls.py:304 *)
Definition vpls_unique (cid : string) : string := substring 0 5 cid +++ substring 7 2 cid.
(** junipervpls.py:375-384 and 299-310 [setupLink] *)
Definition vpls_up (as_number cid : string) (src dst : string * Z) : result (list string) :=
  if eqb (snd src) (snd dst) then
    Ok (vpls_setup_commands (fst src) (fst dst) (snd dst) cid (cid +++ " [ X-connect created by OpenNSA ]")
          (as_number +++ ":" +++ vpls_unique cid) ("target:" +++ as_number +++ ":" +++ vpls_unique cid))
  else Err EAssertion.
(** junipervpls.py:387-396 and 313-319 [teardownLink] *)
Definition vpls_down (cid : string) (src dst : string * Z) : result (list string) :=
  if eqb (snd src) (snd dst) then Ok (vpls_delete_commands (fst src) (fst dst) (snd dst) cid) else Err EAssertion.
(** junipervpls.py:337-396 [JuniperVPLSConnectionManager] *)
Definition vpls (as_number : string) (pm : list (string * string)) : driver string :=
  mkDriver (vpls_resource pm) (via_targets (vpls_target pm) (vpls_up as_number)) (via_targets (vpls_target pm) vpls_down).
(** canSwapLabel 370-372; createConnectionId 366-367 raises NotImplementedError,
    for which the model has no name of its own; junipervpls.py:337-396 *)
Definition vpls_manager (as_number : string) (ports : list (string * nrm_port)) : manager string :=
  let pm := interface_map ports in
  mkManager (vpls as_number pm) (fun p l => there (vpls_target pm p l)) None (fun _ => false) (fun _ => Err ENotImplemented).

(** ** ncsvpn.py *)

(** ncsvpn.py:173-175 [getResource]: neither a label nor [None] has an attribute
    [value] *)
Definition ncs_resource (port : string) (l : option label) : result string :=
  match l with
  | Some l => if eqb (ltype l) "vlan" then Err EAttribute else Err EAssertion
  | None => Err EAttribute
  end.
(** ncsvpn.py:178-188 [getTarget]: the same attribute; without a label the
    interface must have one colon *)
Definition ncs_target (pm : list (string * string)) (port : string) (l : option label) : result unit :=
  match l with
  | Some l => if eqb (ltype l) "vlan" then Err EAttribute else Err EAssertion
  | None => do! i <- port_of pm port; match split_on ":" i with [_; _] => Ok tt | _ => Err EValue end
  end.
(** ncsvpn.py:125-151, 209-212 [setupLink]: without VLANs the text of line 148
    wants a VLAN all the same, KeyError *)
Definition ncs_setup (pm : list (string * string)) : string -> string -> option label -> string -> option label -> result (list string) :=
  via_targets (ncs_target pm) (fun _ _ _ => Err EKey).
(** ncsvpn.py:199-200, 226-228 [teardownLink]: [b64encode] of a text, TypeError *)
Definition ncs_teardown (pm : list (string * string)) : string -> string -> option label -> string -> option label -> result (list string) :=
  via_targets (ncs_target pm) (fun _ _ _ => Err EType).
(** ncsvpn.py:163-241; canSwapLabel 195-196, createConnectionId 191-192 *)
Definition ncs_manager (ports : list (string * nrm_port)) : manager string :=
  let pm := interface_map ports in
  mkManager (mkDriver ncs_resource (ncs_setup pm) (ncs_teardown pm)) (ncs_target pm) None (fun t => eqb t (Some "vlan"))
    (fun x => Ok ("ON-" +++ x)).

(** * reserve *)
Section Reserve.
Context {C : Type} (m : manager C).

(** genericbackend.py:287-296, 298-307: [getResource] is outside of the [try] *)
Fixpoint m_first_free (now : Z) (c : calendar) (port : string) (b e : option Z) (ls : list (option label)) : result (option label) :=
  match ls with
  | [] => Err ESTPUnavailable
  | lv :: r =>
      do! x <- dr_resource (mg_driver m) port lv;
      match cal_check now c x b e with
      | Ok _ => Ok lv
      | Err ESTPUnavailable => m_first_free now c port b e r
      | Err x => Err x
      end
  end.
(** genericbackend.py:324-338 *)
Fixpoint m_first_free2 (now : Z) (c : calendar) (sp dp : string) (b e : option Z) (ls : list (option label)) : result (option label) :=
  match ls with
  | [] => Err ESTPUnavailable
  | lv :: r =>
      do! x <- dr_resource (mg_driver m) sp lv;
      do! y <- dr_resource (mg_driver m) dp lv;
      match (do! _ <- cal_check now c x b e; cal_check now c y b e) with
      | Ok _ => Ok lv
      | Err ESTPUnavailable => m_first_free2 now c sp dp b e r
      | Err x => Err x
      end
  end.
(** genericbackend.py:285-338 *)
Definition m_pick (now : Z) (c : calendar) (src dst : stp) (b e : option Z) : result (option label * option label) :=
  if mg_swap m (label_type (s_label src)) && mg_swap m (label_type (s_label dst)) then
    do! l1 <- m_first_free now c (s_port src) b e (label_enum (s_label src));
    do! l2 <- m_first_free now c (s_port dst) b e (label_enum (s_label dst));
    Ok (l1, l2)
  else
    do! cand <- match s_label src, s_label dst with
                | None, d => Ok d
                | Some s, None => Ok (Some s)
                | Some s, Some d => match intersect s d with
                                    | Ok l => Ok (Some l)
                                    | Err EEmptyLabelSet => Err EVLANInterchange
                                    | Err x => Err x
                                    end
                end;
    do! l <- m_first_free2 now c (s_port src) (s_port dst) b e (label_enum cand);
    Ok (l, l).

(** The configuration of ModelBackend for a manager; a resource that cannot be
    named is the empty text there, and how a target is written is of no account;
    genericbackend.py:46-53 *)
Definition cfg_of (net : string) (ports : list (string * nrm_port)) (mind : Z) (sc : bool) : cfg :=
  mkCfg net ports (fun p l => match dr_resource (mg_driver m) p l with Ok r => r | Err _ => "" end) (fun p _ => p)
    (mg_connect m) (mg_swap m) mind sc.

(** genericbackend.py:230-338, as in [admission] of ModelBackend *)
Definition m_admission (g : cfg) (now : Z) (c : calendar) (h : hdr) (q : resv) : result (option label * option label) :=
  let src := rs_src q in let dst := rs_dst q in
  if negb (eqb (s_network src) (network g)) then Err EConnectionCreate                                  (* 233-234 *)
  else if negb (eqb (s_network dst) (network g)) then Err EConnectionCreate                             (* 235-236 *)
  else match aget (s_port src) (nrm_ports g), aget (s_port dst) (nrm_ports g) with                       (* 239-242 *)
  | None, _ => Err ESTPUnavailable
  | _, None => Err ESTPUnavailable
  | Some p, Some d =>
      if (match rs_start q, rs_end q with
          | Some b, Some e => e - b <? min_duration g * second | _, _ => false end) then Err EConnectionCreate  (* 247-250 *)
      else
        do! _ <- authorize g (s_port src) (s_port dst) h;                                               (* 255 *)
        if p_restricted p && p_restricted d then Err EConnectionCreate                                  (* 258-259 *)
        else if eqb (s_port src) (s_port dst) && olabel_eqb (s_label src) (s_label dst) then Err EService (* 262-263 *)
        else if negb (match mg_connect m with                                                           (* 269-274 *)
                      | Some f => f (s_port src) (s_port dst) (s_label src) (s_label dst)
                      | None => eqb (label_type (s_label src)) (label_type (s_label dst)) end) then Err ETopology
        else
          do! m1 <- can_match (p_label p) (s_label src);                                                (* 278-279 *)
          if negb m1 then Err ETopology else
          do! m2 <- can_match (p_label d) (s_label dst);                                                (* 280-281 *)
          if negb m2 then Err ETopology else
          m_pick now c src dst (rs_start q) (rs_end q)
  end.

(** genericbackend.py:230-345: the calendar afterwards, and the id of the
    connection with the labels of its ends.  The bookings (310-311, 330-331) come
    before the targets (342-343) and the id (344-345). *)
Definition m_reserve (g : cfg) (now : Z) (c : calendar) (h : hdr) (q : resv) : calendar * result (string * option label * option label) :=
  match (do! ll <- m_admission g now c h q;
         do! x <- dr_resource (mg_driver m) (s_port (rs_src q)) (fst ll);
         do! y <- dr_resource (mg_driver m) (s_port (rs_dst q)) (snd ll);
         Ok (ll, cal_add (cal_add c x (rs_start q) (rs_end q)) y (rs_start q) (rs_end q))) with
  | Err e => (c, Err e)
  | Ok (l1, l2, c') =>
      (c', do! _ <- mg_target m (s_port (rs_src q)) l1;
           do! _ <- mg_target m (s_port (rs_dst q)) l2;
           do! cid <- match rs_cid q with Some i => Ok i | None => mg_id m (rs_new q) end;
           Ok (cid, l1, l2))
  end.
End Reserve.
